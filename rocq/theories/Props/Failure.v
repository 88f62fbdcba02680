(** C95: every way a run can end. *)
From Coq Require Import Lia.
From Verif.Model Require Import Py Command Core Config PyFloat Note State Ticks Song Serializer Dataclass Dao Document XmlText
  Zip Json Extract History Main MainBytes Argparse Script.
From Verif.Spec Require Import VgmFormat Ym2151 Rhythm Cli Whole ZipReader SongArchive ByteDisk CommandLine Failure.
From Verif.Proofs Require Import PyLemmas ReaderProofs FileProofs StateProofs KeyProofs ChipProofs SongProofs ZipProofs ZipProofs3 BatchProofs.
From Verif.Props Require Import Reader Chip Song Instruments Cli Whole Arguments Archive Bytes Script.
Open Scope string_scope.
Open Scope list_scope.
Open Scope Z_scope.

Section Run.
  Variable g : list Z -> res (list Z).
  Variable D : string -> option (list Z).
  Variable w : string -> bool.
  Variable ierr : option exn.
  Variable now : clock.
  Variable name : string.
  Variable instr track : option string.
  Variable tpn : option Z.
  Hypothesis W : world_ok g D.
  Hypothesis K : clock_ok now.
  Let run := main_bytes g D w ierr now name instr track tpn.

  Lemma run_read d e : file_name name -> D name = Some d ->
    match fst (reader g clocks_empty (mkfile d 0)) with
    | Err x => x = e | Ok v => process_vgm_file v = Err e end ->
    snd run = Failed e.
  Proof.
    intros F E R. unfold run, main_bytes. rewrite smart_open_file by exact F. rewrite E. unfold body_bytes.
    destruct (fst (reader _ _ _)) as [v|x]; rewrite R; reflexivity.
  Qed.
  Lemma run_rest cs rl : input_read g D name cs -> row_length (calls_of cs) tpn rl ->
    exists s txt out, history_ok (calls_of cs) /\ run_calls (calls_of cs) state_init = Ok s
      /\ both_acts (instr_acts w txt instr) (song_acts w s rl now track) out (snd run).
  Proof.
    intros (F & d & E & R) RL. destruct (run_acts g D w ierr now name instr track tpn d cs rl W F E R RL)
      as (s & txt & pre & out & r & H & Er & _ & _ & M & B). exists s, txt, out. unfold run. rewrite M. cbn [snd]. auto.
  Qed.
  Lemma a_row_length cs : input_read g D name cs -> exists rl, row_length (calls_of cs) tpn rl.
  Proof.
    intros (F & d & E & R).
    destruct (read_cases g D name d W E) as [(cs' & s & v & R' & V & P & H & Er)|(N & _)]; [|now destruct (N cs)].
    rewrite (readable_unique _ _ _ _ _ _ W E R R') in *.
    destruct (choose_ok _ s tpn H Er) as (_ & t & _ & TL & _). exists t. now apply (row_length_of _ s _ _ H Er).
  Qed.
  Lemma instr_fine txt o r : instr_acts w txt instr o r ->
    (r = Fine /\ (forall i, instr = Some i -> file_name i -> w i = true))
    \/ (r = Failed OSError /\ exists i, instr = Some i /\ file_name i /\ w i = false).
  Proof.
    intros A. inversion A as [? NA| |n Fn Wn|n Fn Wn]; subst.
    - left. split; [reflexivity|]. intros i I Fi. destruct Fi. destruct NA; [congruence|]. congruence.
    - left. split; [reflexivity|]. intros i [= <-] [? ?]. contradiction.
    - left. split; [reflexivity|]. intros i [= <-] _. exact Wn.
    - right. split; [reflexivity|]. exists n. auto.
  Qed.
  Lemma run_song cs f rl : song_wanted g D w name instr track tpn cs f rl ->
    exists s out, history_ok (calls_of cs) /\ run_calls (calls_of cs) state_init = Ok s
      /\ song_acts w s rl now (Some f) out (snd run).
  Proof.
    intros ((I & P) & T & N & RL). destruct (run_rest cs rl I RL) as (s & txt & out & H & Er & B).
    rewrite T in B. remember (snd run) as r eqn:Q. destruct B as [o e A|o o' r A B].
    - destruct (instr_fine _ _ _ A) as [(X & _)|(_ & i & A1 & A2 & A3)]; [discriminate|]. rewrite (P i A1 A2) in A3. discriminate.
    - exists s, o'. auto.
  Qed.
  Lemma clock_none data : snd (zip_writes now data) = None <-> 1980 <= year now <= 2107.
  Proof.
    unfold zip_writes. destruct (Z.ltb_spec (year now) 1980); [cbn [snd]; split; [discriminate|lia]|].
    pose proof (dosdate_range now K ltac:(lia)) as (_ & X). destruct (Z.ltb_spec 65535 (dosdate now)); cbn [snd]; split; try discriminate; try reflexivity; lia.
  Qed.
  Lemma clock_some data : (year now < 1980 -> snd (zip_writes now data) = Some ClockTooEarly)
    /\ (2107 < year now -> snd (zip_writes now data) = Some ClockTooLate).
  Proof.
    unfold zip_writes. destruct (Z.ltb_spec (year now) 1980); cbn [snd]; split; try reflexivity; try lia.
    intros L. pose proof (dosdate_range now K ltac:(lia)) as (_ & X). destruct (Z.ltb_spec 65535 (dosdate now)); [reflexivity|lia].
  Qed.
  Lemma some_note h : all_notes h <> [] -> exists ch, 0 <= ch < 8 /\ notes h ch <> [].
  Proof.
    intros A. unfold all_notes in A.
    assert (Q : forall l, flat_map (notes h) l <> [] -> exists ch, In ch l /\ notes h ch <> []).
    { induction l as [|c l IH]; [intros X; now destruct X|]. cbn [flat_map]. destruct (notes h c) as [|n r] eqn:E.
      - intros X. destruct (IH X) as (ch & I & Y). exists ch. split; [now right|exact Y].
      - intros _. exists c. split; [now left|]. rewrite E. discriminate. }
    destruct (Q _ A) as (ch & I & N). exists ch. split; [|exact N]. cbn [In] in I. lia.
  Qed.
  Lemma content_input r : input g D name r -> file_name name /\ exists d, D name = Some d /\ content g d r.
  Proof. intros H. exact H. Qed.

  Lemma ends_run o : ends g D w ierr now name instr track tpn o -> snd run = o.
  Proof.
    intros X. destruct X as [F E|e N E|N E|e (F & d & E & C)|p (F & d & E & C) I|p (F & d & E & C) I Hc|p cs e (F & d & E & C) I Hc S
      |cs i I A B Cw|cs f rl S L|cs f rl S L N A|cs f rl S P Cw|cs f rl S P Cw Y|cs f rl S P Cw Y|cs I NA|cs f rl S P Cw Y].
    - unfold run, main_bytes. rewrite smart_open_file by exact F. rewrite E. reflexivity.
    - unfold run, main_bytes. rewrite (proj1 (smart_open_std _ N)). unfold body_bytes. rewrite E. reflexivity.
    - unfold run, main_bytes. rewrite (proj1 (smart_open_std _ N)). unfold body_bytes. rewrite E. reflexivity.
    - apply (run_read d e F E). rewrite (content_reader _ _ _ _ C). reflexivity.
    - apply (run_read d _ F E). rewrite (proj2 (proj1 (C01_proof g clocks_empty d p C)) I). reflexivity.
    - apply (run_read d _ F E). rewrite (proj2 (proj1 (proj2 (C01_proof g clocks_empty d p C))) (conj I Hc)). reflexivity.
    - apply (run_read d _ F E). destruct (proj2 (proj1 (proj2 (proj2 (C01_proof g clocks_empty d p C)))) (conj I Hc)) as [v R].
      destruct (reader g clocks_empty (mkfile d 0)) as [x ck'] eqn:RR. cbn [fst] in R |- *. subst x.
      destruct (process_file _ _ _ _ _ _ _ _ C (content_bytes _ _ _ _ _ W E C) RR S) as (_ & s & _ & P). exact P.
    - destruct (a_row_length cs I) as (rl & RL). destruct (run_rest cs rl I RL) as (s & txt & out & H & Er & Bo).
      remember (snd run) as r eqn:Q. destruct Bo as [o e Ai|o o' r Ai Bi].
      + destruct (instr_fine _ _ _ Ai) as [(X & _)|(X & _)]; [discriminate|exact X].
      + destruct (instr_fine _ _ _ Ai) as [(_ & X)|(X & _)]; [|discriminate]. rewrite (X i A B) in Cw. discriminate.
    - destruct (run_song cs f rl S) as (s & out & H & Er & Bs).
      pose proof (proj2 (C47_zero_and_huge s rl) L) as BF.
      inversion Bs as [? NA|n e N B'|n sg N B' Wn|n sg st N B' Wn ST]; subst; try congruence.
      destruct NA as [NA|NA]; [discriminate|]. injection NA as ->. destruct S as (_ & _ & S & _). contradiction.
    - destruct (run_song cs f rl S) as (s & out & H & Er & Bs).
      destruct (some_note _ A) as (ch & Hch & Nn). destruct (run_logs _ s H Er ch Hch) as (KP & _).
      pose proof (proj1 (C47_negative _ s rl H Er ltac:(lia)) ch _ Hch KP Nn) as BF.
      inversion Bs as [? NA|n e N' B'|n sg N' B' Wn|n sg st N' B' Wn ST]; subst; try congruence.
      destruct NA as [NA|NA]; [discriminate|]. injection NA as ->. destruct S as (_ & _ & S & _). contradiction.
    - destruct (run_song cs f rl S) as (s & out & H & Er & Bs). destruct S as (_ & _ & Nf & RL).
      destruct (proj2 (built_iff _ s rl H Er (row_length_nonzero _ _ _ RL)) P) as [sg' BI].
      inversion Bs as [? NA|n e N' B'|n sg N' B' Wn|n sg st N' B' Wn ST]; subst; try congruence.
      destruct NA as [NA|NA]; [discriminate|]. injection NA as ->. contradiction.
    - destruct (run_song cs f rl S) as (s & out & H & Er & Bs). destruct S as (_ & _ & Nf & RL).
      destruct (proj2 (built_iff _ s rl H Er (row_length_nonzero _ _ _ RL)) P) as [sg' BI].
      inversion Bs as [? NA|n e N' B'|n sg N' B' Wn|n sg st N' B' Wn ST]; subst; try congruence.
      + destruct NA as [NA|NA]; [discriminate|]. injection NA as ->. contradiction.
      + now rewrite (proj1 (clock_some _) Y).
    - destruct (run_song cs f rl S) as (s & out & H & Er & Bs). destruct S as (_ & _ & Nf & RL).
      destruct (proj2 (built_iff _ s rl H Er (row_length_nonzero _ _ _ RL)) P) as [sg' BI].
      inversion Bs as [? NA|n e N' B'|n sg N' B' Wn|n sg st N' B' Wn ST]; subst; try congruence.
      + destruct NA as [NA|NA]; [discriminate|]. injection NA as ->. contradiction.
      + now rewrite (proj2 (clock_some _) Y).
    - destruct I as (I & P). destruct (a_row_length cs I) as (rl & RL). destruct (run_rest cs rl I RL) as (s & txt & out & H & Er & Bo).
      remember (snd run) as r eqn:Q. destruct Bo as [o e Ai|o o' r Ai Bi].
      + destruct (instr_fine _ _ _ Ai) as [(X & _)|(_ & i & A1 & A2 & A3)]; [discriminate|]. rewrite (P i A1 A2) in A3. discriminate.
      + inversion Bi; subst; try reflexivity; destruct NA as [NA|NA]; try discriminate; injection NA as ->; contradiction.
    - destruct (run_song cs f rl S) as (s & out & H & Er & Bs). destruct S as (_ & _ & Nf & RL).
      destruct (proj2 (built_iff _ s rl H Er (row_length_nonzero _ _ _ RL)) P) as [sg' BI].
      inversion Bs as [? NA|n e N' B'|n sg N' B' Wn|n sg st N' B' Wn ST]; subst; try congruence.
      now rewrite (proj2 (clock_none _) Y).
  Qed.

  Lemma ends_total : exists o, ends g D w ierr now name instr track tpn o.
  Proof.
    destruct (file_name_dec name) as [F|F].
    2:{ destruct ierr as [e|] eqn:IE; eexists; [now apply stdin_undecodable|now apply stdin_text]. }
    destruct (D name) as [d|] eqn:E; [|eexists; now apply no_input].
    destruct (content_exists g d) as [[p|e] C]; [|eexists; eapply damaged_gzip; split; [exact F|]; eauto].
    assert (IN : input g D name (Ok p)) by (split; [exact F|]; eauto).
    destruct (C01_proof g clocks_empty d p C) as (O1 & O2 & O3 & O4). cbv zeta in *.
    destruct O4 as [R|[R|[v R]]].
    - eexists. eapply no_vgm; [exact IN|now apply O1].
    - apply O2 in R as [R1 R2]. eexists. eapply short_header; eassumption.
    - destruct (proj1 O3 (ex_intro _ v R)) as [I HH].
      destruct (reader g clocks_empty (mkfile d 0)) as [x ck'] eqn:RR. cbn [fst] in R. subst x.
      pose proof (proj2 (C04_proof _ _ _ _ _ _ _ _ C (content_bytes _ _ _ _ _ W E C) RR) (conj eq_refl eq_refl)) as S.
      destruct (snd (vgm_commands v)) as [f|x] eqn:SV; cbn [error_of] in S.
      2:{ eexists. eapply cut_command; eassumption. }
      set (cs := fst (vgm_commands v)) in *.
      assert (IR : input_read g D name cs).
      { split; [exact F|]. exists d. split; [exact E|]. exists p. auto. }
      clear O1 O2 O3 RR SV S IN C. destruct (a_row_length cs IR) as (rl & RL).
      destruct (run_rest cs rl IR RL) as (s & txt & out & H & Er & B).
      assert (ID : (forall i, instr = Some i -> file_name i -> w i = true)
        \/ (exists i, instr = Some i /\ file_name i /\ w i = false)).
      { destruct B as [o e A|o o' r A _]; destruct (instr_fine _ _ _ A) as [(_ & X)|(_ & X)]; auto. }
      destruct ID as [ID|(i & I1 & I2 & I3)]; [|eexists; eapply instruments_denied; eassumption].
      assert (SD : instruments_done g D w name instr cs) by now split.
      destruct track as [t|] eqn:T; [|eexists; eapply no_song; [exact SD|now left]].
      destruct (string_dec t "") as [->|Nt]; [eexists; eapply no_song; [exact SD|now right]|].
      assert (SW : song_wanted g D w name instr (Some t) tpn cs t rl) by (split; [exact SD|auto]).
      destruct (Z.lt_decidable (Z.abs rl) float_limit) as [L|L]; [|eexists; eapply rows_too_long; [exact SW|lia]].
      assert (P : song_possible cs rl \/ (rl < 0 /\ all_notes (calls_of cs) <> [])).
      { destruct (Z.lt_decidable rl 0) as [N|N]; [|left; split; [exact L|lia]].
        destruct (all_notes (calls_of cs)) as [|n l] eqn:AN; [left; split; [exact L|intros _; exact AN]|right; split; [exact N|discriminate]]. }
      destruct P as [P|(N & A)]; [|eexists; eapply rows_negative; eassumption].
      destruct (w t) eqn:Wt; [|eexists; eapply song_denied; eassumption].
      destruct (Z.lt_decidable (year now) 1980) as [Y|Y]; [eexists; eapply too_early; eassumption|].
      destruct (Z.lt_decidable 2107 (year now)) as [Y'|Y']; [eexists; eapply too_late; eassumption|].
      eexists; eapply song_done; try eassumption. lia.
  Qed.
End Run.

Lemma readable_or g D name : world_ok g D ->
  (forall d cs, file_name name -> D name = Some d -> ~ readable g d cs)
  \/ exists d cs, file_name name /\ D name = Some d /\ readable g d cs.
Proof.
  intros W. destruct (file_name_dec name) as [F|F]; [|left; intros; contradiction].
  destruct (D name) as [d|] eqn:E; [|left; discriminate].
  destruct (read_cases g D name d W E) as [(cs & s & v & R & _)|(N & _)]; [right; exists d, cs; auto|].
  left. intros d' cs _ [= <-]. apply N.
Qed.

(** A run ends in a given way exactly when the condition for it holds. *)
Theorem C95_ends : forall g D writable ierr now name instr track tpn o,
  world_ok g D -> clock_ok now ->
  (snd (main_bytes g D writable ierr now name instr track tpn) = o
   <-> ends g D writable ierr now name instr track tpn o).
Proof.
  intros g D w ierr now name instr track tpn o W K. split; [|now apply ends_run].
  intros <-. destruct (ends_total g D w ierr now name instr track tpn W) as (o & X).
  now rewrite (ends_run g D w ierr now name instr track tpn W K o X).
Qed.
Print Assumptions C95_ends.

(** ... so these exceptions, and no others, end a run. *)
Theorem C95_exceptions : forall g D writable ierr now name instr track tpn e,
  world_ok g D -> clock_ok now ->
  snd (main_bytes g D writable ierr now name instr track tpn) = Failed e ->
  In e [OSError; TypeError; EOFError; StructError; OverflowError; IndexError]
  \/ ierr = Some e \/ exists d, D name = Some d /\ g d = Err e.
Proof.
  intros g D w ierr now name instr track tpn e W K X. apply C95_ends in X; [|assumption..].
  assert (S : forall b cs x, stream b cs (Some x) -> x = EOFError \/ x = StructError).
  { intros b cs x S. remember (Some x) as o eqn:O. revert x O. induction S as [|id ops c rest cs err C S IH|id cut c C|id cut x' C]; intros x O.
    - discriminate.
    - now apply IH.
    - discriminate.
    - injection O as ->. inversion C; subst; auto. }
  remember (Failed e) as o eqn:O.
  destruct X as [F E|e' N E|N E|e' (F & d & E & C)|p I N|p I N Hc|p cs e' I N Hc St
      |cs i I A B Cw|cs f rl Sw L|cs f rl Sw L N A|cs f rl Sw P Cw|cs f rl Sw P Cw Y|cs f rl Sw P Cw Y|cs I NA|cs f rl Sw P Cw Y];
    try discriminate O; injection O as <-; cbn [In]; auto.
  - right. right. exists d. split; [exact E|]. inversion C; auto.
  - destruct (S _ _ _ St); subst; auto 8.
  - auto 8.
  - auto 8.
Qed.
Print Assumptions C95_exceptions.

(** A run that ends with one of these has changed at most the instrument file, and
    written that one completely. *)
Theorem C95_left : forall g D writable ierr now name instr track tpn e,
  world_ok g D -> clock_ok now ->
  let run := main_bytes g D writable ierr now name instr track tpn in
  snd run = Failed e ->
  let D' := disk_after (fst run) D in
  forall m, D' m = D m
    \/ (instr = Some m /\ file_name m /\ exists d cs x txt, D name = Some d /\ readable g d cs
        /\ D' m = Some x /\ decode x = Some txt /\ instruments_shown (calls_of cs) txt).
Proof.
  intros g D w ierr now name instr track tpn e W K run X D' m.
  destruct (readable_or g D name W) as [N|(d & cs & F & E & R)].
  - left. unfold D'. destruct (C85_unreadable g D w ierr now name instr track tpn (disk_after (fst run) D) W N) as [_ Q].
    fold run in Q. now rewrite (Q (stopped_end _ D)).
  - destruct (a_row_length g D name tpn W cs (conj F (ex_intro _ d (conj E R)))) as (rl & RL).
    destruct (run_acts g D w ierr now name instr track tpn d cs rl W F E R RL)
      as (s & txt & pre & out & r & H & Er & T & _ & M & B). fold run in M.
    assert (DR : D' m = disk_after out D m).
    { unfold D'. rewrite M. cbn [fst]. rewrite !disk_app, disk_says. change [Say (Close (HFile name "rb"))] with (map Say [Close (HFile name "rb")]).
      now rewrite disk_says. }
    rewrite M in X. cbn [snd] in X. subst r. rewrite DR. clear M DR D'.
    assert (IA : forall o r, instr_acts w txt instr o r -> disk_after o D m = D m
        \/ (instr = Some m /\ file_name m /\ disk_after o D m = Some (utf8 txt))).
    { intros o r A. destruct A as [o NA| |n Fn Wn|n Fn Wn]; try (left; reflexivity).
      change [instr_says n; ?a; ?b; ?c] with ([instr_says n; a] ++ [b] ++ [c]). rewrite !disk_app.
      destruct (string_dec m n) as [->|Nm].
      - right. split; [reflexivity|]. split; [exact Fn|].
        destruct (disk_puts n [(0, utf8 txt)] (disk_after [instr_says n; Truncate n] D) []) as [Q _]; [apply store_same|].
        unfold over in Q. cbn [fold_left fst snd] in Q. rewrite text_put in Q. exact Q.
      - left. destruct (disk_puts n [(0, utf8 txt)] (disk_after [instr_says n; Truncate n] D) []) as [_ Q]; [apply store_same|].
        change (disk_after [Say (Close (HFile n "w"))] ?x) with x. etransitivity; [exact (Q m Nm)|]. now apply store_other. }
    assert (Q : exists o r, instr_acts w txt instr o r /\ disk_after out D m = disk_after o D m).
    { remember (Failed e) as r eqn:Re. destruct B as [o e' A|o o' r A B]; [exists o, (Failed e'); auto|].
      exists o, Fine. split; [exact A|]. rewrite disk_app. subst r. inversion B; subst; try reflexivity.
      destruct (snd (zip_writes _ _)); discriminate. }
    destruct Q as (o & r & A & Q). rewrite Q. destruct (IA o r A) as [Y|(Y1 & Y2 & Y3)]; [now left|right].
    split; [exact Y1|]. split; [exact Y2|]. exists d, cs, (utf8 txt), txt.
    split; [exact E|]. split; [exact R|]. split; [exact Y3|]. split; [apply decode_utf8|].
    destruct (C41_file _ s H Er) as (tx & l & T' & J & S & _). rewrite T in T'. injection T' as <-.
    exists l. split; [exact J|]. rewrite <- (rf_configs _ _ (refines_of_run _ _ H Er)). exact S.
Qed.
Print Assumptions C95_left.

(** The sample recording, with rows of 20, -20 and too many samples, in 1979 and 2108,
    without the right to write; cut within a command, within the header; no file; a damaged gzip file. *)
Lemma sample_read cs : cs = map op_command sample_ops -> input_read no_gzip disk "a.vgm" cs.
Proof. intros ->. split; [split; discriminate|]. exists sample_file. split; [reflexivity|exact sample_readable]. Qed.
Lemma sample_wanted w n : n <> 0 -> song_wanted no_gzip disk w "a.vgm" None (Some "s.xrns") (Some n) (map op_command sample_ops) "s.xrns" n.
Proof.
  intros N. split; [split; [now apply sample_read|discriminate]|]. split; [reflexivity|]. split; [discriminate|now constructor].
Qed.
Lemma Forall_firstn {A} (P : A -> Prop) n l : Forall P l -> Forall P (firstn n l).
Proof. intros F. revert n. induction F; intros [|n]; cbn [firstn]; constructor; auto. Qed.
Definition in_year (y : Z) : clock := mkclock y 2 28 12 30 59.
Lemma in_year_ok y : clock_ok (in_year y).
Proof. unfold clock_ok, in_year. cbn. lia. Qed.
Notation sample_ends y w n := (ends no_gzip disk w None (in_year y) "a.vgm" None (Some "s.xrns") (Some n)).
Example C95_met :
  sample_ends 2024 (fun _ => true) 20 Fine
  /\ sample_ends 1979 (fun _ => true) 20 (NoDate ClockTooEarly)
  /\ sample_ends 2108 (fun _ => true) 20 (NoDate ClockTooLate)
  /\ sample_ends 2024 (fun _ => false) 20 (Failed OSError)
  /\ sample_ends 2024 (fun _ => true) (-20) (Failed IndexError)
  /\ sample_ends 2024 (fun _ => true) float_limit (Failed OverflowError)
  /\ ends no_gzip (fun _ => Some (firstn (length sample_file - 6) sample_file)) (fun _ => true) None noon "a.vgm" None None None (Failed StructError)
  /\ ends no_gzip (fun _ => Some (firstn 55 sample_file)) (fun _ => true) None noon "a.vgm" None None None (Failed EOFError)
  /\ ends no_gzip disk (fun _ => true) None noon "b.vgm" None None None (Failed OSError)
  /\ ends no_gzip (fun _ => Some [0x1F; 0x8B; 8]) (fun _ => true) None noon "a.vgm" None None None (Failed GzipError).
Proof.
  assert (P : song_possible (map op_command sample_ops) 20).
  { split; [unfold float_limit; lia|lia]. }
  assert (L : 0 < float_limit) by (unfold float_limit; lia).
  split; [|split; [|split; [|split; [|split; [|split; [|split; [|split; [|split]]]]]]]].
  - eapply song_done; [apply sample_wanted; lia|exact P|reflexivity|cbn; lia].
  - eapply too_early; [apply sample_wanted; lia|exact P|reflexivity|cbn; lia].
  - eapply too_late; [apply sample_wanted; lia|exact P|reflexivity|cbn; lia].
  - eapply song_denied; [apply sample_wanted; lia|exact P|reflexivity].
  - eapply rows_negative; [apply sample_wanted; lia|unfold float_limit; lia|lia|vm_compute; discriminate].
  - eapply rows_too_long; [apply sample_wanted; lia|lia].
  - apply (cut_command _ _ _ _ _ _ _ _ _ (firstn (length sample_file - 6) sample_file) (map op_command (firstn 7 sample_ops))).
    + split; [split; discriminate|]. eexists. split; [reflexivity|]. apply raw. unfold is_gzip. vm_compute. discriminate.
    + reflexivity.
    + split; [vm_compute; lia|]. right. vm_compute. lia.
    + assert (Q : recording (firstn (length sample_file - 6) sample_file) = flat_map encode (firstn 7 sample_ops) ++ [0x68; 0x66; 1; 5; 0; 0; 6; 0; 0; 1]) by reflexivity.
      rewrite Q. rewrite <- (app_nil_r (map op_command _)). apply encode_before; [apply Forall_firstn, C08_sample_valid|].
      apply stream_err, cut_pcm_head. cbn. lia.
  - apply (short_header _ _ _ _ _ _ _ _ _ (firstn 55 sample_file)).
    + split; [split; discriminate|]. eexists. split; [reflexivity|]. apply raw. unfold is_gzip. vm_compute. discriminate.
    + apply C01_too_short.
    + apply C01_too_short.
  - apply no_input; [split; discriminate|reflexivity].
  - apply damaged_gzip. split; [split; discriminate|]. eexists. split; [reflexivity|]. change (Err GzipError) with (no_gzip [0x1F; 0x8B; 8]). apply zipped. reflexivity.
Qed.
