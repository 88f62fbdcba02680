(** C71-C75: whole runs, from the bytes of the input to the files on disk. *)
From Coq Require Import Lia ZifyBool Sorted.
From Verif.Model Require Import Py Command Core Config PyFloat Note State Ticks Song Serializer Json Extract Csv History Main.
From Verif.Spec Require Import VgmFormat Ym2151 Ranges Rhythm Text JsonText Tracker View Cli Whole Disk.
From Verif.Proofs Require Import PyLemmas CoreProofs ReaderProofs StateProofs KeyProofs FileProofs ChipProofs
  TickProofs TempoProofs BpmProofs SongProofs ViewProofs.
From Verif.Props Require Import Reader Chip Tempo Song Instruments Cli Rewriting.

Lemma early_filter h s : history_ok h -> run_calls h state_init = Ok s ->
  early_keys h (filter (fun t => t <? 32000) (ticks s)).
Proof.
  intros H E. pose proof (refines_of_run _ _ H E) as R. split; [apply (early_facts h s H E)|].
  intro t. rewrite filter_In, (proj2 (C25_proof _ _ R)). split.
  - intros ((b & v & a & -> & V & <-) & L). split; [lia|]. exists (key_at b v). split; [|reflexivity].
    apply key_on_in. exists b, v, a. auto.
  - intros (L & k & K & <-). apply key_on_in in K as (b & v & a & -> & V & ->). split; [|cbn [key_at k_time] in L |- *; lia]. exists b, v, a. auto.
Qed.
Lemma early_unique h T T' : early_keys h T -> early_keys h T' -> T = T'.
Proof.
  intros [S M] [S' M']. assert (Q : forall t, In t T <-> In t T') by (intro; now rewrite M, M'). clear M M'.
  revert T' S' Q. induction S as [|x T S IH F]; intros T' S' Q.
  - destruct T' as [|y T']; [reflexivity|]. destruct (proj2 (Q y)); now left.
  - destruct S' as [|y T' S' F']; [destruct (proj1 (Q x)); now left|].
    rewrite Forall_forall in F, F'. assert (x = y).
    { destruct (proj1 (Q x)) as [A|A]; [now left|auto|]. destruct (proj2 (Q y)) as [B|B]; [now left|auto|].
      specialize (F _ B). specialize (F' _ A). lia. }
    subst y. f_equal. apply IH; [assumption|]. intro t. specialize (Q t). cbn [In] in Q. split; intro I.
    + destruct (proj1 Q (or_intror I)) as [->|]; [|assumption]. specialize (F _ I). lia.
    + destruct (proj2 Q (or_intror I)) as [->|]; [|assumption]. specialize (F' _ I). lia.
Qed.
Lemma row_length_of h s o t : history_ok h -> run_calls h state_init = Ok s -> (tick_length s o t <-> row_length h o t).
Proof.
  intros H E. destruct (C28_estimate h s H E) as (d & Ed & B). split.
  - intros [n N|o' t' D T]; [now constructor|]. rewrite Ed in T. injection T as <-.
    eapply row_guessed; [exact D|now apply (early_filter h s)|exact B].
  - intros [n N|o' T t' D ET B']; [now constructor|]. apply estimated; [assumption|].
    rewrite (early_unique _ _ _ ET (early_filter h s H E)) in B'. rewrite Ed. f_equal. now apply (best_unique _ _ _ B).
Qed.
Lemma row_length_unique h o t t' : history_ok h -> row_length h o t -> row_length h o t' -> t = t'.
Proof.
  intros H A B. destruct (run_total h H) as [s E].
  apply (row_length_of h s _ _ H E) in A, B. exact (tick_length_unique _ _ _ _ A B).
Qed.

Lemma same_nth {A} (l l' : list A) : (forall i, nth_error l i = nth_error l' i) -> l = l'.
Proof.
  revert l'. induction l as [|x l IH]; intros [|y l'] H; [reflexivity|discriminate (H O)|discriminate (H O)|].
  pose proof (H O) as E. injection E as <-. f_equal. apply IH. intro i. exact (H (S i)).
Qed.
Lemma song_shows_ok h s t sg : history_ok h -> run_calls h state_init = Ok s -> 0 < t -> build_song s t = Ok sg ->
  song_shows h t (render sg).
Proof.
  intros H E Ht B. pose proof (run_logs h s H E) as L. pose proof (song_facts_of s _ t sg L Ht B) as F.
  pose proof (C32_well_formed h s t sg H E Ht B) as (W1 & W2 & _). pose proof (C48_tempo h s t sg H E Ht B) as [T1 T2].
  pose proof (C32_pattern_count h s t sg H E Ht B) as (P1 & P2). pose proof (C33_sequence s t sg B) as (S1 & S2).
  constructor; try assumption.
  - unfold render, render_instruments. cbn [xs_instruments]. rewrite map_length, (sf_instruments _ _ _ _ F), repeat_length.
    rewrite (rf_configs _ _ (refines_of_run _ _ H E)). unfold instruments. generalize 0 as i. induction (distinct h); intro i; cbn; auto.
  - eapply Forall_impl; [|exact W1]. cbv beta. tauto.
  - intro m. set (k := List.length (xs_patterns (render sg))) in *. split.
    + intro Lm. destruct P2 as [P2|(ch & l & n & C & K & I & P2)]; [lia|]. exists n. split.
      * unfold all_notes. apply in_flat_map. exists ch. split; [now apply chans_in|]. destruct (L ch C) as (K' & _).
        rewrite K' in K. now injection K as ->.
      * lia.
    + intros (n & I & Q). unfold all_notes in I. apply in_flat_map in I as (ch & C & I). apply chans_in in C.
      destruct (L ch C) as (K & _). specialize (P1 ch _ n C K I). lia.
  - apply same_nth. intro i. destruct (Nat.ltb_spec i (List.length (xs_patterns (render sg)))) as [I|I].
    + rewrite S2 by assumption. rewrite nth_error_map, (nth_error_nth' (seq 0 _) 0%nat) by (now rewrite seq_length). now rewrite seq_nth.
    + rewrite (proj2 (nth_error_None _ _)) by lia. symmetry. apply nth_error_None. rewrite map_length, seq_length. lia.
  - intros ch p l C P Q. destruct (L ch C) as (K & _). exact (C31_cells h s t sg ch _ p l H E Ht B C K P Q).
Qed.

(** C71: the song file of a run shows what the bytes of the input say. *)
Theorem C71_song : forall g contents writable ierr name instr track tpn d cs f doc,
  world_ok g contents -> file_name name -> contents name = Some d -> readable g d cs ->
  In (Song f doc) (outputs (fst (main g contents writable ierr true name instr track tpn))) ->
  track = Some f /\ exists t, row_length (calls_of cs) tpn t /\ t <> 0
  /\ (0 < t -> song_shows (calls_of cs) t doc)
  /\ (t < 0 -> all_notes (calls_of cs) = [] /\ xs_patterns doc = []).
Proof.
  intros g c w ierr name instr track tpn d cs f doc W F E R I.
  destruct (main_readable g c w ierr name instr track tpn d cs W F E R) as (s0 & _ & _ & _ & _ & _ & H & _).
  destruct (C42_written g c w ierr name instr track tpn d cs W F E R) as (s & t & txt & Er & TL & _ & B).
  cbv zeta in B. destruct (song_output _ _ _ _ _ _ _ _ _ _ B I) as (sg & T & X & ->). split; [exact T|].
  exists t. split; [now apply (row_length_of _ s)|].
  assert (N0 : t <> 0) by (intros ->; unfold build_song in X; cbn in X; discriminate). split; [exact N0|]. split.
  - intro P. now apply (song_shows_ok _ s).
  - intro N. assert (FL : - float_limit < t < 0).
    { split; [|assumption]. destruct (Z_lt_le_dec (- float_limit) t); [assumption|].
      rewrite (proj2 (C47_zero_and_huge s t)) in X by lia. discriminate. }
    destruct (C47_negative _ s t H Er FL) as [N1 N2].
    assert (EM : forall ch, 0 <= ch < 8 -> notes (calls_of cs) ch = []).
    { intros ch C. destruct (run_logs _ s H Er ch C) as (K & _).
      destruct (notes (calls_of cs) ch) as [|n l] eqn:EN; [reflexivity|].
      rewrite (N1 ch _ C K) in X; discriminate. }
    split.
    + unfold all_notes. cbn [flat_map]. rewrite !EM by lia. reflexivity.
    + destruct N2 as (sg' & X' & P & _); [|rewrite X in X'; injection X' as <-; exact P].
      intros ch C. destruct (run_logs _ s H Er ch C) as (K & _). now rewrite EM in K.
Qed.
Print Assumptions C71_song.
(** It is written whenever the row length is positive (and not astronomical) and
    both targets can be opened. *)
Theorem C71_written : forall g contents writable ierr name instr f tpn d cs t,
  world_ok g contents -> file_name name -> contents name = Some d -> readable g d cs ->
  row_length (calls_of cs) tpn t -> 0 < t < float_limit -> f <> ""%string -> writable f = true ->
  (forall i, instr = Some i -> writable i = true) ->
  let run := main g contents writable ierr true name instr (Some f) tpn in
  snd run = Ok tt /\ exists doc, In (Song f doc) (outputs (fst run)).
Proof.
  intros g c w ierr name instr f tpn d cs t W F E R RL T Nf Wf Wi run.
  destruct (main_readable g c w ierr name instr (Some f) tpn d cs W F E R) as (s0 & _ & _ & _ & _ & _ & H & _).
  destruct (C42_written g c w ierr name instr (Some f) tpn d cs W F E R) as (s & t' & txt & Er & TL & _ & B).
  fold run in B. apply (row_length_of _ s _ _ H Er) in RL. rewrite (tick_length_unique _ _ _ _ TL RL) in *.
  destruct (C31_song_built _ s t H Er T) as [sg X].
  remember (snd run) as r. remember (outputs (fst run)) as o. destruct B as [o e A|o o' r A B].
  - inversion A; subst. rewrite Wi in * by reflexivity. discriminate.
  - inversion B as [? NA|? ? ? X'|? ? ? ? W'|n sg' ? X' W']; subst.
    + destruct NA as [NA|NA]; [discriminate|]. injection NA as ->. contradiction.
    + congruence.
    + congruence.
    + split; [reflexivity|]. exists (render sg'). apply in_app_iff. right. now left.
Qed.
Print Assumptions C71_written.
Lemma encoded_readable g p ops : ~ is_gzip p -> bytes p -> has_ident p -> header_complete p ->
  skipn (Z.to_nat (data_offset p)) p = flat_map encode ops -> Forall op_valid ops -> readable g p (map op_command ops).
Proof.
  intros NG B I H D V. pose proof (raw g p NG) as C.
  destruct (C01_proof _ clocks_empty _ _ C) as (_ & _ & O & _).
  destruct (proj2 O (conj I H)) as [v R]. destruct (reader _ _ _) as [x ck] eqn:RR in R. cbn [fst] in R. subst x.
  destruct (C08_round_trip _ _ _ _ _ _ _ C B RR D V) as [f Vc].
  exists p. split; [exact C|]. split; [exact I|]. split; [exact H|].
  apply (proj2 (C04_proof _ _ _ _ _ _ _ _ C B RR)). rewrite Vc. cbn [fst snd error_of]. split; exact eq_refl.
Qed.
Example C71_sample : let h := calls_of (map op_command sample_ops) in
  row_length h (Some 20) 20
  /\ last_event 20 (notes h 0) 50 = Some (mknote 0 true true 0 0 0 1000)
  /\ match outputs (fst (run_sample (Some 20))) with
     | [Text (HFile i "w") txt; Song f doc] =>
         i = "i.json" /\ String.length txt = 943%nat /\ f = "s.xrns"
         /\ cell doc 0 0 50 = Some (mkxnc "C#0" (Some "00") None) /\ cell doc 0 0 51 = None
         /\ g_beats_per_min (xs_globals doc) = 33075
     | _ => False
     end%string.
Proof. split; [now constructor|]. split; [vm_compute; reflexivity|]. vm_compute. auto 8. Qed.

(** C72: the instrument file of a run. *)
Theorem C72_instruments : forall g contents writable ierr name instr track tpn d cs target txt,
  world_ok g contents -> file_name name -> contents name = Some d -> readable g d cs ->
  In (Text target txt) (outputs (fst (main g contents writable ierr true name instr track tpn))) ->
  instruments_shown (calls_of cs) txt
  /\ exists i, instr = Some i /\ (i = "-" /\ target = HStdout \/ file_name i /\ target = HFile i "w")%string.
Proof.
  intros g c w ierr name instr track tpn d cs target txt W F E R I.
  destruct (main_readable g c w ierr name instr track tpn d cs W F E R) as (s0 & _ & _ & _ & _ & _ & H & _).
  destruct (C42_written g c w ierr name instr track tpn d cs W F E R) as (s & t & txt' & Er & _ & T & B).
  cbv zeta in B. destruct (C41_file _ s H Er) as (tx & l & T' & J & S & _). rewrite T in T'. injection T' as <-.
  assert (Q : txt = txt' /\ exists i, instr = Some i
            /\ (i = "-" /\ target = HStdout \/ file_name i /\ target = HFile i "w")%string).
  { remember (outputs _) as o. remember (snd _) as r. clear Heqo Heqr.
    assert (A : forall o r, instr_step w txt' instr o r -> In (Text target txt) o -> txt = txt' /\ exists i, instr = Some i
            /\ (i = "-" /\ target = HStdout \/ file_name i /\ target = HFile i "w")%string).
    { intros o1 r1 A I1. inversion A; subst; cbn in I1; try contradiction; destruct I1 as [I1|[]]; injection I1 as <- <-; eauto 7. }
    destruct B as [o e A1|o o' r A1 B1]; [now apply (A _ _ A1)|]. apply in_app_iff in I as [I|I]; [now apply (A _ _ A1)|].
    destruct B1; cbn in I; try contradiction. destruct I as [I|[]]. discriminate. }
  destruct Q as [-> Q]. split; [|exact Q]. exists l. split; [exact J|].
  rewrite <- (rf_configs _ _ (refines_of_run _ _ H Er)). exact S.
Qed.
Print Assumptions C72_instruments.
(** C73: what a run does after opening its input depends on the key events only. *)
Definition rest_of_run (w : string -> bool) (s : state) (instr track : option string) (tpn : option Z) : list effect * res unit :=
  match choose_ticks s tpn with
  | (eff, Err e) => (eff, Err e)
  | (eff, Ok t) =>
      let (out, r) :=
        seq_eff
          (if truthy instr then match instr with Some n => do_instruments w n s | None => ([], Ok tt) end else ([], Ok tt))
          (fun _ => if truthy track then match track with Some n => do_tracks w s n t | None => ([], Ok tt) end else ([], Ok tt)) in
      (eff ++ line ("Ticks per Note: " ++ str_int t) :: out, r)
  end.
Lemma main_rest g c w ierr name instr track tpn d cs : world_ok g c -> file_name name -> c name = Some d -> readable g d cs ->
  exists s, history_ok (calls_of cs) /\ run_calls (calls_of cs) state_init = Ok s
    /\ main g c w ierr true name instr track tpn =
       (OpenRead name :: line ("Opening file: " ++ name) :: fst (rest_of_run w s instr track tpn) ++ [Close (HFile name "rb")],
        snd (rest_of_run w s instr track tpn)).
Proof.
  intros W F E R. destruct (read_cases g c name d W E) as [(cs' & s & v & R' & V & P & H & Er)|(N & _)]; [|now destruct (N cs)].
  rewrite (readable_unique _ _ _ _ _ _ W E R R') in *. clear R. exists s. split; [exact H|]. split; [exact Er|].
  unfold main. rewrite smart_open_file by assumption. rewrite E. unfold main_body. cbn [negb]. rewrite V, P. unfold rest_of_run.
  destruct (choose_ticks s tpn) as [eff [t|e]]; [|reflexivity].
  destruct (seq_eff _ _) as [out r]. reflexivity.
Qed.
Lemma rest_ext w s s' instr track tpn : same_exports s s' -> rest_of_run w s instr track tpn = rest_of_run w s' instr track tpn.
Proof.
  intros [S _ I T P]. unfold rest_of_run.
  replace (choose_ticks s' tpn) with (choose_ticks s tpn) by (unfold choose_ticks; now rewrite P, T).
  destruct (choose_ticks s tpn) as [eff [t|e]]; [|reflexivity].
  assert (Di : forall n, do_instruments w n s = do_instruments w n s') by (intro; unfold do_instruments; now rewrite I).
  assert (Dt : forall n, do_tracks w s n t = do_tracks w s' n t) by (intro; unfold do_tracks; now rewrite S).
  destruct instr as [i|], track as [f|]; rewrite ?Di, ?Dt; reflexivity.
Qed.
Theorem C73_only_key_events : forall g contents ierr name d cs g' contents' ierr' name' d' cs' writable instr track tpn,
  world_ok g contents -> file_name name -> contents name = Some d -> readable g d cs ->
  world_ok g' contents' -> file_name name' -> contents' name' = Some d' -> readable g' d' cs' ->
  keys (calls_of cs) = keys (calls_of cs') ->
  let run := main g contents writable ierr true name instr track tpn in
  let run' := main g' contents' writable ierr' true name' instr track tpn in
  outputs (fst run) = outputs (fst run') /\ snd run = snd run'
  /\ exists said, stdout_text (fst run) = ("Opening file: " ++ name ++ nl ++ said)%string
       /\ stdout_text (fst run') = ("Opening file: " ++ name' ++ nl ++ said)%string.
Proof.
  intros g c ierr name d cs g' c' ierr' name' d' cs' w instr track tpn W F E R W' F' E' R' K.
  destruct (main_rest g c w ierr name instr track tpn d cs W F E R) as (s & H & Er & ->).
  destruct (main_rest g' c' w ierr' name' instr track tpn d' cs' W' F' E' R') as (s' & H' & Er' & ->).
  destruct (C57_only_key_events _ _ s s' H H' Er Er' K) as (_ & _ & _ & X). rewrite (rest_ext w s s' instr track tpn X).
  cbv zeta. cbn [fst snd]. set (l := fst (rest_of_run w s' instr track tpn)).
  assert (O : forall n m, outputs (OpenRead n :: m) = outputs m) by reflexivity.
  assert (O' : forall n m, outputs (line n :: m) = outputs m) by reflexivity.
  rewrite !O, !O', !outputs_app. split; [reflexivity|]. split; [reflexivity|].
  exists (stdout_text l).
  assert (Q : forall n, stdout_text (OpenRead n :: line ("Opening file: " ++ n) :: l ++ [Close (HFile n "rb")])
     = ("Opening file: " ++ n ++ nl ++ stdout_text l)%string).
  { intro n. rewrite !stdout_cons, stdout_app. unfold line. cbn [piece append].
    change (stdout_text [Close (HFile n "rb")]) with ""%string. now rewrite str_app_nil, !str_app_assoc. }
  split; apply Q.
Qed.
Print Assumptions C73_only_key_events.
(* Another file with the same key events: another header, other chips, other order. *)
Definition other_ops : list vgm_op :=
  [OpOther 0x50 [0x9F]; OpYm2151 0x20 0x00; OpWait 500; OpYm2151 0x20 0xC7; OpWait 500; OpYm2151 0x08 0x78;
   OpYm2151 0x60 0x7F; OpEnd; OpWait 9].
Definition other_file : list Z := sample_header ++ flat_map encode other_ops.
Definition other_disk (n : string) : option (list Z) := if String.eqb n "b.vgm" then Some other_file else None.
Example C73_sample : world_ok no_gzip other_disk /\ file_name "b.vgm" /\ other_disk "b.vgm" = Some other_file
  /\ readable no_gzip other_file (map op_command other_ops)
  /\ keys (calls_of (map op_command other_ops)) = keys (calls_of (map op_command sample_ops))
  /\ keys (calls_of (map op_command other_ops)) <> [].
Proof.
  assert (B : bytes other_file) by (apply bytesb_ok; reflexivity).
  split; [split; [|discriminate]; intros n d H; unfold other_disk in H; destruct (String.eqb n "b.vgm"); [|discriminate];
    injection H as <-; exact B|].
  split; [now split|]. split; [reflexivity|]. split.
  - apply encoded_readable; [vm_compute; discriminate|exact B|reflexivity| | |].
    + split; [vm_compute; lia|]. right. vm_compute. lia.
    + vm_compute. reflexivity.
    + unfold other_ops. repeat constructor; cbn; unfold byte; try lia; try discriminate.
  - split; [vm_compute; reflexivity|discriminate].
Qed.

(** ** Files *)
Definition effect_of (o : output) : effect :=
  match o with Text h t => WriteText h t | Song n d => WriteSong n d end.
Lemma after_outputs l : forall D, files_after l D = files_after (map effect_of (outputs l)) D.
Proof.
  induction l as [|e l IH]; intro D; [reflexivity|]. destruct e; cbn [outputs flat_map app map]; try apply IH.
  all: unfold files_after in *; cbn [fold_left effect_of]; apply IH.
Qed.
Lemma killed_outputs l D D' : killed l D D' -> killed (map effect_of (outputs l)) D D'.
Proof.
  induction 1; try constructor.
  all: try (cbn [outputs flat_map app map effect_of]; constructor; fail).
  destruct e; try exact IHkilled; cbn [outputs flat_map app map effect_of] in *; now apply killed_later.
Qed.

(** C74: after a run every file that is not one of the two targets is as before;
    the targets contain the instruments and the song, the song if both are the same. *)
Theorem C74_files_after : forall g contents writable ierr name instr track tpn d cs D,
  world_ok g contents -> file_name name -> contents name = Some d -> readable g d cs ->
  let run := main g contents writable ierr true name instr track tpn in
  let D' := files_after (fst run) D in
  (forall n, instr <> Some n -> track <> Some n -> D' n = D n)
  /\ (snd run = Ok tt ->
      (forall i, instr = Some i -> file_name i -> track <> Some i ->
         exists txt, D' i = Some (Txt txt) /\ instruments_shown (calls_of cs) txt)
      /\ (forall f, track = Some f -> f <> ""%string ->
         exists doc t, D' f = Some (Archive doc) /\ row_length (calls_of cs) tpn t
           /\ (0 < t -> song_shows (calls_of cs) t doc))).
Proof.
  intros g c w ierr name instr track tpn d cs D W F E R run D'.
  destruct (C42_written g c w ierr name instr track tpn d cs W F E R) as (s & t & txt & Er & TL & T & B).
  assert (SO : forall f doc, In (Song f doc) (outputs (fst run)) ->
     exists t, row_length (calls_of cs) tpn t /\ (0 < t -> song_shows (calls_of cs) t doc)).
  { intros f doc I. destruct (C71_song g c w ierr name instr track tpn d cs f doc W F E R I) as (_ & t' & A1 & _ & A2 & _). eauto. }
  assert (IO : forall h tx, In (Text h tx) (outputs (fst run)) -> instruments_shown (calls_of cs) tx).
  { intros h tx I. exact (proj1 (C72_instruments g c w ierr name instr track tpn d cs h tx W F E R I)). }
  cbv zeta in B. fold run in B. unfold D'. rewrite after_outputs. revert B SO IO. generalize (outputs (fst run)) (snd run).
  clear. intros o r B SO IO.
  assert (PS : forall D n x, put D n x n = Some x) by (intros; unfold put; destruct (string_dec n n); congruence).
  assert (PO : forall D n x m, m <> n -> put D n x m = D m) by (intros; unfold put; destruct (string_dec m n); congruence).
  destruct B as [o e A|o o' r A B].
  { split; [|discriminate]. intros n N1 N2. inversion A; subst; reflexivity. }
  assert (A' : (forall n D, instr <> Some n -> files_after (map effect_of o) D n = D n)
     /\ forall i D, instr = Some i -> file_name i -> files_after (map effect_of o) D i = Some (Txt txt) /\ instruments_shown (calls_of cs) txt).
  { inversion A; subst; cbn [map effect_of files_after fold_left effect_on] in *.
    - split; [reflexivity|]. intros i D0 -> [F1 F2]. destruct H as [H|H]; [discriminate|]. now injection H as ->.
    - split; [reflexivity|]. intros i D0 X [F1 F2]. now injection X as <-.
    - split; [intros n0 D0 N; apply PO; congruence|]. intros i D0 X _. injection X as <-. split; [apply PS|].
      apply (IO (HFile n "w")). now left. }
  destruct A' as [A1 A2].
  assert (FA : forall D0, files_after (map effect_of (o ++ o')) D0 = files_after (map effect_of o') (files_after (map effect_of o) D0)).
  { intro D0. unfold files_after. now rewrite map_app, fold_left_app. }
  rewrite FA. set (D1 := files_after (map effect_of o) D).
  inversion B; subst; cbn [map effect_of files_after fold_left effect_on]; split; try discriminate.
  - intros n N1 _. now apply A1.
  - intros _. split.
    + intros i X Fi _. exists txt. now apply A2.
    + intros f X Nf. destruct H as [H|H]; [congruence|]. rewrite X in H. injection H as ->. contradiction.
  - intros n0 N1 _. now apply A1.
  - intros n0 N1 _. now apply A1.
  - intros n0 N1 N2. rewrite PO by congruence. now apply A1.
  - intros _. split.
    + intros i X Fi N. exists txt. rewrite PO by congruence. now apply A2.
    + intros f X Nf. injection X as <-. destruct (SO n (render sg)) as (t' & S1 & S2); [apply in_app_iff; right; now left|].
      exists (render sg), t'. split; [apply PS|auto].
Qed.
Print Assumptions C74_files_after.
(** A run that cannot read its input, or is not a script run, leaves everything. *)
Theorem C74_unreadable : forall g contents writable ierr name instr track tpn D, world_ok g contents ->
  (forall d cs, file_name name -> contents name = Some d -> ~ readable g d cs) ->
  files_after (fst (main g contents writable ierr true name instr track tpn)) D = D.
Proof.
  intros g c w ierr name instr track tpn D W N. rewrite after_outputs.
  now rewrite (proj2 (C42_unreadable g c w ierr name instr track tpn W N)).
Qed.
Print Assumptions C74_unreadable.

(** C75: a run killed at any moment. *)
Theorem C75_killed : forall g contents writable ierr name instr track tpn d cs D D',
  world_ok g contents -> file_name name -> contents name = Some d -> readable g d cs ->
  killed (fst (main g contents writable ierr true name instr track tpn)) D D' ->
  exists txt doc t, instruments_shown (calls_of cs) txt /\ row_length (calls_of cs) tpn t
    /\ (forall x, doc = Some x -> 0 < t -> song_shows (calls_of cs) t x)
    /\ may_leave instr track txt doc D D'.
Proof.
  intros g c w ierr name instr track tpn d cs D D' W F E R K.
  destruct (main_readable g c w ierr name instr track tpn d cs W F E R) as (s0 & _ & _ & _ & _ & _ & H & _).
  destruct (C42_written g c w ierr name instr track tpn d cs W F E R) as (s & t & txt & Er & TL & T & B). cbv zeta in B.
  destruct (C41_file _ s H Er) as (tx & l & T' & J & S & _). rewrite T in T'. injection T' as <-.
  rewrite (rf_configs _ _ (refines_of_run _ _ H Er)) in S.
  exists txt, (match build_song s t with Ok sg => Some (render sg) | Err _ => None end), t.
  split; [now exists l|]. split; [now apply (row_length_of _ s)|]. split.
  { intros x X P. destruct (build_song s t) as [sg|] eqn:Q; [|discriminate]. injection X as <-. now apply (song_shows_ok _ s). }
  apply killed_outputs in K. revert B K. generalize (outputs (fst (main g c w ierr true name instr track tpn))).
  generalize (snd (main g c w ierr true name instr track tpn)). clear. intros r o B K.
  (* the instrument step alone *)
  assert (KA : forall o, instr_step w txt instr o (Ok tt) -> forall o' D', killed (map effect_of (o ++ o')) D D' ->
     may_leave instr track txt (match build_song s t with Ok sg => Some (render sg) | Err _ => None end) D D'
     \/ killed (map effect_of o') (match instr with
            | Some i => if string_dec i "" then D else if string_dec i "-" then D else put D i (Txt txt)
            | None => D end) D').
  { clear. intros o A o' D' K. inversion A as [i NA| |n Fn Wn|]; subst; cbn [app map effect_of] in K.
    - right. destruct NA as [->| ->]; exact K.
    - inversion K; subst; [left; constructor|]. right. assumption.
    - inversion K; subst.
      + left; constructor.
      + left. eapply left_instruments; [reflexivity|exact Fn|reflexivity].
      + right. destruct Fn as [F1 F2]. destruct (string_dec n ""); [contradiction|].
        destruct (string_dec n "-"); [contradiction|]. assumption. }
  assert (K0 : forall D D', killed [] D D' -> D' = D) by (intros ? ? X; now inversion X).
  destruct B as [o e A|o o' r A B].
  - inversion A; subst. cbn [map] in K. apply K0 in K. subst. constructor.
  - destruct (KA o A o' D' K) as [|K1]; [assumption|].
    assert (LD : may_leave instr track txt (match build_song s t with Ok sg => Some (render sg) | Err _ => None end) D
      (match instr with
       | Some i => if string_dec i "" then D else if string_dec i "-" then D else put D i (Txt txt)
       | None => D end)).
    { inversion A as [i NAi| |n Fn Wn|]; subst.
      - destruct NAi as [->| ->]; constructor.
      - constructor.
      - destruct Fn as [F1 F2]. destruct (string_dec n ""); [contradiction|]. destruct (string_dec n "-"); [contradiction|].
        apply (left_instruments _ _ _ _ _ n txt ""); [reflexivity|now split|]. clear. induction txt; cbn; congruence. }
    inversion B as [? NA|? ? ? X'|? ? ? ? X' W'|n sg' ? X' W']; subst; cbn [map effect_of] in K1.
    + apply K0 in K1. subst. exact LD.
    + apply K0 in K1. subst. exact LD.
    + apply K0 in K1. subst. exact LD.
    + inversion K1; subst; [exact LD| |].
      * apply left_song; [reflexivity|now left].
      * cbn [effect_on] in *. match goal with X : killed [] _ _ |- _ => apply K0 in X; subst end.
        apply left_song; [reflexivity|right; now rewrite X'].
Qed.
Print Assumptions C75_killed.
(** With an unreadable input, whenever the run is killed nothing was changed. *)
Theorem C75_unreadable : forall g contents writable ierr name instr track tpn D D', world_ok g contents ->
  (forall d cs, file_name name -> contents name = Some d -> ~ readable g d cs) ->
  killed (fst (main g contents writable ierr true name instr track tpn)) D D' -> D' = D.
Proof.
  intros g c w ierr name instr track tpn D D' W N K. apply killed_outputs in K.
  rewrite (proj2 (C42_unreadable g c w ierr name instr track tpn W N)) in K. now inversion K.
Qed.
Print Assumptions C75_unreadable.
(** The song file never appears without the complete instrument file, and a file
    that is not a target is never touched. *)
Theorem C75_order : forall instr track txt doc D D', may_leave instr track txt doc D D' ->
  (forall n, instr <> Some n -> track <> Some n -> D' n = D n)
  /\ (forall i f, instr = Some i -> file_name i -> track = Some f -> i <> f -> D' f <> D f -> D' i = Some (Txt txt)).
Proof.
  intros instr track txt doc D D' L.
  assert (PS : forall D n x, put D n x n = Some x) by (intros; unfold put; destruct (string_dec n n); congruence).
  assert (PO : forall D n x m, m <> n -> put D n x m = D m) by (intros; unfold put; destruct (string_dec m n); congruence).
  destruct L as [|i p r -> Fi ->|f x -> X].
  - split; [reflexivity|]. intros i f _ _ _ _ N. now destruct N.
  - split; [intros n N _; apply PO; congruence|]. intros j f J Fj T N M. injection J as <-. rewrite PO in M by congruence. now destruct M.
  - split.
    + intros n N1 N2. rewrite PO by congruence. destruct instr as [i|]; [|reflexivity].
      destruct (string_dec i ""); [reflexivity|]. destruct (string_dec i "-"); [reflexivity|]. apply PO. congruence.
    + intros i g -> [F1 F2] G N _. injection G as <-. rewrite PO by assumption.
      destruct (string_dec i ""); [contradiction|]. destruct (string_dec i "-"); [contradiction|]. apply PS.
Qed.
Print Assumptions C75_order.
Lemma killed_song n doc : forall k l D, nth_error l k = Some (WriteSong n doc) ->
  killed l D (put (files_after (firstn k l) D) n Torn).
Proof.
  induction k as [|k IH]; intros [|e l] D H; try discriminate; cbn [nth_error firstn] in *.
  - injection H as ->. apply killed_zipping.
  - apply killed_later. exact (IH l (effect_on D e) H).
Qed.
(* Killed while the song is being written: the instruments are complete. *)
Example C75_sample : exists D', killed (fst (run_sample (Some 20))) (fun n => option_map Bytes (disk n)) D'
  /\ D' "s.xrns"%string = Some Torn /\ D' "a.vgm"%string = Some (Bytes sample_file)
  /\ match D' "i.json"%string with Some (Txt t) => String.length t = 943%nat | _ => False end.
Proof.
  set (D := fun n => option_map Bytes (disk n)).
  assert (A : match nth_error (fst (run_sample (Some 20))) 7 with Some (WriteSong n _) => n = "s.xrns"%string | _ => False end)
    by (vm_compute; reflexivity).
  destruct (nth_error (fst (run_sample (Some 20))) 7) as [[| | |n doc|]|] eqn:Y; try contradiction. subst n.
  exists (put (files_after (firstn 7 (fst (run_sample (Some 20)))) D) "s.xrns" Torn).
  split; [now apply (killed_song _ doc)|]. split; [reflexivity|]. unfold put.
  destruct (string_dec "a.vgm" "s.xrns"); [discriminate|]. destruct (string_dec "i.json" "s.xrns"); [discriminate|].
  vm_compute. auto.
Qed.
