(** C108: the CSV sheet of a score. *)
From Coq Require Import Lia ZifyBool Sorted.
From Verif.Model Require Import Py Command Core Config PyFloat Note State Ticks Song Serializer Extract Csv History Main CsvFile.
From Verif.Spec Require Import VgmFormat Ym2151 Ranges Rhythm Text Tracker Sheet Decimal Cli Whole Score Tune ScoreSheet.
From Verif.Proofs Require Import PyLemmas CoreProofs StateProofs KeyProofs SongProofs ScoreProofs.
From Verif.Props Require Import Reader Chip Csv Cli CsvFile Scores Tunes.
Open Scope string_scope.
Open Scope list_scope.
Open Scope Z_scope.

Lemma heard_all b sc n : lfo_fits b -> score_fits sc -> (In n (all_notes (performance b sc)) <-> is_heard b sc n).
Proof.
  intros Lb Fs. unfold all_notes, is_heard. rewrite in_flat_map. split.
  - intros (ch & C & J). exists ch. split; [now apply chans_in|]. now rewrite <- performed_notes.
  - intros (ch & C & J). exists ch. split; [now apply chans_in|]. now rewrite performed_notes.
Qed.
Lemma shown_sheet b sc t rows : lfo_fits b -> score_fits sc -> sheet_shows (performance b sc) t rows -> score_sheet b sc t rows.
Proof.
  intros Lb Fs (data & R & L & G). exists data. split; [exact R|]. split.
  - intro k. rewrite L. split; intros (n & J & K); exists n; (split; [now apply heard_all|exact K]).
  - intros k row N. destruct (G k row N) as (u & fr & U & F & Row). destruct (proj1 (U u) eq_refl) as ((n & J & Q & K) & M).
    exists u, fr. split; [exists n; split; [now apply heard_all|exact Q]|]. split; [exact K|].
    split; [intros m Jm Km; apply M; [now apply heard_all|exact Km]|]. split; [exact F|]. rewrite Row. f_equal. apply map_ext_in.
    intros ch C. rewrite performed_notes; [reflexivity|exact Lb|exact Fs].
Qed.

Lemma score_bytes head b sc : header_fits head -> lfo_fits b -> Forall step_fits sc -> bytes (score_file head b sc).
Proof.
  intros (B & _) Lb F. unfold score_file. apply Forall_app. split; [exact B|]. pose proof (ops_valid b sc Lb F) as V. apply Forall_flat_map.
  rewrite Forall_app in V |- *. destruct V as [V _]. split.
  - rewrite Forall_map in V |- *. eapply Forall_impl; [|exact V]. intros [r v|n] H; cbn [op_of_call op_valid encode] in *.
    + repeat (apply Forall_cons; [first [apply H|unfold byte; lia]|]). apply Forall_nil.
    + unfold le16. apply Forall_cons; [unfold byte; lia|]. change (2 ^ 16) with 65536 in H.
      repeat (apply Forall_cons; [unfold byte; Z.div_mod_to_equations; lia|]). apply Forall_nil.
  - apply Forall_cons; [|apply Forall_nil]. apply Forall_cons; [unfold byte; lia|apply Forall_nil].
Qed.

(** A log of a score, read, played and written as a sheet. *)
Theorem C108_score : forall gunzip ck ck' d v head b sc t writable name,
  content gunzip d (Ok (score_file head b sc)) -> header_fits head -> lfo_fits b -> score_fits sc ->
  reader gunzip ck (mkfile d 0) = (Ok (Some v), ck') -> 0 < t ->
  (forall n, is_heard b sc n -> n_sample n < t * (2 ^ 1024 - 2 ^ 970)) ->
  exists s, process_vgm_file (Some v) = Ok s
  /\ let run := do_csv writable s name t in
     if can_write writable name
     then snd run = Ok tt
          /\ exists txt, outputs (fst run) = [Text (target_of name) txt] /\ score_sheet b sc t (sheet_of_text txt)
     else snd run = Err OSError /\ outputs (fst run) = [].
Proof.
  intros g ck ck' d v head b sc t w name C Hd Lb Fs Rd Pos Sm. pose proof (proj1 Fs) as F.
  destruct (score_readable g d head b sc Hd Lb F C) as (p & C' & _ & _ & St).
  assert (p = score_file head b sc) as ->.
  { inversion C; inversion C'; subst; congruence. }
  destruct (C51_extraction_is_a_history g ck ck' d _ v _ None C (score_bytes head b sc Hd Lb F) Rd St) as (_ & s & E & Pr).
  rewrite calls_back in E. exists s. split; [exact Pr|].
  pose proof (C76_sheet_file (performance b sc) s t w name (performance_ok b sc Lb F) E Pos) as Q.
  cbv zeta in Q |- *. specialize (Q (fun n J => Sm n (proj1 (heard_all b sc n Lb Fs) J))).
  destruct (can_write w name); [|exact Q]. destruct Q as (Q1 & _ & txt & Q2 & Q3). split; [exact Q1|]. exists txt. split; [exact Q2|].
  now apply shown_sheet.
Qed.
Print Assumptions C108_score.

(** The sheet of a tune. *)
Lemma tune_heard b a p beats n : is_heard b (in_time a p beats) n ->
  exists i, (i < List.length beats)%nat /\ n_sample n = a + p * Z.of_nat i.
Proof.
  intros (ch & _ & J). destruct (tune_note b a p beats ch n J) as (i & c & v & N & _ & _ & S). exists i. split; [|exact S].
  apply nth_error_Some. congruence.
Qed.
Lemma beat_heard b a p beats i : grid_fits a p beats -> Forall (fun c => c <> []) beats -> (i < List.length beats)%nat ->
  exists n, is_heard b (in_time a p beats) n /\ n_sample n = a + p * Z.of_nat i.
Proof.
  intros G Ne Hi. destruct (nth_error beats i) as [c|] eqn:N; [|apply nth_error_None in N; lia].
  rewrite Forall_forall in Ne. pose proof (Ne c (nth_error_In _ _ N)) as C. destruct c as [|v c]; [now destruct C|].
  pose proof (tune_play b a p beats i _ v G N (or_introl eq_refl)) as Q. unfold last_event in Q.
  match type of Q with match rev ?l with _ => _ end = _ => destruct (rev l) as [|n r] eqn:R; [discriminate|];
    assert (J : In n (rev l)) by (rewrite R; now left) end.
  injection Q as Q. apply in_rev, filter_In in J as [J _]. exists n. split; [|now rewrite Q].
  exists (v_chan v). split; [|exact J]. destruct G as (_ & _ & F). rewrite Forall_forall in F.
  destruct (F _ (nth_error_In _ _ N)) as (V & _). apply Forall_inv in V. apply V.
Qed.
Lemma voice_sound b beats i chord v : nth_error beats i = Some chord -> In v chord -> In (mksettings b (v_sound v) (v_ops v)) (tune_sounds b beats).
Proof.
  intros N V. unfold tune_sounds. apply distinct_gen. right. apply (in_map (fun v => mksettings b (v_sound v) (v_ops v))).
  apply in_concat. exists chord. split; [now apply nth_error_In in N|exact V].
Qed.
Lemma beat_cell b a p beats i chord ch : grid_fits a p beats -> nth_error beats i = Some chord ->
  cell_text (last_event p (score_notes b (in_time a p beats) ch) (a / p + Z.of_nat i)) = channel_text b beats chord ch.
Proof.
  intros G N. assert (P : 0 < p) by apply G. unfold channel_text. destruct (find (fun v => v_chan v =? ch) chord) as [v|] eqn:Fd.
  - apply find_some in Fd as [V C]. apply Z.eqb_eq in C. subst ch. rewrite (tune_play b a p beats i chord v G N V). cbn [cell_text].
    unfold event_text, is_off, voice_text. cbn [n_config_id n_note n_octave n_key_fraction n_right n_left].
    pose proof (index_in _ _ (voice_sound b beats i chord v N V)). destruct (Z.ltb_spec (index_of (mksettings b (v_sound v) (v_ops v)) (tune_sounds b beats)) 0); [lia|].
    reflexivity.
  - rewrite tune_rest; [reflexivity|exact P|]. intros j c v Nj V E C. assert (j = i) as -> by lia. rewrite N in Nj. injection Nj as <-.
    pose proof (find_none _ _ Fd v V) as X. cbv beta in X. lia.
Qed.
Theorem C108_tune_rows : forall b a p beats rows, grid_fits a p beats -> Forall (fun c => c <> []) beats -> beats <> [] ->
  a + p * Z.of_nat (List.length beats) < 2 ^ 53 ->
  score_sheet b (in_time a p beats) p rows -> tune_sheet b a p beats rows.
Proof.
  intros b a p beats rows G Ne Nn Sm (data & R & L & D). exists data. split; [exact R|]. assert (A : 0 < a) by apply G. assert (P : 0 < p) by apply G.
  assert (Row : forall i, (a + p * Z.of_nat i) / p = a / p + Z.of_nat i) by (intro i; rewrite (Z.mul_comm p), Z_div_plus by lia; reflexivity).
  assert (A0 : 0 <= a / p) by (apply Z.div_pos; lia).
  assert (B0 : (0 < List.length beats)%nat) by (destruct beats; [now destruct Nn|cbn; lia]).
  assert (L' : forall k, (k < List.length data)%nat <-> Z.of_nat k < a / p + Z.of_nat (List.length beats) - 1).
  { intro k. rewrite L. split.
    - intros (n & H & K). destruct (tune_heard b a p beats n H) as (i & Hi & S). rewrite S, Row in K. lia.
    - intro K. destruct (beat_heard b a p beats (List.length beats - 1) G Ne ltac:(lia)) as (n & H & S). exists n. split; [exact H|].
      rewrite S, Row. lia. }
  split.
  { pose proof (L' (List.length data)). pose proof (L' (Z.to_nat (a / p + Z.of_nat (List.length beats) - 1))). lia. }
  intros k row N. assert (Hk : (k < List.length data)%nat) by (apply nth_error_Some; congruence). apply L' in Hk.
  destruct (D k row N) as (u & fr & (n & H & U) & K & M & F & Rw). exists fr. cbv zeta. set (r := Z.of_nat k) in *.
  destruct (tune_heard b a p beats n H) as (i & Hi & S).
  assert (Eu : u = if r <? a / p then a else a + p * (r - a / p + 1)).
  { rewrite <- U, S, Row in K. destruct (Z.ltb_spec r (a / p)).
    - destruct (beat_heard b a p beats 0 G Ne B0) as (m & Hm & Sm'). specialize (M m Hm). rewrite Sm', Row in M. nia.
    - destruct (beat_heard b a p beats (Z.to_nat (r - a / p + 1)) G Ne ltac:(lia)) as (m & Hm & Sm'). specialize (M m Hm). rewrite Sm', Row, Z2Nat.id in M by lia.
      nia. }
  rewrite <- Eu. split; [apply F; rewrite <- U, S; nia|]. rewrite Rw. f_equal. apply map_ext_in. intros ch C.
  destruct (Z.ltb_spec r (a / p)).
  - rewrite tune_rest; [reflexivity|exact P|]. intros j c v _ _ E _. lia.
  - assert (Hj : (Z.to_nat (r - a / p) < List.length beats)%nat) by lia.
    rewrite <- (beat_cell b a p beats (Z.to_nat (r - a / p)) _ ch G (nth_error_nth' beats [] Hj)).
    do 2 f_equal. lia.
Qed.
Print Assumptions C108_tune_rows.
(** A log of a tune, read, played and written as a sheet. *)
Theorem C108_tune : forall gunzip ck ck' d v head b a p beats writable name,
  content gunzip d (Ok (score_file head b (in_time a p beats))) -> header_fits head -> lfo_fits b -> grid_fits a p beats ->
  Forall (fun c => c <> []) beats -> beats <> [] -> a + p * Z.of_nat (List.length beats) < 2 ^ 53 ->
  reader gunzip ck (mkfile d 0) = (Ok (Some v), ck') -> can_write writable name = true ->
  exists s txt, process_vgm_file (Some v) = Ok s
  /\ snd (do_csv writable s name p) = Ok tt
  /\ outputs (fst (do_csv writable s name p)) = [Text (target_of name) txt]
  /\ tune_sheet b a p beats (sheet_of_text txt).
Proof.
  intros g ck ck' d v head b a p beats w name C Hd Lb G Ne Nn Sm Rd W. assert (P : 0 < p) by apply G.
  destruct (C108_score g ck ck' d v head b (in_time a p beats) p w name C Hd Lb (tune_score a p beats G) Rd P) as (s & Pr & Q).
  { intros n H. destruct (tune_heard b a p beats n H) as (i & Hi & ->). apply Z.lt_trans with (2 ^ 53); [nia|].
    apply Z.lt_le_trans with (1 * (2 ^ 1024 - 2 ^ 970)); [reflexivity|]. apply Z.mul_le_mono_nonneg_r; [discriminate|lia]. }
  cbv zeta in Q. rewrite W in Q. destruct Q as (Q1 & txt & Q2 & Q3). exists s, txt. split; [exact Pr|]. split; [exact Q1|]. split; [exact Q2|].
  now apply C108_tune_rows.
Qed.
Print Assumptions C108_tune.

(** The tune of C107 as a sheet: 2 lines for its 3 chords. *)
Example C108_some_tune : exists v ck' s txt,
  reader no_gzip clocks_empty (mkfile (score_file some_header some_lfo (in_time 700 2205 some_tune)) 0) = (Ok (Some v), ck')
  /\ process_vgm_file (Some v) = Ok s
  /\ outputs (fst (do_csv (fun _ => true) s (Some "t.csv") 2205)) = [Text (HFile "t.csv" "w") txt]
  /\ tune_sheet some_lfo 700 2205 some_tune (sheet_of_text txt).
Proof.
  destruct some_tune_fits as (G & _ & Ne & _).
  assert (Cn : content no_gzip (score_file some_header some_lfo (in_time 700 2205 some_tune)) (Ok (score_file some_header some_lfo (in_time 700 2205 some_tune)))).
  { apply raw. intro X. unfold is_gzip in X. vm_compute in X. discriminate. }
  destruct C105_score_fits as (A & _ & C).
  destruct (reader no_gzip clocks_empty (mkfile (score_file some_header some_lfo (in_time 700 2205 some_tune)) 0)) as [r ck'] eqn:Rd.
  assert (V : match r with Ok (Some _) => true | _ => false end = true).
  { transitivity (match fst (reader no_gzip clocks_empty (mkfile (score_file some_header some_lfo (in_time 700 2205 some_tune)) 0)) with
      Ok (Some _) => true | _ => false end); [now rewrite Rd|vm_compute; reflexivity]. }
  destruct r as [[v|]|]; [|discriminate|discriminate].
  destruct (C108_tune no_gzip clocks_empty ck' _ v some_header some_lfo 700 2205 some_tune (fun _ => true) (Some "t.csv") Cn C A G Ne
    ltac:(discriminate) ltac:(reflexivity) Rd eq_refl) as (s & txt & H1 & _ & H2 & H3).
  exists v, ck', s, txt. split; [reflexivity|]. split; [exact H1|]. split; [exact H2|exact H3].
Qed.
Example C108_cells : channel_text some_lfo some_tune (nth 0 some_tune []) 7 = "F -2-101 [1] Pan R"%string
  /\ channel_text some_lfo some_tune (nth 0 some_tune []) 3 = ""%string.
Proof. vm_compute. auto. Qed.
