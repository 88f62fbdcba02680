(** C27-C30 and C38: the tick estimate and the exported tempo. *)
From Coq Require Import Lia Lra ZifyBool Sorted Permutation Reals SpecFloat.
From Flocq Require Import Core IEEE754.BinarySingleNaN.
From Verif.Model Require Import Py PyFloat Config Note State Ticks Extract History.
From Verif.Spec Require Import VgmFormat Ym2151 Rhythm.
From Verif.Proofs Require Import PyLemmas StateProofs KeyProofs ChipProofs TickProofs FloatProofs TempoProofs
  TempoProofs2 BpmProofs.
Open Scope Z_scope.

Lemma early_facts h s : history_ok h -> run_calls h state_init = Ok s ->
  StronglySorted Z.lt (early_ticks s) /\ Z.of_nat (length (early_ticks s)) <= 32000.
Proof.
  intros H E. pose proof (refines_of_run _ _ H E) as R. destruct (C25_proof _ _ R) as [S M].
  assert (S' : StronglySorted Z.lt (early_ticks s)) by now apply filter_sorted.
  split; [assumption|]. apply sorted_bounded; [lia|assumption|].
  intros t Ht. unfold early_ticks in Ht. apply filter_In in Ht. destruct Ht as [Ht L].
  change top_ticks with 32000 in L. apply M in Ht. destruct Ht as (b & v & a & -> & _ & <-).
  apply ok_app in H. pose proof (time_nonneg b). destruct H. lia.
Qed.

(** C27: the estimator's scores. *)
Theorem C27_scores : forall T, StronglySorted Z.lt T ->
  corr T = Ok (map (score T) (py_range 1000 8000)).
Proof.
  intros T S. unfold corr. apply mapM_ok. intros d Hd. apply py_range_in in Hd.
  change off_start with 1000 in Hd. apply score_ok; [assumption|lia].
Qed.
Print Assumptions C27_scores.
Example C27_four : StronglySorted Z.lt [0; 1000; 2500; 3500]
  /\ map (score [0; 1000; 2500; 3500]) [1000; 1500; 2500] = [3; 4; 2].
Proof. split; [repeat constructor|reflexivity]. Qed.

(** C28: the estimate is the smallest best candidate; it never fails. *)
Theorem C28_estimate : forall h s, history_ok h -> run_calls h state_init = Ok s ->
  exists d, ticks_per_note s = Ok d /\ best (filter (fun t => t <? 32000) (ticks s)) d.
Proof. intros h s H E. destruct (early_facts _ _ H E) as [S L]. now apply estimate_ok. Qed.
Print Assumptions C28_estimate.
Theorem C28_no_early_keys : forall h s, history_ok h -> run_calls h state_init = Ok s ->
  (forall t, In t (ticks s) -> 32000 <= t) -> ticks_per_note s = Ok 1000.
Proof.
  intros h s H E N. destruct (C28_estimate _ _ H E) as (d & -> & B). f_equal.
  replace (filter _ _) with (@nil Z) in B.
  - destruct B as (C & _ & M). unfold candidate in *. destruct (Z.eq_dec d 1000); [assumption|].
    specialize (M 1000). change (score [] d) with 0 in M. change (score [] 1000) with 0 in M. lia.
  - symmetry. destruct (filter _ (ticks s)) as [|t l] eqn:F; [reflexivity|].
    assert (In t (t :: l)) as I by now left. rewrite <- F in I. apply filter_In in I. destruct I as [I L].
    specialize (N _ I). lia.
Qed.
Print Assumptions C28_no_early_keys.

(** A beat every 2000 samples, channel 1, starting at 100, and one late key-on. *)
Definition march : history :=
  [Beat 100; Apply 0x08 0x79; Beat 2000; Apply 0x08 0x79; Beat 2000; Apply 0x08 0x79; Beat 2000;
   Apply 0x08 0x79; Beat 50000; Apply 0x08 0x79].
Definition march_state : state := match run_calls march state_init with Ok s => s | Err _ => state_init end.
Example march_meets : history_ok march /\ run_calls march state_init = Ok march_state
  /\ ticks march_state = [100; 2100; 4100; 6100; 56100].
Proof. split; [repeat constructor; cbn; unfold byte; lia|]. split; vm_compute; reflexivity. Qed.
Example C28_silence : ticks_per_note state_init = Ok 1000.
Proof. apply (C28_no_early_keys []); [constructor|reflexivity|intros t []]. Qed.

(** C29: a steady rhythm. *)
Theorem C29_steady : forall h s a p n, history_ok h -> run_calls h state_init = Ok s ->
  filter (fun t => t <? 32000) (ticks s) = steady a p n -> (2 <= n)%nat -> 1000 <= p < 8000 ->
  ticks_per_note s = Ok p.
Proof.
  intros h s a p n H E F Hn Hp. destruct (C28_estimate _ _ H E) as (d & -> & B). rewrite F in B.
  f_equal. eapply best_unique; [exact B|]. now apply steady_best.
Qed.
Print Assumptions C29_steady.
Example C29_march : ticks_per_note march_state = Ok 2000.
Proof.
  destruct march_meets as (H & E & T). apply (C29_steady march _ 100 2000 4 H E); [|lia|lia].
  rewrite T. reflexivity.
Qed.

(** C30: scores and the printed table.  The table has ten lines: the ten first
    candidates by (score, length), each with a float between 0 and 100 that is
    100 * (1 - score / (2n - 1)) up to 1e-12. *)
Theorem C30_scores_bounded : forall T d, 0 < d -> T <> [] ->
  1 <= score T d <= 2 * Z.of_nat (length T) - 1.
Proof. intros T d Hd HT. pose proof (score_bounds T d Hd HT). pose proof (score_pos T d Hd HT). lia. Qed.
Print Assumptions C30_scores_bounded.
Definition goes_before (T : list Z) (d e : Z) : Prop :=
  score T d < score T e \/ (score T d = score T e /\ d < e).
Definition shows (T : list Z) (line : Z * pyfloat) : Prop :=
  let (d, c) := line in
  is_finite_SF c = true
  /\ (0 <= SF2R radix2 c <= 100)%R
  /\ (Rabs (SF2R radix2 c - 100 * (1 - IZR (score T d) / IZR (2 * Z.of_nat (length T) - 1))) <= / 1000000000000)%R.
Theorem C30_confidence : forall h s, history_ok h -> run_calls h state_init = Ok s ->
  let T := filter (fun t => t <? 32000) (ticks s) in
  exists table others, printed_table s = Ok table /\ length table = 10%nat
    /\ Forall (shows T) table
    /\ (forall d, candidate d <-> In d (map fst table ++ others))
    /\ StronglySorted (goes_before T) (map fst table ++ others).
Proof.
  intros h s H E T. destruct (early_facts _ _ H E) as [S L].
  destruct (table_ok s S L) as (ds & rest & Et & Len & P & S').
  change (early_ticks s) with T in *.
  exists (map (fun d => (d, shown T d)) ds), rest.
  assert (M : map fst (map (fun d => (d, shown T d)) ds) = ds).
  { rewrite map_map. cbn [fst]. apply map_id. }
  rewrite M. split; [assumption|]. split; [now rewrite map_length|]. split; [|split].
  - apply Forall_map, Forall_forall. intros d Hd.
    assert (0 < d) as D.
    { assert (In d (py_range 1000 8000)) as I.
      { apply (Permutation_in _ (Permutation_sym P)), in_app_iff. now left. }
      apply py_range_in in I. lia. }
    destruct (shown_ok T d D L) as [_ (V1 & V2 & V3)]. unfold shows. rewrite V3. split; [assumption|].
    split; [apply percent_range, quo_unit; assumption|].
    replace (2 * Z.of_nat (length T) - 1) with (den T) by (unfold den, len; lia).
    apply percent_close. clearbody T. destruct T as [|t T'].
    + change (score [] d) with 0. change (den []) with (-1). lra.
    + assert (t :: T' <> []) as NE by discriminate.
      pose proof (score_bounds (t :: T') d D NE). apply unit_quot; unfold den, len; cbn [length] in *; lia.
  - intro d. unfold candidate. rewrite <- py_range_in. split; apply Permutation_in; [assumption|now symmetry].
  - exact S'.
Qed.
Print Assumptions C30_confidence.
Example C30_march : exists table, printed_table march_state = Ok table /\ length table = 10%nat.
Proof.
  destruct march_meets as (H & E & T). destruct (C30_confidence _ _ H E) as (t & _ & Et & L & _). eauto.
Qed.

(** C38: the tempo, for every integer tick length. *)
Theorem C38_tempo : forall t, 0 < t < float_limit -> bpm_of t = Ok (tempo t).
Proof. exact tempo_ok. Qed.
Print Assumptions C38_tempo.
Theorem C38_tempo_negative : forall t, 0 < t < float_limit -> bpm_of (- t) = Ok (- tempo t).
Proof. exact tempo_neg. Qed.
Print Assumptions C38_tempo_negative.
Theorem C38_tempo_fails : forall t,
  (t = 0 -> bpm_of t = Err ZeroDivisionError)
  /\ (float_limit <= Z.abs t -> bpm_of t = Err OverflowError).
Proof. intro t. split; [intros ->; exact tempo_zero|apply tempo_overflow]. Qed.
Print Assumptions C38_tempo_fails.
(** The integer part is missed exactly at nine lengths. *)
Theorem C38_integer_part : forall t, 0 < t < float_limit ->
  (bpm_of t = Ok (661500 / t) <-> ~ In t [45; 90; 105; 180; 210; 375; 420; 750; 1500]).
Proof.
  intros t H. rewrite (tempo_ok t H). unfold tempo. change [45; 90; 105; 180; 210; 375; 420; 750; 1500] with dips.
  rewrite <- mem_in. destruct (mem t dips); split; intro A.
  - injection A as A. lia.
  - now destruct A.
  - discriminate.
  - f_equal. lia.
Qed.
Print Assumptions C38_integer_part.
Example C38_examples : bpm_of 1000 = Ok 661 /\ bpm_of 1500 = Ok 440 /\ bpm_of 7999 = Ok 82 /\ bpm_of (-1500) = Ok (-440).
Proof. repeat split. Qed.
