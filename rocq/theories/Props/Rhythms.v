(** C101-C103: what the tempo estimate depends on, and what it makes of steady rhythms. *)
From Coq Require Import Lia ZifyBool Sorted Permutation.
From Verif.Model Require Import Py PyFloat Config Note State Ticks Extract History.
From Verif.Spec Require Import VgmFormat Ym2151 Rhythm.
From Verif.Proofs Require Import PyLemmas StateProofs KeyProofs ChipProofs TickProofs TempoProofs TempoProofs2 RhythmProofs.
From Verif.Props Require Import Chip Tempo.
Open Scope Z_scope.

(** ** C101: only the distances of the early key-ons count *)

(** The positions the estimate looks at. *)
Definition early (s : state) : list Z := filter (fun t => t <? 32000) (ticks s).
Lemma shifted_top k T : StronglySorted Z.lt T -> top_list (map (fun t => t + k) T) = top_list T.
Proof.
  intros S. unfold top_list. rewrite (C27_scores T S), (C27_scores _ (sorted_shift k T S)). unfold len. rewrite map_length.
  do 2 f_equal. cbn [bind]. replace (map (score (map (fun t => t + k) T)) (py_range 1000 8000)) with (map (score T) (py_range 1000 8000)); [reflexivity|].
  apply map_ext. intro d. symmetry. apply score_shift.
Qed.
(** Two recordings whose early key-ons are at the same positions, or all shifted by the same
    time, have the same estimate and print the same table. *)
Theorem C101_same_distances : forall k h h' s s', history_ok h -> history_ok h' ->
  run_calls h state_init = Ok s -> run_calls h' state_init = Ok s' -> early s' = map (fun t => t + k) (early s) ->
  ticks_per_note s' = ticks_per_note s
  /\ forall show_progress, estimate_output show_progress s' = estimate_output show_progress s.
Proof.
  intros k h h' s s' H H' E E' Q. change (early_ticks s' = map (fun t => t + k) (early_ticks s)) in Q.
  pose proof (shifted_top k (early_ticks s) (proj1 (early_facts h s H E))) as T. rewrite <- Q in T. split.
  - unfold ticks_per_note. now rewrite T.
  - intro b. unfold estimate_output, printed_table. now rewrite T.
Qed.
Print Assumptions C101_same_distances.
(** Silence in front of the song changes nothing as long as it pushes no key-on over the end
    of the part that is looked at. *)
Theorem C101_lead_in : forall k h s s', 0 <= k -> history_ok h ->
  (forall before v after, h = before ++ Apply 0x08 v :: after -> bits v 6 3 <> 0 ->
     0 < time before /\ (time before < 32000 -> time before + k < 32000)) ->
  run_calls h state_init = Ok s -> run_calls (Beat k :: h) state_init = Ok s' ->
  ticks_per_note s' = ticks_per_note s
  /\ forall show_progress, estimate_output show_progress s' = estimate_output show_progress s.
Proof.
  intros k h s s' Hk H P E E'. assert (H' : history_ok (Beat k :: h)) by (constructor; [exact Hk|exact H]).
  destruct (C49_delay k h s s' Hk H (fun b v a Q N => proj1 (P b v a Q N)) E E') as (_ & _ & _ & T & _).
  apply (C101_same_distances k h (Beat k :: h) s s' H H' E E'). unfold early. rewrite T.
  destruct (C25_ticks h s H E) as [_ I].
  assert (W : forall t, In t (ticks s) -> t < 32000 -> t + k < 32000).
  { intros t J. apply I in J as (b & v & a & Q & N & <-). apply (P b v a Q N). }
  clear - W Hk. induction (ticks s) as [|t l IH]; [reflexivity|]. cbn [map filter].
  rewrite IH by (intros u J; apply W; now right). specialize (W t (or_introl eq_refl)).
  destruct (Z.ltb_spec t 32000), (Z.ltb_spec (t + k) 32000); try lia; reflexivity.
Qed.
Print Assumptions C101_lead_in.
Example C101_met : exists s', run_calls (Beat 20000 :: march) state_init = Ok s'
  /\ early s' = map (fun t => t + 20000) (early march_state) /\ early march_state = [100; 2100; 4100; 6100].
Proof. eexists. split; [vm_compute; reflexivity|]. split; vm_compute; reflexivity. Qed.
(** Beyond that the estimate can change. *)
Theorem C101_any_silence_refuted : exists k h s s', 0 <= k /\ history_ok h
  /\ run_calls h state_init = Ok s /\ run_calls (Beat k :: h) state_init = Ok s'
  /\ ticks_per_note s = Ok 2000 /\ ticks_per_note s' = Ok 1000.
Proof.
  destruct march_meets as (H & E & _). exists 31000, march, march_state. eexists. split; [lia|]. split; [exact H|]. split; [exact E|].
  split; [vm_compute; reflexivity|]. split; [exact C29_march|].
  assert (H' : history_ok (Beat 31000 :: march)) by (constructor; [cbn; lia|exact H]).
  eapply (C28_estimate (Beat 31000 :: march)) in H' as (d & -> & B); [|vm_compute; reflexivity].
  f_equal. apply (best_unique _ d 1000 B). match goal with |- best ?l _ => change l with (steady 31100 8000 1) end.
  now apply slow_best.
Qed.
Print Assumptions C101_any_silence_refuted.

(** ** C102: a stray key-on *)

(** Five or more key-ons at a steady distance and one anywhere off their beat: the estimate
    is still the distance. *)
Theorem C102_one_stray : forall h s a p n x, history_ok h -> run_calls h state_init = Ok s ->
  (5 <= n)%nat -> 1000 <= p < 8000 -> (x - a) mod p <> 0 ->
  (forall t, In t (early s) <-> t = x \/ In t (steady a p n)) -> ticks_per_note s = Ok p.
Proof.
  intros h s a p n x H E Hn Hp Off I. destruct (C28_estimate _ _ H E) as (d & -> & B). f_equal.
  apply (best_unique _ d p B). eapply best_perm; [|apply (stray_best a p x n ltac:(lia) Off Hn Hp)].
  apply one_more; [exact (proj1 (early_facts h s H E))|apply steady_nodup; lia| |exact I].
  intros J. apply steady_in in J as (i & _ & J). exact (off_grid a p x ltac:(lia) Off (Z.of_nat i) J).
Qed.
Print Assumptions C102_one_stray.
(** Key-ons of channel 1 at the given distances. *)
Definition played (gaps : list Z) : history := flat_map (fun g => [Beat g; Apply 0x08 0x79]) gaps.
Definition played_state (gaps : list Z) : state := match run_calls (played gaps) state_init with Ok s => s | Err _ => state_init end.
Lemma played_ok gaps : Forall (fun g => 0 <= g) gaps -> history_ok (played gaps).
Proof.
  induction 1 as [|g l G F IH]; [constructor|]. unfold played. cbn [flat_map app]. constructor; [exact G|].
  constructor; [cbn; unfold byte; lia|exact IH].
Qed.
Lemma estimate_is gaps d : Forall (fun g => 0 <= g) gaps -> run_calls (played gaps) state_init = Ok (played_state gaps) ->
  best (early (played_state gaps)) d -> ticks_per_note (played_state gaps) = Ok d.
Proof.
  intros F E B. destruct (C28_estimate _ _ (played_ok gaps F) E) as (e & -> & B'). f_equal. exact (best_unique _ e d B' B).
Qed.
Definition off_beat : list Z := [100; 1400; 300; 1100; 1400; 1400; 1400].
Example C102_met : history_ok (played off_beat) /\ run_calls (played off_beat) state_init = Ok (played_state off_beat)
  /\ (1800 - 100) mod 1400 <> 0
  /\ (forall t, In t (early (played_state off_beat)) <-> t = 1800 \/ In t (steady 100 1400 6)).
Proof.
  split; [apply played_ok; repeat constructor; lia|]. split; [vm_compute; reflexivity|]. split; [discriminate|].
  intro t. replace (early _) with [100; 1500; 1800; 2900; 4300; 5700; 7100] by (vm_compute; reflexivity).
  replace (steady 100 1400 6) with [100; 1500; 2900; 4300; 5700; 7100] by reflexivity. cbn [In]. intuition lia.
Qed.
Example C102_off_beat : ticks_per_note (played_state off_beat) = Ok 1400.
Proof. destruct C102_met as (H & E & O & I). exact (C102_one_stray _ _ 100 1400 6 1800 H E ltac:(lia) ltac:(lia) O I). Qed.
(** The best of a concrete set of positions, by looking at all candidates. *)
Definition best_at (T : list Z) (d : Z) : bool :=
  forallb (fun e => (score T d <=? score T e) && ((d <=? e) || (score T d <? score T e))) (py_range 1000 8000).
Lemma best_at_ok T d : 1000 <= d < 8000 -> best_at T d = true -> best T d.
Proof.
  intros C F. unfold best_at in F. rewrite forallb_forall in F. split; [exact C|].
  split; intros e He; assert (I : In e (py_range 1000 8000)) by (apply py_range_in; exact He); specialize (F e I); lia.
Qed.
(** Two stray key-ons can double the estimate, and so can one missing key-on. *)
Theorem C102_two_strays_refuted : exists h s, history_ok h /\ run_calls h state_init = Ok s
  /\ (forall t, In t (early s) <-> t = 1100 \/ t = 5100 \/ In t (steady 100 2000 6)) /\ ticks_per_note s = Ok 4000.
Proof.
  exists (played [100; 1000; 1000; 2000; 1000; 1000; 2000; 2000]), (played_state [100; 1000; 1000; 2000; 1000; 1000; 2000; 2000]).
  assert (Q : early (played_state [100; 1000; 1000; 2000; 1000; 1000; 2000; 2000]) = [100; 1100; 2100; 4100; 5100; 6100; 8100; 10100])
    by (vm_compute; reflexivity).
  split; [apply played_ok; repeat constructor; lia|]. split; [vm_compute; reflexivity|]. split.
  - rewrite Q. replace (steady 100 2000 6) with [100; 2100; 4100; 6100; 8100; 10100] by reflexivity. intro t. cbn [In]. intuition lia.
  - apply estimate_is; [repeat constructor; lia|vm_compute; reflexivity|]. rewrite Q. apply best_at_ok; [lia|]. vm_compute. reflexivity.
Qed.
Print Assumptions C102_two_strays_refuted.
Theorem C102_one_missing_refuted : exists h s, history_ok h /\ run_calls h state_init = Ok s
  /\ (forall t, In t (2100 :: early s) <-> In t (steady 100 2000 5)) /\ ticks_per_note s = Ok 4000.
Proof.
  exists (played [100; 4000; 2000; 2000]), (played_state [100; 4000; 2000; 2000]).
  assert (Q : early (played_state [100; 4000; 2000; 2000]) = [100; 4100; 6100; 8100]) by (vm_compute; reflexivity).
  split; [apply played_ok; repeat constructor; lia|]. split; [vm_compute; reflexivity|]. split.
  - rewrite Q. replace (steady 100 2000 5) with [100; 2100; 4100; 6100; 8100] by reflexivity. intro t. cbn [In]. intuition lia.
  - apply estimate_is; [repeat constructor; lia|vm_compute; reflexivity|]. rewrite Q. apply best_at_ok; [lia|]. vm_compute. reflexivity.
Qed.
Print Assumptions C102_one_missing_refuted.

(** ** C103: any steady rhythm *)

(** [n] early key-ons [p] samples apart, for any [p]: 1000 if they are 8000 or more samples
    apart, or all within less than 1000 samples (in particular if there is only one);
    otherwise the smallest multiple of [p] that is at least 1000. *)
Theorem C103_any_steady : forall h s a p n, history_ok h -> run_calls h state_init = Ok s -> 0 < p -> early s = steady a p n ->
  exists d, ticks_per_note s = Ok d
  /\ (8000 <= p \/ p * (Z.of_nat n - 1) < 1000 -> d = 1000)
  /\ (p < 8000 -> 1000 <= p * (Z.of_nat n - 1) -> exists k, d = k * p /\ 1000 <= k * p /\ (k - 1) * p < 1000).
Proof.
  intros h s a p n H E Hp F. destruct (C28_estimate _ _ H E) as (d & Q & B). fold (early s) in B. rewrite F in B.
  pose proof (best_unique _ _ _ B (any_steady_best a p n Hp)) as D. exists d. split; [exact Q|]. split.
  - intros C. rewrite D. destruct (Z.leb_spec 8000 p); [reflexivity|]. destruct (Z.ltb_spec (p * (Z.of_nat n - 1)) 1000); [reflexivity|lia].
  - intros P L. destruct (Z.leb_spec 8000 p); [lia|]. destruct (Z.ltb_spec (p * (Z.of_nat n - 1)) 1000); [lia|]. cbn [orb] in D.
    exists ((999 + p) / p). split; [exact D|]. pose proof (Z_div_mod_eq_full (999 + p) p). pose proof (Z.mod_pos_bound (999 + p) p Hp). nia.
Qed.
Print Assumptions C103_any_steady.
Definition roll : list Z := [50; 300; 300; 300; 300; 300; 300].
Example C103_met : history_ok (played roll) /\ run_calls (played roll) state_init = Ok (played_state roll)
  /\ early (played_state roll) = steady 50 300 7.
Proof. split; [apply played_ok; repeat constructor; lia|]. split; vm_compute; reflexivity. Qed.
Example C103_roll : ticks_per_note (played_state roll) = Ok 1200.
Proof.
  destruct C103_met as (H & E & Q). destruct (C103_any_steady _ _ 50 300 7 H E eq_refl Q) as (d & -> & _ & K).
  destruct (K ltac:(lia) ltac:(lia)) as (k & -> & K1 & K2). f_equal. lia.
Qed.
