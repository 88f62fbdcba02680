(** Steady rhythms, printed confidences, and the tempo. *)
From Coq Require Import ZArith List Bool Lia ZifyBool Sorting.Sorted Sorting.Permutation Reals SpecFloat Lra.
From Flocq Require Import Core IEEE754.BinarySingleNaN.
From Flocq Require Relative.
From Verif.Model Require Import Py PyFloat Config Note State Ticks Extract.
From Verif.Spec Require Import Rhythm.
From Verif.Proofs Require Import PyLemmas TickProofs FloatProofs TempoProofs.
Import ListNotations.
Open Scope Z_scope.

(** * Steady rhythms *)
Lemma count_pos {A} (p : A -> bool) l x : In x l -> p x = true -> 1 <= count p l.
Proof.
  induction l as [|y l IH]; intros H E; [destruct H|]. rewrite count_cons.
  destruct H as [->|H]; [rewrite E; pose proof (count_nonneg p l); lia|].
  specialize (IH H E). destruct (p y); lia.
Qed.
Lemma has_min (T : list Z) : T <> [] -> exists m, In m T /\ forall t, In t T -> m <= t.
Proof.
  induction T as [|x T IH]; [easy|]. intros _. destruct T as [|y T].
  - exists x. split; [now left|]. intros t [->|[]]. lia.
  - destruct IH as (m & Hm & H); [easy|]. destruct (Z.leb_spec m x).
    + exists m. split; [now right|]. intros t [->|Ht]; auto.
    + exists x. split; [now left|]. intros t [->|Ht]; [lia|]. specialize (H _ Ht). lia.
Qed.
Lemma score_pos T d : 0 < d -> T <> [] -> 1 <= score T d.
Proof.
  intros Hd HT. unfold score. destruct (has_min T HT) as (m & Hm & H).
  pose proof (count_nonneg (fun t => negb (mem (t + d) T) && existsb (Z.ltb (t + d)) T) T).
  pose proof (count_pos (fun t => negb (mem (t - d) T)) T m Hm). cbn beta in *.
  assert (mem (m - d) T = false) as E.
  { destruct (mem (m - d) T) eqn:E; [|reflexivity]. apply mem_in in E. specialize (H _ E). lia. }
  rewrite E in *. cbn [negb] in *. lia.
Qed.
Lemma steady_in a p n t : In t (steady a p n) <-> exists i, (i < n)%nat /\ t = a + p * Z.of_nat i.
Proof.
  unfold steady. rewrite in_map_iff. split; intros (i & H1 & H2); exists i.
  - apply in_seq in H2. split; [lia|auto].
  - split; [auto|apply in_seq; lia].
Qed.
Lemma steady_cons a p n : steady a p (S n) = a :: steady (a + p) p n.
Proof.
  unfold steady. cbn [seq map]. f_equal; [lia|]. rewrite <- seq_shift, map_map. apply map_ext. intro. lia.
Qed.
Lemma steady_count f a p n : count f (steady a p (S n)) = (if f a then 1 else 0) + count f (steady (a + p) p n).
Proof. now rewrite steady_cons, count_cons. Qed.
Lemma count_all {A} (p : A -> bool) l : (forall x, In x l -> p x = true) -> count p l = Z.of_nat (length l).
Proof. induction l as [|x l IH]; intro H; [reflexivity|]. rewrite count_cons, H by now left. rewrite IH by (intros; apply H; now right). cbn [length]. lia. Qed.
Lemma count_none {A} (p : A -> bool) l : (forall x, In x l -> p x = false) -> count p l = 0.
Proof. induction l as [|x l IH]; intro H; [reflexivity|]. rewrite count_cons, H by now left. rewrite IH by (intros; apply H; now right). lia. Qed.
Lemma steady_length a p n : length (steady a p n) = n.
Proof. unfold steady. now rewrite map_length, seq_length. Qed.

Lemma steady_score a p n : 0 < p -> score (steady a p (S n)) p = 1.
Proof.
  intro Hp. unfold score.
  assert (A : count (fun t => negb (mem (t - p) (steady a p (S n)))) (steady a p (S n)) = 1).
  { rewrite steady_count.
    assert (mem (a - p) (steady a p (S n)) = false) as ->.
    { destruct (mem _ _) eqn:E; [|reflexivity]. apply mem_in, steady_in in E. destruct E as (i & _ & E). nia. }
    cbn [negb]. rewrite count_none; [lia|].
    intros t Ht. apply steady_in in Ht. destruct Ht as (i & Hi & ->).
    replace (mem _ _) with true; [reflexivity|]. symmetry. apply mem_in, steady_in.
    exists i. split; [lia|]. lia. }
  rewrite A. rewrite count_none; [lia|].
  intros t Ht. apply steady_in in Ht. destruct Ht as (i & Hi & ->).
  destruct (Nat.eq_dec i n) as [->|N].
  - rewrite andb_false_iff. right. destruct (existsb _ _) eqn:E; [|reflexivity].
    apply existsb_exists in E. destruct E as (x & Hx & E). apply steady_in in Hx. destruct Hx as (j & Hj & ->). nia.
  - replace (mem _ _) with true; [reflexivity|]. symmetry. apply mem_in, steady_in.
    exists (S i). split; [lia|]. lia.
Qed.
Lemma steady_short a p n d : (2 <= n)%nat -> 0 < d < p -> 2 <= score (steady a p n) d.
Proof.
  intros Hn Hd. unfold score.
  pose proof (count_nonneg (fun t => negb (mem (t + d) (steady a p n)) && existsb (Z.ltb (t + d)) (steady a p n)) (steady a p n)).
  rewrite (count_all (fun t => negb (mem (t - d) _))).
  - rewrite steady_length. lia.
  - intros t Ht. apply steady_in in Ht. destruct Ht as (i & Hi & ->).
    destruct (mem _ _) eqn:E; [|reflexivity]. apply mem_in, steady_in in E. destruct E as (j & Hj & E).
    exfalso. assert (p * (Z.of_nat i - Z.of_nat j) = d) by lia.
    assert (Z.of_nat i - Z.of_nat j <= 0 \/ 1 <= Z.of_nat i - Z.of_nat j) as [|] by lia; nia.
Qed.
Lemma steady_best a p n : (2 <= n)%nat -> candidate p -> best (steady a p n) p.
Proof.
  unfold candidate, best. intros Hn Hp. destruct n as [|n]; [lia|]. split; [assumption|].
  rewrite steady_score by lia. split; intros e He.
  - apply score_pos; [unfold candidate in He; lia|]. rewrite steady_cons. discriminate.
  - intro L. unfold candidate in He. pose proof (steady_short a p (S n) e). lia.
Qed.

(** * How many early positions *)
Lemma sorted_nodup l : StronglySorted Z.lt l -> NoDup l.
Proof.
  induction 1 as [|x l S IH F]; constructor; [|assumption]. intro H.
  rewrite Forall_forall in F. specialize (F _ H). lia.
Qed.
Lemma sorted_bounded l n : 0 <= n -> StronglySorted Z.lt l -> (forall t, In t l -> 0 <= t < n) ->
  Z.of_nat (length l) <= n.
Proof.
  intros Hn S B. pose proof (NoDup_incl_length (l := l) (l' := py_range 0 n) (sorted_nodup _ S)) as H.
  assert (length (py_range 0 n) = Z.to_nat n) as E.
  { unfold py_range. rewrite map_length, seq_length. lia. }
  rewrite E in H. enough (length l <= Z.to_nat n)%nat by lia. apply H.
  intros t Ht. apply py_range_in. auto.
Qed.
Lemma filter_sorted p l : StronglySorted Z.lt l -> StronglySorted Z.lt (filter p l).
Proof.
  induction 1 as [|x l S IH F]; [constructor|]. cbn [filter]. destruct (p x); [|assumption].
  constructor; [assumption|]. rewrite Forall_forall in *. intros y Hy. apply filter_In in Hy. now apply F.
Qed.

(** * Confidence *)
Open Scope R_scope.
Lemma one_val : exists f, float_of_int 1 = Ok f /\ val f 1.
Proof. eexists. split; [reflexivity|]. repeat split. unfold SF2R, F2R; cbn. lra. Qed.
Lemma hundred_val : exists f, float_of_int 100 = Ok f /\ val f 100.
Proof. eexists. split; [reflexivity|]. repeat split. unfold SF2R, F2R; cbn. lra. Qed.
Lemma four_val : exists f, float_of_int 4 = Ok f /\ val f 4.
Proof. eexists. split; [reflexivity|]. repeat split. unfold SF2R, F2R; cbn. lra. Qed.
Lemma sixty_val : exists f, float_of_int 60 = Ok f /\ val f 60.
Proof. eexists. split; [reflexivity|]. repeat split. unfold SF2R, F2R; cbn. lra. Qed.

Lemma lt_huge x : Rabs x <= IZR (2 ^ 53) -> Rabs x < huge.
Proof. intro H. pose proof (below_huge x H) as E. destruct (Rlt_bool_spec (Rabs x) huge); [assumption|discriminate]. Qed.
Lemma pow53 : 100 <= IZR (2 ^ 53).
Proof. apply IZR_le. lia. Qed.
Definition percent (q : R) : R := rnd (rnd (1 - q) * 100).
Lemma percent_mono p q : p <= q -> percent q <= percent p.
Proof. intro H. apply rnd_mono, Rmult_le_compat_r; [lra|]. apply rnd_mono. lra. Qed.
Lemma percent_range q : 0 <= q <= 1 -> 0 <= percent q <= 100.
Proof.
  intro H. pose proof (percent_mono 0 q). pose proof (percent_mono q 1).
  assert (percent 0 = 100) as E0.
  { unfold percent. rewrite Rminus_0_r, (rnd_int 1) by lia. rewrite Rmult_1_l. apply (rnd_int 100). lia. }
  assert (percent 1 = 0) as E1.
  { unfold percent. replace (1 - 1) with 0 by ring. rewrite (rnd_int 0) by lia. rewrite Rmult_0_l. apply (rnd_int 0). lia. }
  lra.
Qed.
Lemma confidence_ok f q : val f q -> 0 <= q <= 1 ->
  exists c, confidence f = Ok c /\ val c (percent q).
Proof.
  intros V H. destruct one_val as (one & E1 & V1). destruct hundred_val as (hun & E2 & V2).
  unfold confidence. rewrite E1, E2. cbn [bind]. eexists. split; [reflexivity|].
  pose proof pow53. pose proof (rnd_unit (1 - q)) as U. pose proof (percent_range q H) as P.
  apply mul_val; [|assumption|].
  - apply sub_val; [assumption..|]. apply lt_huge. rewrite Rabs_pos_eq; lra.
  - apply lt_huge. fold (percent q). rewrite Rabs_pos_eq; lra.
Qed.
Open Scope Z_scope.

Lemma quo_unit T d : 0 < d -> (0 <= rnd (IZR (score T d) / IZR (den T)) <= 1)%R.
Proof.
  intro Hd. apply rnd_unit. destruct T as [|t T].
  - cbn. lra.
  - pose proof (score_bounds (t :: T) d). apply unit_quot; unfold den, len; cbn [length] in *.
    + lia.
    + assert (t :: T <> []) by discriminate. lia.
Qed.
(** The float shown for candidate [d]. *)
Definition shown (T : list Z) (d : Z) : pyfloat :=
  match confidence (quo T d) with Ok c => c | Err _ => S754_nan end.
Lemma shown_ok T d : 0 < d -> Z.of_nat (length T) <= 32000 ->
  confidence (quo T d) = Ok (shown T d)
  /\ val (shown T d) (percent (rnd (IZR (score T d) / IZR (den T)))).
Proof.
  intros Hd HT. destruct (quo_ok T d Hd HT) as [_ V].
  destruct (confidence_ok _ _ V (quo_unit T d Hd)) as (c & E & Vc).
  unfold shown. rewrite E. auto.
Qed.

Lemma lex_trans k : Relation_Definitions.transitive Z (lex k).
Proof. unfold lex. intros x y z. lia. Qed.

Lemma table_ok s : StronglySorted Z.lt (early_ticks s) -> Z.of_nat (length (early_ticks s)) <= 32000 ->
  exists ds rest, printed_table s = Ok (map (fun d => (d, shown (early_ticks s) d)) ds)
    /\ length ds = 10%nat /\ Permutation (py_range 1000 8000) (ds ++ rest)
    /\ StronglySorted (lex (score (early_ticks s))) (ds ++ rest).
Proof.
  intros S L. destruct (top_list_ok _ S L) as (ds & E & P & S'). unfold printed_table. rewrite E. cbn [bind].
  exists (firstn 10 ds), (skipn 10 ds). rewrite firstn_skipn. repeat split; [|rewrite firstn_length|assumption..].
  - rewrite firstn_map.
    assert (D : forall d, In d (firstn 10 ds) -> 0 < d).
    { intros d Hd. assert (In d ds) as H by (rewrite <- (firstn_skipn 10 ds), in_app_iff; now left).
      apply (Permutation_in _ (Permutation_sym P)), py_range_in in H. lia. }
    revert D. generalize (firstn 10 ds) as l. induction l as [|d l IH]; intro D; [reflexivity|].
    cbn [map mapM]. cbn [fst snd]. destruct (shown_ok (early_ticks s) d) as [Ec _]; [apply D; now left|assumption|].
    rewrite Ec. cbn [bind]. rewrite IH by (intros; apply D; now right). reflexivity.
  - apply Permutation_length in P. rewrite <- P. unfold py_range. rewrite map_length, seq_length. reflexivity.
Qed.

(** How far the shown percentage is from the exact one. *)
Open Scope R_scope.
Lemma abs_err x : Rabs (rnd x - x) <= u53 * Rabs x + bpow radix2 (-1074).
Proof.
  destruct (Relative.error_N_FLT radix2 (-1074) 53 ltac:(lia) (fun z => negb (Z.even z)) x)
    as (eps & eta & He & Ht & _ & E).
  change (round radix2 (FLT_exp (-1074) 53) ZnearestE x) with (rnd x) in E. rewrite E.
  replace (x * (1 + eps) + eta - x) with (x * eps + eta) by ring.
  eapply Rle_trans; [apply Rabs_triang|]. apply Rplus_le_compat.
  - rewrite Rabs_mult, Rmult_comm. apply Rmult_le_compat_r; [apply Rabs_pos|].
    replace u53 with (/ 2 * bpow radix2 (-53 + 1)); [exact He|]. unfold u53.
    rewrite bpow_plus. change (bpow radix2 1) with 2. field.
  - pose proof (bpow_gt_0 radix2 (-1074)). lra.
Qed.
Lemma percent_close r : 0 <= r <= 1 -> Rabs (percent (rnd r) - 100 * (1 - r)) <= / 1000000000000.
Proof.
  intro H. pose proof (abs_err r) as E1. set (q := rnd r) in *.
  assert (Q : 0 <= q <= 1) by now apply rnd_unit.
  pose proof (abs_err (1 - q)) as E2. set (c := rnd (1 - q)) in *.
  assert (C : 0 <= c <= 1) by (apply rnd_unit; lra).
  pose proof (abs_err (c * 100)) as E3. fold c in E3.
  change (percent q) with (rnd (c * 100)). set (z := rnd (c * 100)) in *.
  rewrite Rabs_pos_eq with (x := r) in E1 by lra. rewrite Rabs_pos_eq with (x := 1 - q) in E2 by lra.
  rewrite Rabs_pos_eq with (x := c * 100) in E3 by lra.
  assert (U : 0 < u53 < / 1000000000000000).
  { split; [apply bpow_gt_0|]. rewrite u53_eq. apply Rinv_lt; [lra|]. apply IZR_lt. lia. }
  assert (T : 0 < bpow radix2 (-1074) <= u53).
  { split; [apply bpow_gt_0|]. unfold u53. apply bpow_le. lia. }
  assert (u53 * r <= u53 * 1) by (apply Rmult_le_compat_l; lra).
  assert (u53 * (1 - q) <= u53 * 1) by (apply Rmult_le_compat_l; lra).
  assert (u53 * (c * 100) <= u53 * 100) by (apply Rmult_le_compat_l; lra).
  apply Rabs_le_inv in E1, E2, E3. apply Rabs_le. lra.
Qed.
