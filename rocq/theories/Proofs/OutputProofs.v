(** The text printed by the tick estimator. *)
From Coq Require Import ZArith List Bool String Reals SpecFloat Lra Lia Sorted Permutation.
From Flocq Require Import Core.Core IEEE754.BinarySingleNaN.
From Verif.Model Require Import Py PyFloat Note State Ticks Csv.
From Verif.Spec Require Import Text Sheet Decimal Rhythm.
From Verif.Proofs Require Import PyLemmas TextProofs FloatProofs BpmProofs TempoProofs TempoProofs2 DecimalProofs FractionProofs.
Open Scope Z_scope.

(** "{:.2f}" *)
Lemma two_places_reads n : 0 <= n -> decimal (two_places n) = Some (n, 2).
Proof.
  intro H. pose proof (Z.mod_pos_bound n 100 ltac:(lia)) as M. pose proof (Z.div_pos n 100 H ltac:(lia)) as D.
  pose proof (Z.div_mod n 100 ltac:(lia)) as E. unfold two_places.
  set (a := n / 100) in *. set (r := n mod 100) in *.
  assert (T : forall r, 0 <= r < 100 -> (fun r => let b := ((if (r <? 10)%Z then "0" else "") ++ str_int r)%string in
     lacks "e" b && lacks "." b && (Z.of_nat (String.length b) =? 2)
     && match digits b with Some x => x =? r | None => false end) r = true)
    by (apply (sweep 100); vm_compute; reflexivity).
  specialize (T r M). cbv beta zeta in T. set (b := ((if (r <? 10)%Z then "0" else "") ++ str_int r)%string) in *.
  apply andb_prop in T as [T T4]. apply andb_prop in T as [T T3]. apply andb_prop in T as [T1 T2].
  assert (A : all_digits (str_int a) = true) by (rewrite str_int_nonneg by assumption; apply all_digits_nonneg).
  assert (L : forall c, digit_char c = false -> lacks c (str_int a) = true) by (intros; now apply all_digits_lacks).
  change (str_int a ++ "." ++ b)%string with (str_int a ++ String "." b)%string.
  unfold decimal. rewrite split_lacks.
  - unfold mantissa. rewrite split_once by (assumption || now apply L). rewrite digits_str by assumption.
    destruct (digits b) as [x|]; [|discriminate]. apply Z.eqb_eq in T3, T4. rewrite T3, T4.
    change (10 ^ 2) with 100. f_equal. f_equal. lia.
  - rewrite lacks_app. rewrite L by reflexivity. exact T1.
Qed.

Lemma val_inj f g x : val f x -> val g x -> x <> 0%R -> f = g.
Proof.
  intros F G N. destruct F as (F1 & F2 & F3), G as (G1 & G2 & G3).
  assert (E : SF2B f F1 = SF2B g G1).
  { apply B2R_inj.
    - destruct f; cbn in *; try discriminate; [|reflexivity]. congruence.
    - destruct g; cbn in *; try discriminate; [|reflexivity]. congruence.
    - now rewrite !B2R_SF2B, F3, G3. }
  apply (f_equal B2SF) in E. now rewrite !B2SF_SF2B in E.
Qed.

Lemma format_2f_reads c y : val c y -> (0 < y)%R -> exists n, format_2f c = two_places n /\ 0 <= n
  /\ (Rabs (IZR n / 100 - y) <= / 200)%R /\ nearest_even (100 * y) n.
Proof.
  intros V Y. destruct (val_finite _ _ V) as [(s & -> & ->)|(s & m & e & -> & Ex & Bx)]; [lra|].
  destruct s.
  { exfalso. assert (y < 0)%R; [|lra]. rewrite Ex. apply F2R_lt_0. reflexivity. }
  cbn [cond_Zopp] in Ex. unfold format_2f. cbn [append]. eexists. split; [reflexivity|].
  destruct (Z.leb_spec 0 e) as [L|L].
  - assert (P : 0 < 2 ^ e) by (apply Z.pow_pos_nonneg; lia). split; [lia|].
    assert (y = IZR (Z.pos m * 2 ^ e)) as ->.
    { rewrite Ex. unfold F2R. cbn [Fnum Fexp]. rewrite mult_IZR. f_equal. symmetry. apply (IZR_Zpower radix2 e L). }
    rewrite (mult_IZR 100). replace (_ / 100 - _)%R with 0%R by field. rewrite Rabs_R0. split; [lra|].
    unfold nearest_even. rewrite (mult_IZR 100), Rminus_diag_eq, Rabs_R0 by reflexivity. split; [lra|intro Q; exfalso; lra].
  - set (d := 2 ^ (- e)). assert (PD : 0 < d) by (apply Z.pow_pos_nonneg; lia).
    assert (RD : (0 < IZR d)%R) by now apply IZR_lt.
    assert (Dx : (y = IZR (Z.pos m) / IZR d)%R).
    { rewrite Ex. unfold F2R, Rdiv. cbn [Fnum Fexp]. f_equal. unfold d.
      change 2%Z with (radix_val radix2). rewrite IZR_Zpower by lia. rewrite <- bpow_opp. f_equal. lia. }
    pose proof (round_ratio_near (100 * Z.pos m) d PD) as N. pose proof (round_ratio_even (100 * Z.pos m) d PD) as NE. set (n := round_ratio _ d) in *.
    split; [nia|]. rewrite Dx.
    assert (EV : nearest_even (100 * (IZR (Z.pos m) / IZR d)) n).
    { replace (100 * (IZR (Z.pos m) / IZR d))%R with (IZR (100 * Z.pos m) / IZR d)%R by (rewrite mult_IZR; field; lra).
      now apply nearest_of. }
    split; [clear EV|exact EV].
    replace (IZR n / 100 - IZR (Z.pos m) / IZR d)%R with (IZR (n * d - 100 * Z.pos m) / (100 * IZR d))%R.
    2:{ rewrite minus_IZR, !mult_IZR. field. lra. }
    unfold Rdiv. rewrite Rabs_mult, <- abs_IZR.
    assert (0 < / (100 * IZR d))%R by (apply Rinv_0_lt_compat; lra).
    rewrite (Rabs_pos_eq (/ (100 * IZR d))) by lra.
    apply IZR_le in N. rewrite mult_IZR in N. set (A := IZR (Z.abs _)) in *.
    apply Rmult_le_reg_r with (100 * IZR d)%R; [lra|]. rewrite Rmult_assoc, Rinv_l by lra. lra.
Qed.

(** A zero percentage is shown without a sign. *)
Lemma percent_zero q : generic_format radix2 fx q -> (0 <= q <= 1)%R -> percent q = 0%R -> q = 1%R.
Proof.
  intros F H E. destruct (Req_dec q 1) as [|N]; [assumption|]. exfalso.
  assert (L : (q <= 1 - / 9007199254740992)%R).
  { assert (P1 : pred radix2 fx 1 = (1 - / 9007199254740992)%R).
    { change 1%R with (bpow radix2 0) at 1. rewrite pred_bpow. change (bpow radix2 0) with 1%R. f_equal. }
    rewrite <- P1. apply pred_ge_gt; [typeclasses eauto|assumption| |lra].
    apply (fmt_int 1). lia. }
  assert (M : (percent (1 - / 9007199254740992) <= percent q)%R) by now apply percent_mono.
  assert (B : (bpow radix2 (-53) <= rnd (1 - (1 - / 9007199254740992)))%R).
  { replace (1 - (1 - / 9007199254740992))%R with (bpow radix2 (-53)) by (cbn; lra).
    rewrite rnd_id; [lra|]. apply generic_format_bpow. unfold fx, SpecFloat.fexp, SpecFloat.emin. lia. }
  assert (C : (bpow radix2 (-53) <= percent (1 - / 9007199254740992))%R).
  { unfold percent. rewrite <- (rnd_id (bpow radix2 (-53))) at 1.
    - apply rnd_mono. pose proof (bpow_gt_0 radix2 (-53)). lra.
    - apply generic_format_bpow. unfold fx, SpecFloat.fexp, SpecFloat.emin. lia. }
  pose proof (bpow_gt_0 radix2 (-53)). lra.
Qed.
Lemma confidence_one f : val f 1%R -> confidence f = Ok (S754_zero false).
Proof.
  intro V. assert (f = float_one) as ->.
  { apply (val_inj _ _ 1%R); [assumption| |lra]. repeat split. unfold SF2R, F2R, float_one; cbn. lra. }
  vm_compute. reflexivity.
Qed.
Lemma quo_fmt T d : 0 < d -> Z.of_nat (length T) <= 32000 -> val (quo T d) (rnd (IZR (score T d) / IZR (den T))).
Proof. intros Hd HT. apply (quo_ok T d Hd HT). Qed.
Lemma shown_reads T d : 0 < d -> Z.of_nat (length T) <= 32000 ->
  exists n, format_2f (shown T d) = two_places n /\ 0 <= n
    /\ (Rabs (IZR n / 100 - percent (rnd (IZR (score T d) / IZR (den T)))) <= / 200)%R
    /\ nearest_even (100 * percent (rnd (IZR (score T d) / IZR (den T)))) n.
Proof.
  intros Hd HT. destruct (shown_ok T d Hd HT) as [E V]. pose proof (quo_fmt T d Hd HT) as QV.
  pose proof (quo_unit T d Hd) as U. set (q := rnd _) in *. pose proof (percent_range q U) as PR.
  destruct (Req_dec (percent q) 0) as [Z|N].
  - assert (Q1 : q = 1%R) by (apply percent_zero; [eapply val_format; exact QV|assumption|assumption]).
    rewrite Q1 in QV. rewrite (confidence_one _ QV) in E. injection E as <-. exists 0. split; [reflexivity|].
    split; [lia|]. rewrite Z. replace (0 / 100 - 0)%R with 0%R by field. rewrite Rabs_R0. split; [lra|].
    unfold nearest_even. replace (0 - 100 * 0)%R with 0%R by ring. rewrite Rabs_R0. split; [lra|intro Q; exfalso; lra].
  - apply format_2f_reads; [assumption|lra].
Qed.

(** The progress dots: one whenever the share done passes a multiple of 10. *)
Definition share (i : Z) : R := rnd (rnd (IZR i / 7000) * 100).
Lemma share_mono i j : i <= j -> (share i <= share j)%R.
Proof.
  intro H. unfold share. apply rnd_mono, Rmult_le_compat_r; [lra|]. apply rnd_mono.
  apply Rmult_le_compat_r; [lra|]. now apply IZR_le.
Qed.
Lemma share_val i : 0 <= i <= 7000 -> exists q h, true_div i 7000 = Ok q /\ float_of_int 100 = Ok h
  /\ val (float_mul q h) (share i).
Proof.
  intro H. destruct hundred_val as (h & E2 & V2). pose proof (true_div_spec i 7000 ltac:(lia)) as D.
  pose proof pow53.
  assert (I : (0 <= IZR i / 7000 <= 1)%R).
  { destruct H as [H1 H2]. apply IZR_le in H1, H2. lra. }
  pose proof (rnd_unit _ I) as U.
  rewrite Rlt_bool_true in D by (apply lt_huge; rewrite Rabs_pos_eq; lra).
  destruct D as (q & E & V). exists q, h. split; [assumption|]. split; [assumption|]. apply mul_val; [assumption..|].
  apply lt_huge. fold (share i).
  assert (share 0 = 0)%R as S0.
  { unfold share. replace (IZR 0 / 7000)%R with 0%R by field. rewrite (rnd_int 0) by lia. rewrite Rmult_0_l. apply (rnd_int 0). lia. }
  assert (share 7000 = 100)%R as S1.
  { unfold share. replace (7000 / 7000)%R with 1%R by field. rewrite (rnd_int 1) by lia. rewrite Rmult_1_l. apply (rnd_int 100). lia. }
  pose proof (share_mono 0 i ltac:(lia)). pose proof (share_mono i 7000 ltac:(lia)).
  rewrite Rabs_pos_eq; lra.
Qed.
(* the test of the loop *)
Definition passes (i p : Z) : bool :=
  match true_div i 7000, float_of_int 100, float_of_int p with
  | Ok q, Ok h, Ok f => float_ltb f (float_mul q h)
  | _, _, _ => false
  end.
Lemma passes_mono i j p : 0 <= i <= j -> j <= 7000 -> passes j p = false -> (exists f x, float_of_int p = Ok f /\ val f x) ->
  passes i p = false.
Proof.
  intros H J F (f & x & E & V). unfold passes in *. rewrite E in *.
  destruct (share_val i ltac:(lia)) as (q & h & E1 & E2 & V1). destruct (share_val j ltac:(lia)) as (q' & h' & E1' & E2' & V1').
  rewrite E1, E2. rewrite E1', E2' in F. assert (h' = h) by congruence. subst h'.
  rewrite (ltb_val _ _ _ _ V V1'), (ltb_val _ _ _ _ V V1) in *.
  pose proof (share_mono i j ltac:(lia)).
  destruct (Rlt_bool_spec x (share j)); [discriminate|]. apply Rlt_bool_false. lra.
Qed.
Lemma dot_step_alt p s shift : dot_step (p, s) shift = if passes (shift - 1000) p then (p + 10, String "." s) else (p, s).
Proof.
  unfold dot_step, passes, off_start, off_end. cbn [fst snd]. change (8000 - 1000) with 7000.
  destruct (true_div (shift - 1000) 7000); [|reflexivity]. destruct (float_of_int 100); [|reflexivity].
  destruct (float_of_int p); reflexivity.
Qed.
Lemma range_split a b c : a <= b <= c -> py_range a c = py_range a b ++ py_range b c.
Proof.
  intro H. unfold py_range. replace (Z.to_nat (c - a)) with (Z.to_nat (b - a) + Z.to_nat (c - b))%nat by lia.
  rewrite seq_app, map_app. f_equal. cbn [Nat.add].
  assert (G : forall m n k, a + Z.of_nat n = b + Z.of_nat k ->
    map (fun k => a + Z.of_nat k) (seq n m) = map (fun k => b + Z.of_nat k) (seq k m)).
  { induction m as [|m IH]; intros n k E; [reflexivity|]. cbn [seq map]. f_equal; [assumption|]. apply IH. lia. }
  apply G. lia.
Qed.
Lemma dots_idle a b p s : 1000 <= a -> b <= 8000 -> passes (b - 1 - 1000) p = false ->
  (exists f x, float_of_int p = Ok f /\ val f x) ->
  fold_left dot_step (py_range a b) (p, s) = (p, s).
Proof.
  intros A B F V.
  assert (G : forall l, (forall x, In x l -> a <= x < b) -> fold_left dot_step l (p, s) = (p, s)).
  { induction l as [|x l IH]; intro H; [reflexivity|]. cbn [fold_left]. rewrite dot_step_alt.
    specialize (H x (or_introl eq_refl)) as Hx.
    rewrite (passes_mono (x - 1000) (b - 1 - 1000) p) by (lia || assumption). apply IH. intros y Hy. apply H. now right. }
  apply G. intros x Hx. now apply py_range_in in Hx.
Qed.
Lemma one_in_range a : py_range a (a + 1) = [a].
Proof. unfold py_range. replace (a + 1 - a) with 1 by lia. change (Z.to_nat 1) with 1%nat. cbn [seq map]. now rewrite Z.add_0_r. Qed.
Lemma small_floats p : In p [0; 10; 20; 30; 40; 50; 60; 70; 80; 90; 100] -> exists f x, float_of_int p = Ok f /\ val f x.
Proof.
  intro H. cbn in H. decompose [or] H; try contradiction; subst p; eexists _, _; (split; [vm_compute; reflexivity|]); repeat split.
Qed.
Lemma dots_segment a p s : 1000 <= a -> a <= 1000 + 70 * p + 1 < 8000 ->
  In p [0; 10; 20; 30; 40; 50; 60; 70; 80; 90; 100] ->
  passes (70 * p) p = false -> passes (70 * p + 1) p = true ->
  fold_left dot_step (py_range a (1000 + 70 * p + 2)) (p, s) = (p + 10, String "." s).
Proof.
  intros A B I F T. rewrite (range_split a (1000 + 70 * p + 1)) by lia. rewrite fold_left_app.
  rewrite dots_idle; [|lia|lia| |now apply small_floats].
  - replace (1000 + 70 * p + 2) with (1000 + 70 * p + 1 + 1) by lia. rewrite one_in_range. cbn [fold_left].
    rewrite dot_step_alt. replace (1000 + 70 * p + 1 - 1000) with (70 * p + 1) by lia. now rewrite T.
  - replace (1000 + 70 * p + 1 - 1 - 1000) with (70 * p) by lia. assumption.
Qed.
Lemma ten_dots : progress_dots = ".........."%string.
Proof.
  assert (L : py_range off_start off_end = py_range 1000 1002 ++ py_range 1002 1702 ++ py_range 1702 2402 ++ py_range 2402 3102
     ++ py_range 3102 3802 ++ py_range 3802 4502 ++ py_range 4502 5202 ++ py_range 5202 5902 ++ py_range 5902 6602
     ++ py_range 6602 7302 ++ py_range 7302 8000).
  { unfold off_start, off_end.
    rewrite <- (range_split 6602 7302 8000), <- (range_split 5902 6602 8000), <- (range_split 5202 5902 8000),
      <- (range_split 4502 5202 8000), <- (range_split 3802 4502 8000), <- (range_split 3102 3802 8000),
      <- (range_split 2402 3102 8000), <- (range_split 1702 2402 8000), <- (range_split 1002 1702 8000),
      <- (range_split 1000 1002 8000) by lia. reflexivity. }
  unfold progress_dots. rewrite L. rewrite !fold_left_app.
  rewrite (dots_segment 1000 0) by (lia || (cbn; tauto) || (vm_compute; reflexivity)).
  rewrite (dots_segment 1002 10) by (lia || (cbn; tauto) || (vm_compute; reflexivity)).
  rewrite (dots_segment 1702 20) by (lia || (cbn; tauto) || (vm_compute; reflexivity)).
  rewrite (dots_segment 2402 30) by (lia || (cbn; tauto) || (vm_compute; reflexivity)).
  rewrite (dots_segment 3102 40) by (lia || (cbn; tauto) || (vm_compute; reflexivity)).
  rewrite (dots_segment 3802 50) by (lia || (cbn; tauto) || (vm_compute; reflexivity)).
  rewrite (dots_segment 4502 60) by (lia || (cbn; tauto) || (vm_compute; reflexivity)).
  rewrite (dots_segment 5202 70) by (lia || (cbn; tauto) || (vm_compute; reflexivity)).
  rewrite (dots_segment 5902 80) by (lia || (cbn; tauto) || (vm_compute; reflexivity)).
  rewrite (dots_segment 6602 90) by (lia || (cbn; tauto) || (vm_compute; reflexivity)).
  rewrite (dots_idle 7302 8000); [reflexivity|lia|lia|vm_compute; reflexivity|apply small_floats; cbn; tauto].
Qed.
