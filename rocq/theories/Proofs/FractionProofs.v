(** How far the CSV's fraction column is from the exact fraction. *)
From Coq Require Import ZArith List Bool String Reals SpecFloat Lra Lia.
From Flocq Require Import Core.Core IEEE754.BinarySingleNaN.
From Verif.Model Require Import Py PyFloat Note State Ticks Csv.
From Verif.Spec Require Import Text Sheet Decimal.
From Verif.Proofs Require Import PyLemmas FloatProofs BpmProofs TempoProofs DecimalProofs.
Open Scope R_scope.

Lemma normalize_exact p e : (Z.pos p < 2 ^ 53)%Z -> (-1074 <= e <= 0)%Z ->
  val (SpecFloat.binary_normalize 53 1024 (Z.pos p) e false) (F2R (Float radix2 (Z.pos p) e)).
Proof.
  intros Hp He. rewrite binary_normalize_equiv.
  pose proof (binary_normalize_correct 53 1024 Hprec Hmax mode_NE (Z.pos p) e false) as H.
  assert (F : generic_format radix2 fx (F2R (Float radix2 (Z.pos p) e))).
  { apply (generic_format_FLT radix2 (-1074) 53). exists (Float radix2 (Z.pos p) e); [reflexivity|exact Hp|cbn; lia]. }
  assert (E : rnd (F2R (Float radix2 (Z.pos p) e)) = F2R (Float radix2 (Z.pos p) e)).
  { unfold rnd. apply round_generic; [typeclasses eauto|exact F]. }
  cbv zeta in H. change (round radix2 (SpecFloat.fexp 53 1024) (round_mode mode_NE)
    (F2R {| Fnum := Z.pos p; Fexp := e |})) with (rnd (F2R (Float radix2 (Z.pos p) e))) in H.
  rewrite E in H. rewrite Rlt_bool_true in H.
  - destruct H as (H1 & H2 & _).
    split; [apply valid_binary_B2SF|]. split; [now rewrite is_finite_SF_B2SF|now rewrite SF2R_B2SF].
  - rewrite Rabs_pos_eq by (apply F2R_ge_0; cbn; lia).
    apply Rlt_le_trans with (bpow radix2 (53 + e)).
    + unfold F2R. cbn [Fnum Fexp]. rewrite bpow_plus. apply Rmult_lt_compat_r; [apply bpow_gt_0|].
      rewrite <- (IZR_Zpower radix2 53) by lia. apply IZR_lt. exact Hp.
    + apply bpow_le. lia.
Qed.

Lemma bounded_small m e : bounded 53 1024 m e = true -> (Z.pos m < 2 ^ 53 /\ -1074 <= e)%Z.
Proof.
  intro B. apply andb_prop in B as [B _]. apply Zeq_bool_eq in B.
  unfold SpecFloat.fexp, SpecFloat.emin in B. rewrite Digits.Zpos_digits2_pos in B.
  split; [|lia]. change 2%Z with (radix_val radix2).
  pose proof (Digits.Zpower_gt_Zdigits radix2 53 (Z.pos m) ltac:(lia)) as P. cbn [Z.abs] in P. exact P.
Qed.
Lemma mod1_val f x : val f x -> 0 <= x -> val (float_mod1 f) (x - IZR (Zfloor x)).
Proof.
  intros H X. destruct (val_finite _ _ H) as [(s & -> & ->)|(s & m & e & -> & Ex & Bx)].
  - cbn [float_mod1]. replace (0 - IZR (Zfloor 0)) with 0 by (rewrite (Zfloor_IZR 0); lra). repeat split.
  - destruct s.
    { exfalso. assert (x < 0); [|lra]. rewrite Ex. apply F2R_lt_0. reflexivity. }
    cbn [cond_Zopp] in Ex. cbn [float_mod1]. destruct (Z.leb_spec 0 e) as [L|L].
    + assert (Zx : x = IZR (Z.pos m * 2 ^ e)).
      { rewrite Ex. unfold F2R. cbn [Fnum Fexp]. rewrite mult_IZR. f_equal. symmetry. apply (IZR_Zpower radix2 e L). }
      rewrite Zx, Zfloor_IZR. replace (_ - _) with 0 by lra. repeat split.
    + set (d := (2 ^ (- e))%Z). assert (PD : (0 < d)%Z) by (apply Z.pow_pos_nonneg; lia).
      assert (Dx : x = IZR (Z.pos m) / IZR d).
      { rewrite Ex. unfold F2R, Rdiv. cbn [Fnum Fexp]. f_equal. unfold d.
        change 2%Z with (radix_val radix2). rewrite IZR_Zpower by lia. rewrite <- bpow_opp. f_equal. lia. }
      assert (RD : 0 < IZR d) by now apply IZR_lt.
      assert (FL : Zfloor x = (Z.pos m / d)%Z) by (rewrite Dx; apply Zfloor_div; lia).
      assert (R : x - IZR (Zfloor x) = IZR (Z.pos m mod d) / IZR d).
      { rewrite FL, Dx. rewrite (Z.div_mod (Z.pos m) d) at 1 by lia. rewrite plus_IZR, mult_IZR. field. lra. }
      rewrite R. pose proof (Z.mod_pos_bound (Z.pos m) d PD) as MB.
      pose proof (Z.mod_le (Z.pos m) d ltac:(lia) PD) as ML.
      destruct (Z.pos m mod d)%Z as [|p|p] eqn:EM; [|..|lia].
      * replace (IZR 0 / IZR d) with 0 by (field; lra). repeat split.
      * replace (IZR (Z.pos p) / IZR d) with (F2R (Float radix2 (Z.pos p) e)).
        2:{ unfold F2R, Rdiv. cbn [Fnum Fexp]. f_equal. unfold d.
            change 2%Z with (radix_val radix2). rewrite IZR_Zpower by lia. rewrite <- bpow_opp. f_equal. lia. }
        unfold prec64, emax64.
        destruct (bounded_small m e Bx) as [FM FE].
        apply normalize_exact; [lia|lia].
Qed.

Lemma format_unit g y : val g y -> 0 < y < 1 ->
  exists n d, (0 < n < d)%Z /\ y = IZR n / IZR d /\ format_2 g = format_fraction n d.
Proof.
  intros H Y. destruct (val_finite _ _ H) as [(s & -> & ->)|(s & m & e & -> & Ex & Bx)]; [lra|].
  destruct s.
  { exfalso. assert (y < 0); [|lra]. rewrite Ex. apply F2R_lt_0. reflexivity. }
  cbn [cond_Zopp] in Ex. destruct (Z.leb_spec 0 e) as [L|L].
  - exfalso. assert (y = IZR (Z.pos m * 2 ^ e)).
    { rewrite Ex. unfold F2R. cbn [Fnum Fexp]. rewrite mult_IZR. f_equal. symmetry. apply (IZR_Zpower radix2 e L). }
    assert (1 <= y); [|lra]. rewrite H0. apply IZR_le. assert (0 < 2 ^ e)%Z by (apply Z.pow_pos_nonneg; lia). nia.
  - exists (Z.pos m), (2 ^ (- e))%Z. set (d := (2 ^ (- e))%Z).
    assert (PD : (0 < d)%Z) by (apply Z.pow_pos_nonneg; lia). assert (RD : 0 < IZR d) by now apply IZR_lt.
    assert (Dx : y = IZR (Z.pos m) / IZR d).
    { rewrite Ex. unfold F2R, Rdiv. cbn [Fnum Fexp]. f_equal. unfold d.
      change 2%Z with (radix_val radix2). rewrite IZR_Zpower by lia. rewrite <- bpow_opp. f_equal. lia. }
    split; [split; [lia|]|].
    + apply lt_IZR. apply Rmult_lt_reg_r with (/ IZR d); [now apply Rinv_0_lt_compat|].
      rewrite Rinv_r by lra. change (IZR (Z.pos m) * / IZR d) with (IZR (Z.pos m) / IZR d). lra.
    + split; [exact Dx|]. unfold format_2. destruct (Z.leb_spec 0 e); [lia|]. reflexivity.
Qed.
Lemma format_zero g : val g 0 -> format_2 g = "0.0"%string.
Proof.
  intros H. destruct (val_finite _ _ H) as [(s & -> & _)|(s & m & e & -> & Ex & Bx)]; [reflexivity|].
  exfalso. symmetry in Ex. apply eq_0_F2R in Ex. destruct s; discriminate.
Qed.

Lemma nearest_of q N D : (0 < D)%Z -> (2 * Z.abs (q * D - N) <= D)%Z ->
  (2 * Z.abs (q * D - N) = D -> Z.even q = true)%Z -> nearest_even (IZR N / IZR D) q.
Proof.
  intros PD A B. assert (RD : 0 < IZR D) by now apply IZR_lt.
  assert (E : Rabs (IZR q - IZR N / IZR D) = IZR (Z.abs (q * D - N)) / IZR D).
  { replace (IZR q - IZR N / IZR D) with (IZR (q * D - N) / IZR D) by (rewrite minus_IZR, mult_IZR; field; lra).
    unfold Rdiv. rewrite Rabs_mult, <- abs_IZR. f_equal. apply Rabs_pos_eq, Rlt_le, Rinv_0_lt_compat. assumption. }
  unfold nearest_even. rewrite E. apply IZR_le in A. rewrite mult_IZR in A. split.
  - apply Rmult_le_reg_r with (IZR D); [assumption|]. unfold Rdiv. rewrite Rmult_assoc, Rinv_l by lra. lra.
  - intro H. apply B. apply eq_IZR. rewrite mult_IZR. apply Rmult_eq_compat_r with (r := IZR D) in H.
    unfold Rdiv in H. rewrite Rmult_assoc, Rinv_l in H by lra. lra.
Qed.
Lemma significant_of n d y s : (0 < n < d)%Z -> y = IZR n / IZR d -> s = format_fraction n d -> two_significant y s.
Proof.
  intros H -> ->. destruct (fraction_reads n d H) as (N & K & DE & PN & PK & _ & _ & k & q & K0 & [S1 S2] & Q1 & Q2 & EQ).
  assert (RD : 0 < IZR d) by (apply IZR_lt; lia).
  exists k, q, N, K. split; [assumption|]. split; [assumption|]. split; [split|split; [|split; assumption]].
  - apply IZR_lt in S1. rewrite mult_IZR in S1. unfold Rdiv. rewrite <- Rmult_assoc.
    apply Rmult_lt_reg_r with (IZR d); [assumption|]. rewrite Rmult_assoc, Rinv_l by lra. lra.
  - apply IZR_le in S2. rewrite mult_IZR in S2. unfold Rdiv. rewrite <- Rmult_assoc.
    apply Rmult_le_reg_r with (IZR d); [assumption|]. rewrite Rmult_assoc, Rinv_l by lra. lra.
  - replace (IZR n / IZR d * IZR (10 ^ (k + 2))) with (IZR (n * 10 ^ (k + 2)) / IZR d) by (rewrite mult_IZR; field; lra).
    apply nearest_of; [lia|assumption|assumption].
Qed.
Lemma double_rnd x : double x = rnd x.
Proof. reflexivity. Qed.

(** The quotient's integer part survives the rounding. *)
Lemma quotient_rounded t tpn : (0 < tpn <= t)%Z -> (t < 2 ^ 53)%Z ->
  let x := IZR t / IZR tpn in
  Rabs (rnd x - x) <= u53 * x /\ Zfloor (rnd x) = (t / tpn)%Z
  /\ ((t mod tpn = 0)%Z -> rnd x = IZR (t / tpn)) /\ ((t mod tpn <> 0)%Z -> IZR (t / tpn) < rnd x < IZR (t / tpn) + 1)
  /\ x - IZR (t / tpn) = IZR (t mod tpn) / IZR tpn.
Proof.
  intros P T. cbv zeta. set (x := IZR t / IZR tpn).
  assert (P' : (0 < tpn)%Z) by lia. assert (N' : (tpn <> 0)%Z) by lia.
  pose proof (Z.mod_pos_bound t tpn P') as MB. pose proof (Z.div_mod t tpn N') as DM.
  assert (A1 : (1 <= t / tpn)%Z) by (apply Z.div_le_lower_bound; lia).
  assert (A2 : (t / tpn <= t)%Z) by (apply Z.div_le_upper_bound; nia).
  set (a := (t / tpn)%Z) in *. set (r := (t mod tpn)%Z) in *.
  assert (RT : 0 < IZR tpn) by now apply IZR_lt.
  pose proof (Rinv_0_lt_compat _ RT) as RI.
  assert (X : x = IZR a + IZR r / IZR tpn).
  { unfold x. rewrite DM, plus_IZR, mult_IZR. field. lra. }
  assert (R0 : 0 <= IZR r / IZR tpn) by (apply Rmult_le_pos; [apply (IZR_le 0); lia|lra]).
  assert (R1 : IZR r / IZR tpn <= 1 - / IZR tpn).
  { apply Rmult_le_reg_r with (IZR tpn); [assumption|]. unfold Rdiv. rewrite Rmult_assoc, Rmult_minus_distr_r, Rinv_l by lra.
    rewrite Rmult_1_l, Rmult_1_r. rewrite <- minus_IZR. apply IZR_le. lia. }
  assert (XA : 1 <= x).
  { apply (IZR_le 1) in A1. lra. }
  assert (ER : Rabs (rnd x - x) <= u53 * x).
  { pose proof (rel_err x) as E. rewrite (Rabs_pos_eq x) in E by lra. apply E. right.
    apply Rle_trans with 1; [|assumption]. change 1 with (bpow radix2 0). apply bpow_le. lia. }
  assert (SM : u53 * x < / IZR tpn).
  { rewrite u53_eq. unfold x, Rdiv. rewrite <- Rmult_assoc. rewrite <- (Rmult_1_l (/ IZR tpn)) at 2.
    apply Rmult_lt_compat_r; [assumption|]. apply Rmult_lt_reg_l with (IZR (2 ^ 53)); [apply IZR_lt; reflexivity|].
    rewrite <- Rmult_assoc, Rinv_r by (apply not_0_IZR; discriminate). rewrite Rmult_1_l, Rmult_1_r. now apply IZR_lt. }
  assert (LO : IZR a <= rnd x).
  { rewrite <- (rnd_int a) by lia. apply rnd_mono. lra. }
  apply Rabs_le_inv in ER as ER'.
  assert (UP : rnd x < IZR a + 1) by lra.
  split; [assumption|]. split; [|split; [|split]].
  - apply Zfloor_imp. rewrite plus_IZR. lra.
  - intro E. rewrite X, E. replace (IZR a + IZR 0 / IZR tpn) with (IZR a) by (field; lra). apply rnd_int. lia.
  - intro E. split; [|assumption]. assert (/ IZR tpn <= IZR r / IZR tpn); [|lra].
    unfold Rdiv. rewrite <- (Rmult_1_l (/ IZR tpn)) at 1. apply Rmult_le_compat_r; [lra|]. apply IZR_le. lia.
  - lra.
Qed.

Lemma fraction_column t tpn : (0 < tpn <= t)%Z -> (t < 2 ^ 53)%Z ->
  exists s, csv_fraction t tpn = Ok s /\ fraction_shown t tpn s.
Proof.
  intros P T. unfold fraction_shown. destruct (quotient_rounded t tpn P T) as (ER & FL & EX & NX & FR). cbv zeta.
  set (x := IZR t / IZR tpn) in *.
  assert (A1 : (0 <= t / tpn)%Z) by (apply Z.div_pos; lia).
  assert (A2 : (t / tpn <= t)%Z) by (apply Z.div_le_upper_bound; nia).
  assert (X0 : 0 <= rnd x < IZR (t / tpn) + 1).
  { pose proof (IZR_le 0 _ A1). destruct (Z.eq_dec (t mod tpn) 0) as [E|E]; [rewrite (EX E); lra|pose proof (NX E); lra]. }
  pose proof (true_div_spec t tpn ltac:(lia)) as D. fold x in D.
  assert (HU : IZR (t / tpn) + 1 <= huge).
  { rewrite <- (plus_IZR _ 1). apply Rle_trans with (bpow radix2 53).
    - rewrite <- (IZR_Zpower radix2 53) by lia. apply IZR_le. change (radix_val radix2) with 2%Z. lia.
    - apply bpow_le. lia. }
  rewrite Rlt_bool_true in D by (rewrite Rabs_pos_eq; lra).
  destruct D as (f & ED & V). unfold csv_fraction. rewrite ED. cbn [bind].
  pose proof (mod1_val f _ V (proj1 X0)) as V1. rewrite FL in V1.
  assert (SL : x / IZR (2 ^ 53) = u53 * x) by (rewrite u53_eq; unfold Rdiv; ring).
  rewrite SL, <- FR.
  pose proof u53_small as U. 
  assert (XP : 0 <= x).
  { unfold x. apply Rmult_le_pos; [apply (IZR_le 0); lia|]. apply Rlt_le, Rinv_0_lt_compat, IZR_lt. lia. }
  assert (UX : 0 <= u53 * x) by (apply Rmult_le_pos; lra).
  destruct (Z.eq_dec (t mod tpn) 0) as [E|E].
  - rewrite (EX E) in V1. replace (IZR (t / tpn) - IZR (t / tpn)) with 0 in V1 by lra.
    apply format_zero in V1. exists "0.0"%string. rewrite V1.
    split; [reflexivity|]. exists 0%Z, 1%Z. split; [reflexivity|]. split; [lia|]. split; [split; [intros; exact E|reflexivity]|].
    split; [reflexivity|].
    rewrite FR, E. replace (IZR 0 / IZR (10 ^ 1) - IZR 0 / IZR tpn) with 0.
    + rewrite Rabs_R0. replace (IZR 0 / IZR tpn) with 0; [|unfold Rdiv; ring].
      split; [lra|]. split; [lra|]. intro Q; contradiction.
    + unfold Rdiv. ring.
  - destruct (NX E) as [N1 N2]. destruct (format_unit _ _ V1 ltac:(lra)) as (n & d & ND & Y & ->).
    destruct (fraction_reads n d ND) as (N & K & DE & PN & PK & B1 & B2 & _).
    exists (format_fraction n d). split; [reflexivity|]. exists N, K. split; [assumption|]. split; [assumption|].
    split; [split; [lia|intro; contradiction]|]. split; [intro; contradiction|].
    set (y := rnd x - IZR (t / tpn)) in *.
    assert (PT : (0 < 10 ^ K)%Z) by now apply pow10_pos.
    assert (RD : 0 < IZR d) by (apply IZR_lt; lia). assert (RK : 0 < IZR (10 ^ K)) by now apply IZR_lt.
    assert (DI : IZR N / IZR (10 ^ K) - y = IZR (N * d - n * 10 ^ K) / (IZR d * IZR (10 ^ K))).
    { rewrite Y, minus_IZR, !mult_IZR. field. lra. }
    assert (DA : Rabs (IZR N / IZR (10 ^ K) - y) = IZR (Z.abs (N * d - n * 10 ^ K)) / (IZR d * IZR (10 ^ K))).
    { rewrite DI. unfold Rdiv. rewrite Rabs_mult, <- abs_IZR. f_equal. apply Rabs_pos_eq.
      apply Rlt_le, Rinv_0_lt_compat, Rmult_lt_0_compat; assumption. }
    assert (DP : 0 < IZR d * IZR (10 ^ K)) by (apply Rmult_lt_0_compat; assumption).
    apply IZR_le in B1, B2. rewrite !mult_IZR in B1, B2. set (A := IZR (Z.abs (N * d - n * 10 ^ K))) in *.
    assert (C1 : Rabs (IZR N / IZR (10 ^ K) - y) <= / 200).
    { rewrite DA. apply Rmult_le_reg_r with (IZR d * IZR (10 ^ K)); [assumption|].
      unfold Rdiv. rewrite Rmult_assoc, Rinv_l by lra. lra. }
    assert (C2 : Rabs (IZR N / IZR (10 ^ K) - y) <= y / 20).
    { rewrite DA. apply Rmult_le_reg_r with (IZR d * IZR (10 ^ K)); [assumption|].
      unfold Rdiv at 1. rewrite Rmult_assoc, Rinv_l by lra. rewrite Y.
      replace (IZR n / IZR d / 20 * (IZR d * IZR (10 ^ K))) with (IZR n * IZR (10 ^ K) / 20) by (field; lra). lra. }
    assert (YX : Rabs (y - (x - IZR (t / tpn))) <= u53 * x).
    { unfold y. replace (rnd x - IZR (t / tpn) - (x - IZR (t / tpn))) with (rnd x - x) by ring. assumption. }
    apply Rabs_le_inv in C1, C2, YX. split; [apply Rabs_le; lra|]. split; [apply Rabs_le; lra|].
    intros _. apply (significant_of n d); [assumption| |reflexivity].
    rewrite double_rnd. unfold float_part. destruct (Rle_dec 0 (rnd x)) as [_|Q]; [|lra]. rewrite FL. exact Y.
Qed.
