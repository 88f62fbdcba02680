(** The fraction column for negative tick lengths: Python's float % 1 of a negative quotient. *)
From Coq Require Import ZArith List Bool String Reals SpecFloat Lra Lia.
From Flocq Require Import Core.Core IEEE754.BinarySingleNaN.
From Verif.Model Require Import Py PyFloat Note State Ticks Csv.
From Verif.Spec Require Import Text Sheet Decimal.
From Verif.Proofs Require Import PyLemmas FloatProofs BpmProofs TempoProofs DecimalProofs FractionProofs.
Open Scope R_scope.

Lemma add_equiv (x y : binary_float 53 1024) : is_finite x = true -> is_finite y = true ->
  SFadd 53 1024 (B2SF x) (B2SF y) = B2SF (Bplus mode_NE x y).
Proof.
  destruct x as [sx|sx| |sx mx ex Bx]; destruct y as [sy|sy| |sy my ey By]; try discriminate; intros _ _.
  - cbn. destruct sx, sy; reflexivity.
  - reflexivity.
  - reflexivity.
  - cbn [B2SF SFadd Bplus]. rewrite <- binary_normalize_equiv. reflexivity.
Qed.
Lemma add_val x y rx ry : val x rx -> val y ry -> Rabs (rnd (rx + ry)) < huge ->
  val (SFadd 53 1024 x y) (rnd (rx + ry)).
Proof.
  intros (Hvx & Hfx & Hx) (Hvy & Hfy & Hy) Hs.
  pose proof (Bplus_correct 53 1024 Hprec Hmax mode_NE (SF2B x Hvx) (SF2B y Hvy)) as H.
  pose proof (add_equiv (SF2B x Hvx) (SF2B y Hvy)) as E.
  rewrite !is_finite_SF2B in H, E. rewrite !B2R_SF2B, Hx, Hy in H.
  specialize (H Hfx Hfy). specialize (E Hfx Hfy). rewrite !B2SF_SF2B in E. rewrite E.
  change (round radix2 (SpecFloat.fexp 53 1024) (round_mode mode_NE) (rx + ry)) with (rnd (rx + ry)) in H.
  fold huge in H. rewrite Rlt_bool_true in H by assumption. destruct H as (H1 & H2 & _).
  repeat split; [apply valid_binary_B2SF|now rewrite is_finite_SF_B2SF|now rewrite SF2R_B2SF].
Qed.
Lemma normalize_exact_neg p e : (Z.pos p < 2 ^ 53)%Z -> (-1074 <= e <= 0)%Z ->
  val (SpecFloat.binary_normalize 53 1024 (Z.neg p) e false) (- F2R (Float radix2 (Z.pos p) e)).
Proof.
  intros Hp He. rewrite binary_normalize_equiv.
  pose proof (binary_normalize_correct 53 1024 Hprec Hmax mode_NE (Z.neg p) e false) as H.
  assert (FN : F2R (Float radix2 (Z.neg p) e) = - F2R (Float radix2 (Z.pos p) e)).
  { rewrite <- F2R_Zopp. reflexivity. }
  assert (F : generic_format radix2 fx (F2R (Float radix2 (Z.neg p) e))).
  { apply (generic_format_FLT radix2 (-1074) 53). exists (Float radix2 (Z.neg p) e); [reflexivity|exact Hp|cbn; lia]. }
  assert (E : rnd (F2R (Float radix2 (Z.neg p) e)) = F2R (Float radix2 (Z.neg p) e)).
  { unfold rnd. apply round_generic; [typeclasses eauto|exact F]. }
  cbv zeta in H. change (round radix2 (SpecFloat.fexp 53 1024) (round_mode mode_NE)
    (F2R {| Fnum := Z.neg p; Fexp := e |})) with (rnd (F2R (Float radix2 (Z.neg p) e))) in H.
  rewrite E in H. rewrite Rlt_bool_true in H.
  - destruct H as (H1 & H2 & _). rewrite <- FN.
    split; [apply valid_binary_B2SF|]. split; [now rewrite is_finite_SF_B2SF|now rewrite SF2R_B2SF].
  - rewrite FN, Rabs_Ropp, Rabs_pos_eq by (apply F2R_ge_0; cbn; lia).
    apply Rlt_le_trans with (bpow radix2 (53 + e)).
    + unfold F2R. cbn [Fnum Fexp]. rewrite bpow_plus. apply Rmult_lt_compat_r; [apply bpow_gt_0|].
      rewrite <- (IZR_Zpower radix2 53) by lia. apply IZR_lt. exact Hp.
    + apply bpow_le. lia.
Qed.
Lemma one_val : val float_one 1.
Proof.
  split; [reflexivity|]. split; [reflexivity|]. cbn [SF2R float_one]. unfold F2R. cbn [Fnum Fexp cond_Zopp].
  change (bpow radix2 (-52)) with (/ IZR (2 ^ 52)). rewrite Rinv_r; [reflexivity|]. apply not_0_IZR. discriminate.
Qed.

(** x % 1 for x = -z < 0: 0 for an integer, else 1 - (the fractional part of z), rounded. *)
Lemma mod1_neg f z : val f (- z) -> 0 < z ->
  val (float_mod1 f) (if Req_EM_T (z - IZR (Zfloor z)) 0 then 0 else rnd (1 - (z - IZR (Zfloor z)))).
Proof.
  intros H X. destruct (val_finite _ _ H) as [(s & -> & E)|(s & m & e & -> & Ex & Bx)]; [lra|].
  destruct s.
  2:{ exfalso. assert (0 < - z); [|lra]. rewrite Ex. apply F2R_gt_0. reflexivity. }
  cbn [cond_Zopp] in Ex. assert (Ez : z = F2R (Float radix2 (Z.pos m) e)).
  { rewrite <- (Ropp_involutive z), Ex, <- F2R_Zopp. reflexivity. }
  clear Ex. cbn [float_mod1]. destruct (Z.leb_spec 0 e) as [L|L].
  + assert (Zx : z = IZR (Z.pos m * 2 ^ e)).
    { rewrite Ez. unfold F2R. cbn [Fnum Fexp]. rewrite mult_IZR. f_equal. symmetry. apply (IZR_Zpower radix2 e L). }
    rewrite Zx, Zfloor_IZR. destruct (Req_EM_T _ 0); [repeat split|lra].
  + set (d := (2 ^ (- e))%Z). assert (PD : (0 < d)%Z) by (apply Z.pow_pos_nonneg; lia).
    assert (Dx : z = IZR (Z.pos m) / IZR d).
    { rewrite Ez. unfold F2R, Rdiv. cbn [Fnum Fexp]. f_equal. unfold d.
      change 2%Z with (radix_val radix2). rewrite IZR_Zpower by lia. rewrite <- bpow_opp. f_equal. lia. }
    assert (RD : 0 < IZR d) by now apply IZR_lt.
    assert (FL : Zfloor z = (Z.pos m / d)%Z) by (rewrite Dx; apply Zfloor_div; lia).
    assert (R : z - IZR (Zfloor z) = IZR (Z.pos m mod d) / IZR d).
    { rewrite FL, Dx. rewrite (Z.div_mod (Z.pos m) d) at 1 by lia. rewrite plus_IZR, mult_IZR. field. lra. }
    rewrite R. pose proof (Z.mod_pos_bound (Z.pos m) d PD) as MB.
    pose proof (Z.mod_le (Z.pos m) d ltac:(lia) PD) as ML.
    destruct (Z.pos m mod d)%Z as [|p|p] eqn:EM; [|..|lia].
    * replace (IZR 0 / IZR d) with 0 by (field; lra). destruct (Req_EM_T 0 0); [repeat split|lra].
    * assert (PF : IZR (Z.pos p) / IZR d = F2R (Float radix2 (Z.pos p) e)).
      { unfold F2R, Rdiv. cbn [Fnum Fexp]. f_equal. unfold d.
        change 2%Z with (radix_val radix2). rewrite IZR_Zpower by lia. rewrite <- bpow_opp. f_equal. lia. }
      assert (P0 : 0 < IZR (Z.pos p) / IZR d) by (apply Rdiv_lt_0_compat; [apply IZR_lt; lia|assumption]).
      assert (P1 : IZR (Z.pos p) / IZR d < 1).
      { apply Rmult_lt_reg_r with (IZR d); [assumption|]. unfold Rdiv. rewrite Rmult_assoc, Rinv_l by lra.
        rewrite Rmult_1_l, Rmult_1_r. apply IZR_lt. lia. }
      destruct (Req_EM_T _ 0) as [E|_]; [lra|].
      unfold prec64, emax64. destruct (bounded_small m e Bx) as [FM FE].
      pose proof (normalize_exact_neg p e ltac:(lia) ltac:(lia)) as V. rewrite <- PF in V.
      replace (1 - IZR (Z.pos p) / IZR d) with (- (IZR (Z.pos p) / IZR d) + 1) by ring.
      apply add_val; [exact V|exact one_val|].
      assert (U : 0 <= rnd (- (IZR (Z.pos p) / IZR d) + 1) <= 1) by (apply rnd_unit; lra).
      rewrite Rabs_pos_eq by lra. apply Rle_lt_trans with 1; [lra|]. change 1 with (bpow radix2 0). apply bpow_lt. lia.
Qed.

(** As [quotient_rounded], also for t < p. *)
Lemma quotient_rounded2 t p : (0 < p < 2 ^ 53)%Z -> (0 < t < 2 ^ 53)%Z ->
  let x := IZR t / IZR p in
  Rabs (rnd x - x) <= u53 * x /\ Zfloor (rnd x) = (t / p)%Z /\ 0 < rnd x
  /\ ((t mod p = 0)%Z -> rnd x = IZR (t / p)) /\ ((t mod p <> 0)%Z -> IZR (t / p) < rnd x < IZR (t / p) + 1)
  /\ x - IZR (t / p) = IZR (t mod p) / IZR p.
Proof.
  intros P T. cbv zeta. destruct (Z_lt_le_dec t p) as [LT|GE].
  2:{ destruct (quotient_rounded t p ltac:(lia) ltac:(lia)) as (A & B & C & D & E). split; [exact A|]. split; [exact B|].
      split; [|split; [exact C|split; [exact D|exact E]]].
      assert (1 <= t / p)%Z by (apply Z.div_le_lower_bound; lia). apply (IZR_le 1) in H.
      destruct (Z.eq_dec (t mod p) 0) as [M|M]; [rewrite (C M); lra|]. specialize (D M). lra. }
  set (x := IZR t / IZR p). assert (RP : 0 < IZR p) by (apply IZR_lt; lia).
  pose proof (Rinv_0_lt_compat _ RP) as RI.
  assert (X0 : 0 < x) by (apply Rdiv_lt_0_compat; [apply IZR_lt; lia|assumption]).
  assert (DIV : (t / p)%Z = 0%Z) by (apply Z.div_small; lia). assert (MOD : (t mod p)%Z = t) by (apply Z.mod_small; lia).
  assert (XB : bpow radix2 (-53) <= x).
  { change (bpow radix2 (-53)) with (/ IZR (2 ^ 53)). apply Rmult_le_reg_r with (IZR p); [assumption|].
    unfold x, Rdiv. rewrite (Rmult_assoc (IZR t)), Rinv_l by lra. rewrite Rmult_1_r.
    apply Rle_trans with 1; [|apply (IZR_le 1); lia].
    apply Rmult_le_reg_l with (IZR (2 ^ 53)); [apply IZR_lt; reflexivity|]. rewrite <- Rmult_assoc, Rinv_r by (apply not_0_IZR; discriminate).
    rewrite Rmult_1_l, Rmult_1_r. apply IZR_le. lia. }
  assert (ER : Rabs (rnd x - x) <= u53 * x).
  { pose proof (rel_err x) as E. rewrite (Rabs_pos_eq x) in E by lra. apply E. right.
    apply Rle_trans with (bpow radix2 (-53)); [apply bpow_le; lia|assumption]. }
  apply Rabs_le_inv in ER as ER'. pose proof u53_small as US.
  assert (PX : 0 < rnd x).
  { assert (u53 * x <= / 2 * x) by (apply Rmult_le_compat_r; lra). lra. }
  assert (R1 : x <= 1 - / IZR p).
  { apply Rmult_le_reg_r with (IZR p); [assumption|]. unfold x, Rdiv. rewrite Rmult_assoc, Rmult_minus_distr_r, Rinv_l by lra.
    rewrite Rmult_1_l, Rmult_1_r. rewrite <- minus_IZR. apply IZR_le. lia. }
  assert (UP : rnd x < 1).
  { assert (u53 < / IZR p).
    { rewrite u53_eq. apply Rinv_lt_contravar; [apply Rmult_lt_0_compat; [assumption|apply IZR_lt; reflexivity]|]. apply IZR_lt. lia. }
    assert (u53 * x <= u53 * 1) by (apply Rmult_le_compat_l; lra). lra. }
  split; [exact ER|]. split; [|split; [exact PX|split; [|split]]].
  - rewrite DIV. apply Zfloor_imp. cbn. lra.
  - lia.
  - intros _. rewrite DIV. lra.
  - rewrite DIV, MOD. fold x. lra.
Qed.

(** Neighbours in [0, 1]. *)
Lemma format_one g : val g 1 -> format_2 g = "1.0"%string.
Proof.
  intros H. destruct (val_finite _ _ H) as [(s & _ & E)|(s & m & e & -> & Ex & Bx)]; [lra|].
  destruct s.
  { exfalso. assert (1 < 0); [|lra]. rewrite Ex. apply F2R_lt_0. reflexivity. }
  cbn [cond_Zopp] in Ex. unfold format_2. destruct (Z.leb_spec 0 e) as [L|L].
  - unfold format_fraction.
    assert (E : (Z.pos m * 2 ^ e)%Z = 1%Z).
    { apply eq_IZR. rewrite Ex. unfold F2R. cbn [Fnum Fexp]. rewrite mult_IZR. f_equal. apply (IZR_Zpower radix2 e L). }
    rewrite E. reflexivity.
  - assert (E : Z.pos m = (2 ^ (- e))%Z).
    { apply eq_IZR. change 2%Z with (radix_val radix2). rewrite IZR_Zpower by lia.
      unfold F2R in Ex. cbn [Fnum Fexp] in Ex. apply Rmult_eq_reg_r with (bpow radix2 e); [|apply Rgt_not_eq, bpow_gt_0].
      rewrite <- Ex, <- bpow_plus. replace (- e + e)%Z with 0%Z by lia. reflexivity. }
    rewrite E. unfold format_fraction. rewrite Z.leb_refl.
    destruct (Z.eqb_spec (2 ^ (- e)) 0) as [Z0|_]; [|reflexivity]. pose proof (Z.pow_pos_nonneg 2 (- e)). lia.
Qed.

(** What the fraction column shows for a negative tick length. *)
Lemma fraction_column_neg t tpn : (- 2 ^ 53 < tpn < 0)%Z -> (0 < t < 2 ^ 53)%Z ->
  exists s, csv_fraction t tpn = Ok s /\ fraction_down t tpn s.
Proof.
  intros P T. set (p := (- tpn)%Z). unfold fraction_down.
  destruct (quotient_rounded2 t p ltac:(lia) T) as (ER & FL & PX & EX & NX & FR). cbv zeta.
  set (x := IZR t / IZR p) in *. assert (RP : 0 < IZR p) by (apply IZR_lt; lia).
  assert (XT : IZR t / IZR tpn = - x).
  { unfold x, p. rewrite opp_IZR. field. apply not_0_IZR. lia. }
  assert (AX : Rabs (- x) = x).
  { rewrite Rabs_Ropp, Rabs_pos_eq; [reflexivity|]. apply Rlt_le, Rdiv_lt_0_compat; [apply IZR_lt; lia|assumption]. }
  pose proof (true_div_spec t tpn ltac:(lia)) as D. rewrite XT in D.
  assert (RO : rnd (- x) = - rnd x) by (unfold rnd; apply round_NE_opp).
  rewrite RO in D.
  assert (UPX : rnd x < IZR (t / p) + 1) by (destruct (Z.eq_dec (t mod p) 0) as [E|E]; [rewrite (EX E); lra|now apply NX]).
  assert (HU : IZR (t / p) + 1 <= huge).
  { rewrite <- (plus_IZR _ 1). apply Rle_trans with (bpow radix2 53).
    - rewrite <- (IZR_Zpower radix2 53) by lia. apply IZR_le. change (radix_val radix2) with 2%Z.
      assert (t / p <= t)%Z by (apply Z.div_le_upper_bound; nia). lia.
    - apply bpow_le. lia. }
  rewrite Rlt_bool_true in D by (rewrite Rabs_Ropp, Rabs_pos_eq; lra).
  destruct D as (f & ED & V). unfold csv_fraction. rewrite ED. cbn [bind].
  pose proof (mod1_neg f _ V PX) as V1. rewrite FL in V1.
  assert (MN : (t mod tpn = 0 <-> t mod p = 0)%Z).
  { replace tpn with (- p)%Z by (unfold p; lia). split; intro E.
    - apply Z.mod_divide in E; [|lia]. apply Z.mod_divide; [lia|]. destruct E as (k & E). exists (- k)%Z. lia.
    - apply Z_mod_zero_opp_r. exact E. }
  pose proof u53_small as U.
  rewrite XT, AX.
  assert (SL : (1 + x) / IZR (2 ^ 53) = u53 * (1 + x)) by (rewrite u53_eq; unfold Rdiv; ring).
  rewrite SL.
  assert (X0 : 0 < x) by (apply Rdiv_lt_0_compat; [apply IZR_lt; lia|assumption]).
  assert (UX : 0 < u53 * (1 + x)) by (apply Rmult_lt_0_compat; lra).
  destruct (Z.eq_dec (t mod p) 0) as [E|E].
  - rewrite (EX E) in V1. destruct (Req_EM_T _ 0) as [_|N] in V1; [|lra].
    apply format_zero in V1. exists "0.0"%string. rewrite V1. split; [reflexivity|].
    exists 0%Z, 1%Z. split; [reflexivity|]. split; [lia|]. split; [split; [intros; now apply MN|reflexivity]|]. split; [reflexivity|].
    apply MN in E. rewrite E. replace (IZR 0 / IZR (10 ^ 1) - IZR 0 / IZR tpn) with 0; [|unfold Rdiv; ring].
    rewrite Rabs_R0. split; [lra|]. intro Q; contradiction.
  - destruct (NX E) as [N1 N2]. set (y := rnd x - IZR (t / p)) in *.
    destruct (Req_EM_T y 0) as [E0|_] in V1; [unfold y in E0; lra|].
    assert (ET : IZR (t mod tpn) / IZR tpn = 1 - IZR (t mod p) / IZR p).
    { replace tpn with (- p)%Z by (unfold p; lia). rewrite Z_mod_nz_opp_r by assumption. rewrite minus_IZR, opp_IZR. field. lra. }
    assert (YU : 0 < y < 1) by (unfold y; lra).
    assert (Y1 : 0 <= rnd (1 - y) <= 1) by (apply rnd_unit; lra).
    assert (BY : bpow radix2 (-1022) <= 1 - y).
    { (* x stays 1/p away from the next row's start *)
      assert (IZR (t mod p) / IZR p <= 1 - / IZR p).
      { apply Rmult_le_reg_r with (IZR p); [assumption|]. unfold Rdiv. rewrite Rmult_assoc, Rmult_minus_distr_r, Rinv_l by lra.
        rewrite Rmult_1_l, Rmult_1_r. rewrite <- minus_IZR. apply IZR_le. pose proof (Z.mod_pos_bound t p). lia. }
      (* 1 - y is a multiple of 2^-1074-ulp of y; use that y is a float below 1 *)
      assert (FY : generic_format radix2 fx y).
      { destruct (val_finite _ _ V) as [(s & -> & Q)|(s & m & e & Q1 & Q2 & Q3)]; [lra|].
        assert (RX : val (S754_finite false m e) (rnd x)).
        { destruct s; [|exfalso; assert (0 < - rnd x); [rewrite Q2; apply F2R_gt_0; reflexivity|lra]].
          split; [|split; [reflexivity|]]; [exact Q3|]. cbn [SF2R cond_Zopp]. cbn [cond_Zopp] in Q2.
          rewrite <- (Ropp_involutive (rnd x)), Q2, <- F2R_Zopp. reflexivity. }
        pose proof (mod1_val _ _ RX (Rlt_le _ _ PX)) as M1. rewrite FL in M1. exact (val_format _ _ M1). }
      assert (LE : y <= pred radix2 fx 1).
      { apply pred_ge_gt; [typeclasses eauto|exact FY| |lra]. apply (fmt_int 1). cbn. lia. }
      assert (PR : pred radix2 fx 1 = 1 - bpow radix2 (-53)).
      { change 1 with (bpow radix2 0) at 1. rewrite pred_bpow. reflexivity. }
      rewrite PR in LE. apply Rle_trans with (bpow radix2 (-53)); [apply bpow_le; lia|lra]. }
    assert (RY : Rabs (rnd (1 - y) - (1 - y)) <= u53 * (1 - y)).
    { pose proof (rel_err (1 - y)) as Q. rewrite (Rabs_pos_eq (1 - y)) in Q by lra. apply Q. right. exact BY. }
    assert (BP : 0 < 1 - y) by (pose proof (bpow_gt_0 radix2 (-1022)); lra).
    assert (RP' : 0 < rnd (1 - y)).
    { apply Rabs_le_inv in RY. assert (u53 * (1 - y) <= / 2 * (1 - y)) by (apply Rmult_le_compat_r; lra). lra. }
    assert (YX : Rabs (y - IZR (t mod p) / IZR p) <= u53 * x).
    { rewrite <- FR. unfold y. replace (rnd x - IZR (t / p) - (x - IZR (t / p))) with (rnd x - x) by ring. exact ER. }
    assert (CL : Rabs (rnd (1 - y) - IZR (t mod tpn) / IZR tpn) <= u53 * (1 + x)).
    { rewrite ET. apply Rabs_le_inv in YX, RY. assert (u53 * (1 - y) <= u53 * 1) by (apply Rmult_le_compat_l; lra).
      apply Rabs_le. lra. }
    apply Rabs_le_inv in CL.
    assert (FP : float_part (double (- x)) = rnd (1 - y)).
    { rewrite double_rnd, RO. unfold float_part. destruct (Rle_dec 0 (- rnd x)) as [Q|_]; [lra|].
      rewrite Ropp_involutive, FL. fold y. destruct (Req_EM_T y 0) as [Q|_]; [lra|reflexivity]. }
    rewrite FP.
    destruct (Req_EM_T (rnd (1 - y)) 1) as [ONE|NONE].
    + rewrite ONE in *. apply format_one in V1. rewrite V1. exists "1.0"%string. split; [reflexivity|].
      exists 10%Z, 1%Z. split; [reflexivity|]. split; [lia|]. split; [split; [lia|intro Q; apply MN in Q; contradiction]|].
      split; [intro Q; apply MN in Q; contradiction|].
      replace (IZR 10 / IZR (10 ^ 1)) with 1 by (cbn; field). split; [apply Rabs_le; lra|]. intros _. right. split; [reflexivity|reflexivity].
    + destruct (format_unit _ _ V1 ltac:(lra)) as (n & d & ND & Y & ->).
      destruct (fraction_reads n d ND) as (N & K & DE & PN & PK & B1 & B2 & _).
      exists (format_fraction n d). split; [reflexivity|]. exists N, K. split; [assumption|]. split; [assumption|].
      split; [split; [lia|intro Q; apply MN in Q; contradiction]|]. split; [intro Q; apply MN in Q; contradiction|].
      assert (PT : (0 < 10 ^ K)%Z) by now apply pow10_pos.
      assert (RD : 0 < IZR d) by (apply IZR_lt; lia). assert (RK : 0 < IZR (10 ^ K)) by now apply IZR_lt.
      assert (DP : 0 < IZR d * IZR (10 ^ K)) by (apply Rmult_lt_0_compat; assumption).
      assert (DI : IZR N / IZR (10 ^ K) - rnd (1 - y) = IZR (N * d - n * 10 ^ K) / (IZR d * IZR (10 ^ K))).
      { rewrite Y, minus_IZR, !mult_IZR. field. lra. }
      apply IZR_le in B1. rewrite !mult_IZR in B1.
      assert (C1 : Rabs (IZR N / IZR (10 ^ K) - rnd (1 - y)) <= / 200).
      { rewrite DI. unfold Rdiv. rewrite Rabs_mult, <- abs_IZR, (Rabs_pos_eq (/ _)) by (apply Rlt_le, Rinv_0_lt_compat; assumption).
        apply Rmult_le_reg_r with (IZR d * IZR (10 ^ K)); [assumption|]. rewrite Rmult_assoc, Rinv_l by lra. lra. }
      apply Rabs_le_inv in C1. split; [apply Rabs_le; lra|].
      intros _. left. apply (significant_of n d); [assumption|exact Y|reflexivity].
Qed.
