(** The floating-point operations of Model/PyFloat.v compute rounded reals. *)
From Coq Require Import ZArith Reals SpecFloat Lia Lra Psatz.
From Flocq Require Import Core IEEE754.BinarySingleNaN.
From Verif.Model Require Import Py PyFloat.
Open Scope R_scope.

Definition fx : Z -> Z := SpecFloat.fexp 53 1024.
Definition rnd (x : R) : R := round radix2 fx ZnearestE x.
Definition huge : R := bpow radix2 1024.

Global Instance Hprec : Prec_gt_0 53. Proof. easy. Qed.
Global Instance Hmax : Prec_lt_emax 53 1024. Proof. easy. Qed.
Global Instance fx_valid : Valid_exp fx. Proof. apply (fexp_correct 53 1024 Hprec). Qed.

(** [f] is a finite float of value [x]. *)
Definition val (f : pyfloat) (x : R) : Prop :=
  valid_binary 53 1024 f = true /\ is_finite_SF f = true /\ SF2R radix2 f = x.

Lemma round_nearest_even_equiv s m l : round_nearest_even m l = choice_mode mode_NE s m l.
Proof.
  destruct l as [|c]; [reflexivity|]. destruct c; try reflexivity.
  cbn. unfold Round.cond_incr. destruct (Z.even m); reflexivity.
Qed.
Lemma binary_round_aux_equiv sx mx ex lx :
  SpecFloat.binary_round_aux 53 1024 sx mx ex lx
  = BinarySingleNaN.binary_round_aux 53 1024 mode_NE sx mx ex lx.
Proof.
  unfold SpecFloat.binary_round_aux, BinarySingleNaN.binary_round_aux.
  destruct (shr_fexp 53 1024 mx ex lx) as [mrs' e'].
  rewrite (round_nearest_even_equiv sx). reflexivity.
Qed.

Lemma F2R_int s p : F2R (Float radix2 (cond_Zopp s (Z.pos p)) 0) = IZR (cond_Zopp s (Z.pos p)).
Proof. unfold F2R; cbn. lra. Qed.

Lemma cond_abs a p : (Z.abs a = Z.pos p)%Z -> cond_Zopp (a <? 0)%Z (Z.pos p) = a.
Proof. intro H. destruct (Z.ltb_spec a 0); cbn [cond_Zopp]; lia. Qed.

Lemma true_div_spec a b : b <> 0%Z ->
  if Rlt_bool (Rabs (rnd (IZR a / IZR b))) huge
  then exists f, true_div a b = Ok f /\ val f (rnd (IZR a / IZR b))
  else true_div a b = Err OverflowError.
Proof.
  intro Hb. unfold true_div.
  destruct (Z.eq_dec a 0) as [->|Ha].
  - replace (IZR 0 / IZR b) with 0 by (field; now apply (not_0_IZR b)).
    unfold rnd. rewrite round_0 by typeclasses eauto. rewrite Rabs_R0, Rlt_bool_true by apply bpow_gt_0.
    destruct b; [lia| |]; eexists; (split; [reflexivity|]); repeat split.
  - assert (exists p, Z.abs a = Z.pos p) as [p Hp] by (destruct a; [lia|eexists; reflexivity..]).
    assert (exists q, Z.abs b = Z.pos q) as [q Hq] by (destruct b; [lia|eexists; reflexivity..]).
    pose proof (Bdiv_correct_aux 53 1024 Hprec Hmax mode_NE (a <? 0)%Z p 0 (b <? 0)%Z q 0) as H.
    cbv zeta in H. rewrite !F2R_int in H. rewrite (cond_abs a p Hp), (cond_abs b q Hq) in H.
    rewrite Hp, Hq. unfold prec64, emax64.
    destruct (SFdiv_core_binary 53 1024 (Z.pos p) 0 (Z.pos q) 0) as [[mz ez] lz].
    rewrite binary_round_aux_equiv.
    change (SpecFloat.fexp 53 1024) with fx in H. change (round_mode mode_NE) with ZnearestE in H.
    fold (rnd (IZR a / IZR b)) in H. fold huge in H.
    destruct H as [Hv H].
    destruct (Rlt_bool (Rabs (rnd (IZR a / IZR b))) huge).
    + destruct H as (H1 & H2 & H3).
      destruct b as [|b|b]; [lia| |]; (destruct a as [|a|a]; [lia| |]);
        destruct (BinarySingleNaN.binary_round_aux _ _ _ _ _ _ _) eqn:E;
        try discriminate H2; eexists; (split; [reflexivity|]); repeat split; assumption.
    + destruct b as [|b|b]; [lia| |]; (destruct a as [|a|a]; [lia| |]);
        rewrite H; reflexivity.
Qed.

Lemma val_finite f x : val f x ->
  (exists s, f = S754_zero s /\ x = 0) \/
  (exists s m e, f = S754_finite s m e /\ x = F2R (Float radix2 (cond_Zopp s (Z.pos m)) e)
                 /\ bounded 53 1024 m e = true).
Proof.
  intros (Hv & Hf & Hx). destruct f; try discriminate.
  - left. eexists; split; [reflexivity|now symmetry].
  - right. do 3 eexists. split; [reflexivity|]. split; [now symmetry|exact Hv].
Qed.

Lemma mul_val x y rx ry : val x rx -> val y ry -> Rabs (rnd (rx * ry)) < huge ->
  val (float_mul x y) (rnd (rx * ry)).
Proof.
  intros Hx Hy Hs.
  assert (R0 : rnd 0 = 0) by (unfold rnd; apply round_0; typeclasses eauto).
  destruct (val_finite _ _ Hx) as [(s & -> & ->)|(s & m & e & -> & Ex & Bx)].
  { rewrite Rmult_0_l, R0 in *.
    destruct (val_finite _ _ Hy) as [(s' & -> & ->)|(s' & m' & e' & -> & Ey & By)]; repeat split. }
  destruct (val_finite _ _ Hy) as [(s' & -> & ->)|(s' & m' & e' & -> & Ey & By)].
  { rewrite Rmult_0_r, R0 in *. repeat split. }
  unfold float_mul, SFmul, prec64, emax64. rewrite binary_round_aux_equiv.
  pose proof (Bmult_correct_aux 53 1024 Hprec Hmax mode_NE s m e Bx s' m' e' By) as H.
  cbv zeta in H. rewrite <- Ex, <- Ey in H. destruct H as [Hv H].
  change (round radix2 (SpecFloat.fexp 53 1024) (round_mode mode_NE) (rx * ry)) with (rnd (rx * ry)) in H.
  fold huge in H. rewrite Rlt_bool_true in H by assumption.
  destruct H as (H1 & H2 & H3). repeat split; assumption.
Qed.

Lemma fdiv_spec x y rx ry : val x rx -> val y ry -> ry <> 0 ->
  if Rlt_bool (Rabs (rnd (rx / ry))) huge
  then exists f, float_div x y = Ok f /\ val f (rnd (rx / ry))
  else exists s, float_div x y = Ok (S754_infinity s).
Proof.
  intros Hx Hy Hn.
  assert (R0 : rnd 0 = 0) by (unfold rnd; apply round_0; typeclasses eauto).
  destruct (val_finite _ _ Hy) as [(s' & -> & ->)|(s' & m' & e' & -> & Ey & By)]; [now destruct Hn|].
  destruct (val_finite _ _ Hx) as [(s & -> & ->)|(s & m & e & -> & Ex & Bx)].
  { replace (0 / ry) with 0 by (field; assumption). rewrite R0, Rabs_R0, Rlt_bool_true by apply bpow_gt_0.
    eexists; split; [reflexivity|]. repeat split. }
  unfold float_div, SFdiv, prec64, emax64.
  pose proof (Bdiv_correct_aux 53 1024 Hprec Hmax mode_NE s m e s' m' e') as H.
  cbv zeta in H. rewrite <- Ex, <- Ey in H.
  destruct (SFdiv_core_binary 53 1024 (Z.pos m) e (Z.pos m') e') as [[mz ez] lz].
  rewrite binary_round_aux_equiv. destruct H as [Hv H].
  change (round radix2 (SpecFloat.fexp 53 1024) (round_mode mode_NE) (rx / ry)) with (rnd (rx / ry)) in H.
  fold huge in H.
  destruct (Rlt_bool (Rabs (rnd (rx / ry))) huge).
  - destruct H as (H1 & H2 & H3). eexists; split; [reflexivity|]. repeat split; assumption.
  - rewrite H. eexists; reflexivity.
Qed.

Lemma ltb_val x y rx ry : val x rx -> val y ry -> float_ltb x y = Rlt_bool rx ry.
Proof.
  intros (Hvx & Hfx & Hx) (Hvy & Hfy & Hy).
  pose proof (Bltb_correct 53 1024 (SF2B x Hvx) (SF2B y Hvy)) as H.
  rewrite !is_finite_SF2B, !B2R_SF2B in H. rewrite Hx, Hy in H. rewrite <- H by assumption.
  unfold float_ltb, SFltb, Bltb. now rewrite !B2SF_SF2B.
Qed.

Lemma trunc_val f x : val f x -> int_of_float f = Ok (Ztrunc x).
Proof.
  intro H. destruct (val_finite _ _ H) as [(s & -> & ->)|(s & m & e & -> & Ex & Bx)].
  - cbn. f_equal. symmetry. apply (Ztrunc_IZR 0).
  - unfold int_of_float. f_equal.
    assert (A : Ztrunc (F2R (Float radix2 (Z.pos m) e))
                = if (0 <=? e)%Z then Z.shiftl (Z.pos m) e else Z.shiftr (Z.pos m) (- e)).
    { destruct (Z.leb_spec 0 e) as [He|He].
      - rewrite Z.shiftl_mul_pow2 by lia.
        unfold F2R; cbn [Fnum Fexp]. rewrite <- (IZR_Zpower radix2) by lia.
        rewrite <- mult_IZR. apply Ztrunc_IZR.
      - rewrite Z.shiftr_div_pow2 by lia.
        rewrite Ztrunc_floor by (apply F2R_ge_0; easy).
        unfold F2R; cbn [Fnum Fexp].
        replace (bpow radix2 e) with (/ IZR (2 ^ (- e))).
        2:{ change 2%Z with (radix_val radix2). rewrite IZR_Zpower by lia. rewrite <- bpow_opp. f_equal; lia. }
        rewrite <- (Zfloor_div (Z.pos m) (2 ^ (-e))); [reflexivity|].
        assert (0 < 2 ^ (- e))%Z by (apply Z.pow_pos_nonneg; lia). lia. }
    rewrite <- A, Ex. destruct s; cbn [cond_Zopp].
    + rewrite F2R_Zopp. now rewrite Ztrunc_opp.
    + reflexivity.
Qed.

Lemma binary_round_equiv s m e :
  SpecFloat.binary_round 53 1024 s m e = BinarySingleNaN.binary_round 53 1024 mode_NE s m e.
Proof.
  unfold SpecFloat.binary_round, BinarySingleNaN.binary_round, shl_align_fexp.
  destruct (shl_align m e (SpecFloat.fexp 53 1024 (Z.pos (digits2_pos m) + e))) as [mz ez].
  apply binary_round_aux_equiv.
Qed.
Lemma binary_normalize_equiv m e sz :
  SpecFloat.binary_normalize 53 1024 m e sz
  = B2SF (BinarySingleNaN.binary_normalize 53 1024 Hprec Hmax mode_NE m e sz).
Proof.
  destruct m as [|p|p]; cbn; [reflexivity|rewrite B2SF_SF2B; apply binary_round_equiv..].
Qed.
Lemma sub_equiv (x y : binary_float 53 1024) : is_finite x = true -> is_finite y = true ->
  float_sub (B2SF x) (B2SF y) = B2SF (Bminus mode_NE x y).
Proof.
  unfold float_sub, prec64, emax64.
  destruct x as [sx|sx| |sx mx ex Bx]; destruct y as [sy|sy| |sy my ey By]; try discriminate; intros _ _.
  - cbn. destruct sx, sy; reflexivity.
  - reflexivity.
  - reflexivity.
  - cbn [B2SF SFsub Bminus]. rewrite <- binary_normalize_equiv. unfold Fplus_naive.
    f_equal. destruct sy; cbn [negb cond_Zopp SpecFloat.cond_Zopp]; lia.
Qed.
Lemma sub_val x y rx ry : val x rx -> val y ry -> Rabs (rnd (rx - ry)) < huge ->
  val (float_sub x y) (rnd (rx - ry)).
Proof.
  intros (Hvx & Hfx & Hx) (Hvy & Hfy & Hy) Hs.
  pose proof (Bminus_correct 53 1024 Hprec Hmax mode_NE (SF2B x Hvx) (SF2B y Hvy)) as H.
  pose proof (sub_equiv (SF2B x Hvx) (SF2B y Hvy)) as E.
  rewrite !is_finite_SF2B in H, E. rewrite !B2R_SF2B, Hx, Hy in H.
  specialize (H Hfx Hfy). specialize (E Hfx Hfy). rewrite !B2SF_SF2B in E. rewrite E.
  change (round radix2 (SpecFloat.fexp 53 1024) (round_mode mode_NE) (rx - ry)) with (rnd (rx - ry)) in H.
  fold huge in H. rewrite Rlt_bool_true in H by assumption. destruct H as (H1 & H2 & _).
  repeat split; [apply valid_binary_B2SF|now rewrite is_finite_SF_B2SF|now rewrite SF2R_B2SF].
Qed.

Lemma mul_inf x y rx ry : val x rx -> val y ry -> huge <= Rabs (rnd (rx * ry)) ->
  exists s, float_mul x y = S754_infinity s.
Proof.
  intros Hx Hy Hs.
  assert (R0 : rnd 0 = 0) by (unfold rnd; apply round_0; typeclasses eauto).
  assert (HP : 0 < huge) by apply bpow_gt_0.
  destruct (val_finite _ _ Hx) as [(s & -> & ->)|(s & m & e & -> & Ex & Bx)].
  { rewrite Rmult_0_l, R0, Rabs_R0 in Hs. lra. }
  destruct (val_finite _ _ Hy) as [(s' & -> & ->)|(s' & m' & e' & -> & Ey & By)].
  { rewrite Rmult_0_r, R0, Rabs_R0 in Hs. lra. }
  unfold float_mul, SFmul, prec64, emax64. rewrite binary_round_aux_equiv.
  pose proof (Bmult_correct_aux 53 1024 Hprec Hmax mode_NE s m e Bx s' m' e' By) as H.
  cbv zeta in H. rewrite <- Ex, <- Ey in H. destruct H as [Hv H].
  change (round radix2 (SpecFloat.fexp 53 1024) (round_mode mode_NE) (rx * ry)) with (rnd (rx * ry)) in H.
  fold huge in H. rewrite Rlt_bool_false in H by assumption. rewrite H. eexists. reflexivity.
Qed.
Lemma val_format f x : val f x -> generic_format radix2 fx x.
Proof.
  intros H. destruct (val_finite _ _ H) as [(s & -> & ->)|(s & m & e & -> & -> & B)].
  - apply generic_format_0.
  - apply generic_format_canonical. apply canonical_bounded. exact B.
Qed.
