(** The tempo computed by extractors.py:18-26. *)
From Coq Require Import ZArith List Bool Lia ZifyBool Reals SpecFloat Lra.
From Flocq Require Import Core IEEE754.BinarySingleNaN.
From Verif.Model Require Import Py PyFloat Config Note State Ticks Extract.
From Verif.Spec Require Import Rhythm.
From Verif.Proofs Require Import PyLemmas TickProofs FloatProofs TempoProofs TempoProofs2.
Import ListNotations.
Open Scope R_scope.

Lemma fmt_four x : generic_format radix2 fx x -> generic_format radix2 fx (x * 4).
Proof.
  change fx with (FLT_exp (-1074) 53). intro H.
  apply FLT_format_generic in H; [|exact Hprec]. destruct H as [[m e] -> H1 H2]. cbn [Fnum Fexp] in *.
  apply generic_format_FLT. exists (Float radix2 m (e + 2)).
  - unfold F2R. cbn [Fnum Fexp]. rewrite bpow_plus. change (bpow radix2 2) with 4. ring.
  - exact H1.
  - cbn [Fexp]. lia.
Qed.

Definition note_len (t : Z) : R := rnd (IZR t / IZR 44100).
Definition beats (t : Z) : R := rnd (60 / (note_len t * 4)).

Lemma rnd_opp x : rnd (- x) = - rnd x.
Proof. unfold rnd. apply round_NE_opp. Qed.
Lemma note_len_opp t : note_len (- t) = - note_len t.
Proof. unfold note_len. rewrite opp_IZR. rewrite <- rnd_opp. f_equal. field. Qed.

Lemma note_len_pos t : (0 < t)%Z ->
  let x := IZR t / IZR 44100 in 0 < x /\ Rabs (note_len t - x) <= u53 * x.
Proof.
  intros H x. assert (0 < IZR t) by now apply IZR_lt.
  assert (P : 0 < x) by (unfold x; apply Rdiv_lt_0_compat; lra).
  split; [assumption|]. unfold note_len. fold x.
  rewrite <- (Rabs_pos_eq x) at 3 by lra. apply rel_err. right. rewrite Rabs_pos_eq by lra.
  apply Rle_trans with (/ IZR 44100); [apply small_big; lia|].
  unfold x, Rdiv. rewrite <- (Rmult_1_l (/ IZR 44100)) at 1. apply Rmult_le_compat_r; [lra|].
  apply (IZR_le 1). lia.
Qed.
Lemma u53_small : 0 < u53 < / 1000000000000000.
Proof.
  split; [apply bpow_gt_0|]. rewrite u53_eq. apply Rinv_lt; [lra|]. apply IZR_lt. lia.
Qed.
Lemma note_len_low t : (0 < t)%Z -> / 50000 < note_len t.
Proof.
  intro H. destruct (note_len_pos t H) as [P E]. set (x := IZR t / IZR 44100) in *.
  assert (/ 44100 <= x).
  { unfold x, Rdiv. rewrite <- (Rmult_1_l (/ 44100)) at 1. apply Rmult_le_compat_r; [lra|]. apply (IZR_le 1). lia. }
  apply Rabs_le_inv in E. pose proof u53_small.
  assert (u53 * x <= / 1000000000000000 * x) by (apply Rmult_le_compat_r; lra). lra.
Qed.

Lemma beats_small n : / 50000 < n -> 0 <= 60 / (n * 4) <= 750000.
Proof.
  intro H. split.
  - apply Rlt_le, Rdiv_lt_0_compat; lra.
  - apply Rmult_le_reg_r with (n * 4); [lra|]. unfold Rdiv. rewrite Rmult_assoc, Rinv_l; lra.
Qed.
Lemma half_fmt : rnd (/ 2) = / 2.
Proof. apply rnd_id. change (/ 2) with (bpow radix2 (-1)). change fx with (FLT_exp (-1074) 53). apply generic_format_bpow. unfold FLT_exp. lia. Qed.
Lemma abs_half x : Rabs x <= / 2 -> Rabs (rnd x) <= / 2.
Proof.
  intro H. apply Rabs_le_inv in H. apply Rabs_le. destruct H as [H1 H2].
  apply rnd_mono in H1, H2. rewrite rnd_opp, half_fmt in H1. rewrite half_fmt in H2. auto.
Qed.
Lemma trunc_half x : Rabs x <= / 2 -> Ztrunc x = 0%Z.
Proof.
  intro H. apply Rabs_le_inv in H. destruct (Rle_or_lt 0 x).
  - rewrite Ztrunc_floor by assumption. apply Zfloor_imp. cbn. lra.
  - rewrite Ztrunc_ceil by lra. apply Zceil_imp. cbn. lra.
Qed.

Lemma bpm_real t : t <> 0%Z ->
  if Rlt_bool (Rabs (note_len t)) huge then bpm_of t = Ok (Ztrunc (beats t))
  else bpm_of t = Err OverflowError.
Proof.
  intro Ht.
  assert (LOW : / 50000 < Rabs (note_len t)).
  { destruct (Z_lt_le_dec 0 t).
    - pose proof (note_len_low t). rewrite Rabs_pos_eq; [auto|]. assert (/ 50000 < note_len t) by auto. lra.
    - rewrite <- Rabs_Ropp, <- note_len_opp. pose proof (note_len_low (- t)).
      assert (/ 50000 < note_len (- t)) by (apply H; lia). rewrite Rabs_pos_eq; lra. }
  assert (N0 : note_len t <> 0) by (intro E; rewrite E, Rabs_R0 in LOW; lra).
  unfold bpm_of. change sample_freq with 44100%Z. change notes_per_beat with 4%Z.
  pose proof (true_div_spec t 44100) as D. fold (note_len t) in D. specialize (D ltac:(lia)).
  destruct (Rlt_bool (Rabs (note_len t)) huge); [|now rewrite D].
  destruct D as (f & E & V). rewrite E. cbn [bind].
  destruct four_val as (four & E4 & V4). rewrite E4. cbn [bind].
  destruct sixty_val as (sixty & E60 & V60). rewrite E60. cbn [bind].
  assert (R4 : rnd (note_len t * 4) = note_len t * 4) by (apply rnd_id, fmt_four; eapply val_format; eassumption).
  destruct (Rlt_or_le (Rabs (note_len t * 4)) huge) as [L|L].
  - pose proof (mul_val _ _ _ _ V V4) as VM. rewrite R4 in VM. specialize (VM L).
    pose proof (fdiv_spec _ _ _ _ V60 VM) as VD. specialize (VD ltac:(lra)).
    fold (beats t) in VD. rewrite below_huge in VD.
    + destruct VD as (g & Eg & Vg). rewrite Eg. cbn [bind]. now apply trunc_val.
    + destruct (Rle_or_lt 0 (note_len t)) as [Pn|Pn].
      * rewrite Rabs_pos_eq in LOW by assumption. destruct (beats_small _ LOW) as [B0 B1].
        apply rnd_mono in B0, B1. rewrite (rnd_int 0) in B0 by lia. rewrite (rnd_int 750000) in B1 by lia.
        unfold beats. rewrite Rabs_pos_eq by assumption. eapply Rle_trans; [exact B1|]. apply IZR_le. lia.
      * rewrite Rabs_left in LOW by assumption. destruct (beats_small _ LOW) as [B0 B1].
        apply rnd_mono in B0, B1. rewrite (rnd_int 0) in B0 by lia. rewrite (rnd_int 750000) in B1 by lia.
        replace (60 / (- note_len t * 4)) with (- (60 / (note_len t * 4))) in B0, B1 by (field; lra).
        rewrite rnd_opp in B0, B1. fold (beats t) in B0, B1. rewrite <- Rabs_Ropp.
        rewrite Rabs_pos_eq by assumption. eapply Rle_trans; [exact B1|]. apply IZR_le. lia.
  - destruct (mul_inf _ _ _ _ V V4) as (s & EM); [now rewrite R4|]. rewrite EM.
    destruct (val_finite _ _ V60) as [(s' & -> & E0)|(s' & m & e & -> & _)]; [lra|].
    cbn. f_equal. symmetry. apply trunc_half, abs_half.
    unfold Rdiv. rewrite Rabs_mult, Rabs_inv. rewrite (Rabs_pos_eq 60) by lra.
    assert (120 <= Rabs (note_len t * 4)).
    { eapply Rle_trans; [|exact L]. apply Rle_trans with (bpow radix2 7); [cbn; lra|]. apply bpow_le. lia. }
    apply Rmult_le_reg_r with (Rabs (note_len t * 4)); [lra|]. rewrite Rmult_assoc, Rinv_l by lra. lra.
Qed.

(** No overflow below the limit, and only below. *)
Lemma huge_fmt : generic_format radix2 fx huge.
Proof. change fx with (FLT_exp (-1074) 53). apply generic_format_bpow. unfold FLT_exp. lia. Qed.
Lemma pred_huge : pred radix2 fx huge = huge - bpow radix2 971.
Proof. unfold huge. rewrite pred_bpow. reflexivity. Qed.
Lemma p971 : bpow radix2 971 = 2 * bpow radix2 970.
Proof. change 971%Z with (1 + 970)%Z. rewrite bpow_plus. reflexivity. Qed.
Lemma limit_real : IZR float_limit / IZR 44100 = huge - bpow radix2 970.
Proof.
  unfold float_limit. rewrite mult_IZR, minus_IZR.
  change 2%Z with (radix_val radix2). rewrite !IZR_Zpower by lia. unfold huge. field.
Qed.
Lemma below_limit t : (0 < t < float_limit)%Z -> note_len t < huge.
Proof.
  intro H. assert (X : IZR t / IZR 44100 < huge - bpow radix2 970).
  { rewrite <- limit_real. apply Rmult_lt_compat_r; [lra|]. apply IZR_lt. lia. }
  assert (note_len t <= pred radix2 fx huge).
  { unfold note_len, rnd. apply round_N_le_midp; [typeclasses eauto|apply generic_format_pred; [typeclasses eauto|apply huge_fmt]|].
    rewrite succ_pred; [|typeclasses eauto|apply huge_fmt]. rewrite pred_huge, p971. lra. }
  rewrite pred_huge in H0. pose proof (bpow_gt_0 radix2 971). lra.
Qed.
Lemma at_limit : bpm_of float_limit = Err OverflowError.
Proof. vm_compute. reflexivity. Qed.
Lemma above_limit t : (float_limit <= t)%Z -> huge <= note_len t.
Proof.
  intro H. apply Rle_trans with (note_len float_limit).
  - pose proof at_limit as E. pose proof (bpm_real float_limit) as B.
    assert (0 < float_limit)%Z by reflexivity. specialize (B ltac:(lia)).
    destruct (Rlt_bool_spec (Rabs (note_len float_limit)) huge) as [L|L]; [congruence|].
    rewrite Rabs_pos_eq in L; [assumption|]. pose proof (note_len_low float_limit). assert (/ 50000 < note_len float_limit) by auto. lra.
  - apply rnd_mono. apply Rmult_le_compat_r; [lra|]. now apply IZR_le.
Qed.

(** The value is within 1/t of the exact quotient. *)
Lemma beats_close t : (0 < t < float_limit)%Z -> Rabs (beats t * IZR t - 661500) < 1.
Proof.
  intro H. destruct (note_len_pos t) as [P E]; [lia|]. set (x := IZR t / IZR 44100) in *.
  pose proof (note_len_low t) as LOW. specialize (LOW ltac:(lia)).
  pose proof (below_limit t H) as HI. pose proof u53_small as [U0 U1].
  set (n := note_len t) in *. set (w := 60 / (n * 4)).
  assert (W : 0 < w) by (unfold w; apply Rdiv_lt_0_compat; lra).
  assert (EV : Rabs (beats t - w) <= u53 * w).
  { unfold beats. fold n. fold w. rewrite <- (Rabs_pos_eq w) at 3 by lra. apply rel_err. right.
    rewrite Rabs_pos_eq by lra.
    assert (w = 15 * / n) as -> by (unfold w; field; lra).
    apply Rle_trans with (bpow radix2 3 * / huge).
    - unfold huge. rewrite <- bpow_opp, <- bpow_plus. apply bpow_le. lia.
    - apply Rmult_le_compat; [apply bpow_ge_0|apply Rlt_le, Rinv_0_lt_compat, bpow_gt_0|cbn; lra|].
      apply Rinv_le; lra. }
  assert (Ht : IZR t = 44100 * x) by (unfold x; field).
  assert (Wx : w * n = 15) by (unfold w; field; lra).
  apply Rabs_le_inv in E, EV.
  (* w*x is within a relative error of 15 *)
  assert (A1 : w * x * (1 - u53) <= 15).
  { rewrite <- Wx. rewrite Rmult_assoc. apply Rmult_le_compat_l; lra. }
  assert (A2 : 15 <= w * x * (1 + u53)).
  { rewrite <- Wx. rewrite Rmult_assoc. apply Rmult_le_compat_l; lra. }
  set (z := w * x) in *.
  assert (Z16 : z <= 16).
  { assert (z * (1 - / 1000000000000000) <= z * (1 - u53)); [|lra].
    apply Rmult_le_compat_l; [|lra]. apply Rlt_le, Rmult_lt_0_compat; lra. }
  assert (Z0 : 0 < z) by (apply Rmult_lt_0_compat; lra).
  assert (zu : z * u53 <= 16 * / 1000000000000000) by (apply Rmult_le_compat; lra).
  assert (EZ : beats t * x <= z + z * u53 /\ z - z * u53 <= beats t * x).
  { unfold z. split.
    - replace (w * x + w * x * u53) with ((w + u53 * w) * x) by ring. apply Rmult_le_compat_r; lra.
    - replace (w * x - w * x * u53) with ((w - u53 * w) * x) by ring. apply Rmult_le_compat_r; lra. }
  rewrite Ht. replace (beats t * (44100 * x) - 661500) with (44100 * (beats t * x - 15)) by ring.
  apply Rabs_lt. split; lra.
Qed.

Lemma beats_floor t : (0 < t < float_limit)%Z -> (661500 mod t <> 0)%Z -> Ztrunc (beats t) = (661500 / t)%Z.
Proof.
  intros H Hm. pose proof (beats_close t H) as C. apply Rabs_lt_inv in C.
  assert (0 < IZR t) by (apply IZR_lt; lia).
  pose proof (Z.div_mod 661500 t ltac:(lia)) as DM.
  pose proof (Z.mod_pos_bound 661500 t ltac:(lia)) as MB.
  set (q := (661500 / t)%Z) in *. set (r := (661500 mod t)%Z) in *.
  apply (f_equal IZR) in DM. rewrite plus_IZR, mult_IZR in DM.
  assert (1 <= IZR r) by (apply (IZR_le 1); lia).
  assert (IZR r <= IZR t - 1) by (rewrite <- minus_IZR; apply IZR_le; lia).
  assert (B1 : IZR q <= beats t) by (apply Rmult_le_reg_r with (IZR t); lra).
  assert (B2 : beats t < IZR q + 1) by (apply Rmult_lt_reg_r with (IZR t); lra).
  assert (0 <= IZR q) by (apply IZR_le; unfold q; apply Z.div_pos; lia).
  rewrite Ztrunc_floor by lra. apply Zfloor_imp. rewrite plus_IZR. lra.
Qed.

Open Scope Z_scope.
Definition divisor_ok (d : Z) : bool :=
  match bpm_of d with Ok b => b =? tempo d | Err _ => false end.
Definition divisors_ok : bool :=
  forallb (fun d => if 661500 mod d =? 0 then divisor_ok d && divisor_ok (661500 / d) else true) (py_range 1 814).
Lemma divisors_checked : divisors_ok = true.
Proof. vm_compute. reflexivity. Qed.
Lemma divisor_tempo t : 0 < t -> 661500 mod t = 0 -> bpm_of t = Ok (tempo t).
Proof.
  intros Ht Hm. pose proof divisors_checked as C. unfold divisors_ok in C. rewrite forallb_forall in C.
  assert (D : forall d, divisor_ok d = true -> bpm_of d = Ok (tempo d)).
  { intros d. unfold divisor_ok. destruct (bpm_of d); [|discriminate]. intro. f_equal. lia. }
  pose proof (Z.div_mod 661500 t ltac:(lia)) as DM. rewrite Hm in DM. set (k := 661500 / t) in *.
  destruct (Z_lt_le_dec t 814).
  - specialize (C t). rewrite py_range_in, Hm in C. cbn iota in C.
    change (0 =? 0) with true in C. cbn iota in C. apply D.
    specialize (C ltac:(lia)). apply andb_true_iff in C. apply C.
  - assert (0 < k < 814) by nia. specialize (C k). rewrite py_range_in in C.
    assert (661500 / k = t) as E by (symmetry; apply Z.div_unique_exact; lia).
    assert (661500 mod k = 0) as E2.
    { apply Z.mod_divide; [lia|]. exists t. lia. }
    rewrite E2, E in C. change (0 =? 0) with true in C. cbn iota in C. apply D.
    specialize (C ltac:(lia)). apply andb_true_iff in C. apply C.
Qed.

Lemma dip_divides t : mem t dips = true -> 661500 mod t = 0.
Proof. intro H. apply mem_in in H. cbn in H. decompose [or] H; subst; try reflexivity; contradiction. Qed.

Lemma tempo_ok t : 0 < t < float_limit -> bpm_of t = Ok (tempo t).
Proof.
  intro H. destruct (Z.eq_dec (661500 mod t) 0) as [E|E]; [apply divisor_tempo; lia|].
  pose proof (bpm_real t ltac:(lia)) as B.
  rewrite Rlt_bool_true in B.
  - rewrite B. f_equal. rewrite beats_floor by assumption. unfold tempo.
    destruct (mem t dips) eqn:M; [apply dip_divides in M; congruence|lia].
  - rewrite Rabs_pos_eq; [now apply below_limit|]. pose proof (note_len_low t ltac:(lia)). lra.
Qed.
Lemma tempo_neg t : 0 < t < float_limit -> bpm_of (- t) = Ok (- tempo t).
Proof.
  intro H. pose proof (tempo_ok t H) as T. pose proof (bpm_real t ltac:(lia)) as B.
  pose proof (bpm_real (- t) ltac:(lia)) as B'.
  rewrite note_len_opp, Rabs_Ropp in B'.
  destruct (Rlt_bool _ _); [|congruence]. rewrite B'. rewrite T in B. injection B as ->.
  f_equal. rewrite <- Ztrunc_opp. f_equal. unfold beats. rewrite <- rnd_opp. f_equal.
  rewrite note_len_opp. field. pose proof (note_len_low t ltac:(lia)). lra.
Qed.
Lemma tempo_overflow t : float_limit <= Z.abs t -> bpm_of t = Err OverflowError.
Proof.
  intro H. assert (0 < float_limit) by reflexivity. pose proof (bpm_real t ltac:(lia)) as B.
  rewrite Rlt_bool_false in B; [assumption|].
  destruct (Z.abs_eq_or_opp t) as [E|E]; rewrite E in H.
  - pose proof (above_limit t H). rewrite Rabs_pos_eq; [assumption|].
    apply Rle_trans with huge; [apply bpow_ge_0|assumption].
  - pose proof (above_limit (- t) H) as A. rewrite note_len_opp in A. rewrite <- Rabs_Ropp, Rabs_pos_eq; [assumption|].
    apply Rle_trans with huge; [apply bpow_ge_0|assumption].
Qed.
Lemma tempo_zero : bpm_of 0 = Err ZeroDivisionError.
Proof. reflexivity. Qed.
