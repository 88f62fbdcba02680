(** The CSV's fraction column exists for times below the float range. *)
From Coq Require Import ZArith List Bool Reals Lra Lia.
From Flocq Require Import Core.Core IEEE754.BinarySingleNaN.
From Verif.Model Require Import Py PyFloat Note State Ticks Csv.
From Verif.Spec Require Import Ranges Text Tracker Sheet.
From Verif.Proofs Require Import PyLemmas FloatProofs BpmProofs TempoProofs GridProofs SongProofs CsvProofs.
Open Scope R_scope.

Lemma fraction_ok t tpn : (0 < tpn)%Z -> (0 <= t < tpn * (2 ^ 1024 - 2 ^ 970))%Z ->
  exists fr, csv_fraction t tpn = Ok fr.
Proof.
  intros P H. unfold csv_fraction. pose proof (true_div_spec t tpn ltac:(lia)) as D.
  assert (0 < IZR tpn) by now apply IZR_lt.
  assert (X0 : 0 <= IZR t / IZR tpn).
  { apply Rmult_le_pos; [apply (IZR_le 0); lia|]. apply Rlt_le, Rinv_0_lt_compat. assumption. }
  assert (X : IZR t / IZR tpn < huge - bpow radix2 970).
  { apply Rmult_lt_reg_r with (IZR tpn); [assumption|]. unfold Rdiv. rewrite Rmult_assoc, Rinv_l by lra. rewrite Rmult_1_r.
    replace ((huge - bpow radix2 970) * IZR tpn) with (IZR (tpn * (2 ^ 1024 - 2 ^ 970))).
    - apply IZR_lt. lia.
    - rewrite mult_IZR, minus_IZR. change 2%Z with (radix_val radix2). rewrite !IZR_Zpower by lia. unfold huge. ring. }
  assert (L : rnd (IZR t / IZR tpn) <= pred radix2 fx huge).
  { unfold rnd. apply round_N_le_midp; [typeclasses eauto|apply generic_format_pred; [typeclasses eauto|apply huge_fmt]|].
    rewrite succ_pred; [|typeclasses eauto|apply huge_fmt]. rewrite pred_huge, p971. lra. }
  rewrite pred_huge in L. pose proof (bpow_gt_0 radix2 971).
  assert (0 <= rnd (IZR t / IZR tpn)).
  { apply rnd_mono in X0. rewrite (rnd_int 0) in X0 by lia. exact X0. }
  rewrite Rlt_bool_true in D by (rewrite Rabs_pos_eq; lra).
  destruct D as (f & E & _). rewrite E. cbn [bind]. eauto.
Qed.
