(** CRC-32: the table form is the bitwise one; changes within 4 bytes show. *)
From Coq Require Import Lia ZifyBool.
From Verif.Model Require Import Py Core Zip.
From Verif.Spec Require Import VgmFormat ZipReader.

Lemma crc_bit_shift c : crc_bit c = crc_shift c.
Proof.
  unfold crc_bit, crc_shift. rewrite Zmod_odd. rewrite Z.shiftr_div_pow2 by lia. change (2 ^ 1) with 2.
  now destruct (Z.odd c).
Qed.
Lemma shift_lxor a b : crc_shift (Z.lxor a b) = Z.lxor (crc_shift a) (crc_shift b).
Proof.
  unfold crc_shift. rewrite Z.shiftr_lxor.
  assert (O : Z.odd (Z.lxor a b) = xorb (Z.odd a) (Z.odd b)) by now rewrite <- !Z.bit0_odd, Z.lxor_spec.
  rewrite O. set (P := 0xEDB88320). set (x := Z.shiftr a 1). set (y := Z.shiftr b 1).
  destruct (Z.odd a), (Z.odd b); cbn [xorb].
  - rewrite <- Z.lxor_assoc. rewrite (Z.lxor_comm (Z.lxor x P) y), <- Z.lxor_assoc. rewrite (Z.lxor_assoc _ P P), Z.lxor_nilpotent, Z.lxor_0_r.
    apply Z.lxor_comm.
  - rewrite !Z.lxor_assoc. f_equal. apply Z.lxor_comm.
  - now rewrite Z.lxor_assoc.
  - reflexivity.
Qed.
Lemma bits_lxor n : forall a b, crc_bits n (Z.lxor a b) = Z.lxor (crc_bits n a) (crc_bits n b).
Proof. induction n as [|n IH]; intros a b; [reflexivity|]. cbn [crc_bits]. now rewrite !crc_bit_shift, shift_lxor, IH. Qed.
Lemma shift_double z : crc_shift (2 * z) = z.
Proof.
  unfold crc_shift. rewrite Z.odd_mul. cbn [Z.odd andb]. rewrite Z.shiftr_div_pow2 by lia.
  change (2 ^ 1) with 2. rewrite Z.mul_comm. now apply Z.div_mul.
Qed.
Lemma bits_256 z : crc_bits 8 (256 * z) = z.
Proof.
  cbn [crc_bits]. rewrite !crc_bit_shift.
  replace (256 * z) with (2 * (2 * (2 * (2 * (2 * (2 * (2 * (2 * z)))))))) by lia. now rewrite !shift_double.
Qed.
Lemma bits_add a : forall b c, crc_bits (a + b) c = crc_bits b (crc_bits a c).
Proof. induction a as [|a IH]; intros b c; [reflexivity|]. cbn [Nat.add crc_bits]. apply IH. Qed.

Lemma lxor_range n a b : 0 <= n -> 0 <= a < 2 ^ n -> 0 <= b < 2 ^ n -> 0 <= Z.lxor a b < 2 ^ n.
Proof.
  intros Hn Ha Hb. assert (N : 0 <= Z.lxor a b) by (apply Z.lxor_nonneg; lia). split; [exact N|].
  destruct (Z.eq_dec (Z.lxor a b) 0) as [->|D]; [apply Z.pow_pos_nonneg; lia|].
  apply Z.log2_lt_pow2; [lia|]. pose proof (Z.log2_lxor a b ltac:(lia) ltac:(lia)) as L.
  assert (X : forall z, 0 <= z < 2 ^ n -> Z.log2 z < n \/ z = 0).
  { intros z Hz. destruct (Z.eq_dec z 0); [now right|left]. apply Z.log2_lt_pow2; lia. }
  destruct (X a Ha) as [A| ->], (X b Hb) as [B| ->]; try lia.
  - rewrite Z.lxor_0_r in *. lia.
  - rewrite Z.lxor_0_l in *. lia.
  - now rewrite Z.lxor_0_r in D.
Qed.
Definition word (c : Z) : Prop := 0 <= c < 2 ^ 32.
Lemma shift_range c : word c -> word (crc_shift c).
Proof.
  unfold word. intros H. unfold crc_shift. rewrite Z.shiftr_div_pow2 by lia. change (2 ^ 1) with 2.
  assert (0 <= c / 2 < 2 ^ 32) by (split; [apply Z.div_pos; lia|apply Z.div_lt_upper_bound; lia]).
  destruct (Z.odd c); [|assumption]. apply lxor_range; lia.
Qed.
Lemma bits_range n : forall c, word c -> word (crc_bits n c).
Proof. induction n as [|n IH]; intros c H; [exact H|]. cbn [crc_bits]. apply IH. rewrite crc_bit_shift. now apply shift_range. Qed.
Lemma shift_inj a b : word a -> word b -> crc_shift a = crc_shift b -> a = b.
Proof.
  intros Ha Hb E. unfold word in *.
  assert (T : forall c, 0 <= c < 2 ^ 32 -> Z.testbit (crc_shift c) 31 = Z.odd c).
  { intros c Hc. unfold crc_shift.
    assert (S : Z.testbit (Z.shiftr c 1) 31 = false).
    { rewrite Z.shiftr_spec by lia. change (31 + 1) with 32. destruct (Z.eq_dec c 0) as [->|D]; [apply Z.testbit_0_l|].
      apply Z.bits_above_log2; [lia|]. apply Z.log2_lt_pow2; lia. }
    destruct (Z.odd c); [rewrite Z.lxor_spec, S; reflexivity|exact S]. }
  assert (O : Z.odd a = Z.odd b) by (rewrite <- (T a Ha), <- (T b Hb), E; reflexivity).
  unfold crc_shift in E. rewrite O in E.
  assert (S : Z.shiftr a 1 = Z.shiftr b 1).
  { destruct (Z.odd b); [|exact E]. apply (f_equal (fun z => Z.lxor z 0xEDB88320)) in E.
    now rewrite !Z.lxor_assoc, Z.lxor_nilpotent, !Z.lxor_0_r in E. }
  rewrite !Z.shiftr_div_pow2 in S by lia. change (2 ^ 1) with 2 in S.
  pose proof (Z.div_mod a 2 ltac:(lia)) as A. pose proof (Z.div_mod b 2 ltac:(lia)) as B. rewrite Zmod_odd in A, B. rewrite O in A. lia.
Qed.
Lemma bits_inj n : forall a b, word a -> word b -> crc_bits n a = crc_bits n b -> a = b.
Proof.
  induction n as [|n IH]; intros a b Ha Hb E; [exact E|]. cbn [crc_bits] in E. rewrite !crc_bit_shift in E.
  apply shift_inj; [assumption|assumption|]. apply IH; [now apply shift_range|now apply shift_range|exact E].
Qed.

(** ** Table *)
Lemma byte_part c : c = Z.lxor (Z.land c 255) (256 * Z.shiftr c 8).
Proof.
  apply Z.bits_inj'. intros n Hn. rewrite Z.lxor_spec, Z.land_spec.
  replace (256 * Z.shiftr c 8) with (Z.shiftl (Z.shiftr c 8) 8) by (rewrite Z.shiftl_mul_pow2 by lia; change (2 ^ 8) with 256; lia).
  rewrite Z.shiftl_spec by lia.
  assert (M : Z.testbit 255 n = (n <? 8)).
  { change 255 with (Z.ones 8). destruct (Z.ltb_spec n 8); [now apply Z.ones_spec_low|now apply Z.ones_spec_high]. }
  rewrite M. destruct (Z.ltb_spec n 8).
  - rewrite (Z.testbit_neg_r _ (n - 8)) by lia. rewrite andb_true_r, xorb_false_r. reflexivity.
  - rewrite Z.shiftr_spec by lia. rewrite andb_false_r, xorb_false_l. f_equal. lia.
Qed.
Lemma update_bits c b : 0 <= b < 256 -> crc_update c b = crc_bits 8 (Z.lxor c b).
Proof.
  intros Hb. unfold crc_update. rewrite (byte_part (Z.lxor c b)) at 2. rewrite bits_lxor, bits_256.
  f_equal.
  - set (x := Z.land (Z.lxor c b) 255).
    assert (X : 0 <= x < 256).
    { subst x. change 255 with (Z.ones 8). rewrite Z.land_ones by lia. apply Z.mod_pos_bound. lia. }
    unfold crc_table. rewrite nth_indep with (d' := crc_entry (Z.of_nat 0)) by (rewrite map_length, seq_length; lia).
    rewrite (map_nth (fun k => crc_entry (Z.of_nat k))). rewrite seq_nth by lia. cbn [Nat.add]. rewrite Z2Nat.id by lia.
    unfold crc_entry. cbn [crc_bits]. now rewrite !crc_bit_shift.
  - rewrite Z.shiftr_lxor. replace (Z.shiftr b 8) with 0; [now rewrite Z.lxor_0_r|].
    rewrite Z.shiftr_div_pow2 by lia. symmetry. apply Z.div_small. exact Hb.
Qed.
Lemma fold_update : forall l c, bytes l ->
  fold_left crc_update l c = fold_left (fun c b => crc_bits 8 (Z.lxor c b)) l c.
Proof.
  induction l as [|b l IH]; intros c H; [reflexivity|]. inversion H as [|? ? Hb Hl]; subst. cbn [fold_left].
  rewrite update_bits by exact Hb. now apply IH.
Qed.
Lemma crc32_checksum l : bytes l -> crc32 l = checksum l.
Proof. intros H. unfold crc32, checksum. now rewrite fold_update. Qed.

(** ** Bursts *)
Definition feed (l : list Z) (c : Z) : Z := fold_left (fun c b => crc_bits 8 (Z.lxor c b)) l c.
Lemma byte_word b : byte b -> word b.
Proof. unfold byte, word. lia. Qed.
Lemma lxor_word a b : word a -> word b -> word (Z.lxor a b).
Proof. intros. apply lxor_range; [lia|assumption|assumption]. Qed.
Lemma feed_word : forall l c, bytes l -> word c -> word (feed l c).
Proof.
  induction l as [|b l IH]; intros c Hl Hc; [exact Hc|]. inversion Hl as [|? ? Hb Hr]; subst. cbn [feed fold_left].
  apply IH; [assumption|]. apply bits_range, lxor_word; [assumption|now apply byte_word].
Qed.
Lemma checksum_word l : bytes l -> word (checksum l).
Proof. intros H. unfold checksum. apply lxor_word; [|split; reflexivity || discriminate]. apply feed_word; [assumption|split; reflexivity || discriminate]. Qed.
Lemma lxor_cancel a b c : Z.lxor a c = Z.lxor b c -> a = b.
Proof.
  intros E. apply (f_equal (fun z => Z.lxor z c)) in E. now rewrite !Z.lxor_assoc, Z.lxor_nilpotent, !Z.lxor_0_r in E.
Qed.
Lemma feed_inj : forall l a b, bytes l -> word a -> word b -> feed l a = feed l b -> a = b.
Proof.
  induction l as [|x l IH]; intros a b Hl Ha Hb E; [exact E|]. inversion Hl as [|? ? Hx Hr]; subst. cbn [feed fold_left] in E.
  assert (Wx := byte_word _ Hx). apply (lxor_cancel a b x). apply (bits_inj 8); [now apply lxor_word|now apply lxor_word|].
  apply IH; [assumption|apply bits_range; now apply lxor_word|apply bits_range; now apply lxor_word|exact E].
Qed.
Lemma unpack_lxor b r : byte b -> b + 256 * unpack_le r = Z.lxor b (256 * unpack_le r).
Proof.
  intros Hb. unfold byte in Hb. apply Z.add_nocarry_lxor. apply Z.bits_inj'. intros n Hn. rewrite Z.land_spec, Z.bits_0.
  replace (256 * unpack_le r) with (Z.shiftl (unpack_le r) 8) by (rewrite Z.shiftl_mul_pow2 by lia; change (2 ^ 8) with 256; lia).
  rewrite Z.shiftl_spec by lia. destruct (Z.lt_ge_cases n 8) as [L|L].
  - rewrite (Z.testbit_neg_r _ (n - 8)) by lia. apply andb_false_r.
  - destruct (Z.eq_dec b 0) as [->|D]; [now rewrite Z.testbit_0_l|].
    rewrite (Z.bits_above_log2 b n); [reflexivity|lia|]. assert (Z.log2 b < 8) by (apply Z.log2_lt_pow2; lia). lia.
Qed.
Lemma feed_block : forall w c, bytes w -> feed w c = crc_bits (8 * length w) (Z.lxor c (unpack_le w)).
Proof.
  induction w as [|b w IH]; intros c H; [cbn [feed fold_left unpack_le length]; now rewrite Z.lxor_0_r|].
  inversion H as [|? ? Hb Hw]; subst. cbn [feed fold_left]. change (fold_left _ w ?x) with (feed w x). rewrite IH by assumption.
  cbn [length unpack_le]. replace (8 * S (length w))%nat with (8 + 8 * length w)%nat by lia. rewrite bits_add. f_equal.
  rewrite unpack_lxor by assumption. rewrite <- Z.lxor_assoc, (bits_lxor 8 (Z.lxor c b)), bits_256. reflexivity.
Qed.
Lemma unpack_range : forall w, bytes w -> 0 <= unpack_le w < 2 ^ (8 * Z.of_nat (length w)).
Proof.
  induction 1 as [|b w Hb _ IH]; [cbn; lia|]. cbn [unpack_le length]. unfold byte in Hb.
  replace (8 * Z.of_nat (S (length w))) with (8 + 8 * Z.of_nat (length w)) by lia.
  rewrite Z.pow_add_r by lia. change (2 ^ 8) with 256. lia.
Qed.
Lemma unpack_inj : forall w w', bytes w -> bytes w' -> length w = length w' -> unpack_le w = unpack_le w' -> w = w'.
Proof.
  induction w as [|b w IH]; intros [|b' w'] H H' L E; try discriminate; [reflexivity|].
  inversion H as [|? ? Hb Hw]; subst. inversion H' as [|? ? Hb' Hw']; subst. cbn [unpack_le] in E. unfold byte in *.
  assert (b = b' /\ unpack_le w = unpack_le w') as [-> U] by lia. f_equal. apply IH; [assumption|assumption|now injection L|exact U].
Qed.
Lemma feed_app a b c : feed (a ++ b) c = feed b (feed a c).
Proof. unfold feed. apply fold_left_app. Qed.
Lemma burst p w w' q : bytes (p ++ w ++ q) -> bytes w' -> length w = length w' -> (length w <= 4)%nat ->
  checksum (p ++ w ++ q) = checksum (p ++ w' ++ q) -> w = w'.
Proof.
  intros H Hw' L L4 E. apply Forall_app in H as [Hp H]. apply Forall_app in H as [Hw Hq].
  unfold checksum in E. apply lxor_cancel in E. change (feed (p ++ w ++ q) 0xFFFFFFFF = feed (p ++ w' ++ q) 0xFFFFFFFF) in E.
  rewrite !feed_app in E. set (c := feed p 0xFFFFFFFF) in *.
  assert (Wc : word c) by (apply feed_word; [assumption|split; reflexivity || discriminate]).
  apply feed_inj in E; [|assumption|now apply feed_word|now apply feed_word].
  rewrite !feed_block in E by assumption. rewrite <- L in E.
  assert (R : forall v, bytes v -> (length v <= 4)%nat -> word (unpack_le v)).
  { intros v Hv Lv. pose proof (unpack_range v Hv) as U. unfold word. split; [lia|].
    apply Z.lt_le_trans with (1 := proj2 U). apply Z.pow_le_mono_r; lia. }
  apply bits_inj in E; [|apply lxor_word; [assumption|now apply R]|apply lxor_word; [assumption|apply R; [assumption|lia]]].
  rewrite (Z.lxor_comm c), (Z.lxor_comm c) in E. apply lxor_cancel in E. now apply unpack_inj.
Qed.
