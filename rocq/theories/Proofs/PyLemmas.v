(** Facts about the Python primitives of Model/Py.v. *)
From Coq Require Import Lia ZifyBool.
From Verif.Model Require Import Py.
Ltac Zify.zify_post_hook ::= Z.div_mod_to_equations.

Lemma takeZ_firstn {A} (l : list A) : forall n, takeZ n l = firstn (Z.to_nat n) l.
Proof.
  induction l as [|x l IH]; intros n; cbn [takeZ].
  - now rewrite firstn_nil.
  - destruct (Z.leb_spec n 0) as [H|H].
    + replace (Z.to_nat n) with O by lia. reflexivity.
    + replace (Z.to_nat n) with (S (Z.to_nat (n - 1))) by lia.
      cbn [firstn]. now rewrite IH.
Qed.

Lemma dropZ_skipn {A} (l : list A) : forall n, dropZ n l = skipn (Z.to_nat n) l.
Proof.
  induction l as [|x l IH]; intros n; cbn [dropZ].
  - now rewrite skipn_nil.
  - destruct (Z.leb_spec n 0) as [H|H].
    + replace (Z.to_nat n) with O by lia. reflexivity.
    + replace (Z.to_nat n) with (S (Z.to_nat (n - 1))) by lia.
      cbn [skipn]. now rewrite IH.
Qed.

Lemma len_nonneg {A} (l : list A) : 0 <= len l.
Proof. unfold len; lia. Qed.

Lemma len_app {A} (a b : list A) : len (a ++ b) = len a + len b.
Proof. unfold len; rewrite app_length; lia. Qed.

Lemma set_nth_length {A} (x : A) : forall l k, length (set_nth k x l) = length l.
Proof. induction l as [|y l IH]; intros [|k]; cbn; auto. Qed.

Lemma nth_error_set_nth {A} (x : A) : forall l k j,
  nth_error (set_nth k x l) j =
  if (Nat.eqb j k && (k <? length l)%nat)%bool then Some x else nth_error l j.
Proof.
  induction l as [|y l IH]; intros k j; cbn [set_nth length].
  - destruct j, k; cbn; try reflexivity; rewrite ?andb_false_r; reflexivity.
  - destruct k as [|k], j as [|j]; cbn [nth_error set_nth]; try reflexivity.
    rewrite IH. reflexivity.
Qed.

Lemma set_nth_nth_error {A} (x y : A) l k :
  (k < length l)%nat -> nth_error (set_nth k x l) k = Some x.
Proof.
  intros H. rewrite nth_error_set_nth, Nat.eqb_refl. cbn [andb].
  destruct (Nat.ltb_spec k (length l)); [reflexivity|lia].
Qed.

Lemma py_slot_in {A} (l : list A) i :
  0 <= i < len l -> py_slot l i = Some (Z.to_nat i).
Proof.
  intros H. unfold py_slot.
  destruct (Z.leb_spec 0 i); [|lia]. destruct (Z.ltb_spec i (len l)); [reflexivity|lia].
Qed.

Lemma py_get_in {A} (l : list A) i (d : A) :
  0 <= i < len l -> py_get l i = Ok (nth (Z.to_nat i) l d).
Proof.
  intros H. unfold py_get. rewrite py_slot_in by assumption.
  rewrite (nth_error_nth' l d) by (unfold len in H; lia). reflexivity.
Qed.

Lemma py_get_over {A} (l : list A) i : len l <= i -> py_get l i = Err IndexError.
Proof.
  intros H. unfold py_get, py_slot. pose proof (len_nonneg l).
  destruct (Z.ltb_spec i (len l)); [lia|]. rewrite andb_false_r.
  destruct (Z.ltb_spec i 0); [lia|]. now rewrite andb_false_r.
Qed.

Lemma py_set_in {A} (l : list A) i x :
  0 <= i < len l -> py_set l i x = Ok (set_nth (Z.to_nat i) x l).
Proof. intros H. unfold py_set. now rewrite py_slot_in. Qed.

(** Bit masks as arithmetic, for all integers. *)
Lemma land_mask v n : 0 <= n -> Z.land v (2 ^ n - 1) = v mod 2 ^ n.
Proof. intros H. rewrite <- Z.land_ones by assumption. now rewrite Z.ones_equiv, <- Z.sub_1_r. Qed.
Lemma land_mask' v n m : 0 <= n -> m = 2 ^ n - 1 -> Z.land v m = v mod 2 ^ n.
Proof. intros H ->. now apply land_mask. Qed.
Lemma shift_mask v k n m : 0 <= k -> 0 <= n -> m = 2 ^ n - 1 ->
  Z.land (Z.shiftr v k) m = (v / 2 ^ k) mod 2 ^ n.
Proof. intros Hk Hn ->. rewrite land_mask, Z.shiftr_div_pow2 by assumption. reflexivity. Qed.
Lemma land_bit v k : 0 <= k -> (0 <? Z.land v (2 ^ k)) = ((v / 2 ^ k) mod 2 =? 1).
Proof.
  intros Hk.
  assert (E : Z.land v (2 ^ k) = if Z.testbit v k then 2 ^ k else 0).
  { apply Z.bits_inj'. intros i Hi. rewrite Z.land_spec, Z.pow2_bits_eqb by lia.
    destruct (Z.eqb_spec k i) as [->|Hne].
    - destruct (Z.testbit v i) eqn:E; [now rewrite Z.pow2_bits_true by lia|now rewrite Z.bits_0].
    - rewrite andb_false_r. destruct (Z.testbit v k); [|now rewrite Z.bits_0].
      symmetry. apply Z.pow2_bits_false. lia. }
  rewrite E. rewrite Z.testbit_eqb by assumption.
  pose proof (Z.pow_pos_nonneg 2 k ltac:(lia) Hk).
  destruct (Z.eqb_spec ((v / 2 ^ k) mod 2) 1); lia.
Qed.
Lemma land_bit' v k m : 0 <= k -> m = 2 ^ k -> (0 <? Z.land v m) = ((v / 2 ^ k) mod 2 =? 1).
Proof. intros H ->. now apply land_bit. Qed.

(** Lifting a finite sweep over bytes. *)
Lemma byte_sweep (P : Z -> bool) :
  forallb P (map Z.of_nat (seq 0 256)) = true -> forall b, 0 <= b < 256 -> P b = true.
Proof.
  intros H b Hb. rewrite forallb_forall in H. apply H.
  apply in_map_iff. exists (Z.to_nat b). split; [lia|]. apply in_seq. lia.
Qed.
