(** Numbers as text. *)
From Coq Require Import ZArith List Bool String Ascii Lia ZifyBool.
From Verif.Model Require Import Py.
From Verif.Spec Require Import Text.
Import ListNotations.
Open Scope Z_scope.

Ltac Zify.zify_post_hook ::= Z.div_mod_to_equations.

Lemma sweep (n : nat) (P : Z -> bool) :
  forallb P (map Z.of_nat (seq 0 n)) = true -> forall b, 0 <= b < Z.of_nat n -> P b = true.
Proof.
  intros H b Hb. rewrite forallb_forall in H. apply H.
  apply in_map_iff. exists (Z.to_nat b). split; [lia|]. apply in_seq. lia.
Qed.

Lemma hex_pos d : 0 <= d < 16 -> position (hex_ascii d) hex_digits_upper = Some d.
Proof.
  intro H.
  assert (S : (match position (hex_ascii d) hex_digits_upper with Some x => x =? d | None => false end) = true).
  { apply (sweep 16 (fun d => match position (hex_ascii d) hex_digits_upper with Some x => x =? d | None => false end));
    [vm_compute; reflexivity|lia]. }
  destruct (position _ _); [|discriminate]. f_equal. lia.
Qed.
Lemma dec_pos d : 0 <= d < 10 -> position (digit_ascii d) dec_digits_list = Some d.
Proof.
  intro H.
  assert (S : (match position (digit_ascii d) dec_digits_list with Some x => x =? d | None => false end) = true).
  { apply (sweep 10 (fun d => match position (digit_ascii d) dec_digits_list with Some x => x =? d | None => false end));
    [vm_compute; reflexivity|lia]. }
  destruct (position _ _); [|discriminate]. f_equal. lia.
Qed.

Lemma hex_digits_value : forall fuel n acc, 0 <= n < 2 ^ Z.of_nat fuel -> (0 < fuel)%nat ->
  digits_value 16 hex_digits_upper (hex_digits fuel n acc) 0 = digits_value 16 hex_digits_upper acc n.
Proof.
  induction fuel as [|k IH]; intros n acc Hn Hf; [lia|]. cbn [hex_digits].
  destruct (Z.ltb_spec n 16).
  - rewrite Z.mod_small by lia. cbn [digits_value]. rewrite hex_pos by lia. reflexivity.
  - destruct k as [|k].
    + change (2 ^ Z.of_nat 1) with 2 in Hn. lia.
    + rewrite IH; [|rewrite Nat2Z.inj_succ, Z.pow_succ_r in Hn by lia; lia|lia].
      cbn [digits_value]. rewrite hex_pos by lia. f_equal. lia.
Qed.
Lemma dec_digits_value : forall fuel n acc, 0 <= n < 2 ^ Z.of_nat fuel -> (0 < fuel)%nat ->
  digits_value 10 dec_digits_list (dec_digits fuel n acc) 0 = digits_value 10 dec_digits_list acc n.
Proof.
  induction fuel as [|k IH]; intros n acc Hn Hf; [lia|]. cbn [dec_digits].
  destruct (Z.ltb_spec n 10).
  - rewrite Z.mod_small by lia. cbn [digits_value]. rewrite dec_pos by lia. reflexivity.
  - destruct k as [|k].
    + change (2 ^ Z.of_nat 1) with 2 in Hn. lia.
    + rewrite IH; [|rewrite Nat2Z.inj_succ, Z.pow_succ_r in Hn by lia; lia|lia].
      cbn [digits_value]. rewrite dec_pos by lia. f_equal. lia.
Qed.
Lemma log2_fuel n : 0 <= n -> n < 2 ^ Z.of_nat (S (Z.to_nat (Z.log2 n))).
Proof.
  intro H. destruct (Z.eq_dec n 0) as [->|]; [reflexivity|].
  rewrite Nat2Z.inj_succ, Z2Nat.id by apply Z.log2_nonneg. apply Z.log2_spec. lia.
Qed.

(** Shape of the digit strings: at least one digit, first digit non-zero if n > 0. *)
Lemma dec_digits_head : forall fuel n acc, 0 < n < 2 ^ Z.of_nat fuel ->
  exists c r, dec_digits fuel n acc = String (digit_ascii c) r /\ 0 < c < 10.
Proof.
  induction fuel as [|k IH]; intros n acc Hn; [change (2 ^ Z.of_nat 0) with 1 in Hn; lia|]. cbn [dec_digits].
  destruct (Z.ltb_spec n 10).
  - rewrite Z.mod_small by lia. eauto with zarith.
  - apply IH. rewrite Nat2Z.inj_succ, Z.pow_succ_r in Hn by lia. lia.
Qed.
Lemma hex_digits_length : forall fuel n acc, 0 <= n < 2 ^ Z.of_nat fuel -> (0 < fuel)%nat ->
  exists d, String.length (hex_digits fuel n acc) = (S d + String.length acc)%nat
    /\ ((d > 0)%nat -> 16 ^ Z.of_nat d <= n) /\ n < 16 ^ Z.of_nat (S d).
Proof.
  induction fuel as [|k IH]; intros n acc Hn Hf; [lia|]. cbn [hex_digits].
  destruct (Z.ltb_spec n 16).
  - exists 0%nat. cbn [String.length]. repeat split; [lia|]. change (16 ^ Z.of_nat 1) with 16. lia.
  - destruct k as [|k]; [change (2 ^ Z.of_nat 1) with 2 in Hn; lia|].
    destruct (IH (n / 16) (String (hex_ascii (n mod 16)) acc)) as (d & L & P & Q).
    + rewrite Nat2Z.inj_succ, Z.pow_succ_r in Hn by lia. lia.
    + lia.
    + exists (S d). rewrite L. cbn [String.length]. split; [lia|].
      rewrite (Nat2Z.inj_succ (S d)), Z.pow_succ_r by lia.
      rewrite (Nat2Z.inj_succ d), Z.pow_succ_r in * by lia.
      split; [|lia]. intros _. destruct d as [|d]; [change (16 ^ Z.of_nat 0) with 1; lia|].
      assert (16 ^ Z.of_nat (S d) <= n / 16) by (apply P; lia). lia.
Qed.

Lemma nat_value_str n : 0 <= n -> nat_value (str_nonneg n) = Some n.
Proof.
  intro H. unfold str_nonneg. pose proof (log2_fuel n H) as L.
  set (fuel := S (Z.to_nat (Z.log2 n))) in *.
  pose proof (dec_digits_value fuel n "" (conj H L) ltac:(unfold fuel; lia)) as V.
  cbn [digits_value] in V.
  destruct (Z.eq_dec n 0) as [->|N]; [reflexivity|].
  destruct (dec_digits_head fuel n "" ltac:(lia)) as (c & r & E & Hc). rewrite E in *.
  unfold nat_value. cbn [digits_value] in *.
  assert (HD : Ascii.eqb (digit_ascii c) "0" = false).
  { apply negb_true_iff.
    assert (S : (if c =? 0 then true else negb (Ascii.eqb (digit_ascii c) "0")) = true).
    { apply (sweep 10 (fun c => if c =? 0 then true else negb (Ascii.eqb (digit_ascii c) "0"))); [reflexivity|lia]. }
    destruct (Z.eqb_spec c 0); [lia|exact S]. }
  apply Ascii.eqb_neq in HD.
  destruct (digit_ascii c) as [[] [] [] [] [] [] [] []] eqn:A; try exact V; now destruct HD.
Qed.
Lemma int_value_str n : int_value (str_int n) = Some n.
Proof.
  unfold str_int. destruct (Z.ltb_spec n 0) as [H|H].
  - unfold int_value. rewrite nat_value_str by lia. cbn [option_map]. f_equal. lia.
  - pose proof (nat_value_str n H) as V. unfold int_value.
    destruct (str_nonneg n) as [|c r] eqn:E; [discriminate|].
    assert (D : exists d, c = digit_ascii d /\ 0 <= d < 10).
    { unfold str_nonneg in E. destruct (Z.eq_dec n 0) as [->|N].
      - cbn in E. injection E as <- <-. exists 0. split; [reflexivity|lia].
      - destruct (dec_digits_head (S (Z.to_nat (Z.log2 n))) n "") as (d & r' & E' & Hd).
        + split; [lia|]. now apply log2_fuel.
        + rewrite E' in E. injection E as <- <-. exists d. split; [reflexivity|lia]. }
    destruct D as (d & -> & Hd).
    assert (HD : Ascii.eqb (digit_ascii d) "-" = false).
    { apply negb_true_iff. apply (sweep 10 (fun d => negb (Ascii.eqb (digit_ascii d) "-"))); [reflexivity|lia]. }
    apply Ascii.eqb_neq in HD.
    destruct (digit_ascii d) as [[] [] [] [] [] [] [] []] eqn:A; try exact V; now destruct HD.
Qed.
Lemma str_int_inj a b : str_int a = str_int b -> a = b.
Proof. intro H. pose proof (int_value_str a) as A. rewrite H, int_value_str in A. now injection A. Qed.
