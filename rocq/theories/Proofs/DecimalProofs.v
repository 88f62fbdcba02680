(** The texts of "{:.2}" and "{:.2f}" read back. *)
From Coq Require Import Lia ZifyBool.
From Verif.Model Require Import Py PyFloat.
From Verif.Spec Require Import Text Sheet Decimal.
From Verif.Proofs Require Import PyLemmas TextProofs.

Fixpoint lacks (c : ascii) (s : string) : bool :=
  match s with EmptyString => true | String x r => negb (Ascii.eqb x c) && lacks c r end.
Lemma lacks_app c a b : lacks c (a ++ b) = lacks c a && lacks c b.
Proof. induction a as [|x a IH]; cbn; [reflexivity|]. rewrite IH. now rewrite andb_assoc. Qed.
Lemma split_lacks c s : lacks c s = true -> split_at c s = [s].
Proof.
  induction s as [|x s IH]; cbn; [reflexivity|]. intro H. apply andb_true_iff in H as [H1 H2].
  rewrite IH by assumption. destruct (Ascii.eqb x c); [discriminate|reflexivity].
Qed.
Lemma split_once c a b : lacks c a = true -> lacks c b = true -> split_at c (a ++ String c b) = [a; b].
Proof.
  induction a as [|x a IH]; cbn; intros H1 H2.
  - now rewrite Ascii.eqb_refl, split_lacks.
  - apply andb_true_iff in H1 as [H0 H1]. rewrite IH by assumption.
    destruct (Ascii.eqb x c); [discriminate|reflexivity].
Qed.

Definition digit_char (c : ascii) : bool := existsb (Ascii.eqb c) dec_digits_list.
Fixpoint all_digits (s : string) : bool :=
  match s with EmptyString => true | String x r => digit_char x && all_digits r end.
Lemma digit_ascii_digit d : 0 <= d < 10 -> digit_char (digit_ascii d) = true.
Proof.
  assert (B : forall d, 0 <= d < 10 -> (fun d => digit_char (digit_ascii d)) d = true)
    by (apply (sweep 10); vm_compute; reflexivity).
  exact (B d).
Qed.
Lemma all_digits_dec fuel n acc : all_digits acc = true -> all_digits (dec_digits fuel n acc) = true.
Proof.
  revert n acc. induction fuel as [|f IH]; cbn [dec_digits]; intros n acc H; [assumption|].
  assert (D : all_digits (String (digit_ascii (n mod 10)) acc) = true).
  { cbn [all_digits]. rewrite digit_ascii_digit, H by (apply Z.mod_pos_bound; lia). reflexivity. }
  destruct (n <? 10); [exact D|]. now apply IH.
Qed.
Lemma all_digits_nonneg n : all_digits (str_nonneg n) = true.
Proof. now apply all_digits_dec. Qed.
Lemma all_digits_lacks c s : digit_char c = false -> all_digits s = true -> lacks c s = true.
Proof.
  intro N. induction s as [|x s IH]; cbn [all_digits lacks]; [reflexivity|]. intro H. apply andb_true_iff in H as [H1 H2].
  rewrite IH by assumption. destruct (Ascii.eqb_spec x c) as [->|]; [congruence|reflexivity].
Qed.
Lemma str_int_nonneg n : 0 <= n -> str_int n = str_nonneg n.
Proof. intro H. unfold str_int. now destruct (Z.ltb_spec n 0); [lia|]. Qed.

Lemma digits_str n : 0 <= n -> digits (str_int n) = Some n.
Proof.
  intro H. rewrite str_int_nonneg by assumption. unfold digits.
  pose proof (nat_value_str n H) as E. unfold nat_value in E.
  destruct (str_nonneg n) as [|c r]; [discriminate|].
  destruct (Ascii.eqb_spec c "0") as [->|N].
  - destruct r; [|discriminate]. injection E as <-. reflexivity.
  - destruct c as [[] [] [] [] [] [] [] []]; try exact E. now destruct N.
Qed.
Lemma digits_pad n : 0 <= n -> digits (String "0" (str_int n)) = Some n.
Proof.
  intro H. pose proof (digits_str n H) as E. unfold digits in *.
  destruct (str_int n) as [|c r]; [discriminate|]. exact E.
Qed.

(** Padding of exponents. *)
Lemma exponent_text m n k x : mantissa m = Some (n, k) -> lacks "e" m = true -> 0 <= x ->
  decimal (m ++ "e-" ++ (if (x <? 10)%Z then "0" else "") ++ str_int x) = Some (n, k + x).
Proof.
  intros M L X. unfold decimal.
  change ("e-" ++ (if (x <? 10)%Z then "0" else "") ++ str_int x)%string
    with (String "e" (String "-" ((if (x <? 10)%Z then "0" else "") ++ str_int x)))%string.
  assert (A : all_digits (str_int x) = true) by (rewrite str_int_nonneg by assumption; apply all_digits_nonneg).
  rewrite split_once; [|assumption|].
  - rewrite M. destruct (x <? 10).
    + cbn [append]. now rewrite digits_pad.
    + cbn [append]. now rewrite digits_str.
  - cbn [lacks]. rewrite lacks_app. rewrite (all_digits_lacks "e" (str_int x)) by (assumption || reflexivity).
    now destruct (x <? 10).
Qed.

(** Rounding to an integer. *)
Lemma round_ratio_near n d : 0 < d -> 2 * Z.abs (round_ratio n d * d - n) <= d.
Proof.
  intro D. unfold round_ratio. pose proof (Z.div_mod n d ltac:(lia)) as E. pose proof (Z.mod_pos_bound n d D) as B.
  set (q := n / d) in *. set (r := n mod d) in *.
  destruct (Z.ltb_spec (2 * r) d); [nia|]. destruct (Z.ltb_spec d (2 * r)); [nia|].
  destruct (Z.even q); nia.
Qed.

Lemma round_ratio_even n d : 0 < d -> 2 * Z.abs (round_ratio n d * d - n) = d -> Z.even (round_ratio n d) = true.
Proof.
  intro D. unfold round_ratio. pose proof (Z.div_mod n d ltac:(lia)) as E. pose proof (Z.mod_pos_bound n d D) as B.
  set (q := n / d) in *. set (r := n mod d) in *.
  destruct (Z.ltb_spec (2 * r) d); [nia|]. destruct (Z.ltb_spec d (2 * r)); [nia|].
  destruct (Z.even q) eqn:V; intros _; [assumption|]. rewrite Z.add_1_r, Z.even_succ, <- Z.negb_even, V. reflexivity.
Qed.

Lemma scale10_spec : forall f n d, 0 < n < d -> d <= 2 ^ Z.of_nat f * n ->
  let k := Z.of_nat (scale10 f n d) in 10 ^ k * n < d <= 10 ^ (k + 1) * n.
Proof.
  induction f as [|f IH]; intros n d H F.
  - change (2 ^ Z.of_nat 0) with 1 in F. lia.
  - cbn [scale10]. destruct (Z.ltb_spec (10 * n) d) as [L|L].
    + specialize (IH (10 * n) d ltac:(lia)). cbv zeta in *. rewrite !Nat2Z.inj_succ.
      rewrite Nat2Z.inj_succ, Z.pow_succ_r in F by lia.
      specialize (IH ltac:(nia)).
      set (j := Z.of_nat (scale10 f (10 * n) d)) in *. assert (0 <= j) by lia.
      replace (Z.succ j + 1) with (Z.succ (j + 1)) by lia. rewrite !Z.pow_succ_r by lia. nia.
    + cbv zeta. change (10 ^ Z.of_nat 0) with 1. change (10 ^ (Z.of_nat 0 + 1)) with 10. lia.
Qed.

(** Short texts: checked one by one. *)
Definition reads (s : string) (q k : Z) : bool :=
  match decimal s with
  | Some (N, K) => (0 <? N) && (0 <=? K) && (K <=? k + 2) && (N * 10 ^ (k + 2 - K) =? q)
  | None => false
  end.
Lemma reads_ok s q k : reads s q k = true ->
  exists N K, decimal s = Some (N, K) /\ 0 < N /\ 0 <= K /\ N * 10 ^ (k + 2) = q * 10 ^ K.
Proof.
  unfold reads. destruct (decimal s) as [[N K]|]; [|discriminate]. intro H. exists N, K.
  assert (E : 10 ^ (k + 2) = 10 ^ (k + 2 - K) * 10 ^ K).
  { rewrite <- Z.pow_add_r by lia. f_equal; lia. }
  split; [reflexivity|]. split; [lia|]. split; [lia|]. rewrite E. nia.
Qed.
Lemma short_texts : forall q, 0 <= q < 90 -> (fun q =>
  forallb (fun k => reads ("0." ++ zeros k ++ two_digits (q + 10)) (q + 10) (Z.of_nat k)) [0; 1; 2; 3]%nat) q = true.
Proof. apply (sweep 90). vm_compute. reflexivity. Qed.
Lemma mants : forall q, 0 <= q < 90 -> (fun q =>
  let m := if (q + 10) mod 10 =? 0 then str_int ((q + 10) / 10)
           else (str_int ((q + 10) / 10) ++ "." ++ str_int ((q + 10) mod 10))%string in
  lacks "e" m && match mantissa m with
  | Some (N, K) => (0 <? N) && (0 <=? K) && (K <=? 1) && (N * 10 ^ (1 - K) =? q + 10)
  | None => false end) q = true.
Proof. apply (sweep 90). vm_compute. reflexivity. Qed.

Lemma pow10_pos k : 0 <= k -> 0 < 10 ^ k.
Proof. intro. apply Z.pow_pos_nonneg; lia. Qed.

Lemma fraction_reads n d : 0 < n < d ->
  exists N K, decimal (format_fraction n d) = Some (N, K) /\ 0 < N /\ 0 <= K
    /\ 200 * Z.abs (N * d - n * 10 ^ K) <= d * 10 ^ K
    /\ 20 * Z.abs (N * d - n * 10 ^ K) <= n * 10 ^ K
    /\ exists k q, 0 <= k /\ 10 ^ k * n < d <= 10 ^ (k + 1) * n
       /\ 2 * Z.abs (q * d - n * 10 ^ (k + 2)) <= d
       /\ (2 * Z.abs (q * d - n * 10 ^ (k + 2)) = d -> Z.even q = true)
       /\ N * 10 ^ (k + 2) = q * 10 ^ K.
Proof.
  intros H. unfold format_fraction.
  destruct (Z.eqb_spec n 0); [lia|]. destruct (Z.leb_spec d n); [lia|].
  pose proof (scale10_spec (Z.to_nat (Z.log2 d + 1)) n d H) as SC.
  assert (FU : d <= 2 ^ Z.of_nat (Z.to_nat (Z.log2 d + 1)) * n).
  { pose proof (Z.log2_nonneg d). rewrite Z2Nat.id by lia. pose proof (Z.log2_spec d ltac:(lia)). 
    replace (Z.log2 d + 1) with (Z.succ (Z.log2 d)) by lia. nia. }
  specialize (SC FU). cbv zeta in SC. set (k := scale10 _ n d) in *.
  set (j := Z.of_nat k) in *. assert (J : 0 <= j) by lia.
  pose proof (round_ratio_near (n * 10 ^ (j + 2)) d ltac:(lia)) as RN.
  pose proof (round_ratio_even (n * 10 ^ (j + 2)) d ltac:(lia)) as RE.
  set (q := round_ratio (n * 10 ^ (j + 2)) d) in *.
  pose proof (pow10_pos j J) as PJ.
  assert (E1 : 10 ^ (j + 1) = 10 * 10 ^ j) by (rewrite Z.pow_add_r by lia; lia).
  assert (E2 : 10 ^ (j + 2) = 100 * 10 ^ j) by (rewrite Z.pow_add_r by lia; lia).
  assert (Q : 10 <= q <= 100) by nia.
  assert (GOOD : forall s, (exists N K, decimal s = Some (N, K) /\ 0 < N /\ 0 <= K /\ N * 10 ^ (j + 2) = q * 10 ^ K) ->
    exists N K, decimal s = Some (N, K) /\ 0 < N /\ 0 <= K
    /\ 200 * Z.abs (N * d - n * 10 ^ K) <= d * 10 ^ K
    /\ 20 * Z.abs (N * d - n * 10 ^ K) <= n * 10 ^ K
    /\ exists k q, 0 <= k /\ 10 ^ k * n < d <= 10 ^ (k + 1) * n
       /\ 2 * Z.abs (q * d - n * 10 ^ (k + 2)) <= d
       /\ (2 * Z.abs (q * d - n * 10 ^ (k + 2)) = d -> Z.even q = true)
       /\ N * 10 ^ (k + 2) = q * 10 ^ K).
  { intros s (N & K & D & PN & PK & EQ). exists N, K. split; [assumption|]. split; [assumption|]. split; [assumption|].
    pose proof (pow10_pos K PK) as PP. pose proof (pow10_pos (j + 2) ltac:(lia)) as P2.
    cut (200 * Z.abs (N * d - n * 10 ^ K) <= d * 10 ^ K /\ 20 * Z.abs (N * d - n * 10 ^ K) <= n * 10 ^ K).
    { intros [G1 G2]. split; [exact G1|]. split; [exact G2|]. exists j, q. auto 6. }
    assert (AB : Z.abs (N * d - n * 10 ^ K) * 10 ^ (j + 2) = Z.abs (q * d - n * 10 ^ (j + 2)) * 10 ^ K).
    { rewrite <- (Z.abs_eq (10 ^ (j + 2))) at 1 by lia. rewrite <- (Z.abs_eq (10 ^ K)) at 2 by lia.
      rewrite <- !Z.abs_mul. f_equal. rewrite !Z.mul_sub_distr_r.
      replace (N * d * 10 ^ (j + 2)) with (N * 10 ^ (j + 2) * d) by ring. rewrite EQ. ring. }
    set (A := Z.abs (N * d - n * 10 ^ K)) in *. set (B := Z.abs (q * d - n * 10 ^ (j + 2))) in *.
    rewrite E2 in *. rewrite E1 in *.
    split; apply Z.mul_le_mono_pos_r with (100 * 10 ^ j); try lia.
    - replace (200 * A * (100 * 10 ^ j)) with (200 * (A * (100 * 10 ^ j))) by ring. rewrite AB.
      replace (d * 10 ^ K * (100 * 10 ^ j)) with (100 * d * 10 ^ j * 10 ^ K) by ring.
      replace (200 * (B * 10 ^ K)) with (200 * B * 10 ^ K) by ring.
      apply Z.mul_le_mono_nonneg_r; [lia|]. nia.
    - replace (20 * A * (100 * 10 ^ j)) with (20 * (A * (100 * 10 ^ j))) by ring. rewrite AB.
      replace (n * 10 ^ K * (100 * 10 ^ j)) with (n * 100 * 10 ^ j * 10 ^ K) by ring.
      replace (20 * (B * 10 ^ K)) with (20 * B * 10 ^ K) by ring.
      apply Z.mul_le_mono_nonneg_r; [lia|]. nia. }
  destruct (Z.eqb_spec q 100) as [Q1|Q1].
  - rewrite Q1 in GOOD. destruct k as [|k'] eqn:EK.
    + apply GOOD. exists 10, 1. subst j. split; [reflexivity|]. split; [lia|]. split; [lia|reflexivity].
    + destruct (Nat.leb_spec 4 k') as [K4|K4].
      * apply GOOD. exists 1, (0 + j). 
        replace ((S k' <? 10)%nat) with ((j <? 10)%Z) by lia.
        split; [apply (exponent_text "1"); [reflexivity|reflexivity|lia]|].
        split; [lia|]. split; [lia|]. rewrite Z.add_0_l, E2. lia.
      * apply GOOD. apply reads_ok. subst j.
        assert (k' = 0 \/ k' = 1 \/ k' = 2 \/ k' = 3)%nat as D4 by lia.
        decompose [or] D4; subst k'; vm_compute; reflexivity.
  - assert (QR : 0 <= q - 10 < 90) by lia.
    destruct (Nat.leb_spec 4 k) as [K4|K4].
    + pose proof (mants (q - 10) QR) as M. cbv beta zeta in M. replace (q - 10 + 10) with q in M by lia.
      set (m := if q mod 10 =? 0 then _ else _) in *. apply andb_true_iff in M as [M1 M2].
      destruct (mantissa m) as [[N K]|] eqn:EM; [|discriminate].
      apply GOOD. exists N, (K + (j + 1)).
      split; [apply exponent_text; [assumption|assumption|lia]|].
      split; [lia|]. split; [lia|]. 
      assert (KK : K = 0 \/ K = 1) by lia. destruct KK; subst K.
      * cbn [Z.sub] in M2. change (10 ^ (1 - 0)) with 10 in M2. rewrite Z.add_0_l, E1, E2. nia.
      * change (10 ^ (1 - 1)) with 1 in M2. replace (1 + (j + 1)) with (j + 2) by lia. nia.
    + apply GOOD. apply reads_ok. pose proof (short_texts (q - 10) QR) as S. cbv beta in S.
      replace (q - 10 + 10) with q in S by lia. rewrite forallb_forall in S. apply S.
      assert (k = 0 \/ k = 1 \/ k = 2 \/ k = 3)%nat as D4 by lia. decompose [or] D4; subst k; cbn; auto.
Qed.
