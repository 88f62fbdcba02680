(** What the zip writer leaves is what the zip reader expects. *)
From Coq Require Import Lia ZifyBool.
From Verif.Model Require Import Py Core Zip.
From Verif.Spec Require Import VgmFormat ZipReader.
From Verif.Proofs Require Import PyLemmas CrcProofs.

(** ** UTF-8 *)
Lemma utf8_char_bytes c : forallb (fun b => (0 <=? b) && (b <? 256)) (utf8_char c) = true.
Proof. destruct c as [[] [] [] [] [] [] [] []]; reflexivity. Qed.
Lemma utf8_bytes s : bytes (utf8 s).
Proof.
  induction s as [|c s IH]; cbn [utf8]; [constructor|]. apply Forall_app. split; [|exact IH].
  apply Forall_forall. intros x Hx. pose proof (utf8_char_bytes c) as F. rewrite forallb_forall in F. specialize (F x Hx).
  unfold byte. lia.
Qed.
Lemma utf8_app a b : utf8 (a ++ b) = utf8 a ++ utf8 b.
Proof. induction a as [|c a IH]; cbn [utf8 append app]; [reflexivity|]. now rewrite IH, app_assoc. Qed.
Lemma decode_char c r : decode (utf8_char c ++ r) = option_map (String c) (decode r).
Proof. destruct c as [[] [] [] [] [] [] [] []]; reflexivity. Qed.
Lemma decode_utf8 s : decode (utf8 s) = Some s.
Proof. induction s as [|c s IH]; [reflexivity|]. cbn [utf8]. now rewrite decode_char, IH. Qed.

(** ** Numbers in records *)
Lemma pack16_value n : Z.land n 255 + 2 ^ 8 * Z.shiftr n 8 = n.
Proof.
  change 255 with (Z.ones 8). rewrite Z.land_ones, Z.shiftr_div_pow2 by lia.
  pose proof (Z.div_mod n (2 ^ 8) ltac:(lia)). lia.
Qed.
Lemma pack32_value n :
  Z.land n 255 + 2 ^ 8 * Z.land (Z.shiftr n 8) 255 + 2 ^ 16 * Z.land (Z.shiftr n 16) 255 + 2 ^ 24 * Z.shiftr n 24 = n.
Proof.
  change 255 with (Z.ones 8). rewrite !Z.land_ones, !Z.shiftr_div_pow2 by lia.
  change (2 ^ 8) with 256. change (2 ^ 16) with (256 * 256). change (2 ^ 24) with (256 * (256 * 256)).
  rewrite <- !Z.div_div by lia. set (a := n / 256). set (b := a / 256).
  pose proof (Z.div_mod n 256 ltac:(lia)). pose proof (Z.div_mod a 256 ltac:(lia)). pose proof (Z.div_mod b 256 ltac:(lia)).
  fold a in H. fold b in H0. lia.
Qed.

Lemma byte_at_shift P X k : byte_at (P ++ X) (length P + k) = byte_at X k.
Proof. unfold byte_at. rewrite app_nth2 by lia. f_equal. lia. Qed.
Lemma u16_shift P X k i : i = (length P + k)%nat -> u16_at (P ++ X) i = u16_at X k.
Proof. intros ->. unfold u16_at. now rewrite <- Nat.add_assoc, !byte_at_shift. Qed.
Lemma u32_shift P X k i : i = (length P + k)%nat -> u32_at (P ++ X) i = u32_at X k.
Proof. intros ->. unfold u32_at. now rewrite <- !Nat.add_assoc, !byte_at_shift. Qed.
Lemma slice_shift P X k i n : i = (length P + k)%nat -> slice (P ++ X) i n = slice X k n.
Proof.
  intros ->. unfold slice. rewrite skipn_app. rewrite skipn_all2 by lia. cbn [app]. do 2 f_equal. lia.
Qed.
Lemma starts_shift P X k i w : i = (length P + k)%nat -> starts (P ++ X) i w = starts X k w.
Proof. intros H. unfold starts. now rewrite (slice_shift P X k i _ H). Qed.
Lemma starts_here w X : starts (w ++ X) 0 w = true.
Proof.
  unfold starts, slice. cbn [skipn]. rewrite firstn_app, Nat.sub_diag. cbn [firstn]. rewrite app_nil_r, firstn_all.
  now destruct (bytes_dec w w).
Qed.
Lemma slice_here w X : slice (w ++ X) 0 (length w) = w.
Proof. unfold slice. cbn [skipn]. rewrite firstn_app, Nat.sub_diag. cbn [firstn]. now rewrite app_nil_r, firstn_all. Qed.

(** ** The end record *)
Lemma is_end_false d i : (length d < i + 22)%nat -> is_end d i = false.
Proof. intros H. unfold is_end. replace (i + 22 <=? length d)%nat with false by lia. now rewrite andb_false_r. Qed.
Lemma find_end_true : forall n d i, find_end d n = Some i -> is_end d i = true.
Proof.
  induction n as [|n IH]; intros d i H; [discriminate|]. cbn [find_end] in H. destruct (is_end d n) eqn:E; [|now apply IH].
  injection H as <-. exact E.
Qed.
Lemma find_end_at d i : is_end d i = true -> length d = (i + 22)%nat -> find_end d (length d) = Some i.
Proof.
  intros E L. rewrite L.
  assert (X : forall k, (k <= 22)%nat -> find_end d (i + k) = find_end d (i + 1) \/ k = 0%nat).
  { induction k as [|k IH]; intros Hk; [now right|]. left. destruct k as [|k]; [reflexivity|].
    replace (i + S (S k))%nat with (S (i + S k)) by lia. cbn [find_end]. rewrite is_end_false by lia.
    destruct (IH ltac:(lia)) as [A|A]; [exact A|discriminate]. }
  destruct (X 22%nat ltac:(lia)) as [A|A]; [|discriminate]. rewrite A. replace (i + 1)%nat with (S i) by lia. cbn [find_end].
  now rewrite E.
Qed.

(** ** The finished file *)
Ltac pos P := generalize (length P); clear; intros; lia.
Section Finished.
  Variables (t : clock) (data : list Z).
  Let n := len data.
  Let crc := crc32 data.
  Definition finished : list Z :=
    local_header t crc n n ++ data ++ central_entry t crc n n ++ member_name ++ end_record 1 54 (38 + n).
  (** The same with other bytes in the place of the text. *)
  Definition tampered (data' : list Z) : list Z :=
    local_header t crc n n ++ data' ++ central_entry t crc n n ++ member_name ++ end_record 1 54 (38 + n).
  Lemma finished_tampered : finished = tampered data.
  Proof. reflexivity. Qed.

  Lemma header_length c a b : length (local_header t c a b) = 38%nat.
  Proof. reflexivity. Qed.
  Lemma entry_length c a b : length (central_entry t c a b) = 46%nat.
  Proof. reflexivity. Qed.

  Variable data' : list Z.
  Hypothesis same : length data' = length data.
  Hypothesis small : n < 2 ^ 30.
  Let P := local_header t crc n n ++ data'.
  Let T := central_entry t crc n n ++ member_name ++ end_record 1 54 (38 + n).
  Lemma tampered_split : tampered data' = P ++ T.
  Proof. unfold tampered, P, T. now rewrite <- app_assoc. Qed.
  Lemma P_length : length P = (38 + length data)%nat.
  Proof. unfold P. rewrite app_length, header_length. lia. Qed.

  Lemma tampered_length : length (tampered data') = (length P + 76)%nat.
  Proof. rewrite tampered_split, app_length. reflexivity. Qed.
  Lemma end_found : find_end (tampered data') (length (tampered data')) = Some (length P + 54)%nat.
  Proof.
    apply find_end_at; [|rewrite tampered_length; lia]. unfold is_end. rewrite tampered_length.
    rewrite tampered_split, (starts_shift P T 54 (length P + 54)), (u16_shift P T 74 (length P + 54 + 20)) by pos P.
    change (starts T 54 end_mark) with true. change (u16_at T 74) with 0. cbn [andb].
    replace (Z.of_nat (length P + 54) + 22 + 0 =? Z.of_nat (length P + 76)) with true by lia.
    replace (length P + 54 + 22 <=? length P + 76)%nat with true by lia. reflexivity.
  Qed.
  Lemma the_member : checksum data' = crc -> 
    member (tampered data') (length P) = Some (song_name, data', (length P + 54)%nat).
  Proof.
    intros C. pose proof P_length as LP. assert (Ln : n = Z.of_nat (length data)) by reflexivity.
    unfold member. rewrite tampered_length, tampered_split.
    rewrite (u16_shift P T 28 (length P + 28)), (u16_shift P T 30 (length P + 30)), (u16_shift P T 32 (length P + 32)), (u16_shift P T 8 (length P + 8)), (u16_shift P T 10 (length P + 10)),
      (u32_shift P T 24 (length P + 24)), (u32_shift P T 20 (length P + 20)), (u32_shift P T 42 (length P + 42)), (u32_shift P T 16 (length P + 16)), (starts_shift P T 0 (length P)) by pos P.
    assert (F24 : u32_at T 24 = n) by exact (pack32_value n).
    assert (F20 : u32_at T 20 = n) by exact (pack32_value n).
    assert (F16 : u32_at T 16 = crc) by exact (pack32_value crc).
    rewrite F24, F20, F16. change (u32_at T 42) with 0. change (u16_at T 28) with 8. change (u16_at T 30) with 0.
    change (u16_at T 32) with 0. change (u16_at T 8) with 0. change (u16_at T 10) with 0.
    change (starts T 0 entry_mark) with true. cbv zeta. change (0 mod 2 =? 0) with true. change (0 =? 0) with true.
    rewrite Z.eqb_refl. cbn [andb].
    replace (Z.of_nat (length P) + 46 + 8 + 0 + 0 <=? Z.of_nat (length P + 76)) with true by lia.
    replace (0 + 30 + n <=? Z.of_nat (length P + 76)) with true by lia. cbn [andb].
    change (Z.to_nat 0) with 0%nat. change (Z.to_nat 8) with 8%nat.
    rewrite (slice_shift P T 46 (length P + 46)) by pos P. change (slice T 46 8) with song_name.
    assert (G26 : u16_at (P ++ T) 26 = 8) by (unfold P; rewrite <- app_assoc; reflexivity).
    assert (G28 : u16_at (P ++ T) 28 = 0) by (unfold P; rewrite <- app_assoc; reflexivity).
    cbn [Nat.add]. rewrite G26, G28. change (Z.to_nat 0) with 0%nat. change (Z.to_nat 8) with 8%nat. cbn [Nat.add].
    replace (starts (P ++ T) 0 local_mark) with true by (unfold P; rewrite <- app_assoc; reflexivity).
    replace (starts (P ++ T) 30 song_name) with true by (unfold P; rewrite <- app_assoc; reflexivity).
    change (8 =? 8) with true. cbn [andb].
    assert (S : slice (P ++ T) 38 (Z.to_nat n) = data').
    { unfold P. rewrite <- app_assoc. rewrite (slice_shift (local_header t crc n n) _ 0) by reflexivity.
      replace (Z.to_nat n) with (length data') by lia. apply slice_here. }
    rewrite S. replace (Z.of_nat (length data') =? n) with true by lia. rewrite C, Z.eqb_refl. cbn [andb].
    do 2 f_equal. lia.
  Qed.
  Lemma no_member : checksum data' <> crc -> member (tampered data') (length P) = None.
  Proof.
    intros C. pose proof P_length as LP. assert (Ln : n = Z.of_nat (length data)) by reflexivity.
    unfold member. rewrite tampered_split.
    rewrite (u16_shift P T 28 (length P + 28)), (u32_shift P T 24 (length P + 24)), (u32_shift P T 42 (length P + 42)), (u32_shift P T 16 (length P + 16)) by pos P.
    assert (F24 : u32_at T 24 = n) by exact (pack32_value n).
    assert (F16 : u32_at T 16 = crc) by exact (pack32_value crc).
    rewrite F24, F16. change (u32_at T 42) with 0. change (u16_at T 28) with 8. cbv zeta.
    match goal with |- (if ?c then _ else _) = None => destruct c; [|reflexivity] end.
    change (Z.to_nat 0) with 0%nat. cbn [Nat.add].
    assert (G26 : u16_at (P ++ T) 26 = 8) by (unfold P; rewrite <- app_assoc; reflexivity).
    assert (G28 : u16_at (P ++ T) 28 = 0) by (unfold P; rewrite <- app_assoc; reflexivity).
    rewrite G26, G28. change (Z.to_nat 0) with 0%nat. change (Z.to_nat 8) with 8%nat. cbn [Nat.add].
    assert (S : slice (P ++ T) 38 (Z.to_nat n) = data').
    { unfold P. rewrite <- app_assoc. rewrite (slice_shift (local_header t crc n n) _ 0) by reflexivity.
      replace (Z.to_nat n) with (length data') by lia. apply slice_here. }
    rewrite S. replace (checksum data' =? crc) with false by lia. now rewrite !andb_false_r.
  Qed.
  Lemma tampered_unzip : unzip (tampered data') = if checksum data' =? crc then Some [(song_name, data')] else None.
  Proof.
    pose proof P_length as LP. assert (Ln : n = Z.of_nat (length data)) by reflexivity.
    unfold unzip. rewrite end_found. rewrite tampered_split.
    rewrite (u16_shift P T 58 (length P + 54 + 4)), (u16_shift P T 60 (length P + 54 + 6)), (u16_shift P T 62 (length P + 54 + 8)), (u16_shift P T 64 (length P + 54 + 10)),
      (u32_shift P T 70 (length P + 54 + 16)), (u32_shift P T 66 (length P + 54 + 12)) by pos P.
    change (u16_at T 58) with 0. change (u16_at T 60) with 0. change (u16_at T 62) with 1. change (u16_at T 64) with 1.
    change (u32_at T 66) with 54.
    assert (F70 : u32_at T 70 = 38 + n) by exact (pack32_value (38 + n)).
    rewrite F70. change (0 =? 0) with true. change (1 =? 1) with true. cbn [andb].
    replace (38 + n + 54 =? Z.of_nat (length P + 54)) with true by lia.
    replace (Z.to_nat (38 + n)) with (length P) by lia.
    rewrite <- tampered_split, tampered_length. replace (length P + 76)%nat with (S (S (length P + 74))) by lia. cbn [directory].
    replace (length P =? length P + 54)%nat with false by lia.
    destruct (Z.eqb_spec (checksum data') crc) as [C|C].
    - rewrite (the_member C). replace (length P + 54 <=? length P + 54)%nat with true by lia.
      rewrite Nat.eqb_refl. reflexivity.
    - rewrite (no_member C). reflexivity.
  Qed.
End Finished.
