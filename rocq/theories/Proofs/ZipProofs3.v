(** The song file at any moment of its writing. *)
From Coq Require Import Lia ZifyBool.
From Verif.Model Require Import Py Core Zip.
From Verif.Spec Require Import VgmFormat ZipReader SongArchive.
From Verif.Proofs Require Import PyLemmas CrcProofs ZipProofs ZipProofs2.

Lemma lor_range n a b : 0 <= n -> 0 <= a < 2 ^ n -> 0 <= b < 2 ^ n -> 0 <= Z.lor a b < 2 ^ n.
Proof.
  intros Hn Ha Hb. assert (N : 0 <= Z.lor a b) by (apply Z.lor_nonneg; lia). split; [exact N|].
  destruct (Z.eq_dec (Z.lor a b) 0) as [->|D]; [apply Z.pow_pos_nonneg; lia|].
  apply Z.log2_lt_pow2; [lia|]. rewrite Z.log2_lor by lia.
  assert (X : forall z, 0 <= z < 2 ^ n -> 0 < n -> Z.log2 z < n).
  { intros z Hz Pn. destruct (Z.eq_dec z 0) as [->|]; [now rewrite Z.log2_nonpos by lia|]. apply Z.log2_lt_pow2; lia. }
  assert (0 < n) by (destruct (Z.eq_dec n 0) as [->|]; [|lia]; assert (a = 0) by (cbn in Ha; lia); assert (b = 0) by (cbn in Hb; lia); subst; cbn in D; lia).
  apply Z.max_lub_lt; now apply X.
Qed.
Lemma dosdate_range t : clock_ok t -> 1980 <= year t -> 0 <= dosdate t /\ (65535 < dosdate t <-> 2107 < year t).
Proof.
  intros (M & D & _) Y. unfold dosdate.
  assert (LOW : 0 <= Z.lor (Z.shiftl (month t) 5) (day t) < 2 ^ 9).
  { apply lor_range; [lia| |lia]. rewrite Z.shiftl_mul_pow2 by lia. lia. }
  rewrite <- Z.lor_assoc.
  assert (E : Z.lor (Z.shiftl (year t - 1980) 9) (Z.lor (Z.shiftl (month t) 5) (day t))
     = (year t - 1980) * 2 ^ 9 + Z.lor (Z.shiftl (month t) 5) (day t)).
  { symmetry. rewrite <- Z.shiftl_mul_pow2 by lia. rewrite Z.add_nocarry_lxor; [apply Z.lxor_lor|].
    all: apply Z.bits_inj'; intros n Hn; rewrite Z.land_spec, Z.bits_0; rewrite Z.shiftl_spec by lia;
      destruct (Z.lt_ge_cases n 9) as [L|L];
      [now rewrite (Z.testbit_neg_r _ (n - 9)) by lia|];
      set (x := Z.lor (Z.shiftl (month t) 5) (day t)) in *;
      (destruct (Z.eq_dec x 0) as [-> |NZ]; [now rewrite Z.testbit_0_l, andb_false_r|]);
      rewrite (Z.bits_above_log2 x n); [apply andb_false_r|lia|];
      assert (Z.log2 x < 9) by (apply Z.log2_lt_pow2; lia); lia. }
  rewrite E. lia.
Qed.
Lemma dostime_range t : clock_ok t -> 0 <= dostime t < 2 ^ 16.
Proof.
  intros (_ & _ & H & M & S). unfold dostime. assert (0 <= second t / 2 <= 30) by lia.
  apply lor_range; [lia| |lia]. apply lor_range; [lia| |]; rewrite Z.shiftl_mul_pow2 by lia; lia.
Qed.

Lemma land_byte n : byte (Z.land n 255).
Proof. unfold byte. change 255 with (Z.ones 8). rewrite Z.land_ones by lia. apply Z.mod_pos_bound. lia. Qed.
Lemma pack16_bytes n : 0 <= n < 2 ^ 16 -> bytes (pack16 n).
Proof.
  intros H. unfold pack16. constructor; [apply land_byte|]. constructor; [|constructor]. unfold byte.
  rewrite Z.shiftr_div_pow2 by lia. split; [apply Z.div_pos; lia|apply Z.div_lt_upper_bound; lia].
Qed.
Lemma pack32_bytes n : 0 <= n < 2 ^ 32 -> bytes (pack32 n).
Proof.
  intros H. unfold pack32. do 3 (constructor; [apply land_byte|]). constructor; [|constructor]. unfold byte.
  rewrite Z.shiftr_div_pow2 by lia. split; [apply Z.div_pos; lia|apply Z.div_lt_upper_bound; lia].
Qed.
Ltac few := repeat (constructor; [unfold byte; lia|]); constructor.
Lemma name_bytes : bytes member_name.
Proof. unfold member_name. few. Qed.
Lemma header_bytes t c a b : zip_clock t -> word c -> word a -> word b -> bytes (local_header t c a b).
Proof.
  intros (K & Y) C A B. pose proof (dosdate_range t K ltac:(lia)) as (D0 & D1). pose proof (dostime_range t K).
  unfold word in *. unfold local_header.
  repeat (apply Forall_app; split); try apply pack16_bytes; try apply pack32_bytes; try apply name_bytes; try (unfold pack8; few); try lia.
  all: change (len member_name) with 8; lia.
Qed.
Lemma entry_bytes t c a b : zip_clock t -> word c -> word a -> word b -> bytes (central_entry t c a b).
Proof.
  intros (K & Y) C A B. pose proof (dosdate_range t K ltac:(lia)) as (D0 & D1). pose proof (dostime_range t K).
  unfold word in *. unfold central_entry.
  repeat (apply Forall_app; split); try apply pack16_bytes; try apply pack32_bytes; try (unfold pack8; few); try lia.
  all: try (change (len member_name) with 8; lia).
  all: change (Z.shiftl 384 16) with 25165824; lia.
Qed.
Lemma record_bytes n a b : 0 <= n < 2 ^ 16 -> word a -> word b -> bytes (end_record n a b).
Proof.
  intros N A B. unfold word in *. unfold end_record.
  repeat (apply Forall_app; split); try apply pack16_bytes; try apply pack32_bytes; try few; lia.
Qed.

Definition tail (t : clock) (data : list Z) : list Z :=
  central_entry t (crc32 data) (len data) (len data) ++ member_name ++ end_record 1 54 (38 + len data).
Section Writing.
  Variables (t : clock) (data : list Z).
  Hypothesis calendar : zip_clock t.
  Hypothesis all_bytes : bytes data.
  Hypothesis small : len data < 2 ^ 30.
  Let n := len data.
  Let crc := crc32 data.
  Let h0 := local_header t 0 0 n.
  Let h1 := local_header t crc n n.
  Lemma word_n : word n.
  Proof. unfold word, n, len in *. lia. Qed.
  Lemma word_crc : word crc.
  Proof. unfold crc. rewrite crc32_checksum by assumption. now apply checksum_word. Qed.
  Lemma tail_bytes : bytes (tail t data).
  Proof.
    unfold tail. fold n crc. pose proof word_n. pose proof word_crc.
    apply Forall_app. split; [now apply entry_bytes|]. apply Forall_app. split; [exact name_bytes|].
    apply record_bytes; unfold word in *; lia.
  Qed.
  Lemma finished_bytes : bytes (finished t data).
  Proof.
    unfold finished. fold n crc. pose proof word_n. pose proof word_crc. apply Forall_app. split; [now apply header_bytes|].
    apply Forall_app. split; [assumption|]. exact tail_bytes.
  Qed.
  Lemma finished_is : finished t data = h1 ++ data ++ tail t data.
  Proof. reflexivity. Qed.

  Lemma the_writes : zip_writes t data =
    ([(0, h0); (38, data); (0, h1); (38 + n, central_entry t crc n n); (38 + n + 46, member_name);
      (38 + n + 54, end_record 1 54 (38 + n))], None).
  Proof.
    unfold zip_writes. destruct calendar as (K & Y). pose proof (dosdate_range t K ltac:(lia)) as (_ & D).
    replace (year t <? 1980) with false by lia. replace (65535 <? dosdate t) with false by lia. reflexivity.
  Qed.

  Lemma writes_finish : fold_left write_at (fst (zip_writes t data)) [] = finished t data.
  Proof.
    rewrite the_writes. cbn [fst fold_left]. pose proof word_n as Wn. unfold word in Wn.
    assert (Ln : Z.to_nat n = length data) by (unfold n, len; lia).
    rewrite !write_overwrite by lia.
    rewrite (overwrite_end [] h0) by reflexivity. cbn [app]. rewrite (overwrite_end h0 data) by reflexivity.
    assert (E : overwrite (h0 ++ data) (Z.to_nat 0) h1 = h1 ++ data).
    { change (h0 ++ data) with ([] ++ h0 ++ data). change (Z.to_nat 0) with (length (@nil Z)). rewrite overwrite_middle by reflexivity. reflexivity. }
    rewrite E. assert (L1 : length h1 = 38%nat) by reflexivity.
    rewrite (overwrite_end (h1 ++ data)) by (rewrite app_length; lia).
    rewrite (overwrite_end ((h1 ++ data) ++ central_entry t crc n n)) by (rewrite !app_length, entry_length; lia).
    rewrite (overwrite_end (((h1 ++ data) ++ central_entry t crc n n) ++ member_name))
      by (rewrite !app_length, entry_length; change (length member_name) with 8%nat; lia).
    rewrite finished_is. unfold tail. now rewrite <- !app_assoc.
  Qed.

  Hypothesis printable : Forall (fun b => 9 <= b) data.
  Hypothesis long : (15 <= length data)%nat.
  Lemma cut_none H c r : header_shaped H -> Forall (fun b => 0 <= b) H -> c ++ r = H ++ data ++ tail t data -> r <> [] ->
    song_entry c = None.
  Proof.
    intros S NH E R. assert (C : c = firstn (length c) (H ++ data ++ tail t data)).
    { rewrite <- E, firstn_app, Nat.sub_diag, firstn_all. cbn [firstn]. now rewrite app_nil_r. }
    rewrite C. apply unfinished_none; try assumption; try reflexivity.
    - rewrite <- E, app_length. destruct r; [congruence|]. cbn [length]. lia.
    - apply Forall_app. split; [assumption|]. apply Forall_app. split.
      + eapply Forall_impl; [|exact printable]. cbv beta. lia.
      + eapply Forall_impl; [|exact tail_bytes]. unfold byte. lia.
  Qed.
  Lemma nonneg l : bytes l -> Forall (fun b => 0 <= b) l.
  Proof. apply Forall_impl. unfold byte. lia. Qed.
  Lemma h0_ok : header_shaped h0 /\ Forall (fun b => 0 <= b) h0.
  Proof.
    split; [apply header_is_shaped|]. pose proof word_n. apply nonneg, header_bytes; try assumption; split; reflexivity || discriminate.
  Qed.
  Lemma h1_ok : header_shaped h1 /\ Forall (fun b => 0 <= b) h1.
  Proof. split; [apply header_is_shaped|]. pose proof word_n. pose proof word_crc. now apply nonneg, header_bytes. Qed.

  Lemma written_cases c : in_file [] (fst (zip_writes t data)) c -> song_entry c = None \/ c = finished t data.
  Proof.
    rewrite the_writes. cbn [fst]. intros W.
    destruct h0_ok as [S0 N0]. destruct h1_ok as [S1 N1].
    assert (NT : tail t data <> []) by discriminate.
    assert (Ln : Z.to_nat n = length data) by (unfold n, len; lia).
    assert (L0 : length h0 = 38%nat) by reflexivity. assert (L1 : length h1 = 38%nat) by reflexivity.
    assert (GO : forall c o w ws c', in_file c ((o, w) :: ws) c' ->
      (exists p r, w = p ++ r /\ r <> [] /\ c' = overwrite c (Z.to_nat o) p) \/ in_file (overwrite c (Z.to_nat o) w) ws c').
    { clear. intros c o w ws c' W. assert (SAME : overwrite c (Z.to_nat o) [] = c).
      { unfold overwrite. cbn [length app]. rewrite Nat.add_0_r. apply firstn_skipn. }
      inversion W; subst; clear W.
      - destruct w as [|x w]; [right; rewrite SAME; constructor|]. left. exists [], (x :: w). split; [reflexivity|]. split; [discriminate|].
        now rewrite SAME.
      - destruct r as [|x r]; [right; rewrite app_nil_r; constructor|]. left. exists p, (x :: r).
        split; [reflexivity|]. split; [discriminate|reflexivity].
      - now right. }
    (* the header *)
    apply GO in W as [(p & r & Ew & R & ->)|W].
    { left. rewrite overwrite_end by reflexivity. cbn [app]. apply (cut_none h0 p (r ++ data ++ tail t data)); try assumption.
      - now rewrite app_assoc, <- Ew.
      - destruct r; [congruence|discriminate]. }
    rewrite overwrite_end in W by reflexivity. cbn [app] in W.
    (* the text *)
    apply GO in W as [(p & r & Ew & R & ->)|W].
    { left. rewrite overwrite_end by reflexivity. apply (cut_none h0 (h0 ++ p) (r ++ tail t data)); try assumption.
      - rewrite <- app_assoc. f_equal. now rewrite app_assoc, <- Ew.
      - destruct r; [congruence|discriminate]. }
    rewrite overwrite_end in W by reflexivity.
    (* the header again *)
    assert (OV : forall p r, p ++ r = h1 -> overwrite (h0 ++ data) (Z.to_nat 0) p = (firstn (length p) h1 ++ skipn (length p) h0) ++ data).
    { intros p r E. unfold overwrite. cbn [Z.to_nat firstn app Nat.add]. rewrite <- E, firstn_app, Nat.sub_diag, firstn_all. cbn [firstn].
      rewrite app_nil_r, <- app_assoc. f_equal. rewrite skipn_app.
      assert (length p <= 38)%nat by (rewrite <- L1, <- E, app_length; lia).
      replace (length p - length h0)%nat with 0%nat by lia. reflexivity. }
    apply GO in W as [(p & r & Ew & R & ->)|W].
    { left. rewrite (OV p r) by now symmetry.
      apply (cut_none (firstn (length p) h1 ++ skipn (length p) h0) _ (tail t data)); try assumption.
      - now apply mixed_shaped.
      - rewrite <- (firstn_skipn (length p) h1) in N1. rewrite <- (firstn_skipn (length p) h0) in N0.
        apply Forall_app in N1 as [N1 _]. apply Forall_app in N0 as [_ N0]. apply Forall_app. now split.
      - now rewrite <- app_assoc. }
    rewrite (OV h1 []) in W by apply app_nil_r. rewrite firstn_all, (skipn_all2 h0) in W by lia. rewrite app_nil_r in W.
    (* the directory *)
    assert (LB : Z.to_nat (38 + n) = length (h1 ++ data)) by (rewrite app_length; lia).
    apply GO in W as [(p & r & Ew & R & ->)|W].
    { left. rewrite overwrite_end by exact LB.
      apply (cut_none h1 _ (r ++ member_name ++ end_record 1 54 (38 + n))); try assumption.
      - rewrite <- !app_assoc. do 2 f_equal. rewrite app_assoc, <- Ew. reflexivity.
      - destruct r; [congruence|discriminate]. }
    rewrite overwrite_end in W by exact LB.
    apply GO in W as [(p & r & Ew & R & ->)|W].
    { left. rewrite overwrite_end by (rewrite app_length, entry_length; lia).
      apply (cut_none h1 _ (r ++ end_record 1 54 (38 + n))); try assumption.
      - unfold tail. rewrite <- !app_assoc. do 3 f_equal. rewrite app_assoc, <- Ew. reflexivity.
      - destruct r; [congruence|discriminate]. }
    rewrite overwrite_end in W by (rewrite app_length, entry_length; lia).
    (* the end record *)
    assert (LE : Z.to_nat (38 + n + 54) = length (((h1 ++ data) ++ central_entry t crc n n) ++ member_name)).
    { rewrite !app_length, entry_length. change (length member_name) with 8%nat. lia. }
    apply GO in W as [(p & r & Ew & R & ->)|W].
    { left. rewrite overwrite_end by exact LE.
      apply (cut_none h1 _ r); try assumption. unfold tail. rewrite <- !app_assoc. do 4 f_equal. now symmetry. }
    rewrite overwrite_end in W by exact LE. inversion W; subst. right.
    rewrite finished_is. unfold tail. now rewrite <- !app_assoc.
  Qed.
End Writing.
