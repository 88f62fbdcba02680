(** A song file that was not finished. *)
From Coq Require Import Lia ZifyBool.
From Verif.Model Require Import Py Core Zip.
From Verif.Spec Require Import VgmFormat ZipReader.
From Verif.Proofs Require Import PyLemmas CrcProofs ZipProofs.

Lemma write_overwrite c o w : 0 <= o -> write_at c (o, w) = overwrite c (Z.to_nat o) w.
Proof.
  intros H. unfold write_at, overwrite. cbn [fst snd]. rewrite takeZ_firstn, dropZ_skipn. do 3 f_equal. unfold len. lia.
Qed.
Lemma overwrite_middle a b c w : length w = length b -> overwrite (a ++ b ++ c) (length a) w = a ++ w ++ c.
Proof.
  intros L. unfold overwrite. rewrite firstn_app, Nat.sub_diag, firstn_all. cbn [firstn]. rewrite app_nil_r. f_equal. f_equal.
  rewrite L. rewrite !skipn_app. rewrite (skipn_all2 a) by lia. rewrite (skipn_all2 b) by lia. cbn [app].
  replace (length a + length b - length a - length b)%nat with 0%nat by lia. reflexivity.
Qed.
Lemma overwrite_end a w o : o = length a -> overwrite a o w = a ++ w.
Proof.
  intros ->. replace a with (a ++ [] ++ []) at 1 by now rewrite !app_nil_r.
  unfold overwrite. rewrite !app_nil_r, firstn_all, skipn_all2 by lia. now rewrite app_nil_r.
Qed.

Definition header_shaped (H : list Z) : Prop :=
  length H = 38%nat /\ byte_at H 2 = 3 /\ firstn 12 (skipn 26 H) = [8; 0; 0; 0] ++ member_name.
Lemma header_is_shaped t a b c : header_shaped (local_header t a b c).
Proof. split; [reflexivity|]. split; reflexivity. Qed.
Lemma mixed_shaped H G k : header_shaped H -> header_shaped G -> header_shaped (firstn k H ++ skipn k G).
Proof.
  intros (LH & BH & NH) (LG & BG & NG).
  do 39 (destruct H as [|? H]; try discriminate). do 39 (destruct G as [|? G]; try discriminate).
  cbn in BH, BG, NH, NG. subst. injection NH as ->->->->->->->->->->->->. injection NG as ->->->->->->->->->->->->.
  do 38 (destruct k as [|k]; [repeat split|]). cbn [firstn skipn app]. destruct k; repeat split.
Qed.

Lemma byte_at_firstn d k j : (j < k)%nat -> byte_at (firstn k d) j = byte_at d j.
Proof.
  unfold byte_at. revert d j. induction k as [|k IH]; intros d j H; [lia|]. destruct d as [|x d]; [now destruct j|].
  destruct j as [|j]; [reflexivity|]. cbn [firstn nth]. apply IH. lia.
Qed.
Lemma starts_bytes d i a b c e : starts d i [a; b; c; e] = true ->
  (i + 4 <= length d)%nat /\ byte_at d i = a /\ byte_at d (i + 1) = b /\ byte_at d (i + 2) = c /\ byte_at d (i + 3) = e.
Proof.
  unfold starts. cbn [length]. destruct (bytes_dec _ _) as [E|]; [intros _|discriminate].
  unfold slice in E. assert (L : length (skipn i d) = (length d - i)%nat) by apply skipn_length.
  assert (B : forall j, (j < 4)%nat -> byte_at d (i + j) = nth j [a; b; c; e] 0).
  { intros j Hj. rewrite <- E. change (nth j (firstn 4 (skipn i d)) 0) with (byte_at (firstn 4 (skipn i d)) j).
    rewrite byte_at_firstn by lia. destruct (Nat.le_gt_cases i (length d)) as [G|G].
    - rewrite <- (byte_at_shift (firstn i d) (skipn i d) j), firstn_skipn, firstn_length. f_equal. lia.
    - rewrite skipn_all2 in E by lia. discriminate. }
  split. { destruct (Nat.le_gt_cases (i + 4) (length d)); [assumption|]. apply (f_equal (@length Z)) in E.
    rewrite firstn_length, L in E. cbn [length] in E. lia. }
  pose proof (B 0%nat ltac:(lia)) as B0. rewrite Nat.add_0_r in B0.
  split; [exact B0|]. split; [exact (B 1%nat ltac:(lia))|]. split; [exact (B 2%nat ltac:(lia))|exact (B 3%nat ltac:(lia))].
Qed.

Section Unfinished.
  Variables (H data T : list Z) (k : nat).
  Hypothesis shape : header_shaped H.
  Hypothesis printable : Forall (fun b => 9 <= b) data.
  Hypothesis long : (15 <= length data)%nat.
  Hypothesis T0 : byte_at T 0 = 80.
  Hypothesis T1 : byte_at T 1 = 75.
  Hypothesis Tname : firstn 8 (skipn 46 T) = member_name.
  Hypothesis Tlen : length T = 76%nat.
  Let full := H ++ data ++ T.
  Let D := (38 + length data)%nat.
  Hypothesis less : (k < length full)%nat.
  Let d := firstn k full.

  Lemma len_full : length full = (D + 76)%nat.
  Proof. unfold full, D. rewrite !app_length. destruct shape as (-> & _). lia. Qed.
  Lemma len_d : length d = k.
  Proof. unfold d. rewrite firstn_length. lia. Qed.
  Lemma d_at j : (j < length d)%nat -> byte_at d j = byte_at full j.
  Proof. rewrite len_d. intros J. unfold d. now apply byte_at_firstn. Qed.
  Hypothesis nonneg : Forall (fun b => 0 <= b) full.
  Lemma d_nonneg j : 0 <= byte_at d j.
  Proof.
    destruct (Nat.lt_ge_cases j (length d)) as [J|J].
    - rewrite d_at by assumption. rewrite Forall_forall in nonneg. apply nonneg, nth_In. rewrite len_d in J. lia.
    - unfold byte_at. rewrite nth_overflow by assumption. lia.
  Qed.
  Lemma at_text j : (38 <= j < D)%nat -> 9 <= byte_at full j.
  Proof.
    intros J. unfold full, byte_at. destruct shape as (LH & _). rewrite app_nth2 by lia. rewrite app_nth1 by (unfold D in J; lia).
    rewrite Forall_forall in printable. apply printable, nth_In. unfold D in J. lia.
  Qed.
  Lemma at_tail j : byte_at full (D + j) = byte_at T j.
  Proof.
    unfold full, D. rewrite app_assoc. replace (38 + length data)%nat with (length (H ++ data)); [apply byte_at_shift|].
    rewrite app_length. destruct shape as (-> & _). reflexivity.
  Qed.
  Lemma at_head j : (26 <= j < 38)%nat -> byte_at full j = nth (j - 26) ([8; 0; 0; 0] ++ member_name) 0.
  Proof.
    intros J. destruct shape as (LH & _ & N). unfold full. unfold byte_at. rewrite app_nth1 by lia. rewrite <- N.
    change (nth ?a ?l 0) with (byte_at l a). rewrite byte_at_firstn by lia.
    pose proof (byte_at_shift (firstn 26 H) (skipn 26 H) (j - 26)) as X. rewrite firstn_skipn, firstn_length, LH in X.
    rewrite <- X. f_equal. lia.
  Qed.
  Lemma head_high j : (30 <= j < 38)%nat -> 9 <= byte_at full j.
  Proof.
    intros J. rewrite at_head by lia. assert (j - 26 = 4 \/ j - 26 = 5 \/ j - 26 = 6 \/ j - 26 = 7 \/ j - 26 = 8 \/ j - 26 = 9 \/ j - 26 = 10 \/ j - 26 = 11)%nat as C by lia.
    repeat destruct C as [-> |C]; try (cbn; lia). rewrite C. cbn. lia.
  Qed.
  Lemma head_small j b : (26 <= j < 38)%nat -> 0 < b < 8 -> byte_at full j <> b.
  Proof.
    intros J B. destruct (Nat.le_gt_cases 30 j) as [G|G]; [pose proof (head_high j ltac:(lia)); lia|].
    rewrite at_head by lia. assert (j - 26 = 0 \/ j - 26 = 1 \/ j - 26 = 2 \/ j - 26 = 3)%nat as C by lia.
    destruct C as [-> |[-> |[-> | ->]]]; cbn; lia.
  Qed.
  (** A mark PK with small third and fourth bytes. *)
  Lemma mark_place i c e : starts d i [80; 75; c; e] = true -> 0 < c < 8 -> 0 < e < 8 -> (i <= 23 \/ D <= i)%nat.
  Proof.
    intros S C E. apply starts_bytes in S as (L & B0 & B1 & B2 & B3). rewrite d_at in B0, B1, B2, B3 by lia.
    destruct (Nat.le_gt_cases i 23) as [|G]; [now left|]. right. destruct (Nat.le_gt_cases D i) as [|G']; [assumption|]. exfalso.
    destruct (Nat.lt_ge_cases (i + 2) 38) as [A|A]; [now apply (head_small (i + 2) c) in B2; [|lia|lia]|].
    destruct (Nat.lt_ge_cases (i + 2) D) as [A'|A']; [pose proof (at_text (i + 2) ltac:(lia)); lia|].
    assert (i + 2 = D + 0 \/ i + 2 = D + 1)%nat as [X|X] by lia; rewrite X, at_tail in B2; lia.
  Qed.
  Lemma end_place i : is_end d i = true -> (i <= 23 \/ D <= i < D + 46)%nat.
  Proof.
    intros E. unfold is_end in E. apply andb_true_iff in E as [E L]. apply andb_true_iff in E as [E _].
    destruct (mark_place i 5 6 E) as [|P]; [lia|lia|now left|]. right. split; [assumption|].
    rewrite len_d in L. pose proof len_full as LF. destruct (Nat.lt_ge_cases i (D + 46)) as [|G]; [assumption|]. exfalso.
    apply starts_bytes in E as (_ & B0 & _). rewrite d_at in B0 by (rewrite len_d; lia).
    assert (N : forall j, (46 <= j < 54)%nat -> byte_at T j = nth (j - 46) member_name 0).
    { intros j J. rewrite <- Tname. change (nth ?a ?l 0) with (byte_at l a). rewrite byte_at_firstn by lia.
      pose proof (byte_at_shift (firstn 46 T) (skipn 46 T) (j - 46)) as X. rewrite firstn_skipn, firstn_length, Tlen in X.
      rewrite <- X. f_equal. lia. }
    replace i with (D + (i - D))%nat in B0 by lia. rewrite at_tail, N in B0 by lia.
    assert (i - D - 46 = 0 \/ i - D - 46 = 1 \/ i - D - 46 = 2 \/ i - D - 46 = 3 \/ i - D - 46 = 4 \/ i - D - 46 = 5
       \/ i - D - 46 = 6 \/ i - D - 46 = 7)%nat as C by lia.
    repeat destruct C as [C|C]; rewrite C in B0; discriminate.
  Qed.
  Lemma not_the_song o i name dat next : is_end d i = true -> member d o = Some (name, dat, next) -> (next <= i)%nat ->
    name <> song_name /\ (o < next)%nat.
  Proof.
    intros E M Hn. pose proof (end_place i E) as P. unfold member in M.
    destruct (starts d o entry_mark) eqn:S; [|discriminate]. cbn [andb] in M.
    match type of M with (if ?c then _ else _) = _ => destruct c eqn:G; [|discriminate] end.
    apply andb_true_iff in G as [G _]. apply andb_true_iff in G as [G _]. apply andb_true_iff in G as [G _]. apply andb_true_iff in G as [G _].
    cbv zeta in M. match type of M with (if ?c then _ else _) = _ => destruct c; [|discriminate] end.
    injection M as <- <- <-.
    assert (U : forall j, 0 <= u16_at d j).
    { intros j. unfold u16_at. pose proof (d_nonneg j). pose proof (d_nonneg (j + 1)). lia. }
    pose proof (U (o + 28)%nat) as U28. pose proof (U (o + 30)%nat) as U30. pose proof (U (o + 32)%nat) as U32.
    split; [|lia]. intro X. apply (f_equal (@length Z)) in X. change (length song_name) with 8%nat in X.
    unfold slice in X. rewrite firstn_length, skipn_length in X.
    assert (O : (o <= 23)%nat) by (destruct (mark_place o 1 2 S) as [|Q]; [lia|lia|assumption|lia]).
    assert (O1 : (1 <= o)%nat).
    { destruct o as [|o]; [|lia]. apply starts_bytes in S as (L & _ & _ & B2 & _). rewrite d_at in B2 by lia.
      unfold full in B2. unfold byte_at in B2. destruct shape as (LH & BH & _). rewrite app_nth1 in B2 by lia.
      unfold byte_at in BH. cbn [Nat.add] in B2. congruence. }
    assert (B : 9 <= byte_at d (o + 29)).
    { rewrite d_at by lia. destruct (Nat.lt_ge_cases (o + 29) 38); [apply head_high; lia|apply at_text; unfold D; lia]. }
    assert (9 * 256 <= u16_at d (o + 28)).
    { unfold u16_at. pose proof (d_nonneg (o + 28)). replace (o + 28 + 1)%nat with (o + 29)%nat by lia. lia. }
    lia.
  Qed.
  Lemma directory_none i : is_end d i = true -> forall f o l, directory f d o i = Some l ->
    filter (fun m => if bytes_dec (fst m) song_name then true else false) l = [].
  Proof.
    intros E. induction f as [|f IH]; intros o l G; cbn [directory] in G.
    - destruct (o =? i)%nat; [|discriminate]. now injection G as <-.
    - destruct (o =? i)%nat; [now injection G as <-|].
      destruct (member d o) as [[[name dat] next]|] eqn:M; [|discriminate].
      destruct (Nat.leb_spec next i) as [Hn|]; [|discriminate].
      destruct (directory f d next i) as [r|] eqn:R; [|discriminate]. injection G as <-.
      cbn [filter fst]. destruct (not_the_song o i name dat next E M Hn) as [N _].
      destruct (bytes_dec name song_name); [contradiction|]. exact (IH next r R).
  Qed.
  Lemma unfinished_none : song_entry d = None.
  Proof.
    unfold song_entry. destruct (unzip d) as [l|] eqn:E; [|reflexivity]. unfold unzip in E.
    destruct (find_end d (length d)) as [i|] eqn:F; [|discriminate]. apply find_end_true in F.
    match type of E with (if ?c then _ else _) = _ => destruct c; [|discriminate] end.
    destruct (directory _ _ _ _) as [l'|] eqn:R; [|discriminate].
    match type of E with (if ?c then _ else _) = _ => destruct c; [|discriminate] end. injection E as <-.
    now rewrite (directory_none i F _ _ _ R).
  Qed.
End Unfinished.
