(** Opening files: Model/Core.v reader and Vgm.__init__ against Spec/VgmFormat.v. *)
From Coq Require Import Lia ZifyBool.
From Verif.Model Require Import Py Command Core.
From Verif.Spec Require Import VgmFormat.
From Verif.Proofs Require Import PyLemmas CoreProofs.
Ltac Zify.zify_post_hook ::= Z.div_mod_to_equations.

(** Reading four bytes at a known offset. *)
Lemma skipn_nth (d : list Z) : forall i, (i < length d)%nat ->
  skipn i d = nth i d 0 :: skipn (S i) d.
Proof.
  induction d as [|x d IH]; intros i H; [cbn in H; lia|].
  destruct i; [reflexivity|]. cbn [skipn nth]. apply IH. cbn in H. lia.
Qed.
Lemma take4 d i : (i + 4 <= length d)%nat ->
  firstn 4 (skipn i d) = [byte_at d i; byte_at d (i + 1); byte_at d (i + 2); byte_at d (i + 3)].
Proof.
  intros H. unfold byte_at.
  rewrite (skipn_nth d i) by lia. rewrite (skipn_nth d (S i)) by lia.
  rewrite (skipn_nth d (S (S i))) by lia. rewrite (skipn_nth d (S (S (S i)))) by lia.
  cbn [firstn]. rewrite <- !plus_n_Sm, Nat.add_0_r. reflexivity.
Qed.

Lemma fread4 d i : exists f', fread 4 (mkfile d (Z.of_nat i)) = (firstn 4 (skipn i d), f')
  /\ ((i + 4 <= length d)%nat -> f' = mkfile d (Z.of_nat (i + 4))).
Proof.
  unfold fread. cbn [fpos fbytes]. rewrite takeZ_firstn, dropZ_skipn, Nat2Z.id.
  change (Z.to_nat 4) with 4%nat.
  eexists; split; [reflexivity|]. intros H. unfold len. rewrite firstn_length, skipn_length.
  f_equal. lia.
Qed.
Lemma len4 (d : list Z) i : (len (firstn 4 (skipn i d)) =? 4) = (i + 4 <=? length d)%nat.
Proof. unfold len. rewrite firstn_length, skipn_length. lia. Qed.

Lemma read32_at d i : (i + 4 <= length d)%nat ->
  read32 (mkfile d (Z.of_nat i)) = (Ok (u32_at d i), mkfile d (Z.of_nat (i + 4))).
Proof.
  intros H. unfold read32. destruct (fread4 d i) as (f' & E & Hf). rewrite E, len4.
  replace ((i + 4 <=? length d)%nat) with true by lia. rewrite (Hf H), take4 by assumption.
  f_equal. f_equal. unfold u32_at. cbn [unpack_le]. lia.
Qed.
Lemma read32_short d i : (length d < i + 4)%nat ->
  exists f', read32 (mkfile d (Z.of_nat i)) = (Err EOFError, f').
Proof.
  intros H. unfold read32. destruct (fread4 d i) as (f' & E & Hf). rewrite E, len4.
  replace ((i + 4 <=? length d)%nat) with false by lia. eauto.
Qed.
Lemma bcd_step_eq o b : bcd_step o b = 100 * o + 10 * hi b + lo b.
Proof.
  unfold bcd_step, hi, lo. rewrite Z.shiftr_div_pow2 by lia.
  rewrite (land_mask' b 4 15) by lia. lia.
Qed.
Lemma read_bcd_at d i : (i + 4 <= length d)%nat ->
  read_bcd (mkfile d (Z.of_nat i)) = (Ok (bcd_at d i), mkfile d (Z.of_nat (i + 4))).
Proof.
  intros H. unfold read_bcd. destruct (fread4 d i) as (f' & E & Hf). rewrite E, len4.
  replace ((i + 4 <=? length d)%nat) with true by lia. rewrite (Hf H), take4 by assumption.
  f_equal. f_equal. cbn [rev app fold_left]. rewrite !bcd_step_eq. unfold bcd_at. lia.
Qed.
Lemma read_bcd_short d i : (length d < i + 4)%nat ->
  exists f', read_bcd (mkfile d (Z.of_nat i)) = (Err EOFError, f').
Proof.
  intros H. unfold read_bcd. destruct (fread4 d i) as (f' & E & Hf). rewrite E, len4.
  replace ((i + 4 <=? length d)%nat) with false by lia. eauto.
Qed.

(** The clocks dict after a successful open. *)
Definition clocks_after (ck : clocks) (d : list Z) : clocks :=
  let ck := ck_set (ck_set ck "ym2413" (u32_at d 16)) "ym2151" (u32_at d 48) in
  if version d <? 110 then ck_set ck "ym2151" (u32_at d 16) else ck.

Lemma dict_get_set {V} (d : list (string * V)) k v k' :
  dict_get String.eqb (dict_set String.eqb d k v) k' =
  if String.eqb k k' then Some v else dict_get String.eqb d k'.
Proof.
  induction d as [|[j w] d IH]; cbn; [reflexivity|].
  destruct (String.eqb_spec j k) as [->|Hjk]; cbn.
  - destruct (String.eqb_spec k k'); reflexivity.
  - rewrite IH. destruct (String.eqb_spec j k') as [->|]; [|reflexivity].
    destruct (String.eqb_spec k k'); congruence.
Qed.
Lemma ck_get_set ck k v k' : ck_get (ck_set ck k v) k' = if String.eqb k k' then Some v else ck_get ck k'.
Proof. apply dict_get_set. Qed.

Lemma vgm_init_ok ck d : header_complete d ->
  vgm_init ck (mkfile d 4) =
  (Ok (mkvgm (mkfile d (data_offset d)) (u32_at d 4) (version d) (data_offset d)), clocks_after ck d).
Proof.
  intros [H1 H2]. unfold vgm_init, clocks_after, data_offset.
  change 4 with (Z.of_nat 4) at 1.
  rewrite (read32_at d 4) by lia. change (4 + 4)%nat with 8%nat.
  rewrite (read_bcd_at d 8) by lia. change (8 + 4)%nat with 12%nat.
  rewrite (read32_at d 12) by lia. change (12 + 4)%nat with 16%nat.
  rewrite (read32_at d 16) by lia. unfold fseek; cbn [fbytes].
  change 48 with (Z.of_nat 48). rewrite (read32_at d 48) by lia.
  change (bcd_at d 8) with (version d). cbv zeta.
  rewrite !ck_get_set. change (String.eqb "ym2151" "ym2413") with false.
  change (String.eqb "ym2413" "ym2413") with true. cbn iota.
  change (48 + 4)%nat with 52%nat.
  destruct (Z.leb_spec 150 (version d)).
  - rewrite (read32_at d 52) by lia. cbn [fbytes].
    replace (version d <? 150) with false by lia. reflexivity.
  - replace (version d <? 150) with true by lia. cbn [fbytes]. reflexivity.
Qed.

Lemma vgm_init_short ck d : ~ header_complete d ->
  fst (vgm_init ck (mkfile d 4)) = Err EOFError.
Proof.
  intros H. unfold vgm_init.
  change 4 with (Z.of_nat 4) at 1.
  destruct (Nat.le_gt_cases 8 (length d)) as [L|L].
  2:{ destruct (read32_short d 4 ltac:(lia)) as (f' & E). now rewrite E. }
  rewrite (read32_at d 4) by lia. change (4 + 4)%nat with 8%nat.
  destruct (Nat.le_gt_cases 12 (length d)) as [L2|L2].
  2:{ destruct (read_bcd_short d 8 ltac:(lia)) as (f' & E). now rewrite E. }
  rewrite (read_bcd_at d 8) by lia. change (8 + 4)%nat with 12%nat.
  destruct (Nat.le_gt_cases 16 (length d)) as [L3|L3].
  2:{ destruct (read32_short d 12 ltac:(lia)) as (f' & E). now rewrite E. }
  rewrite (read32_at d 12) by lia. change (12 + 4)%nat with 16%nat.
  destruct (Nat.le_gt_cases 20 (length d)) as [L4|L4].
  2:{ destruct (read32_short d 16 ltac:(lia)) as (f' & E). now rewrite E. }
  rewrite (read32_at d 16) by lia. unfold fseek; cbn [fbytes].
  change 48 with (Z.of_nat 48).
  destruct (Nat.le_gt_cases 52 (length d)) as [L5|L5].
  2:{ destruct (read32_short d 48 ltac:(lia)) as (f' & E). now rewrite E. }
  rewrite (read32_at d 48) by lia. change (48 + 4)%nat with 52%nat.
  change (bcd_at d 8) with (version d). cbv zeta. unfold header_complete in H.
  destruct (Z.leb_spec 150 (version d)) as [V|V]; [|exfalso; apply H; split; [exact L5|now left]].
  assert (L6 : (length d < 56)%nat).
  { destruct (Nat.le_gt_cases 56 (length d)); [|assumption].
    exfalso; apply H; split; [exact L5|now right]. }
  destruct (read32_short d 52 L6) as (f' & E). now rewrite E.
Qed.

(** A failed open may still have stored clocks. *)
Lemma fread_start d n : 0 <= n ->
  fread n (mkfile d 0) = (firstn (Z.to_nat n) d, mkfile d (len (firstn (Z.to_nat n) d))).
Proof.
  intros H. unfold fread. cbn [fpos fbytes]. rewrite takeZ_firstn.
  rewrite dropZ_skipn. cbn [Z.to_nat skipn]. reflexivity.
Qed.

Lemma magic_ident d : bytes_eqb (firstn 4 d) magic = true <-> has_ident d.
Proof. unfold has_ident. now rewrite bytes_eqb_eq. Qed.
Lemma has_ident_len d : has_ident d -> (4 <= length d)%nat.
Proof.
  unfold has_ident. intros H. apply (f_equal (@length Z)) in H.
  rewrite firstn_length in H. change (length vgm_ident) with 4%nat in H. lia.
Qed.

(** What [reader] does once the bytes to interpret are known. *)
Definition open_plain (ck : clocks) (p : list Z) : res (option vgm) * clocks :=
  if bytes_eqb (firstn 4 p) magic then
    match vgm_init ck (mkfile p (len (firstn 4 p))) with
    | (Ok v, ck) => (Ok (Some v), ck)
    | (Err e, ck) => (Err e, ck)
    end
  else (Ok None, ck).

Lemma reader_plain g ck d : ~ is_gzip d -> reader g ck (mkfile d 0) = open_plain ck d.
Proof.
  intros H. unfold reader, open_plain. rewrite fread_start by lia.
  change (Z.to_nat 4) with 4%nat. rewrite takeZ_firstn. change (Z.to_nat 2) with 2%nat.
  rewrite firstn_firstn. change (Nat.min 2 4) with 2%nat.
  destruct (bytes_eqb (firstn 2 d) [31; 139]) eqn:E; [|reflexivity].
  apply bytes_eqb_eq in E. contradiction.
Qed.
Lemma reader_gzip g ck d : is_gzip d ->
  reader g ck (mkfile d 0) =
  match g d with Ok p => open_plain ck p | Err e => (Err e, ck) end.
Proof.
  intros H. unfold reader, open_plain. rewrite fread_start by lia.
  change (Z.to_nat 4) with 4%nat. rewrite takeZ_firstn. change (Z.to_nat 2) with 2%nat.
  rewrite firstn_firstn. change (Nat.min 2 4) with 2%nat.
  replace (bytes_eqb (firstn 2 d) [31; 139]) with true.
  2:{ symmetry. apply bytes_eqb_eq. exact H. }
  cbn [fbytes]. destruct (g d); [|reflexivity].
  rewrite fread_start by lia. change (Z.to_nat 4) with 4%nat. reflexivity.
Qed.

Lemma open_plain_ident ck p : has_ident p ->
  open_plain ck p = match vgm_init ck (mkfile p 4) with
                    | (Ok v, ck) => (Ok (Some v), ck) | (Err e, ck) => (Err e, ck) end.
Proof.
  intros H. unfold open_plain. rewrite (proj2 (magic_ident p) H).
  replace (len (firstn 4 p)) with 4; [reflexivity|].
  pose proof (has_ident_len p H). unfold len. rewrite firstn_length. lia.
Qed.
Lemma open_plain_none ck p : ~ has_ident p -> open_plain ck p = (Ok None, ck).
Proof.
  intros H. unfold open_plain. destruct (bytes_eqb (firstn 4 p) magic) eqn:E; [|reflexivity].
  apply magic_ident in E. contradiction.
Qed.

(** C01 core. *)
Lemma has_ident_dec d : {has_ident d} + {~ has_ident d}.
Proof. unfold has_ident. destruct (list_eq_dec Z.eq_dec (firstn 4 d) vgm_ident); auto. Qed.
Lemma is_gzip_dec d : {is_gzip d} + {~ is_gzip d}.
Proof. unfold is_gzip. destruct (list_eq_dec Z.eq_dec (firstn 2 d) gzip_ident); auto. Qed.
Lemma header_complete_dec d : {header_complete d} + {~ header_complete d}.
Proof.
  unfold header_complete.
  destruct (le_dec 52 (length d)); [|right; lia].
  destruct (Z_lt_dec (version d) 150); [left; lia|].
  destruct (le_dec 56 (length d)); [left; lia|right; lia].
Qed.
Lemma opened_ok ck p : has_ident p -> header_complete p ->
  open_plain ck p =
  (Ok (Some (mkvgm (mkfile p (data_offset p)) (u32_at p 4) (version p) (data_offset p))),
   clocks_after ck p).
Proof. intros H1 H2. rewrite open_plain_ident, vgm_init_ok by assumption. reflexivity. Qed.
Lemma opened_eof ck p : has_ident p -> ~ header_complete p ->
  fst (open_plain ck p) = Err EOFError.
Proof.
  intros H1 H2. rewrite open_plain_ident by assumption.
  pose proof (vgm_init_short ck p H2) as E. destruct (vgm_init ck (mkfile p 4)) as [[v|e] c].
  - discriminate.
  - cbn in *. congruence.
Qed.

Lemma content_reader g ck d r : content g d r ->
  reader g ck (mkfile d 0) = match r with Ok p => open_plain ck p | Err e => (Err e, ck) end.
Proof. intros H; inversion H; subst; [now apply reader_plain|now apply reader_gzip]. Qed.

Lemma open_cases ck p :
  (~ has_ident p /\ fst (open_plain ck p) = Ok None)
  \/ (has_ident p /\ ~ header_complete p /\ fst (open_plain ck p) = Err EOFError)
  \/ (has_ident p /\ header_complete p /\ open_plain ck p =
      (Ok (Some (mkvgm (mkfile p (data_offset p)) (u32_at p 4) (version p) (data_offset p))),
       clocks_after ck p)).
Proof.
  destruct (has_ident_dec p) as [H|H].
  - destruct (header_complete_dec p) as [Hc|Hc].
    + right; right. auto using opened_ok.
    + right; left. auto using opened_eof.
  - left. split; [assumption|]. now rewrite open_plain_none.
Qed.

Lemma C01_proof g ck d p : content g d (Ok p) ->
  let r := fst (reader g ck (mkfile d 0)) in
  (r = Ok None <-> ~ has_ident p)
  /\ (r = Err EOFError <-> has_ident p /\ ~ header_complete p)
  /\ ((exists v, r = Ok (Some v)) <-> has_ident p /\ header_complete p)
  /\ (r = Ok None \/ r = Err EOFError \/ exists v, r = Ok (Some v)).
Proof.
  intros H r. subst r. rewrite (content_reader g ck d _ H).
  destruct (open_cases ck p) as [(A & ->)|[(A & B & ->)|(A & B & ->)]]; cbn [fst].
  - split; [tauto|]. split; [split; [discriminate|tauto]|].
    split; [split; [intros [v Hv]; discriminate|tauto]|tauto].
  - split; [split; [discriminate|tauto]|]. split; [tauto|].
    split; [split; [intros [v Hv]; discriminate|tauto]|tauto].
  - split; [split; [discriminate|tauto]|]. split; [split; [discriminate|tauto]|].
    split; [split; [tauto|eauto]|eauto].
Qed.

Lemma opened_inv g ck d p v ck' : content g d (Ok p) ->
  reader g ck (mkfile d 0) = (Ok (Some v), ck') ->
  has_ident p /\ header_complete p
  /\ v = mkvgm (mkfile p (data_offset p)) (u32_at p 4) (version p) (data_offset p)
  /\ ck' = clocks_after ck p.
Proof.
  intros H E. rewrite (content_reader g ck d _ H) in E.
  destruct (open_cases ck p) as [(A & F)|[(A & B & F)|(A & B & F)]];
    try (rewrite E in F; discriminate F).
  rewrite E in F. injection F as -> ->. auto.
Qed.

Lemma bcd_byte_range n : 0 <= bcd_byte n < 256.
Proof. unfold bcd_byte. lia. Qed.
Lemma bcd_roundtrip p n : 0 <= n < 10 ^ 8 -> firstn 4 (skipn 8 p) = to_bcd n -> version p = n.
Proof.
  intros Hn H.
  assert (L : (12 <= length p)%nat).
  { apply (f_equal (@length Z)) in H. rewrite firstn_length, skipn_length in H.
    change (length (to_bcd n)) with 4%nat in H. lia. }
  rewrite take4 in H by lia. unfold to_bcd in H. unfold version, bcd_at.
  change (8 + 1)%nat with 9%nat in *. change (8 + 2)%nat with 10%nat in *.
  change (8 + 3)%nat with 11%nat in *.
  injection H as -> -> -> ->. unfold hi, lo, bcd_byte.
  assert (E : forall m, (16 * (m / 10 mod 10) + m mod 10) / 16 = m / 10 mod 10) by (intros; lia).
  assert (E' : forall m, (16 * (m / 10 mod 10) + m mod 10) mod 16 = m mod 10) by (intros; lia).
  rewrite !E, !E'. change (10 ^ 8) with 100000000 in Hn. lia.
Qed.

Lemma data_offset_nonneg p : bytes p -> 0 <= data_offset p.
Proof.
  intros H. assert (B : forall i, 0 <= byte_at p i).
  { intros i. unfold byte_at. destruct (Nat.lt_ge_cases i (length p)).
    - apply (proj1 (Forall_forall _ _) H). now apply nth_In.
    - rewrite nth_overflow by assumption. lia. }
  unfold data_offset, u32_at. destruct (version p <? 150); [lia|].
  pose proof (B 52%nat). pose proof (B (52 + 1)%nat). pose proof (B (52 + 2)%nat).
  pose proof (B (52 + 3)%nat). lia.
Qed.
Lemma bytes_skipn n p : bytes p -> bytes (skipn n p).
Proof. intros H. rewrite <- (firstn_skipn n p) in H. now apply Forall_app in H as [_ H]. Qed.

Lemma C04_proof g ck d p v ck' cs e : content g d (Ok p) -> bytes p ->
  reader g ck (mkfile d 0) = (Ok (Some v), ck') ->
  (stream (skipn (Z.to_nat (data_offset p)) p) cs e
   <-> fst (vgm_commands v) = cs /\ error_of (snd (vgm_commands v)) = e).
Proof.
  intros H Hb E. destruct (opened_inv _ _ _ _ _ _ H E) as (_ & _ & -> & _).
  unfold vgm_commands, iter_fuel. cbn [vfile fbytes].
  set (r := skipn _ _).
  assert (Hv : view (mkfile p (data_offset p)) r).
  { split; [cbn; now apply data_offset_nonneg|reflexivity]. }
  assert (Hr : bytes r) by now apply bytes_skipn.
  assert (Hl : (length r < S (length p))%nat) by (subst r; rewrite skipn_length; lia).
  split.
  - intros Hs. now apply (stream_iterate r cs e Hs).
  - intros [<- <-]. now apply iterate_stream.
Qed.

(** Reading only moves forward, never past the end. *)
Definition fwd (f f' : file) : Prop :=
  fbytes f' = fbytes f /\ fpos f <= fpos f' /\
  (fpos f <= len (fbytes f) -> fpos f' <= len (fbytes f)).
Lemma fwd_refl f : fwd f f.
Proof. repeat split; auto; lia. Qed.
Lemma fwd_trans a b c : fwd a b -> fwd b c -> fwd a c.
Proof. intros (A & B & C) (D & E & F). rewrite A in *. repeat split; [congruence|lia|intros; lia]. Qed.
Lemma fread_fwd n f : 0 <= fpos f -> fwd f (snd (fread n f)).
Proof.
  intros H. unfold fread. cbn [snd]. split; [reflexivity|]. cbn [fpos].
  rewrite takeZ_firstn, dropZ_skipn. unfold len. rewrite firstn_length, skipn_length.
  split; intros; lia.
Qed.
Lemma fwd_pos f f' : 0 <= fpos f -> fwd f f' -> 0 <= fpos f'.
Proof. intros H (_ & H' & _). lia. Qed.
Lemma plain_fwd id n f : 0 <= fpos f -> fwd f (snd (plain_read id n f)).
Proof.
  intros H. unfold plain_read. pose proof (fread_fwd n f H). destruct (fread n f). assumption.
Qed.
Lemma read8_fwd f : 0 <= fpos f -> fwd f (snd (read8 f)).
Proof.
  intros H. unfold read8. pose proof (fread_fwd 1 f H). destruct (fread 1 f).
  now destruct (len l =? 1).
Qed.
Lemma read16_fwd f : 0 <= fpos f -> fwd f (snd (read16 f)).
Proof.
  intros H. unfold read16. pose proof (fread_fwd 2 f H). destruct (fread 2 f).
  now destruct (len l =? 2).
Qed.
Lemma command_fwd id f : 0 <= fpos f -> fwd f (snd (command id f)).
Proof.
  intros H. rewrite command_kind. destruct (kind_of id); cbn [run_kind]; try apply fwd_refl.
  - now apply plain_fwd.
  - pose proof (read8_fwd f H) as H1. destruct (read8 f) as [[r|e] f1]; cbn [snd] in *; [|assumption].
    pose proof (read8_fwd f1 (fwd_pos _ _ H H1)) as H2. destruct (read8 f1) as [[r2|e] f2];
      cbn [snd] in *; eapply fwd_trans; eassumption.
  - pose proof (read16_fwd f H) as H1. destruct (read16 f) as [[r|e] f1]; assumption.
  - pose proof (fread_fwd 6 f H) as H1. destruct (fread 6 f) as [b f1]. cbn [snd] in H1.
    destruct (len b =? 6); [|assumption].
    eapply fwd_trans; [eassumption|]. apply plain_fwd. eapply fwd_pos; eassumption.
  - pose proof (fread_fwd 11 f H) as H1. destruct (fread 11 f) as [b f1]. cbn [snd] in H1.
    destruct (len b =? 11); [|assumption].
    eapply fwd_trans; [eassumption|]. apply plain_fwd. eapply fwd_pos; eassumption.
Qed.

Lemma C09_next f c f' : 0 <= fpos f -> vgm_next f = NYield c f' ->
  fbytes f' = fbytes f /\ fpos f < fpos f' <= len (fbytes f).
Proof.
  intros Hp E. unfold vgm_next in E.
  destruct (skipn (Z.to_nat (fpos f)) (fbytes f)) as [|b r] eqn:Er.
  { destruct (next_stop f (conj Hp Er)) as (f1 & E1 & _).
    unfold vgm_next in E1. congruence. }
  destruct (next_byte f b r (conj Hp Er)) as (f1 & E1 & _ & Hb1 & Hp1). rewrite E1 in E.
  pose proof (command_fwd b f1 ltac:(lia)) as (A & B & C).
  destruct (command b f1) as [[c'|e] f2]; [|discriminate]. injection E as <- <-.
  cbn [snd] in *. rewrite Hb1 in *.
  assert (fpos f + 1 <= len (fbytes f)).
  { apply (f_equal (@length Z)) in Er. rewrite skipn_length in Er. cbn [length] in Er.
    unfold len. lia. }
  split; [congruence|]. lia.
Qed.

Lemma C09_run g ck d p v ck' : content g d (Ok p) -> bytes p ->
  reader g ck (mkfile d 0) = (Ok (Some v), ck') ->
  (length (fst (vgm_commands v)) <= length p)%nat /\
  ((exists f, snd (vgm_commands v) = Ok f) \/ snd (vgm_commands v) = Err EOFError
   \/ snd (vgm_commands v) = Err StructError).
Proof.
  intros H Hb E.
  pose proof (proj2 (C04_proof g ck d p v ck' _ _ H Hb E) (conj eq_refl eq_refl)) as S.
  destruct (stream_errors _ _ _ S) as [A B]. rewrite skipn_length in A. split; [lia|].
  destruct (snd (vgm_commands v)) as [f|e]; cbn [error_of] in B; [eauto|].
  destruct B as [B|[B|B]]; try discriminate; injection B as ->; auto.
Qed.

(** C08. *)
Lemma C08_proof g ck d p v ck' ops : content g d (Ok p) -> bytes p ->
  reader g ck (mkfile d 0) = (Ok (Some v), ck') ->
  skipn (Z.to_nat (data_offset p)) p = flat_map encode ops -> Forall op_valid ops ->
  exists f, vgm_commands v = (map op_command ops, Ok f).
Proof.
  intros H Hb E Hs Ho.
  destruct (proj1 (C04_proof g ck d p v ck' (map op_command ops) None H Hb E)) as [A B].
  { rewrite Hs. now apply encode_stream. }
  destruct (vgm_commands v) as [cs [f|e]]; cbn in *; [|discriminate]. subst. eauto.
Qed.

(** C10: every proper prefix of a complete command is a cut command. *)
Lemma app_prefix {A} (a b c d : list A) : a ++ b = c ++ d -> (length c <= length a)%nat ->
  exists m, a = c ++ m /\ d = m ++ b.
Proof.
  revert c. induction a as [|x a IH]; intros [|y c] E H; cbn in *; try lia.
  - exists []. auto.
  - exists (x :: a). auto.
  - injection E as -> E. destruct (IH c E ltac:(lia)) as (m & -> & ->). exists m. auto.
Qed.
Lemma cut_of_prefix id cut tail c : complete id (cut ++ tail) c -> tail <> [] ->
  exists o, cut_short id cut o /\
    match o with
    | inl EOFError => id = 0x54 \/ id = 0x61
    | inl StructError => (id = 0x67 /\ (length cut < 6)%nat) \/ (id = 0x68 /\ (length cut < 11)%nat)
    | inl _ => False
    | inr c' => c' = Plain id (Some (if id =? 0x67 then skipn 6 cut
                                     else if id =? 0x68 then skipn 11 cut else cut))
                /\ id <> 0x54 /\ id <> 0x61
                /\ (id = 0x67 -> (6 <= length cut)%nat) /\ (id = 0x68 -> (11 <= length cut)%nat)
    end.
Proof.
  intros H Ht. assert (Hl : (1 <= length tail)%nat) by (destruct tail; [congruence|cbn; lia]).
  inversion H as [i ops Hid Ho E1 E2 E3|p t s0 s1 s2 s3 data Hd E1 E2 E3
                 |p t r0 r1 r2 w0 w1 w2 s0 s1 s2 data Hd E1 E2 E3]; subst.
  - rewrite app_length in Ho.
    assert (N67 : id <> 0x67) by (intros ->; discriminate Ho).
    assert (N68 : id <> 0x68) by (intros ->; discriminate Ho).
    destruct (Z.eq_dec id 0x54) as [->|H54].
    { exists (inl EOFError). split; [|auto]. constructor.
      vm_compute (operands 84) in Ho. injection Ho as Ho. lia. }
    destruct (Z.eq_dec id 0x61) as [->|H61].
    { exists (inl EOFError). split; [|auto]. constructor.
      vm_compute (operands 97) in Ho. injection Ho as Ho. lia. }
    exists (inr (Plain id (Some cut))). split; [econstructor; try eassumption; lia|].
    destruct (Z.eqb_spec id 0x67); [contradiction|].
    destruct (Z.eqb_spec id 0x68); [contradiction|]. repeat split; auto; lia.
  - destruct (Nat.lt_ge_cases (length cut) 6) as [L|L].
    { exists (inl StructError). split; [now constructor|auto]. }
    change (p :: t :: s0 :: s1 :: s2 :: s3 :: data) with ([p; t; s0; s1; s2; s3] ++ data) in *.
    symmetry in E2. destruct (app_prefix _ _ _ _ E2 L) as (m & -> & ->).
    exists (inr (Plain 0x67 (Some m))). split.
    + constructor. rewrite app_length in Hd. lia.
    + repeat split; try lia; intros; cbn; lia.
  - destruct (Nat.lt_ge_cases (length cut) 11) as [L|L].
    { exists (inl StructError). split; [now constructor|auto]. }
    change (p :: t :: r0 :: r1 :: r2 :: w0 :: w1 :: w2 :: s0 :: s1 :: s2 :: data)
      with ([p; t; r0; r1; r2; w0; w1; w2; s0; s1; s2] ++ data) in *.
    symmetry in E2. destruct (app_prefix _ _ _ _ E2 L) as (m & -> & ->).
    exists (inr (Plain 0x68 (Some m))). split.
    + constructor. rewrite app_length in Hd. lia.
    + repeat split; try lia; intros; cbn; lia.
Qed.
