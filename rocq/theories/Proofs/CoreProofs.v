(** Lemmas about Model/Core.v against Spec/VgmFormat.v. *)
From Coq Require Import Lia ZifyBool.
From Verif.Model Require Import Py Command Core.
From Verif.Spec Require Import VgmFormat.
From Verif.Proofs Require Import PyLemmas.
Ltac Zify.zify_post_hook ::= Z.div_mod_to_equations.
Arguments Z.add : simpl never.
Arguments Z.mul : simpl never.
Arguments Z.sub : simpl never.
Arguments Z.of_nat : simpl never.
Arguments Z.to_nat : simpl never.

(** What is left to read. *)
Definition view (f : file) (r : list Z) : Prop :=
  0 <= fpos f /\ skipn (Z.to_nat (fpos f)) (fbytes f) = r.

Lemma skipn_add {A} (l : list A) : forall a b, skipn a (skipn b l) = skipn (b + a) l.
Proof.
  induction l as [|x l IH]; intros a b.
  - now rewrite !skipn_nil.
  - destruct b; cbn [skipn Nat.add]; auto.
Qed.

Lemma fread_view f r n : 0 <= n -> view f r ->
  exists f', fread n f = (firstn (Z.to_nat n) r, f') /\ view f' (skipn (Z.to_nat n) r)
    /\ fbytes f' = fbytes f /\ fpos f' = fpos f + len (firstn (Z.to_nat n) r).
Proof.
  intros Hn [Hp Hr]. unfold fread. rewrite takeZ_firstn, dropZ_skipn, Hr.
  eexists; split; [reflexivity|]. cbn [fbytes fpos]. split; [|auto].
  split; cbn [fbytes fpos]; [unfold len; lia|].
  unfold len. rewrite Z2Nat.inj_add by lia. rewrite Nat2Z.id.
  rewrite <- skipn_add, Hr, firstn_length.
  destruct (Nat.le_ge_cases (Z.to_nat n) (length r)) as [H|H].
  - now rewrite Nat.min_l.
  - rewrite Nat.min_r by assumption. rewrite !skipn_all2; auto.
Qed.

Lemma bytes_eqb_eq : forall a b, bytes_eqb a b = true <-> a = b.
Proof.
  induction a as [|x a IH]; intros [|y b]; cbn; split; try congruence; intros H.
  - apply andb_true_iff in H as [H1 H2]. apply Z.eqb_eq in H1. apply IH in H2. congruence.
  - inversion H; subst. rewrite Z.eqb_refl. now apply IH.
Qed.

(** Shape of the branch taken for each id. *)
Inductive kind := KNone | KRead (n : Z) | KYm | KWait16 | KWaitC (n : Z) | KEos | KBlock | KPcm
| KShort.
Definition kind_of (id : Z) : kind :=
  if (id <? 48) || (id =? 96) || ((100 <=? id) && (id <=? 101))
     || ((105 <=? id) && (id <? 112)) || ((128 <=? id) && (id <? 144))
     || ((150 <=? id) && (id <? 160)) then KNone
  else if id <? 64 then KRead 1 else if id <? 79 then KRead 2 else if id <? 81 then KRead 1
  else if id <? 84 then KRead 2 else if id =? 84 then KYm else if id <? 96 then KRead 2
  else if id =? 97 then KWait16 else if id =? 98 then KWaitC 735 else if id =? 99 then KWaitC 882
  else if id =? 102 then KEos else if id =? 103 then KBlock else if id =? 104 then KPcm
  else if id <? 128 then KShort else if id <? 146 then KRead 4 else if id =? 146 then KRead 5
  else if id =? 147 then KRead 10 else if id =? 148 then KRead 1 else if id =? 149 then KRead 4
  else if id <? 192 then KRead 2 else if id <? 224 then KRead 3 else KRead 4.

Definition run_kind (k : kind) (id : Z) (f : file) : res vcmd * file :=
  match k with
  | KNone => (Ok (Plain id None), f)
  | KRead n => plain_read id n f
  | KYm =>
      match read8 f with
      | (Err e, f) => (Err e, f)
      | (Ok reg, f) =>
          match read8 f with
          | (Err e, f) => (Err e, f)
          | (Ok value, f) => (Ok (Ym id reg value), f)
          end
      end
  | KWait16 =>
      match read16 f with
      | (Err e, f) => (Err e, f)
      | (Ok n, f) => (Ok (Wait id (Some n)), f)
      end
  | KWaitC n => (Ok (Wait id (Some n)), f)
  | KEos => (Ok (Eos id), f)
  | KBlock =>
      let (buffer, f) := fread 6 f in
      if len buffer =? 6 then plain_read id (unpack_le (dropZ 2 buffer)) f
      else (Err StructError, f)
  | KPcm =>
      let (buffer, f) := fread 11 f in
      if len buffer =? 11 then
        plain_read id (unpack_le (takeZ 2 (dropZ 9 buffer)) * 256
                       + unpack_le (takeZ 1 (dropZ 8 buffer))) f
      else (Err StructError, f)
  | KShort => (Ok (Wait id (Some (id - 111))), f)
  end.

Lemma command_kind id f : command id f = run_kind (kind_of id) id f.
Proof.
  unfold command, kind_of.
  match goal with |- context [if ?b then _ else _] => destruct b eqn:H0 end; [reflexivity|].
  destruct ((30 <=? id) && (id <? 64)) eqn:H1.
  { replace (id <? 64) with true by lia. reflexivity. }
  replace (id <? 64) with false by lia.
  repeat (match goal with |- context [if ?b then _ else _] =>
            lazymatch b with context [if _ then _ else _] => fail | _ => idtac end;
            lazymatch b with (len _ =? _) => fail | _ => idtac end;
            destruct b eqn:?; [try reflexivity|] end).
  - unfold run_kind, mk_wait. destruct (read16 f) as [[n|e] f']; [|reflexivity].
    replace (id / 16 =? 7) with false by lia. reflexivity.
  - unfold run_kind, mk_wait. replace (id / 16 =? 7) with false by lia. reflexivity.
  - unfold run_kind, mk_wait. replace (id / 16 =? 7) with false by lia. reflexivity.
  - unfold run_kind, mk_wait. replace (id / 16 =? 7) with true by lia.
    replace (id mod 16 + 1) with (id - 111) by lia. reflexivity.
  - reflexivity.
Qed.

(** The operand table agrees with the branch shapes. *)
Definition kind_operands (k : kind) : option nat :=
  match k with
  | KNone | KWaitC _ | KEos | KShort => Some 0%nat
  | KRead n => Some (Z.to_nat n)
  | KYm | KWait16 => Some 2%nat
  | KBlock | KPcm => None
  end.
Definition onat_eqb (a b : option nat) : bool :=
  match a, b with Some x, Some y => Nat.eqb x y | None, None => true | _, _ => false end.
Lemma operands_kind id : byte id -> operands id = kind_operands (kind_of id).
Proof.
  intros H.
  assert (E : onat_eqb (operands id) (kind_operands (kind_of id)) = true).
  { apply (byte_sweep (fun b => onat_eqb (operands b) (kind_operands (kind_of b)))); [|exact H].
    vm_compute. reflexivity. }
  destruct (operands id), (kind_operands (kind_of id)); cbn in E; try discriminate; auto.
  apply Nat.eqb_eq in E. congruence.
Qed.
Definition kind_eqb (a b : kind) : bool :=
  match a, b with
  | KNone, KNone | KYm, KYm | KWait16, KWait16 | KEos, KEos | KBlock, KBlock | KPcm, KPcm
  | KShort, KShort => true
  | KRead n, KRead m | KWaitC n, KWaitC m => n =? m
  | _, _ => false
  end.

(** [kind_of] determines the id for the special kinds, and reads are positive. *)
Definition kind_facts (b : Z) : bool :=
  match kind_of b with
  | KYm => b =? 84 | KWait16 => b =? 97
  | KWaitC n => ((b =? 98) && (n =? 735)) || ((b =? 99) && (n =? 882))
  | KEos => b =? 102 | KBlock => b =? 103 | KPcm => b =? 104
  | KShort => (112 <=? b) && (b <=? 127)
  | KRead n => (0 <? n) && negb (b =? 84) && negb (b =? 97) && negb (b =? 98) && negb (b =? 99)
               && negb (b =? 102) && negb ((112 <=? b) && (b <=? 127))
               && negb (b =? 103) && negb (b =? 104)
  | KNone => negb (b =? 84) && negb (b =? 97) && negb (b =? 98) && negb (b =? 99)
             && negb (b =? 102) && negb ((112 <=? b) && (b <=? 127))
             && negb (b =? 103) && negb (b =? 104)
  end.
Lemma kind_factsP b : byte b -> kind_facts b = true.
Proof. intros H. apply (byte_sweep kind_facts); [vm_compute; reflexivity|exact H]. Qed.

Lemma firstn_app_all {A} (a b : list A) n : length a = n -> firstn n (a ++ b) = a.
Proof. intros <-. rewrite firstn_app, firstn_all, Nat.sub_diag. cbn. apply app_nil_r. Qed.
Lemma skipn_app_all {A} (a b : list A) n : length a = n -> skipn n (a ++ b) = b.
Proof. intros <-. now rewrite skipn_app, skipn_all, Nat.sub_diag. Qed.

(** Result of a branch whose operands are complete. *)
Lemma plain_read_ok id n f ops rest :
  0 <= n -> Z.of_nat (length ops) = n -> view f (ops ++ rest) ->
  exists f', plain_read id n f = (Ok (Plain id (Some ops)), f') /\ view f' rest
    /\ fbytes f' = fbytes f /\ fpos f' = fpos f + len ops.
Proof.
  intros Hn Hl Hv. destruct (fread_view f _ n Hn Hv) as (f' & E & Hv' & Hb & Hp).
  unfold plain_read. rewrite E.
  rewrite firstn_app_all in * by lia. rewrite skipn_app_all in Hv' by lia.
  exists f'. auto.
Qed.
Lemma plain_read_short id n f r :
  0 <= n -> Z.of_nat (length r) <= n -> view f r ->
  exists f', plain_read id n f = (Ok (Plain id (Some r)), f') /\ view f' []
    /\ fbytes f' = fbytes f /\ fpos f' = fpos f + len r.
Proof.
  intros Hn Hl Hv. destruct (fread_view f _ n Hn Hv) as (f' & E & Hv' & Hb & Hp).
  unfold plain_read. rewrite E. rewrite firstn_all2 in * by lia.
  rewrite skipn_all2 in Hv' by lia. exists f'. auto.
Qed.

Lemma read8_ok f b rest : view f (b :: rest) ->
  exists f', read8 f = (Ok b, f') /\ view f' rest /\ fbytes f' = fbytes f
    /\ fpos f' = fpos f + 1.
Proof.
  intros Hv. destruct (fread_view f _ 1 ltac:(lia) Hv) as (f' & E & Hv' & Hb & Hp).
  unfold read8. rewrite E. change (Z.to_nat 1) with 1%nat in *. cbn [firstn skipn] in *.
  cbn. exists f'. rewrite Z.mul_0_r, Z.add_0_r. auto.
Qed.
Lemma read8_eof f : view f [] ->
  exists f', read8 f = (Err EOFError, f') /\ view f' [] /\ fbytes f' = fbytes f.
Proof.
  intros Hv. destruct (fread_view f _ 1 ltac:(lia) Hv) as (f' & E & Hv' & Hb & Hp).
  unfold read8. rewrite E. change (Z.to_nat 1) with 1%nat in *. cbn [firstn skipn] in *.
  exists f'. auto.
Qed.
Lemma read16_ok f a b rest : view f (a :: b :: rest) ->
  exists f', read16 f = (Ok (a + 256 * b), f') /\ view f' rest /\ fbytes f' = fbytes f
    /\ fpos f' = fpos f + 2.
Proof.
  intros Hv. destruct (fread_view f _ 2 ltac:(lia) Hv) as (f' & E & Hv' & Hb & Hp).
  unfold read16. rewrite E. change (Z.to_nat 2) with 2%nat in *. cbn [firstn skipn] in *.
  cbn. exists f'. rewrite Z.mul_0_r, Z.add_0_r. auto.
Qed.
Lemma read16_eof f r : (length r < 2)%nat -> view f r ->
  exists f', read16 f = (Err EOFError, f') /\ view f' [] /\ fbytes f' = fbytes f.
Proof.
  intros Hl Hv. destruct (fread_view f _ 2 ltac:(lia) Hv) as (f' & E & Hv' & Hb & Hp).
  unfold read16. rewrite E. change (Z.to_nat 2) with 2%nat in *.
  rewrite firstn_all2 by lia. rewrite skipn_all2 in Hv' by lia.
  unfold len. destruct (Z.eqb_spec (Z.of_nat (length r)) 2); [lia|]. exists f'. auto.
Qed.

Lemma next_byte f b r : view f (b :: r) ->
  exists f', fread 1 f = ([b], f') /\ view f' r /\ fbytes f' = fbytes f /\ fpos f' = fpos f + 1.
Proof.
  intros Hv. destruct (fread_view f _ 1 ltac:(lia) Hv) as (f' & E & Hv' & Hb & Hp).
  change (Z.to_nat 1) with 1%nat in *. cbn [firstn skipn] in *. exists f'. auto.
Qed.

Ltac lens := unfold len in *; cbn [length] in *; lia.

(** C07: complete commands. *)
Lemma next_complete f id ops rest c :
  view f (id :: ops ++ rest) -> bytes (id :: ops) -> complete id ops c ->
  exists f', vgm_next f = NYield c f' /\ view f' rest /\ fbytes f' = fbytes f
    /\ fpos f' = fpos f + 1 + len ops.
Proof.
  intros Hv Hby Hc. destruct (next_byte _ _ _ Hv) as (f1 & E1 & Hv1 & Hb1 & Hp1).
  unfold vgm_next. rewrite E1. rewrite command_kind.
  inversion Hc; subst.
  - (* fixed size *)
    pose proof (operands_kind _ H) as Hk. rewrite H0 in Hk.
    pose proof (kind_factsP _ H) as Hf. unfold kind_facts in Hf.
    unfold denote, wait_samples.
    destruct (kind_of id) eqn:K; cbn [kind_operands] in Hk; try discriminate;
      injection Hk as Hk.
    + destruct ops; [|discriminate]. exists f1. cbn [run_kind].
      repeat match goal with |- context [if ?b then _ else _] =>
        replace b with false by lia end.
      cbn. split; [reflexivity|]. split; [exact Hv1|]. split; [exact Hb1|]. lens.
    + destruct (plain_read_ok id n f1 ops rest ltac:(lia) ltac:(lia) Hv1)
        as (f2 & E2 & Hv2 & Hb2 & Hp2).
      cbn [run_kind]. rewrite E2. exists f2.
      repeat match goal with |- context [if ?b then _ else _] =>
        replace b with false by lia end.
      destruct ops as [|o ops]; [cbn in Hk; lia|].
      split; [reflexivity|]. split; [assumption|]. split; [congruence|lens].
    + destruct ops as [|a [|b [|]]]; try discriminate.
      destruct (read8_ok f1 a (b :: rest) Hv1) as (f2 & E2 & Hv2 & Hb2 & Hp2).
      destruct (read8_ok f2 b rest Hv2) as (f3 & E3 & Hv3 & Hb3 & Hp3).
      cbn [run_kind]. rewrite E2, E3. exists f3.
      assert (id = 84) by lia. subst id. cbn.
      split; [reflexivity|]. split; [assumption|]. split; [congruence|]. lens.
    + destruct ops as [|a [|b [|]]]; try discriminate.
      destruct (read16_ok f1 a b rest Hv1) as (f2 & E2 & Hv2 & Hb2 & Hp2).
      cbn [run_kind]. rewrite E2. exists f2. assert (id = 97) by lia. subst id. cbn.
      split; [reflexivity|]. split; [assumption|]. split; [congruence|]. lens.
    + destruct ops; [|discriminate]. exists f1. cbn [run_kind].
      assert ((id = 98 /\ n = 735) \/ (id = 99 /\ n = 882)) as [[-> ->]|[-> ->]] by lia; cbn;
        (split; [reflexivity|]; split; [exact Hv1|]; split; [exact Hb1|]; lens).
    + destruct ops; [|discriminate]. exists f1. cbn [run_kind]. assert (id = 102) by lia.
      subst id. cbn. split; [reflexivity|]; split; [exact Hv1|]; split; [exact Hb1|]; lens.
    + destruct ops; [|discriminate]. exists f1. cbn [run_kind].
      replace (id =? 97) with false by lia. replace (id =? 98) with false by lia.
      replace (id =? 99) with false by lia. replace ((112 <=? id) && (id <=? 127)) with true by lia.
      replace (id - 112 + 1) with (id - 111) by lia.
      split; [reflexivity|]; split; [exact Hv1|]; split; [exact Hb1|]; lens.
  - (* data block *)
    change (kind_of 103) with KBlock. cbn [run_kind].
    destruct (fread_view f1 _ 6 ltac:(lia) Hv1) as (f2 & E2 & Hv2 & Hb2 & Hp2).
    change (Z.to_nat 6) with 6%nat in *. cbn [firstn skipn app] in *. rewrite E2.
    change (len [p; t; s0; s1; s2; s3] =? 6) with true. cbn iota.
    rewrite dropZ_skipn. change (skipn (Z.to_nat 2) [p; t; s0; s1; s2; s3]) with [s0; s1; s2; s3].
    cbn [unpack_le].
    destruct (plain_read_ok 103 (s0 + 256 * (s1 + 256 * (s2 + 256 * (s3 + 256 * 0)))) f2 data rest)
      as (f3 & E3 & Hv3 & Hb3 & Hp3); [lia|lia|assumption|].
    rewrite E3. exists f3. split; [reflexivity|]. split; [assumption|]. split; [congruence|].
    rewrite Hp3, Hp2, Hp1. lens.
  - (* pcm ram write *)
    change (kind_of 104) with KPcm. cbn [run_kind].
    destruct (fread_view f1 _ 11 ltac:(lia) Hv1) as (f2 & E2 & Hv2 & Hb2 & Hp2).
    change (Z.to_nat 11) with 11%nat in *. cbn [firstn skipn app] in *. rewrite E2.
    change (len [p; t; r0; r1; r2; w0; w1; w2; s0; s1; s2] =? 11) with true. cbn iota.
    rewrite !dropZ_skipn, !takeZ_firstn.
    change (firstn (Z.to_nat 2) (skipn (Z.to_nat 9) [p; t; r0; r1; r2; w0; w1; w2; s0; s1; s2]))
      with [s1; s2].
    change (firstn (Z.to_nat 1) (skipn (Z.to_nat 8) [p; t; r0; r1; r2; w0; w1; w2; s0; s1; s2]))
      with [s0].
    cbn [unpack_le].
    destruct (plain_read_ok 104 ((s1 + 256 * (s2 + 256 * 0)) * 256 + (s0 + 256 * 0)) f2 data rest)
      as (f3 & E3 & Hv3 & Hb3 & Hp3); [lia|lia|assumption|].
    rewrite E3. exists f3. split; [reflexivity|]. split; [assumption|]. split; [congruence|].
    lens.
Qed.

(** C10: cut commands. *)
Lemma next_cut f id cut o :
  view f (id :: cut) -> bytes (id :: cut) -> cut_short id cut o ->
  exists f', vgm_next f = match o with inl e => NRaise e f' | inr c => NYield c f' end
    /\ view f' [] /\ fbytes f' = fbytes f.
Proof.
  intros Hv Hby Hc. destruct (next_byte _ _ _ Hv) as (f1 & E1 & Hv1 & Hb1 & Hp1).
  unfold vgm_next. rewrite E1. rewrite command_kind.
  inversion Hc; subst.
  - change (kind_of 84) with KYm. cbn [run_kind].
    destruct cut as [|a [|]]; cbn [length] in *; try lia.
    + destruct (read8_eof f1 Hv1) as (f2 & E2 & Hv2 & Hb2). rewrite E2. exists f2.
      split; [reflexivity|]. split; [assumption|congruence].
    + destruct (read8_ok f1 a [] Hv1) as (f2 & E2 & Hv2 & Hb2 & Hp2). rewrite E2.
      destruct (read8_eof f2 Hv2) as (f3 & E3 & Hv3 & Hb3). rewrite E3. exists f3.
      split; [reflexivity|]. split; [assumption|congruence].
  - change (kind_of 97) with KWait16. cbn [run_kind].
    destruct (read16_eof f1 cut H Hv1) as (f2 & E2 & Hv2 & Hb2). rewrite E2. exists f2.
    split; [reflexivity|]. split; [assumption|congruence].
  - change (kind_of 103) with KBlock. cbn [run_kind].
    destruct (fread_view f1 _ 6 ltac:(lia) Hv1) as (f2 & E2 & Hv2 & Hb2 & Hp2). rewrite E2.
    change (Z.to_nat 6) with 6%nat in *. rewrite firstn_all2 by lia.
    rewrite skipn_all2 in Hv2 by lia. unfold len.
    destruct (Z.eqb_spec (Z.of_nat (length cut)) 6); [lia|]. exists f2.
    split; [reflexivity|]. split; [assumption|congruence].
  - change (kind_of 104) with KPcm. cbn [run_kind].
    destruct (fread_view f1 _ 11 ltac:(lia) Hv1) as (f2 & E2 & Hv2 & Hb2 & Hp2). rewrite E2.
    change (Z.to_nat 11) with 11%nat in *. rewrite firstn_all2 by lia.
    rewrite skipn_all2 in Hv2 by lia. unfold len.
    destruct (Z.eqb_spec (Z.of_nat (length cut)) 11); [lia|]. exists f2.
    split; [reflexivity|]. split; [assumption|congruence].
  - change (kind_of 103) with KBlock. cbn [run_kind].
    destruct (fread_view f1 _ 6 ltac:(lia) Hv1) as (f2 & E2 & Hv2 & Hb2 & Hp2).
    change (Z.to_nat 6) with 6%nat in *. cbn [firstn skipn app] in *. rewrite E2.
    change (len [p; t; s0; s1; s2; s3] =? 6) with true. cbn iota.
    rewrite dropZ_skipn. change (skipn (Z.to_nat 2) [p; t; s0; s1; s2; s3]) with [s0; s1; s2; s3].
    cbn [unpack_le].
    destruct (plain_read_short 103 (s0 + 256 * (s1 + 256 * (s2 + 256 * (s3 + 256 * 0)))) f2 data)
      as (f3 & E3 & Hv3 & Hb3 & Hp3); [lia|lia|assumption|].
    rewrite E3. exists f3. split; [reflexivity|]. split; [assumption|congruence].
  - change (kind_of 104) with KPcm. cbn [run_kind].
    destruct (fread_view f1 _ 11 ltac:(lia) Hv1) as (f2 & E2 & Hv2 & Hb2 & Hp2).
    change (Z.to_nat 11) with 11%nat in *. cbn [firstn skipn app] in *. rewrite E2.
    change (len [p; t; r0; r1; r2; w0; w1; w2; s0; s1; s2] =? 11) with true. cbn iota.
    rewrite !dropZ_skipn, !takeZ_firstn.
    change (firstn (Z.to_nat 2) (skipn (Z.to_nat 9) [p; t; r0; r1; r2; w0; w1; w2; s0; s1; s2]))
      with [s1; s2].
    change (firstn (Z.to_nat 1) (skipn (Z.to_nat 8) [p; t; r0; r1; r2; w0; w1; w2; s0; s1; s2]))
      with [s0].
    cbn [unpack_le].
    destruct (plain_read_short 104 ((s1 + 256 * (s2 + 256 * 0)) * 256 + (s0 + 256 * 0)) f2 data)
      as (f3 & E3 & Hv3 & Hb3 & Hp3); [lia|lia|assumption|].
    rewrite E3. exists f3. split; [reflexivity|]. split; [assumption|congruence].
  - pose proof (operands_kind _ H) as Hk. rewrite H2 in Hk.
    pose proof (kind_factsP _ H) as Hf. unfold kind_facts in Hf.
    destruct (kind_of id) eqn:K; cbn [kind_operands] in Hk; try discriminate;
      injection Hk as Hk; try lia.
    destruct (plain_read_short id n0 f1 cut ltac:(lia) ltac:(lia) Hv1)
        as (f2 & E2 & Hv2 & Hb2 & Hp2).
    cbn [run_kind]. rewrite E2. exists f2.
    split; [reflexivity|]. split; [assumption|congruence].
Qed.

(** Every non-empty remainder starts with a complete or a cut command. *)
Lemma split_command id r : bytes (id :: r) ->
  (exists ops rest c, r = ops ++ rest /\ complete id ops c)
  \/ (exists o, cut_short id r o).
Proof.
  intros Hby. inversion Hby as [|? ? Hid Hr]; subst.
  destruct (operands id) as [n|] eqn:Ho.
  - destruct (Nat.le_gt_cases n (length r)) as [Hn|Hn].
    + left. exists (firstn n r), (skipn n r), (denote id (firstn n r)).
      split; [symmetry; apply firstn_skipn|]. constructor; [assumption|].
      rewrite firstn_length, Nat.min_l; assumption.
    + right. destruct (Z.eq_dec id 84) as [->|H84].
      { exists (inl EOFError). constructor. vm_compute in Ho. injection Ho as <-. assumption. }
      destruct (Z.eq_dec id 97) as [->|H97].
      { exists (inl EOFError). constructor. vm_compute in Ho. injection Ho as <-. assumption. }
      exists (inr (Plain id (Some r))). econstructor; eassumption.
  - assert (id = 103 \/ id = 104) as Hid2.
    { pose proof (operands_kind _ Hid) as Hk. rewrite Ho in Hk.
      pose proof (kind_factsP _ Hid) as Hf. unfold kind_facts in Hf.
      destruct (kind_of id); cbn in Hk; try discriminate; lia. }
    assert (Hs : forall k, (k < length r)%nat -> byte (nth k r 0)).
    { intros k Hk. apply (proj1 (Forall_forall _ _) Hr). now apply nth_In. }
    destruct Hid2 as [->| ->].
    + destruct (Nat.le_gt_cases 6 (length r)) as [Hn|Hn].
      2:{ right. exists (inl StructError). now constructor. }
      destruct r as [|p [|t [|s0 [|s1 [|s2 [|s3 d]]]]]]; try (cbn [length] in Hn; lia).
      set (sz := s0 + 2 ^ 8 * s1 + 2 ^ 16 * s2 + 2 ^ 24 * s3).
      pose proof (Hs 2%nat ltac:(cbn; lia)) as B0. pose proof (Hs 3%nat ltac:(cbn; lia)) as B1.
      pose proof (Hs 4%nat ltac:(cbn; lia)) as B2. pose proof (Hs 5%nat ltac:(cbn; lia)) as B3.
      cbn in B0, B1, B2, B3. unfold byte in *.
      destruct (Z.le_gt_cases sz (Z.of_nat (length d))) as [Hd|Hd].
      * left. exists ([p; t; s0; s1; s2; s3] ++ firstn (Z.to_nat sz) d), (skipn (Z.to_nat sz) d).
        eexists. split; [cbn; now rewrite firstn_skipn|]. apply data_block.
        rewrite firstn_length. subst sz. lia.
      * right. eexists. apply (cut_block_data p t s0 s1 s2 s3 d). exact Hd.
    + destruct (Nat.le_gt_cases 11 (length r)) as [Hn|Hn].
      2:{ right. exists (inl StructError). now constructor. }
      destruct r as [|p [|t [|r0 [|r1 [|r2 [|w0 [|w1 [|w2 [|s0 [|s1 [|s2 d]]]]]]]]]]];
        try (cbn [length] in Hn; lia).
      set (sz := s0 + 2 ^ 8 * s1 + 2 ^ 16 * s2).
      pose proof (Hs 8%nat ltac:(cbn; lia)) as B0. pose proof (Hs 9%nat ltac:(cbn; lia)) as B1.
      pose proof (Hs 10%nat ltac:(cbn; lia)) as B2. cbn in B0, B1, B2. unfold byte in *.
      destruct (Z.le_gt_cases sz (Z.of_nat (length d))) as [Hd|Hd].
      * left. exists ([p; t; r0; r1; r2; w0; w1; w2; s0; s1; s2] ++ firstn (Z.to_nat sz) d),
          (skipn (Z.to_nat sz) d).
        eexists. split; [cbn; now rewrite firstn_skipn|]. apply pcm_ram_write.
        rewrite firstn_length. subst sz. lia.
      * right. eexists. apply (cut_pcm_data p t r0 r1 r2 w0 w1 w2 s0 s1 s2 d). exact Hd.
Qed.

Lemma next_stop f : view f [] ->
  exists f', vgm_next f = NStop f' /\ view f' [] /\ fbytes f' = fbytes f.
Proof.
  intros Hv. destruct (fread_view f _ 1 ltac:(lia) Hv) as (f' & E & Hv' & Hb & Hp).
  unfold vgm_next. rewrite E. change (Z.to_nat 1) with 1%nat in *. cbn [firstn skipn] in *.
  exists f'. auto.
Qed.

(** Iteration produces what [stream] describes. *)
Lemma iterate_stream : forall fuel f r, view f r -> bytes r -> (length r < fuel)%nat ->
  stream r (fst (iterate fuel f)) (error_of (snd (iterate fuel f))).
Proof.
  induction fuel as [|k IH]; intros f r Hv Hby Hl; [lia|]. cbn [iterate].
  destruct r as [|id r].
  - destruct (next_stop f Hv) as (f' & E & _). rewrite E. cbn. constructor.
  - destruct (split_command id r Hby) as [(ops & rest & c & -> & Hc)|(o & Hc)].
    + inversion Hby as [|? ? Hid Hor]; subst. apply Forall_app in Hor as [Ho Hrest].
      assert (Hby' : bytes (id :: ops)) by (constructor; assumption).
      destruct (next_complete f id ops rest c Hv Hby' Hc) as (f' & E & Hv' & Hb & Hp).
      rewrite E. specialize (IH f' rest Hv' Hrest).
      destruct (iterate k f') as [cs e]. cbn [fst snd] in *. constructor; [assumption|].
      apply IH. cbn [length] in Hl. rewrite app_length in Hl. lia.
    + destruct (next_cut f id r o Hv Hby Hc) as (f' & E & Hv' & Hb).
      rewrite E. destruct o as [e|c].
      * cbn. now constructor.
      * destruct k as [|k].
        { cbn [length] in Hl. lia. }
        cbn [iterate]. destruct (next_stop f' Hv') as (f'' & E' & _). rewrite E'. cbn.
        now constructor.
Qed.

Lemma stream_iterate : forall r cs e, stream r cs e -> forall fuel f, view f r -> bytes r ->
  (length r < fuel)%nat ->
  fst (iterate fuel f) = cs /\ error_of (snd (iterate fuel f)) = e.
Proof.
  induction 1 as [|id ops c rest cs err Hc Hs IH|id cut c Hc|id cut e Hc];
    intros fuel f Hv Hby Hl; (destruct fuel as [|k]; [lia|]); cbn [iterate].
  - destruct (next_stop f Hv) as (f' & E & _). rewrite E. cbn. auto.
  - inversion Hby as [|? ? Hid Hor]; subst. apply Forall_app in Hor as [Ho Hrest].
    assert (Hby' : bytes (id :: ops)) by (constructor; assumption).
    destruct (next_complete f id ops rest c Hv Hby' Hc) as (f' & E & Hv' & Hb & Hp).
    rewrite E. cbn [length] in Hl. rewrite app_length in Hl.
    destruct (IH k f' Hv' Hrest ltac:(lia)) as [E1 E2].
    destruct (iterate k f') as [cs' e']. cbn [fst snd] in *. subst. auto.
  - destruct (next_cut f id cut _ Hv Hby Hc) as (f' & E & Hv' & Hb). rewrite E.
    destruct k as [|k]; [cbn [length] in Hl; lia|].
    cbn [iterate]. destruct (next_stop f' Hv') as (f'' & E' & _). rewrite E'. cbn. auto.
  - destruct (next_cut f id cut _ Hv Hby Hc) as (f' & E & Hv' & Hb). rewrite E. cbn. auto.
Qed.

Lemma stream_errors : forall r cs e, stream r cs e ->
  (length cs <= length r)%nat /\ (e = None \/ e = Some EOFError \/ e = Some StructError).
Proof.
  induction 1 as [|id ops c rest cs err Hc Hs IH|id cut c Hc|id cut e Hc]; cbn [length].
  - auto.
  - rewrite app_length. split; [lia|tauto].
  - split; [lia|auto].
  - split; [lia|]. inversion Hc; auto.
Qed.

(** Encoded operations. *)
Lemma encode_complete o : op_valid o -> exists id ops,
  encode o = id :: ops /\ complete id ops (op_command o).
Proof.
  intros H. destruct o; cbn [op_valid encode op_command] in *.
  - eexists _, _; split; [reflexivity|].
    apply (fixed_size 0x54 [reg; val]); [split; lia|reflexivity].
  - eexists _, _; split; [reflexivity|].
    replace (Wait 0x61 (Some n)) with (denote 0x61 (le16 n)).
    + apply (fixed_size 0x61 (le16 n)); [split; lia|reflexivity].
    + unfold denote, wait_samples, le16. cbn [nth]. change (0x61 =? 0x61) with true. cbn iota.
      f_equal. f_equal. lia.
  - eexists _, _; split; [reflexivity|]. apply (fixed_size 0x62 []); [split; lia|reflexivity].
  - eexists _, _; split; [reflexivity|]. apply (fixed_size 0x63 []); [split; lia|reflexivity].
  - eexists _, _; split; [reflexivity|].
    replace (Wait (0x70 + n) (Some (n + 1))) with (denote (0x70 + n) []).
    + apply fixed_size; [unfold byte; lia|].
      assert (n = 0 \/ n = 1 \/ n = 2 \/ n = 3 \/ n = 4 \/ n = 5 \/ n = 6 \/ n = 7 \/ n = 8
        \/ n = 9 \/ n = 10 \/ n = 11 \/ n = 12 \/ n = 13 \/ n = 14 \/ n = 15) as Hn by lia.
      repeat (destruct Hn as [->|Hn]; [reflexivity|]). subst. reflexivity.
    + unfold denote, wait_samples.
      replace (0x70 + n =? 0x61) with false by lia. replace (0x70 + n =? 0x62) with false by lia.
      replace (0x70 + n =? 0x63) with false by lia.
      replace ((0x70 <=? 0x70 + n) && (0x70 + n <=? 0x7F)) with true by lia.
      f_equal. f_equal. lia.
  - eexists _, _; split; [reflexivity|]. apply (fixed_size 0x66 []); [split; lia|reflexivity].
  - eexists _, _; split; [reflexivity|]. cbn [app].
    change (0x66 :: kind0 :: le32 (Z.of_nat (length data)) ++ data)
      with ([0x66; kind0; Z.of_nat (length data) mod 256; Z.of_nat (length data) / 256 mod 256;
             Z.of_nat (length data) / 65536 mod 256; Z.of_nat (length data) / 16777216] ++ data).
    apply data_block. lia.
  - eexists _, _; split; [reflexivity|].
    destruct H as (Hs & Ht & Hd).
    change ([0x66; kind0] ++ le24 src ++ le24 dst ++ le24 (Z.of_nat (length data)) ++ data)
      with ([0x66; kind0; src mod 256; src / 256 mod 256; src / 65536; dst mod 256;
             dst / 256 mod 256; dst / 65536; Z.of_nat (length data) mod 256;
             Z.of_nat (length data) / 256 mod 256; Z.of_nat (length data) / 65536] ++ data).
    apply pcm_ram_write. lia.
  - destruct H as (Hb & Ho & H1 & H2 & H3 & H4 & H5 & H6).
    eexists _, _; split; [reflexivity|].
    replace (match ops with [] => Plain id None | _ :: _ => Plain id (Some ops) end)
      with (denote id ops); [now constructor|].
    unfold denote, wait_samples.
    replace (id =? 0x61) with false by lia. replace (id =? 0x62) with false by lia.
    replace (id =? 0x63) with false by lia. replace ((0x70 <=? id) && (id <=? 0x7F)) with false by lia.
    replace (id =? 0x54) with false by lia. replace (id =? 0x66) with false by lia.
    now destruct ops.
Qed.
Lemma encode_stream ops : Forall op_valid ops ->
  stream (flat_map encode ops) (map op_command ops) None.
Proof.
  induction 1 as [|o ops Ho _ IH]; cbn [flat_map map]; [constructor|].
  destruct (encode_complete o Ho) as (id & bs & E & Hc). rewrite E. cbn [app].
  now apply stream_cmd.
Qed.
