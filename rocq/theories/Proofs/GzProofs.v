(** Streams that may fail, against plain files. *)
From Coq Require Import Lia ZifyBool.
From Verif.Model Require Import Py Command Core Config Note State Ticks Song Serializer Json Extract History Main GzStream.
From Verif.Spec Require Import VgmFormat Ym2151.
From Verif.Proofs Require Import PyLemmas CoreProofs ReaderProofs StateProofs KeyProofs FileProofs ChipProofs.

(** ** Without a failure, a stream is a file *)
Definition st (f : file) : gzfile := mkgzfile (fbytes f) None (fpos f).
Definition lift {A} (r : res A * file) : res (A * gzfile) :=
  match r with (Ok a, f) => Ok (a, st f) | (Err e, _) => Err e end.

Lemma sread_st n f : sread n (st f) = Ok (fst (fread n f), st (snd (fread n f))).
Proof. reflexivity. Qed.
Lemma sseek_st n f : sseek n (st f) = Ok (st (fseek n f)).
Proof. reflexivity. Qed.
Lemma read32_st f : s_read_int 4 (st f) = lift (read32 f).
Proof. unfold s_read_int, read32. rewrite sread_st. destruct (fread 4 f) as [b f']. cbn [bind fst snd]. now destruct (len b =? 4). Qed.
Lemma read16_st f : s_read_int 2 (st f) = lift (read16 f).
Proof. unfold s_read_int, read16. rewrite sread_st. destruct (fread 2 f) as [b f']. cbn [bind fst snd]. now destruct (len b =? 2). Qed.
Lemma read8_st f : s_read_int 1 (st f) = lift (read8 f).
Proof. unfold s_read_int, read8. rewrite sread_st. destruct (fread 1 f) as [b f']. cbn [bind fst snd]. now destruct (len b =? 1). Qed.
Lemma read_bcd_st f : s_read_bcd (st f) = lift (read_bcd f).
Proof. unfold s_read_bcd, read_bcd. rewrite sread_st. destruct (fread 4 f) as [b f']. cbn [bind fst snd]. now destruct (len b =? 4). Qed.
Lemma plain_st id n f : s_plain id n (st f) = lift (plain_read id n f).
Proof. unfold s_plain, plain_read. rewrite sread_st. now destruct (fread n f) as [b f']. Qed.

Lemma command_st id f : gz_command id (st f) = lift (command id f).
Proof.
  unfold gz_command, command.
  repeat match goal with |- (if ?c then _ else _) = lift (if ?c then _ else _) => destruct c end;
    try apply plain_st; try reflexivity.
  - rewrite read8_st. destruct (read8 f) as [[r|e] f1]; cbn [lift bind]; [|reflexivity].
    rewrite read8_st. now destruct (read8 f1) as [[v|e] f2].
  - rewrite read16_st. now destruct (read16 f) as [[r|e] f1].
  - rewrite sread_st. destruct (fread 6 f) as [b f1]. cbn [bind fst snd]. destruct (len b =? 6); [apply plain_st|reflexivity].
  - rewrite sread_st. destruct (fread 11 f) as [b f1]. cbn [bind fst snd]. destruct (len b =? 11); [apply plain_st|reflexivity].
Qed.

Definition nres (r : next_result) : res (option (vcmd * gzfile)) :=
  match r with NStop _ => Ok None | NRaise e _ => Err e | NYield c f => Ok (Some (c, st f)) end.
Lemma next_st f : gz_next (st f) = nres (vgm_next f).
Proof.
  unfold gz_next, vgm_next. rewrite sread_st. destruct (fread 1 f) as [b f1]. cbn [bind fst snd].
  destruct b as [|x b]; [reflexivity|]. rewrite command_st. now destruct (command x f1) as [[c|e] f2].
Qed.
Lemma iterate_st : forall k f, gz_iterate k (st f) =
  (fst (iterate k f), match snd (iterate k f) with Ok _ => Ok tt | Err e => Err e end).
Proof.
  induction k as [|k IH]; intros f; [reflexivity|]. cbn [gz_iterate iterate]. rewrite next_st.
  destruct (vgm_next f) as [g|e g|c g]; cbn [nres]; try reflexivity.
  rewrite IH. now destruct (iterate k g).
Qed.
Lemma process_st : forall k f s, gz_process_loop k (st f) s = process_loop k f s.
Proof.
  induction k as [|k IH]; intros f s; [reflexivity|]. cbn [gz_process_loop process_loop]. rewrite next_st.
  destruct (vgm_next f) as [g|e g|c g]; cbn [nres]; try reflexivity.
  destruct (process_step s c); cbn [bind]; [apply IH|reflexivity].
Qed.

Definition gz_of (v : vgm) : gz_vgm := mkgz (st (vfile v)) (v_eof_offset v) (v_version v) (v_data_start v).
Definition res_map {A B} (f : A -> B) (r : res A) : res B := match r with Ok a => Ok (f a) | Err e => Err e end.
Lemma init_st ck f : gz_init ck (st f) = (res_map gz_of (fst (vgm_init ck f)), snd (vgm_init ck f)).
Proof.
  unfold gz_init, vgm_init.
  rewrite read32_st. destruct (read32 f) as [[eof|e] f1]; cbn [lift]; [|reflexivity].
  rewrite read_bcd_st. destruct (read_bcd f1) as [[ver|e] f2]; cbn [lift]; [|reflexivity].
  rewrite read32_st. destruct (read32 f2) as [[x|e] f3]; cbn [lift]; [|reflexivity].
  rewrite read32_st. destruct (read32 f3) as [[c1|e] f4]; cbn [lift]; [|reflexivity].
  rewrite sseek_st, read32_st. destruct (read32 (fseek 48 f4)) as [[c2|e] f5]; cbn [lift]; [|reflexivity].
  destruct (150 <=? ver).
  - rewrite read32_st. destruct (read32 f5) as [[off|e] f6]; cbn [lift bind]; [|reflexivity].
    rewrite sseek_st. reflexivity.
  - rewrite sseek_st. reflexivity.
Qed.
Lemma open_st ck p : gz_open ck p None = (res_map (option_map gz_of) (fst (open_plain ck p)), snd (open_plain ck p)).
Proof.
  unfold gz_open, open_plain. change (mkgzfile p None 0) with (st (mkfile p 0)).
  rewrite sread_st, fread_start by lia. change (Z.to_nat 4) with 4%nat. cbn [fst snd].
  destruct (bytes_eqb (firstn 4 p) magic); [|reflexivity].
  rewrite init_st. now destruct (vgm_init ck (mkfile p (len (firstn 4 p)))) as [[v|e] ck'].
Qed.

(** ** With a failure: against a file that goes on behind the data *)
Section Damaged.
  Variables (d rest : list Z) (e : exn).
  Definition sd (p : Z) : gzfile := mkgzfile d (Some e) p.
  Definition fd (p : Z) : file := mkfile (d ++ rest) p.

  (** Outcome [x] on the failing stream at [p], outcome [y] on the longer file. *)
  Definition sim {A} (p : Z) (x : res (A * gzfile)) (y : res A * file) : Prop :=
    (x = Err e /\ (rest <> [] -> match y with (Ok _, f) => len d < fpos f | (Err _, _) => True end))
    \/ exists a p', x = Ok (a, sd p') /\ y = (Ok a, fd p') /\ p <= p' <= len d.

  Lemma sread_sim p n : 0 <= p <= len d -> 0 <= n ->
    (sread n (sd p) = Err e /\ len d < p + n
       /\ (rest <> [] -> len d < fpos (snd (fread n (fd p)))))
    \/ exists b, sread n (sd p) = Ok (b, sd (p + n)) /\ fread n (fd p) = (b, fd (p + n)) /\ len b = n
                 /\ p + n <= len d /\ b = firstn (Z.to_nat n) (skipn (Z.to_nat p) d).
  Proof.
    intros Hp Hn. unfold sread, fread, sd, fd. cbn [spos sdata sfail fpos fbytes snd].
    rewrite !takeZ_firstn, !dropZ_skipn. unfold len in *.
    rewrite skipn_app. rewrite !firstn_length, !app_length, !skipn_length.
    destruct (Z.ltb_spec (Z.of_nat (Nat.min (Z.to_nat n) (length d - Z.to_nat p))) n) as [L|L].
    - left. split; [reflexivity|]. split; [lia|]. intros R.
      assert (length rest <> 0%nat) by (destruct rest; [contradiction|discriminate]). lia.
    - right. eexists. split; [|split; [|split; [|split; [|reflexivity]]]].
      + do 3 f_equal. lia.
      + rewrite firstn_app. rewrite skipn_length.
        replace (Z.to_nat n - (length d - Z.to_nat p))%nat with 0%nat by lia.
        cbn [firstn]. rewrite app_nil_r. do 2 f_equal. lia.
      + rewrite firstn_length, skipn_length. lia.
      + lia.
  Qed.

  Lemma fread_mono n p : 0 <= p -> p <= fpos (snd (fread n (fd p))) /\ fbytes (snd (fread n (fd p))) = d ++ rest.
  Proof. intros H. destruct (fread_fwd n (fd p) H) as (A & B & _). split; assumption. Qed.

  Lemma plain_sim id n p : 0 <= p <= len d -> 0 <= n -> sim p (s_plain id n (sd p)) (plain_read id n (fd p)).
  Proof.
    intros Hp Hn. unfold s_plain, plain_read.
    destruct (sread_sim p n Hp Hn) as [(E & _ & L)|(b & E & F & _ & L & _)]; rewrite E; cbn [bind].
    - left. split; [reflexivity|]. intros R. specialize (L R). now destruct (fread n (fd p)).
    - rewrite F. right. eexists _, _. split; [reflexivity|]. split; [reflexivity|lia].
  Qed.
  Lemma int_sim n p : 0 <= p <= len d -> 0 <= n ->
    sim p (s_read_int n (sd p))
      (let (b, f') := fread n (fd p) in if len b =? n then (Ok (unpack_le b), f') else (Err EOFError, f')).
  Proof.
    intros Hp Hn. unfold s_read_int.
    destruct (sread_sim p n Hp Hn) as [(E & _ & L)|(b & E & F & Lb & L & _)]; rewrite E; cbn [bind].
    - left. split; [reflexivity|]. intros R. specialize (L R). destruct (fread n (fd p)) as [b f]. cbn [snd] in L.
      now destruct (len b =? n).
    - rewrite F. replace (len b =? n) with true by lia. right. eexists _, _. split; [reflexivity|]. split; [reflexivity|lia].
  Qed.
  Lemma read8_sim p : 0 <= p <= len d -> sim p (s_read_int 1 (sd p)) (read8 (fd p)).
  Proof. intros H. apply int_sim; lia. Qed.
  Lemma read16_sim p : 0 <= p <= len d -> sim p (s_read_int 2 (sd p)) (read16 (fd p)).
  Proof. intros H. apply int_sim; lia. Qed.
  Lemma read32_sim p : 0 <= p <= len d -> sim p (s_read_int 4 (sd p)) (read32 (fd p)).
  Proof. intros H. apply int_sim; lia. Qed.
  Lemma bcd_sim p : 0 <= p <= len d -> sim p (s_read_bcd (sd p)) (read_bcd (fd p)).
  Proof.
    intros Hp. unfold s_read_bcd, read_bcd.
    destruct (sread_sim p 4 Hp ltac:(lia)) as [(E & _ & L)|(b & E & F & Lb & L & _)]; rewrite E; cbn [bind].
    - left. split; [reflexivity|]. intros R. specialize (L R). destruct (fread 4 (fd p)) as [b f]. cbn [snd] in L.
      now destruct (len b =? 4).
    - rewrite F. replace (len b =? 4) with true by lia. right. eexists _, _. split; [reflexivity|]. split; [reflexivity|lia].
  Qed.

  Lemma sim_ret {A} p (a : A) : p <= len d -> sim p (Ok (a, sd p)) (Ok a, fd p).
  Proof. intros H. right. eexists _, _. split; [reflexivity|]. split; [reflexivity|lia]. Qed.
  Lemma sim_weaken {A} p q (x : res (A * gzfile)) y : q <= p -> sim p x y -> sim q x y.
  Proof.
    intros H [S|(a & p' & E & F & L)]; [left; exact S|right]. exists a, p'. split; [exact E|]. split; [exact F|lia].
  Qed.

  Hypothesis bytes_d : bytes d.
  Lemma unpack_nonneg l : bytes l -> 0 <= unpack_le l.
  Proof. induction 1 as [|x l Hx _ IH]; cbn [unpack_le]; [lia|]. unfold byte in Hx. lia. Qed.
  Lemma part_bytes a b : bytes (firstn a (skipn b d)).
  Proof.
    apply Forall_forall. intros x Hx. unfold bytes in bytes_d. rewrite Forall_forall in bytes_d. apply bytes_d.
    rewrite <- (firstn_skipn b d). apply in_app_iff. right.
    rewrite <- (firstn_skipn a (skipn b d)). apply in_app_iff. now left.
  Qed.
  Lemma sub_bytes n m l : bytes l -> bytes (takeZ n (dropZ m l)).
  Proof.
    intros H. rewrite takeZ_firstn, dropZ_skipn. apply Forall_forall. intros x Hx. unfold bytes in H. rewrite Forall_forall in H.
    apply H. rewrite <- (firstn_skipn (Z.to_nat m) l). apply in_app_iff. right.
    rewrite <- (firstn_skipn (Z.to_nat n) (skipn (Z.to_nat m) l)). apply in_app_iff. now left.
  Qed.
  Lemma drop_bytes m l : bytes l -> bytes (dropZ m l).
  Proof.
    intros H. rewrite dropZ_skipn. apply Forall_forall. intros x Hx. unfold bytes in H. rewrite Forall_forall in H.
    apply H. rewrite <- (firstn_skipn (Z.to_nat m) l). apply in_app_iff. now right.
  Qed.

  Lemma block_sim id n (size : list Z -> Z) p : 0 <= p <= len d -> 0 <= n ->
    (forall b, bytes b -> 0 <= size b) ->
    sim p (let! (b, s) := sread n (sd p) in if len b =? n then s_plain id (size b) s else Err StructError)
          (let (b, f) := fread n (fd p) in if len b =? n then plain_read id (size b) f else (Err StructError, f)).
  Proof.
    intros Hp Hn Hs.
    destruct (sread_sim p n Hp Hn) as [(E & _ & L)|(b & E & F & Lb & L & B)]; rewrite E; cbn [bind].
    - left. split; [reflexivity|]. intros R. specialize (L R). destruct (fread n (fd p)) as [b f]. cbn [snd] in L.
      destruct (len b =? n); [|exact I].
      pose proof (plain_fwd id (size b) f ltac:(pose proof (Zle_0_nat (length d)); unfold len in L; lia)) as (_ & G & _).
      destruct (plain_read id (size b) f) as [[c|x] f']; cbn [snd] in G; [lia|exact I].
    - rewrite F. replace (len b =? n) with true by lia.
      apply (sim_weaken (p + n)); [lia|]. apply plain_sim; [lia|]. apply Hs. rewrite B. apply part_bytes.
  Qed.

  Lemma command_sim id p : 0 <= p <= len d -> sim p (gz_command id (sd p)) (command id (fd p)).
  Proof.
    intros Hp. unfold gz_command, command.
    repeat match goal with |- sim _ (if ?c then _ else _) (if ?c then _ else _) => destruct c end;
      try (apply plain_sim; [exact Hp|lia]); try (apply sim_ret; lia).
    - destruct (read8_sim p Hp) as [[E L]|(r & p1 & E & F & L)]; rewrite E; cbn [bind].
      + left. split; [reflexivity|]. intros R. specialize (L R).
        destruct (read8 (fd p)) as [[r|x] f1]; [|exact I].
        pose proof (read8_fwd f1 ltac:(unfold len in L; lia)) as (_ & G & _).
        destruct (read8 f1) as [[v|x] f2]; cbn [snd] in G; [lia|exact I].
      + rewrite F. assert (Hp1 : 0 <= p1 <= len d) by lia.
        destruct (read8_sim p1 Hp1) as [[E2 L2]|(v & p2 & E2 & F2 & L2)]; rewrite E2; cbn [bind].
        * left. split; [reflexivity|]. intros R. specialize (L2 R). now destruct (read8 (fd p1)) as [[v|x] f2].
        * rewrite F2. right. eexists _, _. split; [reflexivity|]. split; [reflexivity|lia].
    - destruct (read16_sim p Hp) as [[E L]|(r & p1 & E & F & L)]; rewrite E; cbn [bind].
      + left. split; [reflexivity|]. intros R. specialize (L R). now destruct (read16 (fd p)) as [[r|x] f1].
      + rewrite F. right. eexists _, _. split; [reflexivity|]. split; [reflexivity|lia].
    - apply (block_sim id 6 (fun b => unpack_le (dropZ 2 b))); [exact Hp|lia|].
      intros b Hb. apply unpack_nonneg. now apply drop_bytes.
    - apply (block_sim id 11 (fun b => unpack_le (takeZ 2 (dropZ 9 b)) * 256 + unpack_le (takeZ 1 (dropZ 8 b)))); [exact Hp|lia|].
      intros b Hb. pose proof (unpack_nonneg _ (sub_bytes 2 9 b Hb)). pose proof (unpack_nonneg _ (sub_bytes 1 8 b Hb)). lia.
  Qed.

  (** One step of the iteration. *)
  Lemma next_sim p : 0 <= p <= len d ->
    (gz_next (sd p) = Err e /\ (rest <> [] -> forall c f, vgm_next (fd p) = NYield c f -> len d < fpos f))
    \/ exists c p', gz_next (sd p) = Ok (Some (c, sd p')) /\ vgm_next (fd p) = NYield c (fd p') /\ p < p' <= len d.
  Proof.
    intros Hp. unfold gz_next, vgm_next.
    destruct (sread_sim p 1 Hp ltac:(lia)) as [(E & _ & L)|(b & E & F & Lb & L & B)]; rewrite E; cbn [bind].
    - left. split; [reflexivity|]. intros R c f Y. specialize (L R).
      destruct (fread 1 (fd p)) as [[|x b] f1]; [discriminate|]. cbn [snd] in L.
      pose proof (command_fwd x f1 ltac:(unfold len in L; lia)) as (_ & G & _).
      destruct (command x f1) as [[c'|y] f2]; [|discriminate]. injection Y as <- <-. cbn [snd] in G. lia.
    - rewrite F. destruct b as [|x b]; [discriminate|].
      destruct (command_sim x (p + 1) ltac:(lia)) as [[E2 L2]|(c & p2 & E2 & F2 & L2)]; rewrite E2; cbn [bind].
      + left. split; [reflexivity|]. intros R c f Y. specialize (L2 R).
        destruct (command x (fd (p + 1))) as [[c'|y] f2]; [|discriminate]. injection Y as <- <-. exact L2.
      + rewrite F2. right. exists c, p2. split; [reflexivity|]. split; [reflexivity|lia].
  Qed.

  Lemma iterate_sim : forall k p, 0 <= p <= len d -> len d - p < Z.of_nat k ->
    snd (gz_iterate k (sd p)) = Err e /\
    forall k', (k <= k')%nat -> exists more, fst (iterate k' (fd p)) = fst (gz_iterate k (sd p)) ++ more.
  Proof.
    induction k as [|k IH]; intros p Hp Hk; [lia|]. cbn [gz_iterate].
    destruct (next_sim p Hp) as [[E _]|(c & p' & E & F & L)]; rewrite E.
    - split; [reflexivity|]. intros k' _. cbn [fst app]. eexists. reflexivity.
    - destruct (IH p' ltac:(lia) ltac:(lia)) as [A B]. destruct (gz_iterate k (sd p')) as [cs r]. cbn [fst snd] in *.
      split; [exact A|]. intros k' Hk'. destruct k' as [|k']; [lia|]. cbn [iterate]. rewrite F.
      destruct (B k' ltac:(lia)) as [more M]. destruct (iterate k' (fd p')) as [cs' r']. cbn [fst] in *.
      exists more. now rewrite M.
  Qed.

  (** Whole operations, then a part of one. *)
  Lemma next_op p o r : 0 <= p <= len d -> rest <> [] -> bytes rest -> op_valid o ->
    skipn (Z.to_nat p) (d ++ rest) = encode o ++ r ->
    vgm_next (fd p) = NYield (op_command o) (fd (p + len (encode o)))
    /\ skipn (Z.to_nat (p + len (encode o))) (d ++ rest) = r.
  Proof.
    intros Hp R Hr Ho E. destruct (encode_complete o Ho) as (id & ops & En & Hc). rewrite En in *.
    assert (B : bytes (id :: ops)).
    { assert (bytes (d ++ rest)) as B by (apply Forall_app; split; assumption).
      apply (bytes_skipn (Z.to_nat p)) in B. rewrite E in B. apply Forall_app in B. exact (proj1 B). }
    destruct (next_complete (fd p) id ops r _ (conj (proj1 Hp) E) B Hc) as (f' & N & V & Fb & Fp).
    assert (f' = fd (p + len (id :: ops))).
    { destruct f' as [bs q]. cbn [fbytes fpos] in *. subst bs q. unfold fd. cbn [fpos fbytes]. f_equal.
      unfold len. cbn [length]. lia. }
    subst f'. split; [exact N|]. destruct V as [_ V]. exact V.
  Qed.
  Lemma iterate_ops : forall ops p k o cut, 0 <= p <= len d -> rest <> [] -> bytes rest ->
    Forall op_valid ops -> op_valid o -> skipn (Z.to_nat p) d = flat_map encode ops ++ cut -> cut ++ rest = encode o ->
    (length ops < k)%nat -> gz_iterate k (sd p) = (map op_command ops, Err e).
  Proof.
    induction ops as [|q ops IH]; intros p k o cut Hp R Hr Hv Ho E C Hk; (destruct k as [|k]; [cbn in Hk; lia|]).
    - cbn [flat_map app] in E.
      assert (E' : skipn (Z.to_nat p) (d ++ rest) = encode o ++ []).
      { rewrite skipn_app, E, app_nil_r, <- C. f_equal.
        replace (Z.to_nat p - length d)%nat with 0%nat by (unfold len in Hp; lia). reflexivity. }
      destruct (next_op p o [] Hp R Hr Ho E') as [N _].
      cbn [gz_iterate map]. destruct (next_sim p Hp) as [[G _]|(c & p' & _ & F & L)]; [now rewrite G|].
      exfalso. rewrite F in N. assert (p' = p + len (encode o)) by (injection N as _ N; exact N). subst p'.
      rewrite <- C in L. unfold len in L. rewrite app_length in L.
      apply (f_equal (@length Z)) in E. rewrite skipn_length in E.
      assert (length rest <> 0%nat) by (destruct rest; [contradiction|discriminate]). lia.
    - cbn [flat_map] in E. rewrite <- app_assoc in E. inversion Hv as [|? ? Hq Hv']; subst.
      assert (E' : skipn (Z.to_nat p) (d ++ rest) = encode q ++ flat_map encode ops ++ cut ++ rest).
      { rewrite skipn_app, E, !app_assoc. f_equal.
        replace (Z.to_nat p - length d)%nat with 0%nat by (unfold len in Hp; lia). reflexivity. }
      destruct (next_op p q _ Hp R Hr Hq E') as [N _].
      assert (LQ : p + len (encode q) <= len d).
      { apply (f_equal (@length Z)) in E. rewrite skipn_length, app_length in E. unfold len in *. lia. }
      assert (E2 : skipn (Z.to_nat (p + len (encode q))) d = flat_map encode ops ++ cut).
      { replace (Z.to_nat (p + len (encode q))) with (Z.to_nat p + length (encode q))%nat by (unfold len; lia).
        rewrite <- skipn_add, E. apply skipn_app_all. reflexivity. }
      cbn [gz_iterate map]. destruct (next_sim p Hp) as [[G L]|(c & p' & G & F & L)].
      + exfalso. specialize (L R _ _ N). cbn [fd fpos] in L. lia.
      + rewrite F in N. injection N as -> ->. rewrite G.
        rewrite (IH (p + len (encode q)) k o cut); [reflexivity|unfold len in *; lia|..]; try assumption.
        cbn [length] in Hk. lia.
  Qed.
End Damaged.

(** ** Opening *)
Lemma sseek_sd d e p n : sseek n (sd d e p) = if len d <? n then Err e else Ok (sd d e n).
Proof. reflexivity. Qed.
Lemma sread4 d e i : sread 4 (sd d e (Z.of_nat i)) =
  if (i + 4 <=? length d)%nat then Ok (firstn 4 (skipn i d), sd d e (Z.of_nat (i + 4))) else Err e.
Proof.
  unfold sread, sd. cbn [spos sdata sfail]. rewrite takeZ_firstn, dropZ_skipn, Nat2Z.id.
  change (Z.to_nat 4) with 4%nat. unfold len. rewrite firstn_length, skipn_length.
  destruct (Nat.leb_spec (i + 4) (length d)) as [H|H].
  - replace (_ <? 4) with false by lia. do 3 f_equal. lia.
  - replace (_ <? 4) with true by lia. reflexivity.
Qed.
Lemma int_at d e i : s_read_int 4 (sd d e (Z.of_nat i)) =
  if (i + 4 <=? length d)%nat then Ok (u32_at d i, sd d e (Z.of_nat (i + 4))) else Err e.
Proof.
  unfold s_read_int. rewrite sread4. destruct (Nat.leb_spec (i + 4) (length d)) as [H|H]; [|reflexivity].
  cbn [bind]. rewrite len4. replace (i + 4 <=? length d)%nat with true by lia. rewrite take4 by assumption.
  do 2 f_equal. unfold u32_at. cbn [unpack_le]. lia.
Qed.
Lemma bcd_at' d e i : s_read_bcd (sd d e (Z.of_nat i)) =
  if (i + 4 <=? length d)%nat then Ok (bcd_at d i, sd d e (Z.of_nat (i + 4))) else Err e.
Proof.
  unfold s_read_bcd. rewrite sread4. destruct (Nat.leb_spec (i + 4) (length d)) as [H|H]; [|reflexivity].
  cbn [bind]. rewrite len4. replace (i + 4 <=? length d)%nat with true by lia. rewrite take4 by assumption.
  do 2 f_equal. cbn [rev app fold_left]. rewrite !bcd_step_eq. unfold bcd_at. lia.
Qed.

Lemma gz_init_cases ck d e : (4 <= length d)%nat ->
  (header_complete d /\ data_offset d <= len d /\
     gz_init ck (sd d e 4) = (Ok (mkgz (sd d e (data_offset d)) (u32_at d 4) (version d) (data_offset d)), clocks_after ck d))
  \/ (~ (header_complete d /\ data_offset d <= len d) /\ fst (gz_init ck (sd d e 4)) = Err e).
Proof.
  intros L0. unfold gz_init, header_complete.
  change (sd d e 4) with (sd d e (Z.of_nat 4)). rewrite (int_at d e 4). change (4 + 4)%nat with 8%nat.
  destruct (Nat.leb_spec 8 (length d)) as [L|L]; [|right; split; [intros [[A _] _]; lia|reflexivity]].
  rewrite (bcd_at' d e 8). change (8 + 4)%nat with 12%nat.
  destruct (Nat.leb_spec 12 (length d)) as [L1|L1]; [|right; split; [intros [[A _] _]; lia|reflexivity]].
  rewrite (int_at d e 12). change (12 + 4)%nat with 16%nat.
  destruct (Nat.leb_spec 16 (length d)) as [L2|L2]; [|right; split; [intros [[A _] _]; lia|reflexivity]].
  rewrite (int_at d e 16). change (16 + 4)%nat with 20%nat.
  destruct (Nat.leb_spec 20 (length d)) as [L3|L3]; [|right; split; [intros [[A _] _]; lia|reflexivity]].
  cbv zeta. rewrite sseek_sd.
  destruct (Z.ltb_spec (len d) 48) as [L4|L4]; [right; split; [intros [[A _] _]; unfold len in L4; lia|reflexivity]|].
  change 48 with (Z.of_nat 48). rewrite (int_at d e 48). change (48 + 4)%nat with 52%nat.
  destruct (Nat.leb_spec 52 (length d)) as [L5|L5]; [|right; split; [intros [[A _] _]; lia|reflexivity]].
  change (bcd_at d 8) with (version d). unfold data_offset, clocks_after. cbv zeta.
  rewrite !ck_get_set. change (String.eqb "ym2151" "ym2413") with false.
  change (String.eqb "ym2413" "ym2413") with true. cbn iota.
  destruct (Z.leb_spec 150 (version d)) as [V|V].
  - rewrite (int_at d e 52). change (52 + 4)%nat with 56%nat.
    replace (version d <? 150) with false by lia.
    destruct (Nat.leb_spec 56 (length d)) as [L6|L6]; [|right; split; [intros [[_ [A|A]] _]; lia|reflexivity]].
    cbn [bind]. rewrite sseek_sd.
    destruct (Z.ltb_spec (len d) (52 + u32_at d 52)) as [L7|L7]; [right; split; [intros [_ A]; lia|reflexivity]|].
    left. split; [split; [exact L5|right; exact L6]|]. split; [exact L7|]. reflexivity.
  - replace (version d <? 150) with true by lia. rewrite sseek_sd.
    destruct (Z.ltb_spec (len d) 64) as [L7|L7]; [right; split; [intros [_ A]; lia|reflexivity]|].
    left. split; [split; [exact L5|left; exact V]|]. split; [exact L7|]. reflexivity.
Qed.

Lemma gz_open_short ck d e : (length d < 4)%nat -> gz_open ck d (Some e) = (Err e, ck).
Proof.
  intros H. unfold gz_open. change (mkgzfile d (Some e) 0) with (sd d e (Z.of_nat 0)). rewrite sread4.
  replace (0 + 4 <=? length d)%nat with false by lia. reflexivity.
Qed.
Lemma gz_open_none ck d e : (4 <= length d)%nat -> ~ has_ident d -> gz_open ck d (Some e) = (Ok None, ck).
Proof.
  intros H N. unfold gz_open. change (mkgzfile d (Some e) 0) with (sd d e (Z.of_nat 0)). rewrite sread4.
  replace (0 + 4 <=? length d)%nat with true by lia. cbn [skipn].
  destruct (bytes_eqb (firstn 4 d) magic) eqn:E; [|reflexivity]. apply magic_ident in E. contradiction.
Qed.
Lemma gz_open_ident ck d e : has_ident d ->
  gz_open ck d (Some e) = match gz_init ck (sd d e 4) with
                          | (Ok v, ck) => (Ok (Some v), ck) | (Err e, ck) => (Err e, ck) end.
Proof.
  intros N. pose proof (has_ident_len d N). unfold gz_open. change (mkgzfile d (Some e) 0) with (sd d e (Z.of_nat 0)). rewrite sread4.
  replace (0 + 4 <=? length d)%nat with true by lia. cbn [skipn]. rewrite (proj2 (magic_ident d) N). reflexivity.
Qed.

(** A file carries the same header fields as any longer one. *)
Lemma byte_at_app d r i : (i < length d)%nat -> byte_at (d ++ r) i = byte_at d i.
Proof. intros H. unfold byte_at. now apply app_nth1. Qed.
Lemma u32_at_app d r i : (i + 4 <= length d)%nat -> u32_at (d ++ r) i = u32_at d i.
Proof. intros H. unfold u32_at. now rewrite !byte_at_app by lia. Qed.
Lemma version_app d r : (12 <= length d)%nat -> version (d ++ r) = version d.
Proof. intros H. unfold version, bcd_at. now rewrite !byte_at_app by lia. Qed.
Lemma has_ident_app d r : has_ident d -> has_ident (d ++ r).
Proof.
  intros H. pose proof (has_ident_len d H) as L. unfold has_ident in *. rewrite firstn_app.
  replace (4 - length d)%nat with 0%nat by lia. cbn [firstn]. now rewrite app_nil_r.
Qed.
Lemma header_app d r : header_complete d ->
  header_complete (d ++ r) /\ data_offset (d ++ r) = data_offset d /\ u32_at (d ++ r) 4 = u32_at d 4
  /\ forall ck, clocks_after ck (d ++ r) = clocks_after ck d.
Proof.
  intros [A B]. assert (V : version (d ++ r) = version d) by (apply version_app; lia).
  split; [|split; [|split]].
  - unfold header_complete. rewrite V, app_length. split; [lia|]. destruct B; [left; assumption|right; lia].
  - unfold data_offset. rewrite V. destruct (Z.ltb_spec (version d) 150); [reflexivity|].
    rewrite u32_at_app by lia. reflexivity.
  - apply u32_at_app. lia.
  - intros ck. unfold clocks_after. rewrite V, !u32_at_app by lia. reflexivity.
Qed.

(** ** Processing *)
Lemma gz_process_iterate : forall fuel s t,
  gz_process_loop fuel s t =
  (let! t' := process_cmds (fst (gz_iterate fuel s)) t in
   match snd (gz_iterate fuel s) with Ok _ => Ok t' | Err e => Err e end).
Proof.
  induction fuel as [|k IH]; intros s t; cbn [gz_process_loop gz_iterate]; [reflexivity|].
  destruct (gz_next s) as [[[c s']|]|e]; [|reflexivity|reflexivity].
  specialize (IH s'). destruct (gz_iterate k s') as [cs r]. cbn [fst snd] in *.
  unfold process_cmds. cbn [foldM]. destruct (process_step t c) as [t'|e]; cbn [bind]; [apply IH|reflexivity].
Qed.
