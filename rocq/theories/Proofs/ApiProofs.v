(** Commands as objects, reader exhaustion. *)
From Coq Require Import Lia ZifyBool.
From Verif.Model Require Import Py Command Core Session.
From Verif.Spec Require Import Text VgmFormat Sessions Api.
From Verif.Proofs Require Import PyLemmas CoreProofs ReaderProofs SessionProofs TextProofs DecimalProofs.

(** *** What a reader can yield *)
Lemma next_cases d pos : 0 <= pos -> bytes d ->
  (skipn (Z.to_nat pos) d = [] /\ exists f', vgm_next (mkfile d pos) = NStop f' /\ view f' [] /\ fbytes f' = d)
  \/ exists id r, skipn (Z.to_nat pos) d = id :: r /\ bytes (id :: r) /\
     ((exists ops rest c f', r = ops ++ rest /\ complete id ops c /\ vgm_next (mkfile d pos) = NYield c f' /\ view f' rest /\ fbytes f' = d)
      \/ (exists c f', cut_short id r (inr c) /\ vgm_next (mkfile d pos) = NYield c f' /\ view f' [] /\ fbytes f' = d)
      \/ (exists e f', cut_short id r (inl e) /\ vgm_next (mkfile d pos) = NRaise e f' /\ view f' [] /\ fbytes f' = d)).
Proof.
  intros P B. destruct (skipn (Z.to_nat pos) d) as [|id r] eqn:S.
  - left. split; [reflexivity|]. destruct (next_stop (mkfile d pos) (conj P S)) as (f' & E & V & Q). eauto 9.
  - right. exists id, r. split; [reflexivity|].
    assert (Br : bytes (id :: r)) by (rewrite <- S; now apply bytes_skipn). split; [assumption|].
    destruct (split_command id r Br) as [(ops & rest & c & Er & C)|[[e|c] C]].
    + left. subst r. destruct (next_complete (mkfile d pos) id ops rest c (conj P S)) as (f' & E & V & Q & _).
      * inversion Br as [|? ? H1 H2]; subst. apply Forall_app in H2 as [H2 _]. now constructor.
      * assumption.
      * exists ops, rest, c, f'. auto 9.
    + right; right. destruct (next_cut (mkfile d pos) id r _ (conj P S) Br C) as (f' & E & V & Q). eauto 9.
    + right; left. destruct (next_cut (mkfile d pos) id r _ (conj P S) Br C) as (f' & E & V & Q). eauto 9.
Qed.

Lemma denote_facts id ops : byte id -> bytes ops -> operands id = Some (length ops) ->
  let c := denote id ops in
  command_id c = id /\ command_type c = type_of_id id /\
  match c with
  | Wait _ (Some n) => 0 <= n < 65536 | Wait _ None => False
  | Ym _ r v => byte r /\ byte v
  | _ => True
  end.
Proof.
  intros B Bo O. cbv zeta. unfold denote, wait_samples, type_of_id, byte in *.
  assert (N : forall k, 0 <= nth k ops 0 < 256).
  { intro k. destruct (Nat.lt_ge_cases k (length ops)) as [H|H].
    - exact (proj1 (Forall_forall _ _) Bo _ (nth_In ops 0 H)).
    - rewrite nth_overflow by assumption. lia. }
  pose proof (N 0%nat) as N0. pose proof (N 1%nat) as N1.
  destruct (Z.eqb_spec id 97); [subst; cbn; split; [|split]; auto; lia|].
  destruct (Z.eqb_spec id 98); [subst; cbn; split; [|split]; auto; lia|].
  destruct (Z.eqb_spec id 99); [subst; cbn; split; [|split]; auto; lia|].
  destruct ((112 <=? id) && (id <=? 127)) eqn:E.
  - cbn. replace (id =? 84) with false by lia. replace (id =? 102) with false by lia.
    rewrite orb_true_r. split; [|split]; auto; lia.
  - destruct (Z.eqb_spec id 84); [subst; cbn; auto|].
    destruct (Z.eqb_spec id 102); [subst; cbn; auto|]. cbn.
    replace ((97 <=? id) && (id <=? 99)) with false by lia. auto.
Qed.

Lemma yield_facts d pos c f' : 0 <= pos -> bytes d -> vgm_next (mkfile d pos) = NYield c f' ->
  nth_error d (Z.to_nat pos) = Some (command_id c) /\ byte (command_id c)
  /\ command_type c = type_of_id (command_id c)
  /\ match c with
     | Wait _ (Some n) => 0 <= n < 65536 | Wait _ None => False
     | Ym _ r v => byte r /\ byte v
     | _ => True
     end.
Proof.
  intros P B E. destruct (next_cases d pos P B) as [(_ & f1 & E' & _)|(id & r & S & Br & K)]; [congruence|].
  assert (Hn : nth_error d (Z.to_nat pos) = Some id).
  { rewrite <- (firstn_skipn (Z.to_nat pos) d). rewrite S. rewrite nth_error_app2.
    - rewrite firstn_length_le.
      + now rewrite Nat.sub_diag.
      + destruct (Nat.le_gt_cases (length d) (Z.to_nat pos)) as [H|H]; [|lia].
        rewrite skipn_all2 in S by assumption. discriminate.
    - rewrite firstn_length. lia. }
  inversion Br as [|? ? Bi Bo]; subst.
  assert (G : command_id c = id /\ command_type c = type_of_id id /\
    match c with Wait _ (Some n) => 0 <= n < 65536 | Wait _ None => False | Ym _ r v => byte r /\ byte v | _ => True end).
  { destruct K as [(ops & rest & c1 & f1 & Er & C & E1 & _)|[(c1 & f1 & C & E1 & _)|(e & f1 & _ & E1 & _)]].
    - rewrite E in E1. injection E1 as <- <-. subst r. apply Forall_app in Bo as [Bo _].
      inversion C; subst; [now apply denote_facts|cbn; auto|cbn; auto].
    - rewrite E in E1. injection E1 as <- <-. inversion C; subst; [cbn; auto|cbn; auto|].
      cbn. split; [reflexivity|]. split; [|exact I]. unfold type_of_id.
      assert (O : operands id = Some n) by assumption.
      rewrite (operands_kind id Bi) in O. pose proof (kind_factsP id Bi) as F. unfold kind_facts in F.
      destruct (kind_of id) eqn:Kd; cbn [kind_operands] in O.
      1-2: replace (id =? 84) with false by lia; replace (id =? 102) with false by lia.
      1-2: replace ((97 <=? id) && (id <=? 99)) with false by lia.
      1-2: now replace ((112 <=? id) && (id <=? 127)) with false by lia.
      all: try (injection O as <-; cbn [length] in *; lia). all: try discriminate.
      all: lia.
    - congruence. }
  destruct G as (-> & G2 & G3). auto.
Qed.

(** *** Text *)
Lemma hexl_pos d : 0 <= d < 16 -> position (hex_ascii_lower d) hex_digits_lower = Some d.
Proof.
  intro H.
  assert (S : (match position (hex_ascii_lower d) hex_digits_lower with Some x => x =? d | None => false end) = true).
  { apply (sweep 16 (fun d => match position (hex_ascii_lower d) hex_digits_lower with Some x => x =? d | None => false end));
    [vm_compute; reflexivity|lia]. }
  destruct (position _ _); [|discriminate]. f_equal. lia.
Qed.
Lemma hexl_nonzero d : 0 < d < 16 -> hex_ascii_lower d <> "0"%char.
Proof.
  intros H E. pose proof (hexl_pos d ltac:(lia)) as P. rewrite E in P. cbn in P. injection P. lia.
Qed.
Lemma hexl_value : forall fuel n acc, 0 <= n < 2 ^ Z.of_nat fuel -> (0 < fuel)%nat ->
  digits_value 16 hex_digits_lower (hex_digits_low fuel n acc) 0 = digits_value 16 hex_digits_lower acc n
  /\ exists c r, hex_digits_low fuel n acc = String c r /\ (0 < n -> c <> "0"%char).
Proof.
  induction fuel as [|k IH]; intros n acc Hn Hf; [lia|]. cbn [hex_digits_low].
  destruct (Z.ltb_spec n 16).
  - rewrite Z.mod_small by lia. cbn [digits_value]. rewrite hexl_pos by lia. split; [f_equal; lia|].
    eexists _, _. split; [reflexivity|]. intro P. apply hexl_nonzero. lia.
  - destruct k as [|k]; [change (2 ^ Z.of_nat 1) with 2 in Hn; lia|].
    destruct (IH (n / 16) (String (hex_ascii_lower (n mod 16)) acc)) as (V & c & r & E & N).
    + rewrite Nat2Z.inj_succ, Z.pow_succ_r in Hn by lia. lia.
    + lia.
    + split; [rewrite V; cbn [digits_value]; rewrite hexl_pos by lia; f_equal; lia|].
      exists c, r. split; [exact E|]. intro P. apply N. lia.
Qed.
Lemma hex_nonneg_value n : 0 <= n -> hex0x_value ("0x" ++ hex_nonneg n) = Some n.
Proof.
  intro H. unfold hex_nonneg.
  destruct (Z.eq_dec n 0) as [->|N]; [reflexivity|].
  destruct (hexl_value (S (Z.to_nat (Z.log2 n))) n "") as (V & c & r & E & C).
  - rewrite Nat2Z.inj_succ, Z2Nat.id by apply Z.log2_nonneg. pose proof (Z.log2_spec n ltac:(lia)). lia.
  - lia.
  - rewrite E in *. specialize (C ltac:(lia)). cbn [append]. unfold hex0x_value.
    destruct c as [[] [] [] [] [] [] [] []]; try exact V. congruence.
Qed.
Lemma hex_int_read n : hex_int_value (hex_int n) = Some n.
Proof.
  unfold hex_int. destruct (Z.ltb_spec n 0).
  - change ("-0x" ++ hex_nonneg (Z.abs n))%string with (String "-" ("0x" ++ hex_nonneg (Z.abs n))).
    cbn [hex_int_value]. rewrite hex_nonneg_value by lia. destruct n; try lia. reflexivity.
  - change (hex_int_value ("0x" ++ hex_nonneg (Z.abs n))) with (hex0x_value ("0x" ++ hex_nonneg (Z.abs n))).
    rewrite hex_nonneg_value by lia. f_equal. lia.
Qed.

Lemma command_shown c : shown c (command_str c).
Proof.
  destruct c as [id p|id|id [n|]|id r v]; cbn [command_str]; constructor; try apply hex_int_read. apply int_value_str.
Qed.

(** The text determines the essence. *)
Lemma cut_unique c : forall a a' b b', lacks c a = true -> lacks c a' = true ->
  (a ++ String c b = a' ++ String c b')%string -> a = a' /\ b = b'.
Proof.
  induction a as [|x a IH]; intros [|y a'] b b' H H' E; cbn in *.
  - now injection E.
  - injection E as -> _. rewrite Ascii.eqb_refl in H'. discriminate.
  - injection E as -> _. rewrite Ascii.eqb_refl in H. discriminate.
  - injection E as -> E. apply andb_true_iff in H as [_ H]. apply andb_true_iff in H' as [_ H'].
    destruct (IH _ _ _ H H' E) as [-> ->]. auto.
Qed.
Lemma digits_lacks base ds c : position c ds = None -> forall s acc n, digits_value base ds s acc = Some n -> lacks c s = true.
Proof.
  intro N. induction s as [|x s IH]; intros acc n H; cbn in *; [reflexivity|].
  destruct (position x ds) eqn:P; [|discriminate]. rewrite (IH _ _ H), andb_true_r.
  destruct (Ascii.eqb_spec x c); [congruence|reflexivity].
Qed.
Lemma hex0x_shape a n : hex0x_value a = Some n -> exists r, a = ("0x" ++ r)%string /\ digits_value 16 hex_digits_lower r 0 = Some n.
Proof.
  intro H. unfold hex0x_value in H.
  destruct a as [|c0 a]; [discriminate|]. destruct (Ascii.eqb_spec c0 "0") as [->|n0].
  2:{ destruct c0 as [[] [] [] [] [] [] [] []]; try discriminate. exfalso; apply n0; reflexivity. }
  destruct a as [|c1 a]; [discriminate|]. destruct (Ascii.eqb_spec c1 "x") as [->|n0].
  2:{ destruct c1 as [[] [] [] [] [] [] [] []]; try discriminate. exfalso; apply n0; reflexivity. }
  destruct a as [|c2 a]; [discriminate|]. exists (String c2 a). split; [reflexivity|].
  destruct (Ascii.eqb_spec c2 "0") as [->|n0].
  - destruct a; [exact H|discriminate].
  - destruct c2 as [[] [] [] [] [] [] [] []]; try exact H. congruence.
Qed.
Lemma hex_int_shape a n : hex_int_value a = Some n -> exists s r m, a = (s ++ "0x" ++ r)%string /\ (s = "" \/ s = "-")%string
  /\ digits_value 16 hex_digits_lower r 0 = Some m.
Proof.
  intro H. destruct a as [|c a]; [discriminate|]. destruct (Ascii.eqb_spec c "-") as [->|N].
  - cbn [hex_int_value] in H. destruct (hex0x_value a) as [m|] eqn:E; [|discriminate].
    destruct (hex0x_shape _ _ E) as (r & -> & D). exists "-"%string, r, m. auto.
  - assert (E : hex0x_value (String c a) = Some n).
    { unfold hex_int_value in H. destruct c as [[] [] [] [] [] [] [] []]; try exact H. congruence. }
    destruct (hex0x_shape _ _ E) as (r & -> & D). exists ""%string, r, n. auto.
Qed.
Lemma hex0x_lacks c a n : position c hex_digits_lower = None -> c <> "x"%char -> c <> "-"%char -> hex_int_value a = Some n -> lacks c a = true.
Proof.
  intros N X M H. destruct (hex_int_shape _ _ H) as (s & r & m & -> & S & D).
  assert (Z0 : Ascii.eqb "0" c = false).
  { destruct (Ascii.eqb_spec "0" c); [subst; discriminate|reflexivity]. }
  assert (ZX : Ascii.eqb "x" c = false).
  { destruct (Ascii.eqb_spec "x" c); [congruence|reflexivity]. }
  assert (ZM : Ascii.eqb "-" c = false).
  { destruct (Ascii.eqb_spec "-" c); [congruence|reflexivity]. }
  pose proof (digits_lacks 16 hex_digits_lower c N _ _ _ D) as L.
  destruct S as [-> | ->]; cbn [append lacks]; rewrite ?Z0, ?ZX, ?ZM; exact L.
Qed.
Lemma hex0x_start a n : hex_int_value a = Some n -> exists r, a = String "0" r \/ a = String "-" r.
Proof.
  intro H. destruct (hex_int_shape _ _ H) as (s & r & m & -> & [-> | ->] & D); cbn [append]; eauto.
Qed.
Lemma int_text_none a n : int_value a = Some n -> (a ++ ")")%string <> "None)"%string.
Proof.
  intros H E. destruct a as [|c a]; [discriminate|]. cbn in E. injection E as -> _. discriminate.
Qed.
Lemma int_lacks a n : int_value a = Some n -> lacks ")" a = true.
Proof.
  assert (NV : forall b m, nat_value b = Some m -> lacks ")" b = true).
  { intros b m H. unfold nat_value in H. destruct b as [|c0 b]; [discriminate|].
    assert (K : digits_value 10 dec_digits_list (String c0 b) 0 = Some m -> lacks ")" (String c0 b) = true)
      by (intro K; now apply (digits_lacks 10 dec_digits_list ")" eq_refl _ _ _ K)).
    destruct (Ascii.eqb_spec c0 "0"); [subst c0; destruct b; [reflexivity|discriminate]|].
    apply K. destruct c0 as [[] [] [] [] [] [] [] []]; try exact H. congruence. }
  unfold int_value. intro H. destruct a as [|c0 a]; [discriminate|].
  destruct (Ascii.eqb_spec c0 "-"); [subst c0|].
  - cbn [lacks]. cbn [negb Ascii.eqb andb]. destruct (nat_value a) as [m|] eqn:E; [|discriminate].
    rewrite (NV _ _ E). reflexivity.
  - apply (NV _ n). destruct c0 as [[] [] [] [] [] [] [] []]; try exact H; congruence.
Qed.
Lemma shown_essence c c' t : shown c t -> shown c' t -> essence c = essence c'.
Proof.
  intros H H'. remember t as t' eqn:Et in H'.
  destruct H as [id|id n a A|id|id r v a b A B|id p a A]; destruct H' as [id'|id' n' a' A'|id'|id' r' v' a' b' A' B'|id' p' a' A'];
    try reflexivity; try discriminate; cbn in Et;
    try (destruct (hex0x_start _ _ A) as [? [-> | ->]]; discriminate);
    try (destruct (hex0x_start _ _ A') as [? [-> | ->]]; discriminate);
    try (exfalso; injection Et as E; exact (int_text_none _ _ A E));
    try (exfalso; injection Et as E; exact (int_text_none _ _ A' E));
    try (exfalso; injection Et as E; symmetry in E; exact (int_text_none _ _ A E));
    try (exfalso; injection Et as E; symmetry in E; exact (int_text_none _ _ A' E)).
  - injection Et as E. destruct (cut_unique ")" _ _ _ _ (int_lacks _ _ A') (int_lacks _ _ A) E) as [-> _].
    cbn. congruence.
  - injection Et as E.
    assert (L : forall a n, hex_int_value a = Some n -> lacks "," a = true)
      by (intros x n; apply hex0x_lacks; [reflexivity|discriminate|discriminate]).
    destruct (cut_unique "," _ _ _ _ (L _ _ A') (L _ _ A) E) as [-> E2].
    cbn in E2. injection E2 as E2.
    assert (L' : forall a n, hex_int_value a = Some n -> lacks ")" a = true)
      by (intros x n; apply hex0x_lacks; [reflexivity|discriminate|discriminate]).
    destruct (cut_unique ")" _ _ _ _ (L' _ _ B') (L' _ _ B) E2) as [-> _]. cbn. congruence.
  - injection Et as E.
    assert (L' : forall a n, hex_int_value a = Some n -> lacks ")" a = true)
      by (intros x n; apply hex0x_lacks; [reflexivity|discriminate|discriminate]).
    destruct (cut_unique ")" _ _ _ _ (L' _ _ A') (L' _ _ A) E) as [-> _]. cbn. congruence.
Qed.

(** *** A reader is used up once *)
Section Drain.
  Variable g : list Z -> res (list Z).
  Definition sess_ok (s : session) : Prop :=
    forall k v, nth_error (ss_readers s) k = Some (Some v) -> 0 <= fpos (vfile v) /\ bytes (fbytes (vfile v)).
  Definition drained (k : nat) (s : session) : Prop :=
    exists v, nth_error (ss_readers s) k = Some (Some v) /\ view (vfile v) [].

  Lemma opened_file ck d v ck' : bytes d -> (forall d p, g d = Ok p -> bytes p) ->
    reader g ck (mkfile d 0) = (Ok (Some v), ck') -> 0 <= fpos (vfile v) /\ bytes (fbytes (vfile v)).
  Proof.
    intros B G E. destruct (is_gzip_dec d) as [Z|Z].
    - destruct (g d) as [p|e] eqn:Eg.
      + pose proof (zipped g d Z) as C. rewrite Eg in C. destruct (opened_inv _ _ _ _ _ _ C E) as (_ & _ & -> & _).
        cbn. split; [apply data_offset_nonneg; eauto|eauto].
      + pose proof (zipped g d Z) as C. rewrite Eg in C. rewrite (content_reader _ _ _ _ C) in E. discriminate.
    - destruct (opened_inv _ _ _ _ _ _ (raw g d Z) E) as (_ & _ & -> & _). cbn. split; [now apply data_offset_nonneg|assumption].
  Qed.

  Lemma act_next k s : sess_ok s ->
    match nth_error (ss_readers s) k with
    | Some (Some v) => exists f', 0 <= fpos f' /\ fbytes f' = fbytes (vfile v)
        /\ snd (act g (Next k) s) = mksession (ss_clocks s) (set_nth k (Some (with_file v f')) (ss_readers s))
        /\ (ended (fst (act g (Next k) s)) -> view f' [])
        /\ (view (vfile v) [] -> fst (act g (Next k) s) = NextGave (inl None) /\ view f' [])
    | _ => act g (Next k) s = (NoReader, s)
    end.
  Proof.
    intros S. cbn [act]. destruct (nth_error (ss_readers s) k) as [[v|]|] eqn:N; [|reflexivity|reflexivity].
    destruct (S k v N) as [P B]. destruct (vfile v) as [d pos] eqn:F. cbn [fpos fbytes] in *.
    destruct (next_cases d pos P B) as [(Z & f1 & E & V & Q)|(id & r & Z & _ & K)].
    - rewrite E. exists f1. destruct V as [V1 V2]. split; [assumption|]. split; [assumption|]. split; [reflexivity|].
      split; [intros _; split; assumption|]. intros _. split; [reflexivity|split; assumption].
    - destruct K as [(ops & rest & c & f1 & _ & _ & E & V & Q)|[(c & f1 & _ & E & V & Q)|(e & f1 & _ & E & V & Q)]];
        rewrite E; exists f1; destruct V as [V1 V2]; (split; [assumption|]); (split; [assumption|]); (split; [reflexivity|]).
      + split; [intros [H|[e H]]; discriminate|]. intros [_ H]. cbn in H. congruence.
      + split; [intros [H|[e H]]; discriminate|]. intros [_ H]. cbn in H. congruence.
      + split; [intros _; split; assumption|]. intros [_ H]. cbn in H. congruence.
  Qed.

  Lemma nth_set {A} (l : list A) k x j : nth_error (set_nth k x l) j = nth_error l j
    \/ (j = k /\ (k < length l)%nat /\ nth_error (set_nth k x l) j = Some x).
  Proof.
    rewrite nth_error_set_nth. destruct (Nat.eqb_spec j k); [|auto]. subst.
    destruct (Nat.ltb_spec k (length l)) as [H|H].
    - right. auto.
    - left. reflexivity.
  Qed.

  Lemma act_ok a s : (forall d p, g d = Ok p -> bytes p) -> (forall d, a = Open d -> bytes d) -> sess_ok s ->
    sess_ok (snd (act g a s)) /\ forall k, drained k s -> drained k (snd (act g a s)).
  Proof.
    intros G B S. destruct a as [d|k|k chip].
    - specialize (B d eq_refl). cbn [act].
      assert (Ho : forall r ck, (forall v, r = Some v -> 0 <= fpos (vfile v) /\ bytes (fbytes (vfile v))) ->
        sess_ok (mksession ck (ss_readers s ++ [r])) /\ forall k, drained k s -> drained k (mksession ck (ss_readers s ++ [r]))).
      { intros r ck Hr. split.
        - intros k v N. cbn [ss_readers] in N. destruct (Nat.lt_ge_cases k (length (ss_readers s))) as [L|L].
          + rewrite nth_error_app1 in N by assumption. exact (S k v N).
          + rewrite nth_error_app2 in N by assumption. destruct (k - length (ss_readers s))%nat as [|m].
            * cbn in N. injection N as N. now apply Hr.
            * cbn in N. destruct m; discriminate.
        - intros k (v & N & V). exists v. split; [|assumption]. cbn [ss_readers]. rewrite nth_error_app1; [assumption|].
          apply nth_error_Some. congruence. }
      destruct (reader g (ss_clocks s) (mkfile d 0)) as [[[v|]|e] ck] eqn:E; cbn [snd]; apply Ho; try discriminate.
      intros v' Hv. injection Hv as <-. now apply (opened_file _ _ _ _ B G E).
    - pose proof (act_next k s S) as N. destruct (nth_error (ss_readers s) k) as [[v|]|] eqn:Nk;
        [|rewrite N; cbn [snd]; auto|rewrite N; cbn [snd]; auto].
      destruct N as (f' & P & Q & -> & _ & D). split.
      + intros j w W. cbn [ss_readers] in W. destruct (nth_set (ss_readers s) k (Some (with_file v f')) j) as [H|(_ & _ & H)].
        * rewrite H in W. exact (S j w W).
        * rewrite H in W. injection W as <-. cbn. split; [assumption|]. rewrite Q. exact (proj2 (S k v Nk)).
      + intros j (w & W & V). cbn [ss_readers].
        destruct (nth_set (ss_readers s) k (Some (with_file v f')) j) as [H|(-> & _ & H)].
        * exists w. cbn [ss_readers]. rewrite H. auto.
        * exists (with_file v f'). cbn [ss_readers]. split; [assumption|]. cbn. rewrite Nk in W. injection W as <-. exact (proj2 (D V)).
    - cbn [act]. destruct (nth_error (ss_readers s) k) as [[v|]|]; cbn [snd]; auto.
  Qed.

  Lemma act_next_len k s : (k < length (ss_readers s))%nat -> forall x, (k < length (set_nth k x (ss_readers s)))%nat.
  Proof. intros H x. now rewrite set_nth_length. Qed.

  Lemma run_drained : forall l s j k, (forall d p, g d = Ok p -> bytes p) -> (forall d, In (Open d) l -> bytes d) ->
    sess_ok s -> drained k s -> nth_error l j = Some (Next k) ->
    nth_error (fst (run_session g l s)) j = Some (NextGave (inl None)).
  Proof.
    induction l as [|a l IH]; intros s j k G B S D N; [destruct j; discriminate|].
    cbn [run_session]. destruct (act g a s) as [o s1] eqn:A. destruct (run_session g l s1) as [os s2] eqn:R. cbn [fst].
    destruct (act_ok a s G ltac:(intros d ->; apply B; now left) S) as [S1 D1]. rewrite A in S1, D1. cbn [snd] in *.
    destruct j as [|j]; cbn [nth_error] in *.
    - injection N as ->. f_equal. pose proof (act_next k s S) as K. destruct D as (v & Nv & V). rewrite Nv in K.
      destruct K as (f' & _ & _ & _ & _ & K). rewrite A in K. exact (proj1 (K V)).
    - specialize (IH s1 j k G ltac:(intros; apply B; now right) S1 (D1 k D) N). rewrite R in IH. exact IH.
  Qed.

  Lemma run_once : forall l s i j k o, (forall d p, g d = Ok p -> bytes p) -> (forall d, In (Open d) l -> bytes d) ->
    sess_ok s -> (i < j)%nat -> nth_error l i = Some (Next k) -> nth_error l j = Some (Next k) ->
    nth_error (fst (run_session g l s)) i = Some o -> ended o ->
    nth_error (fst (run_session g l s)) j = Some (NextGave (inl None)).
  Proof.
    induction l as [|a l IH]; intros s i j k o G B S L Ni Nj Oi E; [destruct i; discriminate|].
    destruct j as [|j]; [lia|]. cbn [run_session nth_error] in *.
    destruct (act g a s) as [o1 s1] eqn:A. destruct (run_session g l s1) as [os s2] eqn:R. cbn [fst nth_error] in *.
    destruct (act_ok a s G ltac:(intros d ->; apply B; now left) S) as [S1 D1]. rewrite A in S1, D1. cbn [snd] in *.
    assert (R' : os = fst (run_session g l s1)) by now rewrite R. rewrite R' in *. clear R'.
    destruct i as [|i]; cbn [nth_error] in *.
    - injection Ni as ->. injection Oi as ->. refine (run_drained l s1 j k G _ S1 _ Nj); [intros; apply B; now right|].
      pose proof (act_next k s S) as K. destruct (nth_error (ss_readers s) k) as [[v|]|] eqn:Nk.
      + destruct K as (f' & _ & _ & K1 & K2 & _). rewrite A in K1, K2. cbn [fst snd] in *.
        exists (with_file v f'). rewrite K1. cbn [ss_readers]. split; [|exact (K2 E)].
        rewrite nth_error_set_nth, Nat.eqb_refl. assert (H : (k < length (ss_readers s))%nat) by (apply nth_error_Some; congruence).
        now apply Nat.ltb_lt in H as ->.
      + rewrite K in A. injection A as <- _. destruct E as [E|[e E]]; discriminate.
      + rewrite K in A. injection A as <- _. destruct E as [E|[e E]]; discriminate.
    - refine (IH s1 i j k o G _ S1 _ Ni Nj Oi E); [intros; apply B; now right|lia].
  Qed.
End Drain.
