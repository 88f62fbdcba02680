(** C87-C90: the configuration classes as a library. *)
From Coq Require Import Lia.
From Verif.Model Require Import Py Config Json PyObjects.
From Verif.Spec Require Import JsonText Records.
From Verif.Proofs Require PyLemmas JsonProofs.
Import PyLemmas.
Open Scope string_scope.
Open Scope list_scope.
Open Scope Z_scope.

Lemma look_find d n : look d n = option_map snd (find (fun kv : string * val => String.eqb (fst kv) n) d).
Proof. induction d as [|[k v] d IH]; [reflexivity|]. cbn [look find fst]. destruct (String.eqb k n); [reflexivity|exact IH]. Qed.
Lemma own_look h r c d n : nth_error h r = Some (Inst c d) -> own h (VRef r) n = look d n.
Proof. intros E. unfold own. now rewrite E, look_find. Qed.
Lemma class_ref h v c : class_of h v = Some c -> exists r d, v = VRef r /\ nth_error h r = Some (Inst c d).
Proof.
  unfold class_of. destruct v; try discriminate. destruct (nth_error h r) as [[c' d|l]|] eqn:E; try discriminate.
  intros [= ->]. now exists r, d.
Qed.

(** ** Equality *)
Lemma waveform_eqb_spec v w : waveform_eqb v w = true <-> v = w.
Proof. destruct v, w; cbn; split; congruence. Qed.
Lemma numeric_number v : numeric v = number v.
Proof. destruct v as [| []| | | | ]; reflexivity. Qed.
Lemma equal_plain k h x y : plain x -> plain y -> exists b, equal (S k) h x y = Ok b /\ (b = true <-> same x y).
Proof.
  intros Px Py. unfold same. rewrite !numeric_number.
  assert (NR : forall m n, (m =? n) = true <-> exists z, Some m = Some z /\ Some n = Some z).
  { intros m n. rewrite Z.eqb_eq. split; [intros ->; now exists n|intros (z & [= ->] & [= ->]); reflexivity]. }
  destruct x as [m|m|s|w|o|r]; [| | | | |now destruct (Px r)];
    (destruct y as [n|n|t|v|p|q]; [| | | | |now destruct (Py q)]);
    cbn [equal number]; eexists; (split; [reflexivity|]);
    first [ rewrite NR; split; [intros H; now right|intros [[= ->]|H]; [now eexists|exact H]]
          | rewrite NR; split; [intros H; now right|intros [H|H]; [discriminate H|exact H]]
          | rewrite String.eqb_eq; split; [intros ->; now left|intros [[= ->]|(z & H & _)]; [reflexivity|discriminate H]]
          | rewrite waveform_eqb_spec; split; [intros ->; now left|intros [[= ->]|(z & H & _)]; [reflexivity|discriminate H]]
          | rewrite Z.eqb_eq; split; [intros ->; now left|intros [[= ->]|(z & H & _)]; [reflexivity|discriminate H]]
          | split; [discriminate|intros [H|(z & H & H')]; discriminate] ].
Qed.
Lemma all_equal_ok eq d d' (P : string -> Prop) names :
  (forall n, In n names -> exists x y b, look d n = Some x /\ look d' n = Some y /\ eq x y = Ok b /\ (b = true <-> P n)) ->
  exists b, all_equal eq d d' names = Ok b /\ (b = true <-> forall n, In n names -> P n).
Proof.
  induction names as [|n names IH]; intros A; [exists true; split; [reflexivity|]; split; [intros _ n []|reflexivity]|].
  destruct (A n (or_introl eq_refl)) as (x & y & b & X & Y & E & B). cbn [all_equal]. rewrite X, Y, E. cbn [bind].
  destruct b.
  - destruct IH as (b & E' & B'); [intros m M; apply A; now right|]. exists b. split; [exact E'|]. rewrite B'. split.
    + intros Q m [->|M]; [now apply B|now apply Q].
    + intros Q m M. apply Q. now right.
  - exists false. split; [reflexivity|]. split; [discriminate|]. intros Q. destruct B as [_ B]. apply B, Q. now left.
Qed.
Lemma items_equal_ok eq (P : val -> val -> Prop) : forall l l', List.length l = List.length l' ->
  (forall x y, In x l -> In y l' -> (same_object x y = true -> P x y) /\ exists b, eq x y = Ok b /\ (b = true <-> P x y)) ->
  exists b, items_equal eq l l' = Ok b /\ (b = true <-> Forall2 P l l').
Proof.
  induction l as [|x l IH]; intros [|y l'] L A; try discriminate; [exists true; split; [reflexivity|]; split; [constructor|reflexivity]|].
  cbn [items_equal]. destruct (A x y (or_introl eq_refl) (or_introl eq_refl)) as (S & b & E & B).
  destruct (IH l') as (c & E' & B'); [cbn in L; lia|intros u v U V; apply A; now right|].
  assert (G : exists b', (if same_object x y then Ok true else eq x y) = Ok b' /\ (b' = true <-> P x y)).
  { destruct (same_object x y); [exists true; split; [reflexivity|]; split; [intros _; now apply S|reflexivity]|exists b; now split]. }
  destruct G as (b' & -> & G). cbn [bind]. destruct b'.
  - exists c. split; [exact E'|]. rewrite B'. split; [intros Q; constructor; [now apply G|exact Q]|intros Q; now inversion Q].
  - exists false. split; [reflexivity|]. split; [discriminate|]. intros Q. inversion Q; subst. now apply G.
Qed.

Lemma compared_settings c n : c <> CChan -> In n (compared c) <-> In n (settings c).
Proof. intros C. destruct c; try contradiction; cbn [compared settings In]; tauto. Qed.
Lemma compared_channel n : In n (compared CChan) <-> n = "operators" \/ In n (settings CChan).
Proof. cbn [compared settings In]. split; intros H; decompose [or] H; subst; tauto. Qed.

Lemma record_own h c v : record h c v -> exists r d, v = VRef r /\ nth_error h r = Some (Inst c d)
  /\ forall n, In n (settings c) -> exists x, look d n = Some x /\ plain x.
Proof.
  intros (C & _ & A). destruct (class_ref h v c C) as (r & d & -> & E). exists r, d. split; [reflexivity|]. split; [exact E|].
  intros n N. destruct (A n N) as (x & X & P). rewrite (own_look h r c d n E) in X. now exists x.
Qed.
Lemma cls_eqb_refl c : cls_eqb c c = true.
Proof. destruct c; reflexivity. Qed.
Lemma cls_eqb_spec a b : cls_eqb a b = true <-> a = b.
Proof. destruct a, b; cbn; split; congruence. Qed.
Lemma cls_eqb_neq a b : a <> b -> cls_eqb a b = false.
Proof. intros N. destruct (cls_eqb a b) eqn:E; [|reflexivity]. now apply cls_eqb_spec in E. Qed.

Lemma record_equal h c a b k : c <> CChan -> record h c a -> record h c b ->
  exists x, equal (S (S k)) h a b = Ok x /\ (x = true <-> same_settings h c a b).
Proof.
  intros NC A B. destruct (record_own h c a A) as (r & d & -> & E & X). destruct (record_own h c b B) as (q & d' & -> & E' & Y).
  remember (S k) as n1 eqn:En1. cbn [equal]. rewrite E, E', cls_eqb_refl, (cls_eqb_neq c CConfig) by (exact (proj1 (proj2 A))). cbn [negb andb].
  destruct (all_equal_ok (equal n1 h) d d' (fun n => exists x y, own h (VRef r) n = Some x /\ own h (VRef q) n = Some y /\ same x y) (compared c)) as (x & -> & Q).
  { intros n N. apply (compared_settings c n NC) in N. destruct (X n N) as (u & U & PU). destruct (Y n N) as (v & V & PV).
    destruct (equal_plain k h u v PU PV) as (b & F & G). rewrite <- En1 in F. exists u, v, b. repeat (split; [assumption|]).
    rewrite (own_look h r c d n E), (own_look h q c d' n E'), G. split; [intros S; exists u, v; now repeat split|].
    intros (u' & v' & U' & V' & S). congruence. }
  exists x. split; [reflexivity|]. rewrite Q. unfold same_settings. split.
  - intros P. split; [exact (proj1 A)|]. split; [exact (proj1 B)|]. intros n N. now apply P, compared_settings.
  - intros (_ & _ & P) n N. apply P. now apply compared_settings.
Qed.
Lemma same_refl x : same x x. Proof. now left. Qed.
Lemma settings_refl h c v : record h c v -> same_settings h c v v.
Proof. intros (C & _ & A). split; [exact C|]. split; [exact C|]. intros n N. destruct (A n N) as (x & X & _). exists x, x. now repeat split; [..|left]. Qed.
Lemma list_at_fun h l os ps : list_at h l os -> list_at h l ps -> os = ps.
Proof. intros (r & -> & A) (q & [= ->] & B). congruence. Qed.

(** Two configuration objects are equal exactly if they are of the same class and agree
    in every setting, channels also operator by operator; comparing never fails. *)
Theorem C87_equal : forall h c c' a b limit, tidy h c a -> tidy h c' b -> (4 <= limit)%nat ->
  exists x, equal limit h a b = Ok x /\ (x = true <-> c = c' /\ alike h c a b).
Proof.
  intros h c c' a b limit [A A'] [B B'] L. destruct limit as [|[|[|[|k]]]]; try lia. clear L.
  assert (D : c = c' \/ c <> c') by (destruct c, c'; (now left) || (right; congruence)). destruct D as [<-|N].
  2:{ destruct (record_own h c a A) as (r & d & -> & E & _). destruct (record_own h c' b B) as (q & d' & -> & E' & _).
      exists false. split; [|split; [discriminate|intros [? _]; contradiction]].
      cbn [equal]. rewrite E, E', (cls_eqb_neq c c') by assumption. cbn [andb]. f_equal. apply Nat.eqb_neq. intros ->. congruence. }
  assert (D : c = CChan \/ c <> CChan) by (destruct c; (now left) || (right; congruence)). destruct D as [->|NC].
  2:{ destruct (record_equal h c a b (S (S k)) NC A B) as (x & E & Q). exists x. split; [exact E|]. rewrite Q. unfold alike.
      split; [intros P; split; [reflexivity|split; [exact P|intros ->; contradiction]]|intros (_ & P & _); exact P]. }
  destruct (A' eq_refl) as (l & os & LO & LL & RO). destruct (B' eq_refl) as (m & ps & MO & MM & RP).
  destruct (record_own h CChan a A) as (r & d & -> & E & X). destruct (record_own h CChan b B) as (q & d' & -> & E' & Y).
  assert (LE : exists x, equal (S (S (S k))) h l m = Ok x /\ (x = true <-> Forall2 (same_settings h COp) os ps)).
  { destruct LL as (lr & -> & LL). destruct MM as (mr & -> & MM). remember (S (S k)) as n2 eqn:En2. cbn [equal]. rewrite LL, MM.
    destruct (Nat.eqb_spec (List.length os) (List.length ps)) as [G|G].
    2:{ exists false. split; [reflexivity|]. split; [discriminate|]. intros F. destruct G. clear - F. induction F; cbn; congruence. }
    apply items_equal_ok; [exact G|]. intros x y Ix Iy. rewrite Forall_forall in RO, RP. specialize (RO x Ix). specialize (RP y Iy). split.
    - intros S. unfold same_object in S. destruct x, y; try discriminate. apply Nat.eqb_eq in S. subst. now apply settings_refl.
    - subst n2. apply record_equal; [discriminate|assumption|assumption]. }
  destruct LE as (xl & EL & QL). remember (S (S (S k))) as n3 eqn:En3. cbn [equal]. rewrite E, E'. cbn [cls_eqb negb andb].
  destruct (all_equal_ok (equal n3 h) d d'
    (fun n => if String.eqb n "operators" then Forall2 (same_settings h COp) os ps
              else exists x y, own h (VRef r) n = Some x /\ own h (VRef q) n = Some y /\ same x y) (compared CChan)) as (x & -> & Q).
  { intros n N. apply compared_channel in N. destruct (String.eqb_spec n "operators") as [->|NO].
    - exists l, m, xl. rewrite <- (own_look h r CChan d _ E), <- (own_look h q CChan d' _ E'). repeat (split; [assumption|]). exact QL.
    - destruct N as [N|N]; [contradiction|]. destruct (X n N) as (u & U & PU). destruct (Y n N) as (v & V & PV).
      subst n3. destruct (equal_plain (S (S k)) h u v PU PV) as (b & F & G). exists u, v, b. repeat (split; [assumption|]).
      rewrite (own_look h r CChan d n E), (own_look h q CChan d' n E'), G. split; [intros S; exists u, v; now repeat split|].
      intros (u' & v' & U' & V' & S). congruence. }
  exists x. split; [reflexivity|]. rewrite Q. split.
  - intros P. split; [reflexivity|]. split.
    + split; [exact (proj1 A)|]. split; [exact (proj1 B)|]. intros n N.
      assert (NO : n <> "operators") by (intros ->; cbn in N; decompose [or] N; try discriminate; contradiction).
      specialize (P n ltac:(apply compared_channel; now right)). destruct (String.eqb_spec n "operators"); [contradiction|exact P].
    + intros _. exists l, m, os, ps. repeat (split; [assumption|]). exact (P "operators" ltac:(apply compared_channel; now left)).
  - intros (_ & (_ & _ & P) & P') n N. destruct (String.eqb_spec n "operators") as [->|NO].
    + destruct (P' eq_refl) as (l1 & m1 & os1 & ps1 & H1 & H2 & H3 & H4 & H5).
      assert (l1 = l) by congruence. assert (m1 = m) by congruence. subst.
      now rewrite <- (list_at_fun h l os1 os), <- (list_at_fun h m ps1 ps).
    + apply compared_channel in N. destruct N as [N|N]; [contradiction|]. now apply P.
Qed.
Print Assumptions C87_equal.

Lemma same_sym x y : same x y -> same y x.
Proof. intros [->|(n & A & B)]; [now left|right; now exists n]. Qed.
Lemma same_trans x y z : same x y -> same y z -> same x z.
Proof. intros [->|(n & A & B)] [->|(m & C & D)]; [now left|right; now exists m|right; now exists n|]. right. exists n. split; congruence. Qed.
Lemma settings_sym h c a b : same_settings h c a b -> same_settings h c b a.
Proof. intros (A & B & S). split; [exact B|]. split; [exact A|]. intros n N. destruct (S n N) as (x & y & X & Y & Q). exists y, x. repeat (split; [assumption|]). now apply same_sym. Qed.
Lemma settings_trans h c a b d : same_settings h c a b -> same_settings h c b d -> same_settings h c a d.
Proof.
  intros (A & B & S) (B' & D & T). split; [exact A|]. split; [exact D|]. intros n N.
  destruct (S n N) as (x & y & X & Y & Q). destruct (T n N) as (y' & z & Y' & Z & Q'). assert (y' = y) by congruence. subst y'.
  exists x, z. repeat (split; [assumption|]). now apply (same_trans x y z).
Qed.
Lemma alike_refl h c v : tidy h c v -> alike h c v v.
Proof.
  intros [A B]. split; [now apply settings_refl|]. intros C. destruct (B C) as (l & os & O & L & F). exists l, l, os, os.
  repeat (split; [assumption|]). clear - F. induction F; constructor; [now apply settings_refl|assumption].
Qed.
Lemma alike_sym h c a b : alike h c a b -> alike h c b a.
Proof.
  intros [A B]. split; [now apply settings_sym|]. intros C. destruct (B C) as (l & m & os & ps & O & P & L & M & F). exists m, l, ps, os.
  repeat (split; [assumption|]). clear - F. induction F; constructor; [now apply settings_sym|assumption].
Qed.
Lemma alike_trans h c a b d : alike h c a b -> alike h c b d -> alike h c a d.
Proof.
  intros [A B] [A' B']. split; [now apply (settings_trans h c a b d)|]. intros C.
  destruct (B C) as (l & m & os & ps & O & P & L & M & F). destruct (B' C) as (m' & n & ps' & qs & P' & Q & M' & N & F').
  assert (m' = m) by congruence. subst m'. assert (ps' = ps) by now apply (list_at_fun h m). subst ps'.
  exists l, n, os, qs. repeat (split; [assumption|]). clear - F F'. revert qs F'. induction F as [|x y os ps X F IH]; intros qs F'; inversion F' as [|y' z ps' qs' Y G]; subst; constructor.
  - now apply (settings_trans h COp x y z).
  - now apply IH.
Qed.
(** == is an equivalence on them. *)
Theorem C87_equivalence : forall h c1 c2 c3 a b d limit,
  tidy h c1 a -> tidy h c2 b -> tidy h c3 d -> (4 <= limit)%nat ->
  equal limit h a a = Ok true
  /\ equal limit h a b = equal limit h b a
  /\ (equal limit h a b = Ok true -> equal limit h b d = Ok true -> equal limit h a d = Ok true).
Proof.
  intros h c1 c2 c3 a b d limit A B D L.
  destruct (C87_equal h c1 c1 a a limit A A L) as (x1 & -> & Q1).
  destruct (C87_equal h c1 c2 a b limit A B L) as (x2 & -> & Q2). destruct (C87_equal h c2 c1 b a limit B A L) as (x3 & -> & Q3).
  destruct (C87_equal h c2 c3 b d limit B D L) as (x4 & -> & Q4). destruct (C87_equal h c1 c3 a d limit A D L) as (x5 & -> & Q5).
  split; [f_equal; apply Q1; split; [reflexivity|now apply alike_refl]|]. split.
  - f_equal. assert (x2 = true <-> x3 = true).
    { rewrite Q2, Q3. split; (intros [<- S]; split; [reflexivity|now apply alike_sym]). }
    destruct x2, x3; try reflexivity; [symmetry; now apply H|now apply H].
  - intros [= ->] [= ->]. f_equal. apply Q5. destruct (proj1 Q2 eq_refl) as [<- S]. destruct (proj1 Q4 eq_refl) as [<- T].
    split; [reflexivity|now apply (alike_trans h c1 a b d)].
Qed.
Print Assumptions C87_equivalence.

(** A configuration object is different from everything else: numbers, texts, lists,
    Config objects, objects of another class. *)
Theorem C87_elsewhere : forall h c a b limit, class_of h a = Some c -> c <> CConfig -> class_of h b <> Some c ->
  (1 <= limit)%nat -> equal limit h a b = Ok false /\ equal limit h b a = Ok false.
Proof.
  intros h c a b limit A NC B L. destruct limit as [|k]; [lia|]. destruct (class_ref h a c A) as (r & d & -> & E).
  destruct b as [n|x|s|w|o|q]; cbn [equal number]; try (split; reflexivity). rewrite E. cbn [class_of] in B.
  destruct (nth_error h q) as [[c' d'|l]|] eqn:E'; try (split; reflexivity).
  assert (N : c <> c') by congruence. rewrite (cls_eqb_neq c c'), (cls_eqb_neq c' c) by congruence. cbn [andb].
  assert (r <> q) by (intros ->; congruence). destruct (Nat.eqb_spec r q), (Nat.eqb_spec q r); try congruence. split; reflexivity.
Qed.
Print Assumptions C87_elsewhere.

(** Config objects are equal only to themselves; [compare] looks at the settings, and at
    the operators' value and type. *)
Theorem C87_config : forall h a b limit, class_of h a = Some CConfig -> (1 <= limit)%nat ->
  exists x, equal limit h a b = Ok x /\ (x = true <-> a = b).
Proof.
  intros h a b limit A L. destruct limit as [|k]; [lia|]. destruct (class_ref h a _ A) as (r & d & -> & E).
  assert (FA : forall v, VRef r <> v -> exists x, @Ok bool false = Ok x /\ (x = true <-> VRef r = v)) by (intros v N; exists false; split; [reflexivity|]; split; congruence).
  destruct b as [n|x|s|w|o|q]; cbn [equal number]; try (apply FA; discriminate). rewrite E.
  destruct (nth_error h q) as [[c' d'|l]|] eqn:E'; try (apply FA; congruence).
  replace (cls_eqb CConfig c' && negb (cls_eqb CConfig CConfig)) with false by (destruct c'; reflexivity).
  exists (Nat.eqb r q). split; [reflexivity|]. rewrite Nat.eqb_eq. split; congruence.
Qed.
Print Assumptions C87_config.
Lemma getattr_own k h v n x : own h v n = Some x -> getattr (S k) h v n = Ok x.
Proof.
  unfold own. destruct v; try discriminate. cbn [getattr]. destruct (nth_error h r) as [[c d|l]|]; try discriminate.
  rewrite <- look_find. intros ->. now destruct c.
Qed.
Theorem C87_compare : forall h g b c o b' c' o' limit,
  own h g "_base" = Some b -> own h g "_channel" = Some c -> own h g "_operators" = Some o ->
  tidy h CBase b -> tidy h CChan c -> plain o -> tidy h CBase b' -> tidy h CChan c' -> plain o' -> (4 <= limit)%nat ->
  exists x, compare limit h g b' c' o' = Ok x /\ (x = true <-> alike h CBase b b' /\ alike h CChan c c' /\ same o o').
Proof.
  intros h g b c o b' c' o' limit B C O Tb Tc Po Tb' Tc' Po' L. unfold compare. destruct limit as [|k]; [lia|].
  rewrite (getattr_own k h g _ b B), (getattr_own k h g _ c C), (getattr_own k h g _ o O). cbn [bind].
  destruct (C87_equal h CBase CBase b b' (S k) Tb Tb' L) as (x & -> & X). cbn [bind].
  destruct (C87_equal h CChan CChan c c' (S k) Tc Tc' L) as (y & -> & Y). cbn [bind].
  destruct (equal_plain k h o o' Po Po') as (z & Z & Q).
  destruct x; [|exists false; split; [reflexivity|]; split; [discriminate|]; intros (H & _); apply X; now split].
  destruct y; [|exists false; split; [reflexivity|]; split; [discriminate|]; intros (_ & H & _); apply Y; now split].
  exists z. split; [exact Z|]. rewrite Q. split; [intros S; split; [exact (proj2 (proj1 X eq_refl))|split; [exact (proj2 (proj1 Y eq_refl))|exact S]]|intros (_ & _ & S); exact S].
Qed.
Print Assumptions C87_compare.

(** ** Copies *)
(** Nothing that existed is touched. *)
Definition kept (h h' : mem) : Prop :=
  (List.length h <= List.length h')%nat /\ forall i, (i < List.length h)%nat -> nth_error h' i = nth_error h i.
Lemma kept_refl h : kept h h. Proof. split; [lia|reflexivity]. Qed.
Lemma kept_trans a b c : kept a b -> kept b c -> kept a c.
Proof. intros [A B] [C D]. split; [lia|]. intros i I. rewrite D, B by lia. reflexivity. Qed.
Lemma kept_new (h : mem) o : kept h (h ++ [o]).
Proof. split; [rewrite app_length; lia|]. intros i I. now apply nth_error_app1. Qed.
Lemma nth_new (h : mem) o : nth_error (h ++ [o]) (List.length h) = Some o.
Proof. rewrite nth_error_app2, Nat.sub_diag by lia. reflexivity. Qed.
Lemma set_nth_length {A} (x : A) : forall l k, List.length (set_nth k x l) = List.length l.
Proof. induction l as [|y l IH]; intros [|k]; cbn; auto. Qed.
Lemma set_nth_other {A} (x : A) : forall l k i, i <> k -> nth_error (set_nth k x l) i = nth_error l i.
Proof. induction l as [|y l IH]; intros [|k] [|i] N; cbn; auto; congruence. Qed.
Lemma set_nth_here {A} (x : A) : forall l k, (k < List.length l)%nat -> nth_error (set_nth k x l) k = Some x.
Proof. induction l as [|y l IH]; intros [|k] L; cbn in *; try lia; [reflexivity|]. apply IH. lia. Qed.
Lemma kept_set h h' y o : kept h h' -> (List.length h <= y)%nat -> kept h (set_nth y o h').
Proof. intros [A B] Y. split; [now rewrite set_nth_length|]. intros i I. rewrite set_nth_other by lia. now apply B. Qed.
Lemma nth_lt (h : mem) r o : nth_error h r = Some o -> (r < List.length h)%nat.
Proof. intros E. apply nth_error_Some. congruence. Qed.
Lemma kept_nth h h' r o : kept h h' -> nth_error h r = Some o -> nth_error h' r = Some o.
Proof. intros [_ K] E. rewrite K; [exact E|]. now apply (nth_lt h r o). Qed.
Lemma kept_class h h' v c : kept h h' -> class_of h v = Some c -> class_of h' v = Some c.
Proof. intros K C. destruct (class_ref h v c C) as (r & d & -> & E). cbn. now rewrite (kept_nth h h' r _ K E). Qed.
Lemma kept_own h h' v c n : kept h h' -> class_of h v = Some c -> own h' v n = own h v n.
Proof. intros K C. destruct (class_ref h v c C) as (r & d & -> & E). rewrite (own_look h r c d n E). apply (own_look h' r c d n). now apply (kept_nth h). Qed.
Lemma kept_record h h' c v : kept h h' -> record h c v -> record h' c v.
Proof. intros K (C & N & A). split; [now apply (kept_class h)|]. split; [exact N|]. intros n I. rewrite (kept_own h h' v c n K C). now apply A. Qed.
Lemma kept_tidy h h' c v : kept h h' -> tidy h c v -> tidy h' c v.
Proof.
  intros K [A B]. split; [now apply (kept_record h)|]. intros C. destruct (B C) as (l & os & O & (r & -> & L) & F). exists (VRef r), os.
  split; [rewrite (kept_own h h' v c _ K (proj1 A)); exact O|]. split; [exists r; split; [reflexivity|now apply (kept_nth h)]|].
  clear - F K. induction F; constructor; [now apply (kept_record h)|assumption].
Qed.

(** Reading the attributes of another object. *)
Lemma from_other_ok k h v : forall names, (forall n, In n (map fst names) -> exists x, own h v n = Some x) ->
  exists d, from_other (S k) h v names = Ok d /\ map fst d = map fst names
    /\ forall n, look d n = if in_dec string_dec n (map fst names) then own h v n else None.
Proof.
  induction names as [|[n w] names IH]; intros A; [now exists []|]. cbn [from_other map fst] in *.
  destruct (A n (or_introl eq_refl)) as (x & X). rewrite (getattr_own k h v n x X). cbn [bind].
  destruct IH as (d & -> & M & L); [intros m I; apply A; now right|]. cbn [bind]. exists ((n, x) :: d).
  split; [reflexivity|]. split; [cbn [map fst]; now f_equal|]. intros m. cbn [look]. specialize (L m).
  destruct (String.eqb_spec n m) as [->|N].
  - destruct (in_dec string_dec m (m :: map fst names)) as [I|I]; [now rewrite X|destruct I; now left].
  - rewrite L. destruct (in_dec string_dec m (map fst names)) as [I|I], (in_dec string_dec m (n :: map fst names)) as [J|J]; try reflexivity.
    + destruct J; now right.
    + destruct J; [contradiction|now destruct I].
Qed.
Lemma defaults_settings c n : In n (map fst (defaults c)) <-> In n (settings c).
Proof. destruct c; cbn [defaults settings map fst In]; split; intros H; decompose [or] H; subst; tauto. Qed.

(** [w] in h' is a new object with the settings of [v] in h. *)
Definition copied (h h' : mem) (c : cls) (v w : val) : Prop :=
  exists q d, w = VRef q /\ (List.length h <= q)%nat /\ nth_error h' q = Some (Inst c d)
    /\ forall n, (c = CChan -> n <> "operators") -> look d n = if in_dec string_dec n (settings c) then own h v n else None.
Lemma in_dec_iff {A B : Prop} {T} (x y : T) (a : {A} + {~ A}) (b : {B} + {~ B}) : (A <-> B) -> (if a then x else y) = (if b then x else y).
Proof. intros I. destruct a, b; tauto. Qed.

Lemma copy_record k h h1 memo c v : kept h h1 -> c <> CChan -> record h c v ->
  (forall r, v = VRef r -> memo_find memo r = None) ->
  exists w o, deepcopy (S (S k)) h1 memo v = Ok (w, h1 ++ [o], match v with VRef r => (r, w) :: memo | _ => memo end)
    /\ copied h (h1 ++ [o]) c v w /\ w = VRef (List.length h1).
Proof.
  intros K NC R M. pose proof (kept_record h h1 c v K R) as R1. destruct (record_own h1 c v R1) as (r & d & -> & E & _).
  destruct (from_other_ok k h1 (VRef r) (defaults c)) as (d' & F & _ & L).
  { intros n I. apply defaults_settings in I. destruct R1 as (_ & _ & R1). destruct (R1 n I) as (x & X & _). now exists x. }
  exists (VRef (List.length h1)), (Inst c d'). split; [|split; [|reflexivity]].
  - cbn [deepcopy]. rewrite (M r eq_refl), E.
    assert (CP : copier (S k) h1 r = Ok (c, r)). { cbn [copier]. rewrite E. destruct c; try reflexivity. now destruct (proj1 (proj2 R)). }
    rewrite CP. cbn [bind]. unfold construct_from. destruct c; try contradiction; rewrite F; reflexivity.
  - exists (List.length h1), d'. split; [reflexivity|]. split; [exact (proj1 K)|]. split; [apply nth_new|]. intros n _. rewrite L.
    rewrite (kept_own h h1 (VRef r) c n K (proj1 R)). apply in_dec_iff, defaults_settings.
Qed.
Lemma copied_kept h h1 h2 c v w : kept h1 h2 -> copied h h1 c v w -> copied h h2 c v w.
Proof. intros K (q & d & -> & Q & E & L). exists q, d. split; [reflexivity|]. split; [exact Q|]. split; [now apply (kept_nth h1)|exact L]. Qed.
Lemma copied_set h h1 y vs ws c v w : nth_error h1 y = Some (Lst vs) -> copied h h1 c v w -> copied h (set_nth y (Lst ws) h1) c v w.
Proof.
  intros Y (q & d & -> & Q & E & L). exists q, d. split; [reflexivity|]. split; [exact Q|]. split; [|exact L].
  rewrite set_nth_other; [exact E|]. intros ->. congruence.
Qed.

Lemma copy_ops k h (y := List.length h) (lr : nat) : (lr < List.length h)%nat -> (forall c d, nth_error h lr <> Some (Inst c d)) ->
  forall os h1 memo vs, Forall (record h COp) os -> kept h h1 -> nth_error h1 y = Some (Lst vs) ->
  (forall r w, memo_find memo r = Some w -> r = lr \/ copied h h1 COp (VRef r) w) ->
  exists h2 memo2 ws, copy_each (deepcopy (S (S k))) y h1 memo os = Ok (h2, memo2) /\ kept h h2
    /\ nth_error h2 y = Some (Lst (vs ++ ws)) /\ Forall2 (copied h h2 COp) os ws
    /\ (forall v w, copied h h1 COp v w -> copied h h2 COp v w).
Proof.
  intros LR NL. induction os as [|o os IH]; intros h1 memo vs F K Y M.
  { exists h1, memo, []. rewrite app_nil_r. split; [reflexivity|]. split; [exact K|]. split; [exact Y|]. split; [constructor|auto]. }
  inversion F as [|o' os' Ro Fo]; subst o' os'. cbn [copy_each].
  destruct (record_own h COp o Ro) as (r & d & -> & E & _).
  assert (G : exists w h2 memo2, deepcopy (S (S k)) h1 memo (VRef r) = Ok (w, h2, memo2) /\ kept h1 h2 /\ copied h h2 COp (VRef r) w
     /\ (forall s u, memo_find memo2 s = Some u -> s = lr \/ copied h h2 COp (VRef s) u)).
  { destruct (memo_find memo r) as [w|] eqn:MF.
    - exists w, h1, memo. split; [cbn [deepcopy]; now rewrite MF|]. split; [apply kept_refl|]. split; [|exact M].
      destruct (M r w MF) as [->|C]; [now destruct (NL COp d)|exact C].
    - destruct (copy_record k h h1 memo COp (VRef r) K ltac:(discriminate) Ro) as (w & ob & D & C & _); [intros ? [= <-]; exact MF|].
      exists w, (h1 ++ [ob]), ((r, w) :: memo). split; [exact D|]. split; [apply kept_new|]. split; [exact C|].
      intros s u. cbn [memo_find]. destruct (Nat.eqb_spec r s) as [->|N]; [intros [= <-]; right; exact C|].
      intros Q. destruct (M s u Q) as [->|C']; [now left|]. right. now apply (copied_kept h h1), C'; apply kept_new. }
  destruct G as (w & h2 & memo2 & -> & K2 & C2 & M2). cbn [bind]. rewrite (kept_nth h1 h2 y _ K2 Y).
  assert (Y2 : nth_error h2 y = Some (Lst vs)) by now apply (kept_nth h1).
  destruct (IH (set_nth y (Lst (vs ++ [w])) h2) memo2 (vs ++ [w]) Fo) as (h3 & memo3 & ws & -> & K3 & Y3 & F3 & C3).
  - apply kept_set; [now apply (kept_trans h h1)|unfold y; lia].
  - apply set_nth_here. now apply (nth_lt h2 y (Lst vs)).
  - intros s u Q. destruct (M2 s u Q) as [->|C]; [now left|]. right. now apply (copied_set h h2 y vs).
  - exists h3, memo3, (w :: ws). split; [reflexivity|]. split; [exact K3|]. split; [rewrite Y3, <- app_assoc; reflexivity|]. split.
    + constructor; [apply C3; now apply (copied_set h h2 y vs)|exact F3].
    + intros v u C. apply C3. apply (copied_set h h2 y vs _ _ _ _ Y2). now apply (copied_kept h h1).
Qed.

Lemma copied_record h h' c v w : record h c v -> copied h h' c v w -> record h' c w.
Proof.
  intros (C & N & A) (q & d & -> & Q & E & L). split; [cbn; now rewrite E|]. split; [exact N|]. intros n I.
  destruct (A n I) as (x & X & P). exists x. split; [|exact P]. rewrite (own_look h' q c d n E), L.
  - destruct (in_dec string_dec n (settings c)); [exact X|contradiction].
  - intros -> ->. cbn in I. decompose [or] I; try discriminate; contradiction.
Qed.
Lemma copied_same h h' c v w : kept h h' -> record h c v -> copied h h' c v w -> same_settings h' c v w.
Proof.
  intros K R C. pose proof (copied_record h h' c v w R C) as R'. destruct R as (CL & N & A). split; [now apply (kept_class h)|]. split; [exact (proj1 R')|].
  intros n I. destruct (A n I) as (x & X & _). exists x, x. split; [now rewrite (kept_own h h' v c n K CL)|]. split; [|now left].
  destruct C as (q & d & -> & Q & E & L). rewrite (own_look h' q c d n E), L.
  - destruct (in_dec string_dec n (settings c)); [exact X|contradiction].
  - intros -> ->. cbn in I. decompose [or] I; try discriminate; contradiction.
Qed.

(** deepcopy makes a new object of the same class, equal to the old one, that shares no
    object with anything that existed, and touches nothing; attributes that the client
    added are not copied. *)
Theorem C88_copy : forall h c v limit, tidy h c v -> (4 <= limit)%nat ->
  exists w h', copy_of limit h v = Ok (w, h')
    /\ (forall i, (i < List.length h)%nat -> nth_error h' i = nth_error h i)
    /\ tidy h' c w /\ alike h' c v w
    /\ (forall n, In n (settings c) -> own h' w n = own h v n)
    /\ (forall r, owns h' w r -> (List.length h <= r)%nat)
    /\ (forall n, ~ In n (settings c) -> (c = CChan -> n <> "operators") -> own h' w n = None).
Proof.
  intros h c v limit T L. destruct limit as [|[|[|[|k]]]]; try lia. clear L. destruct T as [R TC].
  assert (FIN : forall h' w, kept h h' -> copied h h' c v w ->
     (c = CChan -> exists l m os ps, own h v "operators" = Some l /\ own h' w "operators" = Some (VRef m) /\ list_at h l os
        /\ nth_error h' m = Some (Lst ps) /\ (List.length h <= m)%nat /\ Forall (record h COp) os /\ Forall2 (copied h h' COp) os ps) ->
     (forall i, (i < List.length h)%nat -> nth_error h' i = nth_error h i)
    /\ tidy h' c w /\ alike h' c v w
    /\ (forall n, In n (settings c) -> own h' w n = own h v n)
    /\ (forall r, owns h' w r -> (List.length h <= r)%nat)
    /\ (forall n, ~ In n (settings c) -> (c = CChan -> n <> "operators") -> own h' w n = None)).
  { intros h' w K C O. split; [exact (proj2 K)|]. pose proof (copied_record h h' c v w R C) as R'.
    split; [|split; [|split; [|split]]].
    - split; [exact R'|]. intros ->. destruct (O eq_refl) as (l & m & os & ps & _ & O2 & _ & O4 & _ & O6 & O7). exists (VRef m), ps.
      split; [exact O2|]. split; [now exists m|]. clear - O6 O7. induction O7 as [|x y os ps X F IH]; constructor; inversion O6; subst; [now apply (copied_record h h' COp x y)|now apply IH].
    - split; [now apply (copied_same h)|]. intros ->. destruct (O eq_refl) as (l & m & os & ps & O1 & O2 & (lr & -> & O3) & O4 & _ & O6 & O7).
      exists (VRef lr), (VRef m), os, ps. split; [rewrite (kept_own h h' v CChan _ K (proj1 R)); exact O1|]. split; [exact O2|].
      split; [exists lr; split; [reflexivity|now apply (kept_nth h)]|]. split; [now exists m|].
      clear - O6 O7 K. induction O7 as [|x y os ps X F IH]; constructor; inversion O6; subst; [now apply (copied_same h h' COp x y)|now apply IH].
    - intros n I. destruct C as (q & d & -> & Q & E & L). rewrite (own_look h' q c d n E), L.
      + destruct (in_dec string_dec n (settings c)); [reflexivity|contradiction].
      + intros -> ->. cbn in I. decompose [or] I; try discriminate; contradiction.
    - intros r W. destruct C as (q & d & -> & Q & E & L). inversion W as [r' [= ->]|r' C' OP|l os r' C' OP LA I]; subst.
      + exact Q.
      + cbn in C'. rewrite E in C'. injection C' as ->. destruct (O eq_refl) as (l & m & os & ps & _ & O2 & _ & _ & O5 & _). assert (r = m) by congruence. now subst.
      + cbn in C'. rewrite E in C'. injection C' as ->. destruct (O eq_refl) as (l' & m & os' & ps & _ & O2 & _ & O4 & _ & _ & O7).
        assert (l = VRef m) by congruence. subst l. destruct LA as (m' & [= <-] & LA). assert (os = ps) by congruence. subst ps.
        clear - O7 I. induction O7 as [|x y os' os X F IH]; [contradiction|]. destruct I as [->|I]; [|now apply IH].
        destruct X as (q & d & [= <-] & Q & _). exact Q.
    - intros n I NO. destruct C as (q & d & -> & Q & E & L). rewrite (own_look h' q c d n E), L by exact NO.
      destruct (in_dec string_dec n (settings c)); [contradiction|reflexivity]. }
  assert (D : c = CChan \/ c <> CChan) by (destruct c; (now left) || (right; congruence)). destruct D as [->|NC].
  2:{ destruct (copy_record (S (S k)) h h [] c v (kept_refl h) NC R) as (w & o & D & C & _); [reflexivity|].
      exists w, (h ++ [o]). split; [unfold copy_of; rewrite D; reflexivity|]. apply FIN; [apply kept_new|exact C|intros ->; contradiction]. }
  destruct (TC eq_refl) as (l & os & O & (lr & -> & LA) & F). destruct (record_own h CChan v R) as (r & d & -> & E & _).
  destruct (copy_ops k h lr (nth_lt _ _ _ LA) ltac:(intros ? ? Q; congruence) os (h ++ [Lst []]) [(lr, VRef (List.length h))] [] F (kept_new _ _) (nth_new _ _))
    as (h2 & memo2 & ws & CE & K2 & Y2 & F2 & _).
  { intros s u. cbn [memo_find]. destruct (Nat.eqb_spec lr s) as [->|]; [now left|discriminate]. }
  pose proof (kept_record h h2 CChan (VRef r) K2 R) as R2.
  destruct (from_other_ok (S (S k)) h2 (VRef r) (defaults CChan)) as (d' & FO & _ & LK).
  { intros n I. apply defaults_settings in I. destruct R2 as (_ & _ & R2). destruct (R2 n I) as (x & X & _). now exists x. }
  exists (VRef (List.length h2)), (h2 ++ [Inst CChan (("operators", VRef (List.length h)) :: d')]). split.
  - unfold copy_of. remember (S (S (S k))) as n3 eqn:En3. cbn [deepcopy memo_find]. rewrite E. rewrite En3 at 1. cbn [copier]. rewrite E. cbn [bind].
    unfold construct_from. rewrite En3 at 1. rewrite (getattr_own _ h (VRef r) _ _ O). cbn [bind].
    assert (DC : deepcopy n3 h [] (VRef lr) = Ok (VRef (List.length h), h2, memo2)).
    { rewrite En3. remember (S (S k)) as n2 eqn:En2. cbn [deepcopy memo_find]. rewrite LA, CE. reflexivity. }
    rewrite DC. cbn [bind]. rewrite FO. reflexivity.
  - apply FIN.
    + apply (kept_trans h h2); [exact K2|apply kept_new].
    + exists (List.length h2), (("operators", VRef (List.length h)) :: d'). split; [reflexivity|]. split; [exact (proj1 K2)|]. split; [apply nth_new|].
      intros n NO. cbn [look]. destruct (String.eqb_spec "operators" n) as [<-|_]; [now destruct (NO eq_refl)|]. rewrite LK.
      rewrite (kept_own h h2 (VRef r) CChan n K2 (proj1 R)). apply in_dec_iff, defaults_settings.
    + intros _. exists (VRef lr), (List.length h), os, ws. split; [exact O|]. split; [rewrite (own_look _ _ CChan _ _ (nth_new h2 _)); reflexivity|].
      split; [now exists lr|]. split; [apply (kept_nth h2); [apply kept_new|exact Y2]|]. split; [lia|]. split; [exact F|].
      clear - F2. induction F2; constructor; [apply (copied_kept h h2); [apply kept_new|assumption]|assumption].
Qed.
Print Assumptions C88_copy.

(** ** Later assignments *)
Lemma copy_each_kept f y h0 : (forall h memo v w h' memo', f h memo v = Ok (w, h', memo') -> kept h h') -> (List.length h0 <= y)%nat ->
  forall l h memo h' memo', kept h0 h -> copy_each f y h memo l = Ok (h', memo') -> kept h0 h'.
Proof.
  intros F Y. induction l as [|x l IH]; intros h memo h' memo' K E; cbn [copy_each] in E; [injection E as <- _; exact K|].
  destruct (f h memo x) as [[[v h1] memo1]|e] eqn:G; [|discriminate]. cbn [bind] in E. apply F in G.
  destruct (nth_error h1 y) as [[c d|vs]|]; try discriminate. apply IH in E; [exact E|].
  apply kept_set; [now apply (kept_trans h0 h)|exact Y].
Qed.
Lemma construct_from_kept copy limit h c v w h' : (forall h x y h', copy h x = Ok (y, h') -> kept h h') ->
  construct_from copy limit h c v = Ok (w, h') -> kept h h'.
Proof.
  intros C E. unfold construct_from in E.
  assert (G : forall d, bind (from_other limit h v (defaults c)) (fun d => Ok (new h (Inst c d))) = Ok (w, h') -> d = tt -> kept h h').
  { intros _ Q _. destruct (from_other limit h v (defaults c)); [|discriminate]. cbn in Q. injection Q as _ <-. apply kept_new. }
  destruct c; try (exact (G tt E eq_refl)). clear G.
  destruct (getattr limit h v "operators") as [x|]; [|discriminate]. cbn [bind] in E. destruct (copy h x) as [[y h1]|] eqn:Q; [|discriminate].
  cbn [bind] in E. apply C in Q. destruct (from_other limit h1 v (defaults CChan)); [|discriminate]. cbn [bind] in E. injection E as _ <-.
  apply (kept_trans h h1); [exact Q|apply kept_new].
Qed.
Lemma deepcopy_kept : forall limit h memo v w h' memo', deepcopy limit h memo v = Ok (w, h', memo') -> kept h h'.
Proof.
  induction limit as [|k IH]; intros h memo v w h' memo' E; [discriminate|]. cbn [deepcopy] in E.
  destruct v as [n|b|s|v|o|r]; try (injection E as _ <- _; apply kept_refl).
  destruct (memo_find memo r); [injection E as _ <- _; apply kept_refl|].
  destruct (nth_error h r) as [[c d|l]|]; [| |discriminate].
  - destruct (copier k h r) as [[c' q]|]; [|discriminate]. cbn [bind] in E.
    match type of E with bind ?X _ = _ => destruct X as [[y h1]|] eqn:Q; [|discriminate] end. cbn [bind] in E. injection E as _ <- _.
    refine (construct_from_kept _ _ _ _ _ _ _ _ Q). intros h2 x y2 h3 G. destruct (deepcopy k h2 [] x) as [[[a b] m]|] eqn:Z; [|discriminate].
    cbn in G. injection G as <- <-. now apply IH in Z.
  - match type of E with bind ?X _ = _ => destruct X as [[h1 memo1]|] eqn:Q; [|discriminate] end. cbn [bind] in E. injection E as _ <- _.
    refine (copy_each_kept (deepcopy k) (List.length h) h IH (le_n _) l _ _ _ _ (kept_new _ _) Q).
Qed.
Lemma copy_of_kept limit h v w h' : copy_of limit h v = Ok (w, h') -> kept h h'.
Proof.
  unfold copy_of. destruct (deepcopy limit h [] v) as [[[a b] m]|] eqn:E; [|discriminate]. cbn. intros [= <- <-]. now apply deepcopy_kept in E.
Qed.
Lemma new_ops_kept : forall n h, kept h (snd (new_ops n h)).
Proof.
  induction n as [|n IH]; intros h; [apply kept_refl|]. cbn [new_ops]. unfold new_op, new.
  destruct (new_ops n (h ++ [Inst COp (defaults COp)])) as [os h1] eqn:E. cbn [snd]. apply (kept_trans h (h ++ [Inst COp (defaults COp)])); [apply kept_new|].
  replace h1 with (snd (new_ops n (h ++ [Inst COp (defaults COp)]))) by now rewrite E. apply IH.
Qed.
Lemma construct_default_kept h c : kept h (snd (construct_default h c)).
Proof.
  destruct c; try apply kept_new. cbn [construct_default]. pose proof (new_ops_kept 4 h) as K. destruct (new_ops 4 h) as [os h1]. cbn [snd] in K.
  unfold new. cbn [snd]. apply (kept_trans h h1 _ K). apply (kept_trans h1 (h1 ++ [Lst os])); apply kept_new.
Qed.
Lemma construct_kept limit h c o w h' : construct limit h c o = Ok (w, h') -> kept h h'.
Proof.
  unfold construct. pose proof (construct_default_kept h c) as K.
  assert (D : Ok (construct_default h c) = Ok (w, h') -> kept h h') by (intros [= E]; now rewrite E in K).
  destruct o as [v|]; [|exact D]. destruct (truth h v); [|exact D]. apply construct_from_kept. intros h1 x y h2. apply copy_of_kept.
Qed.
Lemma step_others limit h c h' : step limit h c = Ok h' ->
  (List.length h <= List.length h')%nat /\ forall i, (i < List.length h)%nat -> ~ changes c i -> nth_error h' i = nth_error h i.
Proof.
  assert (KK : forall h', kept h h' -> (List.length h <= List.length h')%nat /\ forall i, (i < List.length h)%nat -> ~ changes c i -> nth_error h' i = nth_error h i).
  { intros h1 [A B]. split; [exact A|]. intros i I _. now apply B. }
  assert (SS : forall r o, changes c r -> (List.length h <= List.length (set_nth r o h))%nat /\ forall i, (i < List.length h)%nat -> ~ changes c i -> nth_error (set_nth r o h) i = nth_error h i).
  { intros r o C. rewrite set_nth_length. split; [lia|]. intros i _ N. apply set_nth_other. intros ->. contradiction. }
  intros E. destruct c as [c o|id b c o|l|v|v n x|v i x|v x]; cbn [step] in E.
  - destruct c; try (destruct (construct limit h _ o) as [[w h1]|] eqn:Q; [|discriminate]; cbn in E; injection E as <-; apply KK; now apply construct_kept in Q).
    destruct o; [|discriminate]. injection E as <-. apply KK, kept_new.
  - injection E as <-. apply KK, kept_new.
  - injection E as <-. apply KK, kept_new.
  - destruct (copy_of limit h v) as [[w h1]|] eqn:Q; [|discriminate]. cbn in E. injection E as <-. apply KK. now apply copy_of_kept in Q.
  - destruct v as [| | | | |r]; try discriminate. destruct (nth_error h r) as [[c d|l]|]; try discriminate. injection E as <-. now apply SS.
  - destruct v as [| | | | |r]; try discriminate. destruct (nth_error h r) as [[c d|l]|]; try discriminate. destruct (py_set l i x); [|discriminate]. cbn in E. injection E as <-. now apply SS.
  - destruct v as [| | | | |r]; try discriminate. destruct (nth_error h r) as [[c d|l]|]; try discriminate. injection E as <-. now apply SS.
Qed.
Lemma run_client_cons limit h c l : run_client limit h (c :: l) = run_client limit (match step limit h c with Ok h' => h' | Err _ => h end) l.
Proof. reflexivity. Qed.
Lemma run_client_others limit r : forall l h, (r < List.length h)%nat -> (forall c, In c l -> ~ changes c r) ->
  nth_error (run_client limit h l) r = nth_error h r.
Proof.
  induction l as [|c l IH]; intros h R N; [reflexivity|]. rewrite run_client_cons. destruct (step limit h c) as [h1|] eqn:E.
  - apply step_others in E. destruct E as [A B]. rewrite IH; [|lia|intros c' I; apply N; now right]. apply B; [exact R|]. apply N. now left.
  - apply IH; [exact R|]. intros c' I. apply N. now right.
Qed.

Lemma owns_lt h c v r : tidy h c v -> owns h v r -> exists o, nth_error h r = Some o.
Proof.
  intros [R T] W. inversion W as [r' E|r' C O|l os r' C O L I]; subst.
  - destruct (record_own h c _ R) as (q & d & [= <-] & E & _). now exists (Inst c d).
  - assert (c = CChan) by (destruct R as [R _]; congruence). subst c. destruct (T eq_refl) as (l & os & O' & (q & -> & L) & _). assert (q = r) by congruence. subst. now exists (Lst os).
  - assert (c = CChan) by (destruct R as [R _]; congruence). subst c. destruct (T eq_refl) as (l' & os' & O' & L' & F). assert (l' = l) by congruence. subst l'.
    assert (os' = os) by now apply (list_at_fun h l). subst os'. rewrite Forall_forall in F. destruct (record_own h COp _ (F _ I)) as (q & d & [= <-] & E & _). now exists (Inst COp d).
Qed.
Lemma owns_content h h2 c v : tidy h c v -> (forall r, owns h v r -> nth_error h2 r = nth_error h r) ->
  tidy h2 c v /\ (forall n, own h2 v n = own h v n) /\ (forall r, owns h2 v r <-> owns h v r).
Proof.
  intros [R T] S. destruct (record_own h c v R) as (r & d & -> & E & _).
  assert (OW : forall n, own h2 (VRef r) n = own h (VRef r) n) by (intros n; cbn [own]; now rewrite (S r (owns_self h _ r eq_refl))).
  assert (CL : class_of h2 (VRef r) = class_of h (VRef r)) by (cbn [class_of]; now rewrite (S r (owns_self h _ r eq_refl))).
  assert (LI : forall l os, class_of h (VRef r) = Some CChan -> own h (VRef r) "operators" = Some l -> list_at h l os <-> list_at h2 l os).
  { intros l os C O. unfold list_at. split; intros (q & -> & L); exists q; (split; [reflexivity|]); rewrite <- L; [|symmetry]; apply S; now apply owns_list. }
  split; [|split; [exact OW|]].
  - split.
    + destruct R as (C & N & A). split; [now rewrite CL|]. split; [exact N|]. intros n I. rewrite OW. now apply A.
    + intros ->. destruct (T eq_refl) as (l & os & O & L & F). exists l, os. split; [now rewrite OW|]. split; [apply (LI l os (proj1 R) O); exact L|].
      rewrite Forall_forall in F |- *. intros o I. destruct (record_own h COp o (F o I)) as (q & d' & -> & E' & _).
      assert (Q : nth_error h2 q = nth_error h q) by (apply S; now apply (owns_operator h (VRef r) l os q (proj1 R))).
      destruct (F _ I) as (C & N & A). split; [cbn [class_of] in *; now rewrite Q|]. split; [exact N|]. intros n J. cbn [own]. rewrite Q. now apply A.
  - intros q. split; intros W; inversion W as [r' Q|r' C O|l os r' C O L I]; subst.
    + now apply owns_self.
    + apply owns_list; [now rewrite <- CL|now rewrite <- OW].
    + rewrite CL in C. rewrite OW in O. apply (owns_operator h _ l os); try assumption. now apply (LI l os C O).
    + now apply owns_self.
    + apply owns_list; [now rewrite CL|now rewrite OW].
    + apply (owns_operator h2 _ l os); [now rewrite CL|now rewrite OW|now apply (LI l os C O)|assumption].
Qed.
(** An object keeps its settings, and its operators theirs, whatever a client does to
    other objects. *)
Theorem C88_untouched : forall h c v limit l, tidy h c v ->
  (forall a r, In a l -> changes a r -> ~ owns h v r) ->
  let h2 := run_client limit h l in
  tidy h2 c v
  /\ (forall r, owns h2 v r <-> owns h v r)
  /\ (forall r, owns h v r -> nth_error h2 r = nth_error h r).
Proof.
  intros h c v limit l T N h2. assert (S : forall r, owns h v r -> nth_error h2 r = nth_error h r).
  { intros r W. destruct (owns_lt h c v r T W) as (o & E). apply run_client_others; [now apply (nth_lt h r o)|]. intros a I C. exact (N a r I C W). }
  destruct (owns_content h h2 c v T S) as (A & _ & B). now split; [|split].
Qed.
Print Assumptions C88_untouched.
(** So a copy and its original can be changed independently: they have no object in
    common, and a client that changes objects of one only leaves the other as it is. *)
Theorem C88_apart : forall h c v limit w h', tidy h c v -> (4 <= limit)%nat -> copy_of limit h v = Ok (w, h') ->
  (forall r, owns h' v r -> owns h' w r -> False)
  /\ (forall l, (forall a r, In a l -> changes a r -> owns h' v r) ->
        let h2 := run_client limit h' l in tidy h2 c w /\ forall r, owns h' w r -> nth_error h2 r = nth_error h' r)
  /\ (forall l, (forall a r, In a l -> changes a r -> owns h' w r) ->
        let h2 := run_client limit h' l in tidy h2 c v /\ forall r, owns h v r -> nth_error h2 r = nth_error h r).
Proof.
  intros h c v limit w h' T L E. destruct (C88_copy h c v limit T L) as (w' & h1 & E' & K & Tw & _ & _ & F & _).
  rewrite E in E'. injection E' as <- <-. pose proof (copy_of_kept _ _ _ _ _ E) as KE.
  assert (S : forall r, owns h v r -> nth_error h' r = nth_error h r).
  { intros r W. apply K. destruct (owns_lt h c v r T W) as (o & O). now apply (nth_lt h r o). }
  destruct (owns_content h h' c v T S) as (Tv & _ & O).
  assert (D : forall r, owns h' v r -> owns h' w r -> False).
  { intros r V W. apply F in W. apply O in V. destruct (owns_lt h c v r T V) as (o & Q). apply nth_lt in Q. lia. }
  split; [exact D|]. split.
  - intros l A. destruct (C88_untouched h' c w limit l Tw) as (X & _ & Y); [intros a r I C W; exact (D r (A a r I C) W)|]. now split.
  - intros l A. destruct (C88_untouched h' c v limit l Tv) as (X & _ & Y); [intros a r I C V; exact (D r V (A a r I C))|]. split; [exact X|].
    intros r V. rewrite Y; [now apply S|now apply O].
Qed.
Print Assumptions C88_apart.
(** Copying a Config gives no Config: it is its channel that is copied. *)
Theorem C88_config : forall h g ch limit, class_of h g = Some CConfig -> own h g "_channel" = Some ch -> tidy h CChan ch ->
  (4 <= limit)%nat -> copy_of limit h g = copy_of limit h ch.
Proof.
  intros h g ch limit G O T L. destruct (class_ref h g _ G) as (r & d & -> & E). destruct (record_own h CChan ch (proj1 T)) as (q & d' & -> & E' & _).
  destruct limit as [|[|[|[|k]]]]; try lia. unfold copy_of. remember (S (S (S k))) as n eqn:En. cbn [deepcopy memo_find]. rewrite E, E'.
  assert (C1 : copier n h r = Ok (CChan, q)).
  { rewrite En. cbn [copier]. rewrite E. rewrite (own_look h r CConfig d _ E) in O. rewrite O, E'. reflexivity. }
  assert (C2 : copier n h q = Ok (CChan, q)) by (rewrite En; cbn [copier]; now rewrite E').
  rewrite C1, C2. cbn [bind]. destruct (construct_from _ _ _ _ _) as [[y h1]|]; reflexivity.
Qed.
Print Assumptions C88_config.

(** ** Config objects *)
Lemma step_class limit h c h' i cl d : step limit h c = Ok h' -> nth_error h i = Some (Inst cl d) -> exists d', nth_error h' i = Some (Inst cl d').
Proof.
  intros E N. assert (L := nth_lt _ _ _ N). assert (D : (exists n x, c = SetAttr (VRef i) n x) \/ ~ (exists n x, c = SetAttr (VRef i) n x)).
  { destruct c as [c o|id b c o|l|v|v n x|v j x|v x]; try (right; intros (a & b' & Q); discriminate). destruct v as [?|?|?|?|?|r]; try (right; intros (na & nb & Q); congruence).
    destruct (Nat.eq_dec r i) as [->|M]; [left; now exists n, x|right; intros (na & nb & Q); congruence]. }
  destruct D as [(n & x & ->)|ND].
  - cbn [step] in E. rewrite N in E. injection E as <-. exists (put d n x). now apply set_nth_here.
  - exists d. destruct (step_others _ _ _ _ E) as [_ S]. rewrite S; [exact N|exact L|].
    intros C. destruct c as [c o|id b c o|l|v|v n x|v j x|v x]; cbn [changes] in C; try contradiction; subst v.
    + apply ND. now exists n, x.
    + cbn [step] in E. rewrite N in E. discriminate.
    + cbn [step] in E. rewrite N in E. discriminate.
Qed.
Lemma run_class limit i cl : forall l h d, nth_error h i = Some (Inst cl d) -> exists d', nth_error (run_client limit h l) i = Some (Inst cl d').
Proof.
  induction l as [|c l IH]; intros h d N; [now exists d|]. rewrite run_client_cons. destruct (step limit h c) as [h1|] eqn:E; [|now apply (IH h d)].
  destruct (step_class _ _ _ _ _ _ _ E N) as (d' & N'). now apply (IH h1 d').
Qed.
Lemma look_put d n x m : look (put d n x) m = if String.eqb n m then Some x else look d m.
Proof.
  induction d as [|[k v] d IH]; cbn [put look]; [reflexivity|]. destruct (String.eqb_spec k n) as [->|N]; cbn [look].
  - destruct (String.eqb n m); reflexivity.
  - rewrite IH. destruct (String.eqb_spec k m) as [->|]; [|reflexivity]. destruct (String.eqb_spec n m) as [->|]; [contradiction|reflexivity].
Qed.

(** Config objects made without a base (or without a channel) share one, for the whole
    life of the process: what is assigned through one of them shows in all of them, and in
    those made later. *)
Definition channel_name (n : string) : Prop := n = "operators" \/ In n (settings CChan).
Theorem C89_shared : forall limit l id1 id2 b1 b2 c1 c2 o1 o2 n x, (2 <= limit)%nat ->
  let h := run_client limit boot l in
  (In n (settings CBase) /\ b1 = None /\ b2 = None \/ channel_name n /\ c1 = None /\ c2 = None) ->
  let (g1, h1) := new_config h id1 b1 c1 o1 in
  let (g2, h2) := new_config h1 id2 b2 c2 o2 in
  exists part h3, getattr limit h2 g1 (if in_dec string_dec n (settings CBase) then "_base" else "_channel") = Ok part
    /\ step limit h2 (SetAttr part n x) = Ok h3
    /\ getattr limit h3 g1 n = Ok x /\ getattr limit h3 g2 n = Ok x
    /\ (forall id3 o3, let (g3, h4) := new_config h3 id3 None None o3 in getattr limit h4 g3 n = Ok x).
Proof.
  intros limit l id1 id2 b1 b2 c1 c2 o1 o2 n x L h C. unfold new_config, new. cbn [fst snd].
  destruct limit as [|[|k]]; try lia.
  destruct (run_class (S (S k)) 0 CBase l boot (defaults CBase) eq_refl) as (db & DB).
  destruct (run_class (S (S k)) 6 CChan l boot (("operators", VRef 5) :: defaults CChan) eq_refl) as (dc & DC). fold h in DB, DC.
  set (G1 := Inst CConfig _). set (G2 := Inst CConfig _). set (h2 := (h ++ [G1]) ++ [G2]).
  assert (K : kept h h2) by (apply (kept_trans h (h ++ [G1])); apply kept_new).
  assert (N1 : nth_error h2 (List.length h) = Some G1) by (apply (kept_nth (h ++ [G1])); [apply kept_new|apply nth_new]).
  assert (N2 : nth_error h2 (List.length (h ++ [G1])) = Some G2) by apply nth_new.
  assert (D : exists p cl d, (p < List.length h)%nat /\ nth_error h2 p = Some (Inst cl d) /\ cl <> CConfig
      /\ (In n (settings CBase) /\ p = 0%nat /\ b1 = None /\ b2 = None \/ channel_name n /\ p = 6%nat /\ c1 = None /\ c2 = None)).
  { destruct C as [(I & B)|(I & B)]; [exists 0%nat, CBase, db|exists 6%nat, CChan, dc]; (split; [now apply nth_lt in DB, DC|]);
      (split; [now apply (kept_nth h)|]); (split; [discriminate|]); [left|right]; now split. }
  destruct D as (p & cl & d & LP & NP & NC & CC).
  assert (LN : (List.length h < List.length h2)%nat /\ (List.length (h ++ [G1]) < List.length h2)%nat) by (split; [now apply nth_lt in N1|now apply nth_lt in N2]).
  set (h3 := set_nth p (Inst cl (put d n x)) h2).
  assert (P3 : nth_error h3 p = Some (Inst cl (put d n x))) by (apply set_nth_here; now apply nth_lt in NP).
  assert (GP : forall q, getattr (S q) h3 (VRef p) n = Ok x).
  { intros q. cbn [getattr]. rewrite P3, look_put, String.eqb_refl. destruct cl; reflexivity. }
  assert (GG : forall hh g id bb oo ch, nth_error hh g = Some (Inst CConfig [("_id", id); ("_base", bb); ("_operators", oo); ("_channel", ch)]) ->
     (forall q, getattr (S q) hh (VRef p) n = Ok x) ->
     (In n (settings CBase) /\ bb = VRef p \/ channel_name n /\ ch = VRef p) -> getattr (S (S k)) hh (VRef g) n = Ok x).
  { intros hh g id bb oo ch N Q [[I ->]|[I ->]].
    - cbn [settings] in I. remember (S k) as k1 eqn:Ek. cbn [getattr]. rewrite N. destruct I as [<-|[<-|[<-|[<-|[]]]]]; cbn -[getattr];
        (rewrite Ek at 1; rewrite (getattr_own k hh (VRef g) "_base" (VRef p)) by (cbn [own]; rewrite N; reflexivity)); cbn [bind]; rewrite Ek; apply Q.
    - unfold channel_name in I. cbn [settings] in I. remember (S k) as k1 eqn:Ek. cbn [getattr]. rewrite N.
      destruct I as [->|[<-|[<-|[<-|[<-|[<-|[<-|[]]]]]]]]; cbn -[getattr];
        (rewrite Ek at 1; rewrite (getattr_own k hh (VRef g) "_channel" (VRef p)) by (cbn [own]; rewrite N; reflexivity)); cbn [bind]; rewrite Ek; apply Q. }
  assert (SP : nth_error h3 (List.length h) = Some G1 /\ nth_error h3 (List.length (h ++ [G1])) = Some G2).
  { unfold h3. rewrite !set_nth_other; [now split|rewrite app_length; cbn; lia|lia]. }
  assert (WB : default_base = VRef 0 /\ default_channel = VRef 6) by (split; reflexivity). destruct WB as [WB WC].
  exists (VRef p), h3. split; [|split; [|split; [|split]]].
  - destruct CC as [(I & -> & -> & ->)|(I & -> & -> & ->)].
    + destruct (in_dec string_dec n (settings CBase)); [|contradiction]. apply getattr_own. cbn [own]. rewrite N1. reflexivity.
    + destruct (in_dec string_dec n (settings CBase)) as [J|J].
      * exfalso. unfold channel_name in I. cbn [settings In] in I, J. decompose [or] I; decompose [or] J; subst; try discriminate; contradiction.
      * apply getattr_own. cbn [own]. rewrite N1. reflexivity.
  - cbn [step]. rewrite NP. reflexivity.
  - refine (GG h3 _ _ _ _ _ (proj1 SP) GP _). destruct CC as [(I & -> & -> & _)|(I & -> & -> & _)]; [left|right]; now split.
  - refine (GG h3 _ _ _ _ _ (proj2 SP) GP _). destruct CC as [(I & -> & _ & ->)|(I & -> & _ & ->)]; [left|right]; now split.
  - intros id3 o3. apply (GG (h3 ++ [_]) _ _ _ _ _ (nth_new _ _)).
    + intros q. cbn [getattr]. rewrite (kept_nth h3 _ p _ (kept_new _ _) P3), look_put, String.eqb_refl. destruct cl; reflexivity.
    + cbn [or_default]. destruct CC as [(I & -> & _)|(I & -> & _)]; [left|right]; now split.
Qed.
Print Assumptions C89_shared.

Definition parts : list string := ["_id"; "_base"; "_operators"; "_channel"].
Lemma each_ext {A B} (f g : A -> res B) l : (forall x, f x = g x) -> each f l = each g l.
Proof. intros E. induction l as [|x l IH]; [reflexivity|]. cbn [each]. now rewrite E, IH. Qed.
Lemma rename_same k h h' v l : (forall m, In m (map snd l) -> getattr k h' v m = getattr k h v m) -> rename k h' v l = rename k h v l.
Proof.
  induction l as [|[a m] l IH]; intros S; [reflexivity|]. cbn [rename]. rewrite S by (now left). rewrite IH; [reflexivity|].
  intros p I. apply S. now right.
Qed.
Section Shadow.
  Variables (h : mem) (r : nat) (d : list (string * val)) (n : string) (x : val).
  Hypothesis R : nth_error h r = Some (Inst CConfig d).
  Hypothesis NN : ~ In n parts.
  Let h' := set_nth r (Inst CConfig (put d n x)) h.
  Lemma sh_other q : q <> r -> nth_error h' q = nth_error h q.
  Proof. apply set_nth_other. Qed.
  Lemma sh_here : nth_error h' r = Some (Inst CConfig (put d n x)).
  Proof. apply set_nth_here. now apply nth_lt in R. Qed.
  Lemma sh_getattr : forall k v m, In m parts \/ class_of h v <> Some CConfig -> getattr k h' v m = getattr k h v m.
  Proof.
    induction k as [|k IH]; intros v m C; [reflexivity|]. destruct v as [?|?|?|?|?|q]; try reflexivity. cbn [getattr].
    assert (P : In m parts -> match m with "lfo" | "phs_md" | "amp_md" | "waveform" | "enabled_operators" => False | _ => True end).
    { intros I. destruct I as [<-|[<-|[<-|[<-|[]]]]]; exact Logic.I. }
    assert (E : In m parts ->
       (if String.eqb m "lfo" || String.eqb m "phs_md" || String.eqb m "amp_md" || String.eqb m "waveform"
        then let! b := getattr k h' (VRef q) "_base" in getattr k h' b m
        else if String.eqb m "enabled_operators" then getattr k h' (VRef q) "_operators"
        else let! c := getattr k h' (VRef q) "_channel" in getattr k h' c m)
       = (if String.eqb m "lfo" || String.eqb m "phs_md" || String.eqb m "amp_md" || String.eqb m "waveform"
        then let! b := getattr k h (VRef q) "_base" in getattr k h b m
        else if String.eqb m "enabled_operators" then getattr k h (VRef q) "_operators"
        else let! c := getattr k h (VRef q) "_channel" in getattr k h c m)).
    { intros I. assert (I' := I). destruct I as [<-|[<-|[<-|[<-|[]]]]]; cbn -[getattr];
        (rewrite IH by (left; right; right; right; now left)); (destruct (getattr k h (VRef q) "_channel") as [c|]; [|reflexivity]); cbn [bind]; apply IH; now left. }
    destruct (Nat.eq_dec q r) as [->|N].
    - rewrite sh_here, R. destruct C as [I|C]; [|cbn in C; rewrite R in C; now destruct C]. rewrite look_put.
      destruct (String.eqb_spec n m) as [->|_]; [contradiction|]. destruct (look d m); [reflexivity|]. now apply E.
    - rewrite sh_other by assumption. destruct (nth_error h q) as [[c e|l]|] eqn:Q; try reflexivity.
      destruct c; try reflexivity. destruct (look e m); [reflexivity|]. destruct C as [I|C]; [now apply E|cbn in C; rewrite Q in C; now destruct C].
  Qed.
  Lemma sh_repr k q c e : nth_error h q = Some (Inst c e) -> c <> CConfig -> repr_json k h' (VRef q) c e = repr_json k h (VRef q) c e.
  Proof.
    intros Q NC. assert (N : q <> r) by (intros ->; congruence).
    assert (G : forall m, getattr k h' (VRef q) m = getattr k h (VRef q) m).
    { intros m. apply sh_getattr. right. cbn. rewrite Q. congruence. }
    assert (SS : forall v i, subscript h' v i = subscript h v i).
    { intros v i. destruct v as [?|?|?|?|?|p]; try reflexivity. cbn [subscript]. destruct (Nat.eq_dec p r) as [->|M]; [now rewrite sh_here, R|now rewrite sh_other]. }
    assert (SL : forall l, slots k h' (VRef q) l = slots k h (VRef q) l).
    { induction l as [|[a i] l IH]; [reflexivity|]. cbn [slots]. rewrite G, IH. destruct (getattr k h (VRef q) "operators"); [cbn [bind]; now rewrite SS|reflexivity]. }
    destruct c; cbn [repr_json]; try (apply rename_same; intros m _; apply G); [reflexivity|].
    rewrite SL. rewrite (rename_same k h h') by (intros m _; apply G). reflexivity.
  Qed.
  Lemma sh_encode : forall k op v, encode k h' op v = encode k h op v.
  Proof.
    induction k as [|k IH]; intros op v; [reflexivity|]. destruct v as [?|?|?|?|?|q]; try reflexivity. cbn [encode].
    destruct (existsb (Nat.eqb q) op); [reflexivity|].
    assert (EE : forall es : list (string * val), each (fun kv => let! j := encode k h' (q :: op) (snd kv) in Ok (fst kv, j)) es = each (fun kv => let! j := encode k h (q :: op) (snd kv) in Ok (fst kv, j)) es).
    { intros es. apply each_ext. intros kv. now rewrite IH. }
    destruct (Nat.eq_dec q r) as [->|N].
    - rewrite sh_here, R. cbn [repr_json]. rewrite (rename_same k h h') by (intros m I; apply sh_getattr; left; exact I).
      destruct (rename k h (VRef r) config_keys); [|reflexivity]. cbn [bind]. now rewrite EE.
    - rewrite sh_other by assumption. destruct (nth_error h q) as [[c e|l]|] eqn:Q; [| |reflexivity].
      + assert (D : c = CConfig \/ c <> CConfig) by (destruct c; (now left) || (right; congruence)). destruct D as [->|NC].
        * cbn [repr_json]. rewrite (rename_same k h h') by (intros m I; apply sh_getattr; left; exact I).
          destruct (rename k h (VRef q) config_keys); [|reflexivity]. cbn [bind]. now rewrite EE.
        * rewrite sh_repr by assumption. destruct (repr_json k h (VRef q) c e); [|reflexivity]. cbn [bind]. now rewrite EE.
      + rewrite (each_ext _ (encode k h (q :: op)) l (IH (q :: op))). reflexivity.
  Qed.
  Lemma sh_equal : forall k a b, equal k h' a b = equal k h a b.
  Proof.
    induction k as [|k IH]; intros a b; [reflexivity|]. destruct a as [?|?|?|?|?|p], b as [?|?|?|?|?|q]; try reflexivity. cbn [equal].
    assert (IE : forall l l', items_equal (equal k h') l l' = items_equal (equal k h) l l').
    { induction l as [|u l IL]; intros [|w l']; try reflexivity. cbn [items_equal]. rewrite IH. destruct (if same_object u w then _ else _) as [[|]|]; try reflexivity. apply IL. }
    assert (AE : forall e e' ns, all_equal (equal k h') e e' ns = all_equal (equal k h) e e' ns).
    { intros e e'. induction ns as [|m ns IL]; [reflexivity|]. cbn [all_equal]. destruct (look e m); [|reflexivity]. destruct (look e' m); [|reflexivity].
      rewrite IH. destruct (equal k h v v0) as [[|]|]; try reflexivity. exact IL. }
    assert (CL : forall q, (q = r /\ nth_error h' q = Some (Inst CConfig (put d n x)) /\ nth_error h q = Some (Inst CConfig d)) \/ nth_error h' q = nth_error h q).
    { intros s. destruct (Nat.eq_dec s r) as [->|N]; [left; split; [reflexivity|split; [exact sh_here|exact R]]|right; now apply sh_other]. }
    assert (CC : forall c, cls_eqb c CConfig && negb (cls_eqb c CConfig) = false /\ cls_eqb CConfig c && negb (cls_eqb CConfig CConfig) = false) by (intros []; split; reflexivity).
    destruct (CL p) as [(-> & P1 & P2)|P], (CL q) as [(-> & Q1 & Q2)|Q].
    - rewrite P1, P2. reflexivity.
    - rewrite P1, P2, Q. destruct (nth_error h q) as [[c e|l]|]; try reflexivity; now rewrite !(proj2 (CC c)).
    - rewrite P, Q1, Q2. destruct (nth_error h p) as [[c e|l]|]; try reflexivity; now rewrite !(proj1 (CC c)).
    - rewrite P, Q. destruct (nth_error h p) as [[c e|l]|], (nth_error h q) as [[c' e'|l']|]; try reflexivity.
      + now rewrite AE.
      + now rewrite IE.
  Qed.
End Shadow.
(** Assigning a setting on a Config (config.lfo = x) hides the one it would forward to
    and changes nothing else: no JSON, no comparison. *)
Theorem C89_shadow : forall limit h g n x, class_of h g = Some CConfig -> ~ In n ["_id"; "_base"; "_operators"; "_channel"] ->
  exists h', step limit h (SetAttr g n x) = Ok h'
  /\ (forall k, (1 <= k)%nat -> getattr k h' g n = Ok x)
  /\ (forall k op v, encode k h' op v = encode k h op v)
  /\ (forall k a b, equal k h' a b = equal k h a b)
  /\ (forall k c b ch o, compare k h' c b ch o = compare k h c b ch o).
Proof.
  intros limit h g n x C N. destruct (class_ref h g _ C) as (r & d & -> & E). exists (set_nth r (Inst CConfig (put d n x)) h).
  split; [cbn [step]; now rewrite E|]. split; [|split; [now apply sh_encode|split; [now apply sh_equal|]]].
  - intros [|k] K; [lia|]. apply getattr_own. rewrite (own_look _ r CConfig (put d n x) n) by (apply set_nth_here; now apply nth_lt in E).
    now rewrite look_put, String.eqb_refl.
  - intros k c b ch o. unfold compare. rewrite !(sh_getattr h r d n x E N) by (left; cbn; tauto).
    destruct (getattr k h c "_base") as [y|]; [|reflexivity]. cbn [bind]. rewrite (sh_equal h r d n x E). destruct (equal k h y b) as [[|]|]; try reflexivity. cbn [bind].
    destruct (getattr k h c "_channel") as [z|]; [|reflexivity]. cbn [bind]. rewrite (sh_equal h r d n x E). destruct (equal k h z ch) as [[|]|]; try reflexivity. cbn [bind].
    destruct (getattr k h c "_operators") as [w|]; [|reflexivity]. cbn [bind]. now apply sh_equal.
Qed.
Print Assumptions C89_shadow.

(** A Config made without operators has the number 0, which is no set of operators: it
    compares as different from every set, and its JSON says 0 and not "". *)
Theorem C89_no_operators : forall limit h id b c, let (g, h') := new_config h id b c None in
  (forall base channel o, compare limit h' g base channel (VFlag o) <> Ok true)
  /\ (forall op j, encode limit h' op g = Ok j -> member "operators" j = Some (JInt 0)).
Proof.
  intros limit h id b c. unfold new_config, new. cbn [or_default]. set (G := Inst CConfig _). pose proof (nth_new h G) as N.
  set (h' := h ++ [G]) in *. set (g := List.length h) in *.
  assert (GA : forall k m y, look [("_id", id); ("_base", or_default b default_base); ("_operators", VInt 0); ("_channel", or_default c default_channel)] m = Some y ->
    getattr (S k) h' (VRef g) m = Ok y) by (intros k m y Q; apply getattr_own; now rewrite (own_look h' g CConfig _ m N)).
  split.
  - intros base channel o Q. unfold compare in Q. destruct limit as [|k]; [discriminate|]. rewrite (GA k "_base" _ eq_refl) in Q. cbn [bind] in Q.
    destruct (equal (S k) h' (or_default b default_base) base) as [[|]|]; try discriminate. cbn [bind] in Q.
    rewrite (GA k "_channel" _ eq_refl) in Q. cbn [bind] in Q. destruct (equal (S k) h' (or_default c default_channel) channel) as [[|]|]; try discriminate. cbn [bind] in Q.
    rewrite (GA k "_operators" _ eq_refl) in Q. discriminate.
  - intros op j E. destruct limit as [|[|k]]; [discriminate| |].
    + cbn [encode] in E. destruct (existsb _ op); [discriminate|]. rewrite N in E. discriminate.
    + pose proof (GA k) as GA1. assert (EI : encode (S k) h' (g :: op) (VInt 0) = Ok (JInt 0)) by reflexivity. remember (S k) as k1 eqn:Ek. cbn [encode] in E. destruct (existsb _ op); [discriminate|]. rewrite N in E. unfold G in E. cbn [repr_json] in E.
      unfold config_keys in E. cbn [rename] in E. rewrite (GA1 "_id" _ eq_refl), (GA1 "_base" _ eq_refl), (GA1 "_operators" _ eq_refl), (GA1 "_channel" _ eq_refl) in E.
      cbn [bind each fst snd] in E. destruct (encode k1 h' (g :: op) id) as [j1|]; [|discriminate]. cbn [bind] in E.
      destruct (encode k1 h' (g :: op) (or_default b default_base)) as [j2|]; [|discriminate]. cbn [bind] in E.
      rewrite EI in E. cbn [bind] in E. destruct (encode k1 h' (g :: op) (or_default c default_channel)) as [j3|]; [|discriminate]. cbn [bind] in E.
      injection E as <-. reflexivity.
Qed.
Print Assumptions C89_no_operators.

(** ** JSON *)
Definition whole (h : mem) : Prop :=
  forall r d, nth_error h r = Some (Inst CConfig d) -> forall n, In n parts -> look d n <> None.
Lemma whole_new h o : whole h -> (forall d, o <> Inst CConfig d) -> whole (h ++ [o]).
Proof.
  intros W N r d E. destruct (Nat.lt_ge_cases r (List.length h)) as [L|L].
  - rewrite nth_error_app1 in E by assumption. now apply (W r d).
  - rewrite nth_error_app2 in E by assumption. destruct (r - List.length h)%nat as [|[|m]]; try discriminate. cbn in E. injection E as ->. now destruct (N d).
Qed.
Lemma whole_set h y o : whole h -> (forall d, o = Inst CConfig d -> forall n, In n parts -> look d n <> None) -> whole (set_nth y o h).
Proof.
  intros W N r d E. destruct (Nat.eq_dec r y) as [->|M].
  - assert (L := nth_lt _ _ _ E). rewrite set_nth_length in L. rewrite set_nth_here in E by assumption. injection E as ->. now apply N.
  - rewrite set_nth_other in E by assumption. now apply (W r d).
Qed.
Lemma copy_each_whole f y : (forall h memo v w h' memo', whole h -> f h memo v = Ok (w, h', memo') -> whole h') ->
  forall l h memo h' memo', whole h -> copy_each f y h memo l = Ok (h', memo') -> whole h'.
Proof.
  intros F. induction l as [|x l IH]; intros h memo h' memo' W E; cbn [copy_each] in E; [injection E as <- _; exact W|].
  destruct (f h memo x) as [[[v h1] memo1]|e] eqn:G; [|discriminate]. cbn [bind] in E. apply F in G; [|exact W].
  destruct (nth_error h1 y) as [[c d|vs]|]; try discriminate. apply IH in E; [exact E|]. apply whole_set; [exact G|discriminate].
Qed.
Lemma construct_from_whole copy limit h c v w h' : c <> CConfig -> (forall h x y h', whole h -> copy h x = Ok (y, h') -> whole h') ->
  whole h -> construct_from copy limit h c v = Ok (w, h') -> whole h'.
Proof.
  intros NC C W E. unfold construct_from in E.
  assert (G : bind (from_other limit h v (defaults c)) (fun d => Ok (new h (Inst c d))) = Ok (w, h') -> whole h').
  { intros Q. destruct (from_other limit h v (defaults c)); [|discriminate]. cbn in Q. injection Q as _ <-. apply whole_new; [exact W|congruence]. }
  destruct c; try (exact (G E)). clear G.
  destruct (getattr limit h v "operators") as [x|]; [|discriminate]. cbn [bind] in E. destruct (copy h x) as [[y h1]|] eqn:Q; [|discriminate].
  cbn [bind] in E. apply C in Q; [|exact W]. destruct (from_other limit h1 v (defaults CChan)); [|discriminate]. cbn [bind] in E. injection E as _ <-.
  apply whole_new; [exact Q|discriminate].
Qed.
Lemma copier_class k h : forall r c q, copier k h r = Ok (c, q) -> c <> CConfig.
Proof.
  induction k as [|k IH]; intros r c q E; [discriminate|]. cbn [copier] in E. destruct (nth_error h r) as [[cl d|l]|]; try discriminate.
  destruct cl; try (injection E as <- _; discriminate). destruct (look d "_channel") as [[]|]; try discriminate. now apply IH in E.
Qed.
Lemma deepcopy_whole : forall limit h memo v w h' memo', whole h -> deepcopy limit h memo v = Ok (w, h', memo') -> whole h'.
Proof.
  induction limit as [|k IH]; intros h memo v w h' memo' W E; [discriminate|]. cbn [deepcopy] in E.
  destruct v as [n|b|s|v|o|r]; try (injection E as _ <- _; exact W).
  destruct (memo_find memo r); [injection E as _ <- _; exact W|].
  destruct (nth_error h r) as [[c d|l]|]; [| |discriminate].
  - destruct (copier k h r) as [[c' q]|] eqn:CP; [|discriminate]. cbn [bind] in E. apply copier_class in CP.
    match type of E with bind ?X _ = _ => destruct X as [[y h1]|] eqn:Q; [|discriminate] end. cbn [bind] in E. injection E as _ <- _.
    refine (construct_from_whole _ _ _ _ _ _ _ CP _ W Q). intros h2 x y2 h3 W2 G. destruct (deepcopy k h2 [] x) as [[[a b] m]|] eqn:Z; [|discriminate].
    cbn in G. injection G as <- <-. now apply IH in Z.
  - match type of E with bind ?X _ = _ => destruct X as [[h1 memo1]|] eqn:Q; [|discriminate] end. cbn [bind] in E. injection E as _ <- _.
    refine (copy_each_whole (deepcopy k) (List.length h) IH l _ _ _ _ _ Q). apply whole_new; [exact W|discriminate].
Qed.
Lemma copy_of_whole limit h v w h' : whole h -> copy_of limit h v = Ok (w, h') -> whole h'.
Proof.
  intros W. unfold copy_of. destruct (deepcopy limit h [] v) as [[[a b] m]|] eqn:E; [|discriminate]. cbn. intros [= <- <-]. now apply deepcopy_whole in E.
Qed.
Lemma new_ops_whole : forall n h, whole h -> whole (snd (new_ops n h)).
Proof.
  induction n as [|n IH]; intros h W; [exact W|]. cbn [new_ops]. unfold new_op, new.
  pose proof (IH (h ++ [Inst COp (defaults COp)]) ltac:(apply whole_new; [exact W|discriminate])) as Q.
  destruct (new_ops n (h ++ [Inst COp (defaults COp)])) as [os h1]. exact Q.
Qed.
Lemma construct_default_whole h c : c <> CConfig -> whole h -> whole (snd (construct_default h c)).
Proof.
  intros NC W. destruct c; try contradiction; try (apply whole_new; [exact W|discriminate]). cbn [construct_default].
  pose proof (new_ops_whole 4 h W) as K. destruct (new_ops 4 h) as [os h1]. cbn [snd] in K.
  unfold new. cbn [snd]. apply whole_new; [|discriminate]. apply whole_new; [exact K|discriminate].
Qed.
Lemma config_whole h id b c o : whole h -> whole (snd (new_config h id b c o)).
Proof.
  intros W r d E. unfold new_config, new in E. cbn [snd] in E. destruct (Nat.lt_ge_cases r (List.length h)) as [L|L].
  - rewrite nth_error_app1 in E by assumption. now apply (W r d).
  - rewrite nth_error_app2 in E by assumption. destruct (r - List.length h)%nat as [|[|m]]; try discriminate. cbn in E. injection E as <-.
    intros n [<-|[<-|[<-|[<-|[]]]]]; discriminate.
Qed.
Lemma step_whole limit h c h' : whole h -> step limit h c = Ok h' -> whole h'.
Proof.
  intros W E. destruct c as [c o|id b c o|l|v|v n x|v i x|v x]; cbn [step] in E.
  - assert (G : c <> CConfig -> bind (construct limit h c o) (fun p => let (_, h) := p in Ok h) = Ok h' -> whole h').
    { intros NC Q. destruct (construct limit h c o) as [[w h1]|] eqn:Z; [|discriminate]. cbn in Q. injection Q as <-. unfold construct in Z.
      pose proof (construct_default_whole h c NC W) as K. assert (D : Ok (construct_default h c) = Ok (w, h1) -> whole h1) by (intros [= X]; now rewrite X in K).
      destruct o as [v|]; [|exact (D Z)]. destruct (truth h v); [|exact (D Z)]. refine (construct_from_whole _ _ _ _ _ _ _ NC _ W Z).
      intros h2 x y h3. apply copy_of_whole. }
    destruct c; try (apply G; [discriminate|exact E]). destruct o; [|discriminate]. injection E as <-. exact (config_whole h v None None None W).
  - injection E as <-. exact (config_whole h id b c o W).
  - injection E as <-. apply whole_new; [exact W|discriminate].
  - destruct (copy_of limit h v) as [[w h1]|] eqn:Q; [|discriminate]. cbn in E. injection E as <-. now apply copy_of_whole in Q.
  - destruct v as [| | | | |r]; try discriminate. destruct (nth_error h r) as [[c d|l]|] eqn:N; try discriminate. injection E as <-. apply whole_set; [exact W|].
    intros d' [= -> <-] m I. rewrite look_put. destruct (String.eqb n m); [discriminate|]. now apply (W r d).
  - destruct v as [| | | | |r]; try discriminate. destruct (nth_error h r) as [[c d|l]|]; try discriminate. destruct (py_set l i x); [|discriminate]. cbn in E. injection E as <-. apply whole_set; [exact W|discriminate].
  - destruct v as [| | | | |r]; try discriminate. destruct (nth_error h r) as [[c d|l]|]; try discriminate. injection E as <-. apply whole_set; [exact W|discriminate].
Qed.
Lemma run_whole limit : forall l h, whole h -> whole (run_client limit h l).
Proof.
  induction l as [|c l IH]; intros h W; [exact W|]. rewrite run_client_cons. apply IH. destruct (step limit h c) eqn:E; [now apply step_whole in E|exact W].
Qed.
Lemma boot_whole : whole boot.
Proof. unfold boot. apply construct_default_whole; [discriminate|]. apply construct_default_whole; [discriminate|]. intros [|r] d; discriminate. Qed.

Lemma getattr_record k h r c d n x : nth_error h r = Some (Inst c d) -> c <> CConfig \/ look d n <> None ->
  getattr k h (VRef r) n = Ok x -> own h (VRef r) n = Some x.
Proof.
  intros E C G. destruct k as [|k]; [discriminate|]. cbn [getattr] in G. rewrite E in G. rewrite (own_look h r c d n E).
  destruct (look d n) as [y|]; [destruct c; congruence|]. destruct C as [C|C]; [|congruence]. destruct c; try discriminate. contradiction.
Qed.
Lemma rename_under k h r c d : nth_error h r = Some (Inst c d) -> forall l es,
  (forall n, In n (map snd l) -> c <> CConfig \/ look d n <> None) -> rename k h (VRef r) l = Ok es -> Forall2 (under h (VRef r)) l es.
Proof.
  intros E. induction l as [|[a n] l IH]; intros es A R; cbn [rename] in R; [injection R as <-; constructor|].
  destruct (getattr k h (VRef r) n) as [x|] eqn:G; [|discriminate]. cbn [bind] in R. destruct (rename k h (VRef r) l) as [ds|]; [|discriminate].
  cbn [bind] in R. injection R as <-. constructor; [|apply IH; [intros m I; apply A; now right|reflexivity]].
  split; [reflexivity|]. apply (getattr_record k h r c d n x E); [apply A; now left|exact G].
Qed.
Lemma under_rename k h r : forall l es, Forall2 (under h (VRef r)) l es -> rename (S k) h (VRef r) l = Ok es.
Proof.
  induction 1 as [|[a n] [b x] l es [A B] F IH]; [reflexivity|]. cbn [fst snd] in *. subst b. cbn [rename]. rewrite (getattr_own k h _ n x B). cbn [bind].
  rewrite IH. reflexivity.
Qed.
Lemma four {A} (a b c d : A) l : py_get (a :: b :: c :: d :: l) 0 = Ok a /\ py_get (a :: b :: c :: d :: l) 1 = Ok b
  /\ py_get (a :: b :: c :: d :: l) 2 = Ok c /\ py_get (a :: b :: c :: d :: l) 3 = Ok d.
Proof.
  assert (L : 4 <= len (a :: b :: c :: d :: l)) by (unfold len; cbn [List.length]; lia).
  repeat split; rewrite (py_get_in _ _ a) by lia; reflexivity.
Qed.
Lemma fewer {A} (l : list A) a : py_get l 3 = Ok a -> exists b c d r, l = b :: c :: d :: a :: r.
Proof.
  intros E. destruct l as [|b [|c [|d [|e r]]]]; try discriminate. destruct (four b c d e r) as (_ & _ & _ & F). exists b, c, d, r. congruence.
Qed.
Lemma entries_repr h r c d es k : nth_error h r = Some (Inst c d) -> entries h r es -> repr_json (S k) h (VRef r) c d = Ok es.
Proof.
  intros E N. inversion N as [d' E'|c' es' C NB NC F|es' l m1 m2 c1 c2 rest C F O L]; subst.
  - assert (c = CBase /\ d = es) as [-> ->] by (split; congruence). reflexivity.
  - assert (c' = c) by (cbn in C; rewrite E in C; congruence). subst c'. destruct c; try contradiction; now apply under_rename.
  - assert (c = CChan) by (cbn in C; rewrite E in C; congruence). subst c. cbn [repr_json]. change chan_keys with (keys CChan). rewrite (under_rename k h r _ _ F). cbn [bind slots].
    rewrite (getattr_own k h _ _ _ O). cbn [bind]. destruct L as (lr & -> & L). cbn [subscript]. rewrite L.
    destruct (four m1 m2 c1 c2 rest) as (-> & -> & -> & ->). reflexivity.
Qed.
Lemma repr_entries h r c d es k : whole h -> nth_error h r = Some (Inst c d) -> repr_json k h (VRef r) c d = Ok es -> entries h r es.
Proof.
  intros W E R. assert (D : c <> CConfig -> forall l es, rename k h (VRef r) l = Ok es -> Forall2 (under h (VRef r)) l es).
  { intros NC l es' Q. refine (rename_under k h r c d E l es' _ Q). intros n _. now left. }
  assert (CL : class_of h (VRef r) = Some c) by (cbn; now rewrite E).
  destruct c; cbn [repr_json] in R.
  - injection R as <-. now apply entries_base.
  - apply (entries_keys h r COp); try assumption; try discriminate. apply D; [discriminate|exact R].
  - apply (entries_keys h r CNote); try assumption; try discriminate. apply D; [discriminate|exact R].
  - destruct (rename k h (VRef r) chan_keys) as [a|] eqn:A; [|discriminate]. cbn [bind slots] in R.
    destruct (getattr k h (VRef r) "operators") as [ops|] eqn:O; [|discriminate]. cbn [bind] in R. apply (getattr_record k h r CChan d _ _ E) in O; [|left; discriminate].
    destruct ops as [| | | | |lr]; try discriminate. cbn [subscript] in R. destruct (nth_error h lr) as [[|l]|] eqn:L; try discriminate.
    destruct (py_get l 0) as [x0|] eqn:P0; [|discriminate]. cbn [bind] in R. destruct (py_get l 2) as [x2|] eqn:P2; [|discriminate]. cbn [bind] in R.
    destruct (py_get l 1) as [x1|] eqn:P1; [|discriminate]. cbn [bind] in R. destruct (py_get l 3) as [x3|] eqn:P3; [|discriminate]. cbn [bind] in R.
    destruct (fewer l x3 P3) as (y0 & y1 & y2 & rest & ->). destruct (four y0 y1 y2 x3 rest) as (Q0 & Q1 & Q2 & _).
    assert (x0 = y0) by congruence. assert (x1 = y1) by congruence. assert (x2 = y2) by congruence. subst. injection R as <-.
    apply (entries_channel h r a (VRef lr) y0 y1 y2 x3 rest); [exact CL|apply D; [discriminate|exact A]|exact O|now exists lr].
  - apply (entries_keys h r CConfig); try assumption; try discriminate. refine (rename_under k h r CConfig d E _ es _ R). intros n I. right. now apply (W r d E).
Qed.

Lemma each_F2 {A B} (f : A -> res B) : forall l ys, each f l = Ok ys -> Forall2 (fun x y => f x = Ok y) l ys.
Proof.
  induction l as [|x l IH]; intros ys E; cbn [each] in E; [injection E as <-; constructor|]. destruct (f x) as [y|] eqn:F; [|discriminate]. cbn [bind] in E.
  destruct (each f l) as [zs|]; [|discriminate]. cbn [bind] in E. injection E as <-. constructor; [exact F|now apply IH].
Qed.
Lemma F2_each {A B} (f : A -> res B) l ys : Forall2 (fun x y => f x = Ok y) l ys -> each f l = Ok ys.
Proof. induction 1 as [|x y l ys E F IH]; [reflexivity|]. cbn [each]. now rewrite E, IH. Qed.
Lemma bit_true o k : 0 <= k -> op_true (Z.land o (2 ^ k)) = Z.testbit o k.
Proof.
  intros K. unfold op_true. destruct (Z.testbit o k) eqn:T.
  - apply negb_true_iff, Z.eqb_neq. intros Z0. assert (Q : Z.testbit (Z.land o (2 ^ k)) k = false) by (rewrite Z0; apply Z.bits_0).
    rewrite Z.land_spec, T, Z.pow2_bits_true in Q by assumption. discriminate.
  - apply negb_false_iff, Z.eqb_eq. apply Z.bits_inj'. intros n N. rewrite Z.land_spec, Z.bits_0, Z.pow2_bits_eqb by assumption.
    destruct (Z.eqb_spec k n) as [<-|]; [now rewrite T|apply andb_false_r].
Qed.
Lemma flag_name o : operators_json o = JStr (operators_name o).
Proof.
  unfold operators_json, operators_name. change MOD1 with (2 ^ 0). change CAR1 with (2 ^ 1). change MOD2 with (2 ^ 2). change CAR2 with (2 ^ 3).
  rewrite !bit_true by lia. cbn [map filter fst]. destruct (Z.testbit o 0), (Z.testbit o 1), (Z.testbit o 2), (Z.testbit o 3); reflexivity.
Qed.
Lemma wave_name w : waveform_json w = JStr (waveform_name w).
Proof. destruct w; reflexivity. Qed.

Lemma encode_written h : whole h -> forall k op v j, encode k h op v = Ok j -> written h v j.
Proof.
  intros W. induction k as [|k IH]; intros op v j E; [discriminate|]. cbn [encode] in E.
  destruct v as [n|b|s|w|o|r].
  1, 2, 3: injection E as <-; constructor.
  - rewrite wave_name in E. injection E as <-. constructor.
  - rewrite flag_name in E. injection E as <-. constructor.
  - destruct (existsb (Nat.eqb r) op); [discriminate|]. destruct (nth_error h r) as [[c d|l]|] eqn:N; [| |discriminate].
    + destruct (repr_json k h (VRef r) c d) as [es|] eqn:R; [|discriminate]. cbn [bind] in E.
      match type of E with bind ?X _ = _ => destruct X as [js|] eqn:Q; [|discriminate] end. cbn [bind] in E. injection E as <-.
      apply (written_object h r es js); [now apply (repr_entries h r c d es k)|]. apply each_F2 in Q. clear - Q IH.
      induction Q as [|[a x] [b y] es js X F IL]; constructor; [|exact IL]. cbn [fst snd] in *. destruct (encode k h (r :: op) x) as [z|] eqn:Z; [|discriminate].
      cbn in X. injection X as <- <-. split; [reflexivity|]. now apply IH in Z.
    + destruct (each (encode k h (r :: op)) l) as [js|] eqn:Q; [|discriminate]. cbn [bind] in E. injection E as <-.
      apply (written_list h r l js N). apply each_F2 in Q. clear - Q IH. induction Q; constructor; [now apply (IH (r :: op))|assumption].
Qed.
(** Whatever a client has done, what json.dumps writes shows the object. *)
Theorem C90_written : forall limit l k v j, let h := run_client limit boot l in
  encode k h [] v = Ok j -> written h v j.
Proof. intros limit l k v j h E. refine (encode_written h _ k [] v j E). apply run_whole, boot_whole. Qed.
Print Assumptions C90_written.

Lemma entries_fun h r es es' : entries h r es -> entries h r es' -> es = es'.
Proof.
  intros A B. assert (C : exists c d, nth_error h r = Some (Inst c d)).
  { inversion A as [d E|c e C|e l m1 m2 c1 c2 rest C]; subst; [now exists CBase, es| |]; apply class_ref in C; destruct C as (q & d & [= <-] & E); eexists _, d; exact E. }
  destruct C as (c & d & E). pose proof (entries_repr h r c d es 0 E A). pose proof (entries_repr h r c d es' 0 E B). congruence.
Qed.
Definition jsize : json -> nat := JsonProofs.size.
Lemma list_size js j : In j js -> (jsize j < jsize (JList js))%nat.
Proof. unfold jsize. cbn [JsonProofs.size]. induction js as [|x js IH]; [intros []|]. intros [->|I]; cbn [fold_right]; [lia|]. specialize (IH I). lia. Qed.
Lemma obj_size js a j : In (a, j) js -> (jsize j < jsize (JObj js))%nat.
Proof. unfold jsize. cbn [JsonProofs.size]. induction js as [|[b x] js IH]; [intros []|]. intros [E|I]; cbn [fold_right]; [injection E as -> ->; lia|]. specialize (IH I). lia. Qed.
Lemma written_fun h : forall n j j' v, (jsize j <= n)%nat -> written h v j -> written h v j' -> j = j'.
Proof.
  induction n as [|n IH]; intros j j' v S A B; [destruct j; cbn in S; lia|].
  inversion A as [a|a|a|a|a|r l js N F|r es js N F]; subst; inversion B as [b|b|b|b|b|r' l' js' N' F'|r' es' js' N' F']; subst; try reflexivity.
  - assert (l' = l) by congruence. subst l'. f_equal. assert (SZ : forall x, In x js -> (jsize x <= n)%nat) by (intros x I; apply list_size in I; lia).
    clear - IH F F' SZ. revert js' F'. induction F as [|x y l js X F IL]; intros js' F'; inversion F' as [|x' y' l' js2 X' F2]; subst; [reflexivity|]. f_equal.
    + apply (IH y y' x); [apply SZ; now left|exact X|exact X'].
    + apply IL; [intros z Z; apply SZ; now right|exact F2].
  - exfalso. inversion N' as [d E|c e C|e m m1 m2 c1 c2 rest C]; subst; try (apply class_ref in C; destruct C as (q & d & [= <-] & E)); congruence.
  - exfalso. inversion N as [d E|c e C|e m m1 m2 c1 c2 rest C]; subst; try (apply class_ref in C; destruct C as (q & d & [= <-] & E)); congruence.
  - assert (es' = es) by now apply (entries_fun h r). subst es'. f_equal. assert (SZ : forall a x, In (a, x) js -> (jsize x <= n)%nat) by (intros a x I; apply obj_size in I; lia).
    clear - IH F F' SZ. revert js' F'. induction F as [|[a x] [b y] es js [X X1] F IL]; intros js' F'; inversion F' as [|x' [b' y'] l' js2 [X' X2] F2]; subst; [reflexivity|].
    cbn [fst snd] in *. subst b b'. f_equal.
    + f_equal. apply (IH y y' x); [apply (SZ a); now left|exact X1|exact X2].
    + apply IL; [intros c z Z; apply (SZ c); now right|exact F2].
Qed.
Lemma written_encode h : forall n j v, (jsize j <= n)%nat -> written h v j -> forall op,
  (forall r j', In r op -> written h (VRef r) j' -> (jsize j < jsize j')%nat) -> forall k, (n <= k)%nat -> encode (S k) h op v = Ok j.
Proof.
  induction n as [|n IH]; intros j v S A op O k K; [destruct j; cbn in S; lia|]. destruct k as [|k]; [lia|].
  assert (NO : forall r, v = VRef r -> existsb (Nat.eqb r) op = false).
  { intros r ->. destruct (existsb (Nat.eqb r) op) eqn:X; [|reflexivity]. apply existsb_exists in X. destruct X as (q & I & Q). apply Nat.eqb_eq in Q. subst q.
    specialize (O r j I A). lia. }
  remember (Datatypes.S k) as k1 eqn:Ek.
  inversion A as [a|a|a|a|a|r l js N F|r es js N F]; subst v j; cbn [encode]; try reflexivity.
  - now rewrite flag_name.
  - rewrite (NO r eq_refl), N. rewrite (F2_each _ l js); [reflexivity|].
    assert (SZ : forall x, In x js -> (jsize x < jsize (JList js))%nat) by (intros x I; now apply list_size).
    assert (G : forall x y, In y js -> written h x y -> encode k1 h (r :: op) x = Ok y).
    { intros x y I X. rewrite Ek. apply (IH y x); [specialize (SZ y I); lia|exact X| |lia].
      intros q j' [<-|Iq] Wq; [|specialize (O q j' Iq Wq); specialize (SZ y I); lia].
      assert (j' = JList js) by (apply (written_fun h (jsize j') j' (JList js) (VRef r)); [lia|exact Wq|exact A]). subst j'. now apply SZ. }
    clear - F G. induction F as [|x y l js X F IL]; constructor; [apply G; [now left|exact X]|]. apply IL. intros a b I. apply G. now right.
  - rewrite (NO r eq_refl). assert (C : exists c d, nth_error h r = Some (Inst c d)).
    { inversion N as [d E|c e C|e l m1 m2 c1 c2 rest C]; subst; [now exists CBase, es| |]; apply class_ref in C; destruct C as (q & d & [= <-] & E); eexists _, d; exact E. }
    destruct C as (c & d & E). rewrite E. pose proof (entries_repr h r c d es k E N) as RJ. rewrite <- Ek in RJ. rewrite RJ. cbn [bind].
    rewrite (F2_each _ es js); [reflexivity|].
    assert (SZ : forall a x, In (a, x) js -> (jsize x < jsize (JObj js))%nat) by (intros a x I; now apply (obj_size js a)).
    assert (G : forall x a y, In (a, y) js -> written h x y -> encode k1 h (r :: op) x = Ok y).
    { intros x a y I X. rewrite Ek. apply (IH y x); [specialize (SZ a y I); lia|exact X| |lia].
      intros q j' [<-|Iq] Wq; [|specialize (O q j' Iq Wq); specialize (SZ a y I); lia].
      assert (j' = JObj js) by (apply (written_fun h (jsize j') j' (JObj js) (VRef r)); [lia|exact Wq|exact A]). subst j'. now apply (SZ a). }
    clear - F G. induction F as [|[a x] [b y] es js [X X1] F IL]; constructor; cbn [fst snd] in *.
    + subst b. rewrite (G x a y (or_introl eq_refl) X1). reflexivity.
    + apply IL. intros z c w I. apply (G z c). now right.
Qed.
(** Everything that has a JSON value is written, as soon as the recursion limit allows. *)
Theorem C90_complete : forall h v j, written h v j -> exists k0, forall k, (k0 <= k)%nat -> encode k h [] v = Ok j.
Proof.
  intros h v j A. exists (S (jsize j)). intros [|k] K; [lia|]. apply (written_encode h (jsize j) j v); [lia|exact A|intros r j' []|lia].
Qed.
Print Assumptions C90_complete.

Lemma entries_inst h r es : entries h r es -> exists c d, nth_error h r = Some (Inst c d).
Proof.
  intros A. inversion A as [d E|c e C|e l m1 m2 c1 c2 rest C]; subst; [now exists CBase, es| |]; apply class_ref in C; destruct C as (q & d & [= <-] & E); eexists _, d; exact E.
Qed.
Lemma F2_find {A B} (R : A -> B -> Prop) l m x : Forall2 R l m -> In x l -> exists y, In y m /\ R x y.
Proof. induction 1 as [|a b l m H F IH]; [intros []|]. intros [<-|I]; [exists b; split; [now left|exact H]|]. destruct (IH I) as (y & J & Q). exists y. split; [now right|exact Q]. Qed.
Lemma shows_smaller h r q j : written h (VRef r) j -> shows h r q -> exists j', written h (VRef q) j' /\ (jsize j' < jsize j)%nat.
Proof.
  intros A S. inversion A as [a|a|a|a|a|r' l js N F|r' es js N F]; subst; inversion S as [l' q' N' I|es' k q' N' I]; subst.
  - assert (l' = l) by congruence. subst l'. destruct (F2_find _ _ _ _ F I) as (y & J & W). exists y. split; [exact W|now apply list_size].
  - destruct (entries_inst h r es' N') as (c & d & E). congruence.
  - destruct (entries_inst h r es N) as (c & d & E). congruence.
  - assert (es' = es) by now apply (entries_fun h r). subst es'. destruct (F2_find _ _ _ _ F I) as ([b y] & J & Q & W). exists y. split; [exact W|now apply (obj_size js b)].
Qed.
Lemma below_smaller h r q : below h r q -> forall j, written h (VRef r) j -> exists j', written h (VRef q) j' /\ (jsize j' < jsize j)%nat.
Proof.
  induction 1 as [r q S|r q s S B IH]; intros j A; destruct (shows_smaller h r q j A S) as (j1 & W & L); [now exists j1|].
  destruct (IH j1 W) as (j2 & W2 & L2). exists j2. split; [exact W2|lia].
Qed.
(** A configuration that contains itself is never written, whatever the recursion limit. *)
Theorem C90_circular : forall limit l r q k op, let h := run_client limit boot l in
  circular h q -> r = q \/ below h r q -> forall j, encode k h op (VRef r) <> Ok j.
Proof.
  intros limit l r q k op h C RQ j E. apply encode_written in E; [|apply run_whole, boot_whole].
  assert (Q : exists j', written h (VRef q) j').
  { destruct RQ as [->|B]; [now exists j|]. destruct (below_smaller h r q B j E) as (j' & W & _). now exists j'. }
  destruct Q as (j1 & W). destruct (below_smaller h q q C j1 W) as (j2 & W2 & L).
  assert (j2 = j1) by (apply (written_fun h (jsize j2) j2 j1 (VRef q)); [lia|exact W2|exact W]). subst j2. lia.
Qed.
Print Assumptions C90_circular.

(** ** What can be written *)
Lemma plain_written h x : plain x -> exists j, written h x j.
Proof. destruct x as [n|b|s|w|o|r]; intros P; try (eexists; constructor). destruct (P r eq_refl). Qed.
Lemma keys_plain h v (c : cls) : forall ks, (forall a n, In (a, n) ks -> exists x, own h v n = Some x /\ plain x) ->
  exists es js, Forall2 (under h v) ks es /\ Forall2 (fun e m => fst m = fst e /\ written h (snd e) (snd m)) es js.
Proof.
  induction ks as [|[a n] ks IH]; intros A; [exists [], []; split; constructor|]. destruct (A a n (or_introl eq_refl)) as (x & O & P).
  destruct IH as (es & js & F & G); [intros b m I; apply (A b); now right|]. destruct (plain_written h x P) as (j & W).
  exists ((a, x) :: es), ((a, j) :: js). split; constructor; try assumption; split; try reflexivity; assumption.
Qed.
Lemma record_keys h c v : record h c v -> forall a n, In (a, n) (keys c) -> exists x, own h v n = Some x /\ plain x.
Proof.
  intros (C & NC & S) a n I. apply S. destruct c; [destruct I| | | |contradiction];
    cbn [keys In] in I; repeat (destruct I as [[= <- <-]|I]; [cbn; tauto|]); destruct I.
Qed.
Lemma operator_written h v : record h COp v -> exists j, written h v j.
Proof.
  intros R. pose proof R as (C & _). destruct (class_ref h v _ C) as (r & d & -> & E).
  destruct (keys_plain h (VRef r) COp (keys COp) (record_keys h COp _ R)) as (es & js & F & G). exists (JObj js).
  apply (written_object h r es js); [|exact G]. now apply (entries_keys h r COp); try discriminate.
Qed.
(** Every LFO setting, operator and pitch with plain attributes, and every channel with
    at least four operators, can be written. *)
Theorem C90_tidy : forall h c v, tidy h c v -> (c = CBase -> forall r es, v = VRef r -> entries h r es -> Forall (fun e => plain (snd e)) es) ->
  (c = CChan -> exists l m1 m2 c1 c2 rest, own h v "operators" = Some l /\ list_at h l (m1 :: m2 :: c1 :: c2 :: rest)) ->
  exists j k0, forall k, (k0 <= k)%nat -> encode k h [] v = Ok j.
Proof.
  intros h c v [R T] B Q. enough (X : exists j, written h v j) by (destruct X as (j & W); exists j; now apply C90_complete).
  pose proof R as (C & NC & _). destruct (class_ref h v _ C) as (r & d & -> & E). destruct c; [| | | |contradiction].
  - assert (N : entries h r d) by now apply entries_base. specialize (B eq_refl r d eq_refl N).
    assert (G : exists js, Forall2 (fun e m => fst m = fst e /\ written h (snd e) (snd m)) d js).
    { clear - B. induction B as [|[n x] d P B IH]; [exists []; constructor|]. destruct IH as (js & IH). destruct (plain_written h x P) as (j & W).
      exists ((n, j) :: js). constructor; [now split|exact IH]. }
    destruct G as (js & G). exists (JObj js). now apply (written_object h r d js).
  - now apply operator_written.
  - destruct (keys_plain h (VRef r) CNote (keys CNote) (record_keys h CNote _ R)) as (es & js & F & G). exists (JObj js).
    apply (written_object h r es js); [|exact G]. now apply (entries_keys h r CNote); try discriminate.
  - destruct (T eq_refl) as (l & os & O & L & A). destruct (Q eq_refl) as (l' & m1 & m2 & c1 & c2 & rest & O' & L'). assert (l' = l) by congruence. subst l'.
    destruct L as (lr & -> & L). destruct L' as (lr' & [= <-] & L'). assert (os = m1 :: m2 :: c1 :: c2 :: rest) by congruence. subst os.
    destruct (keys_plain h (VRef r) CChan (keys CChan) (record_keys h CChan _ R)) as (es & js & F & G).
    inversion A as [|a1 a2 A1 A']; subst. inversion A' as [|a3 a4 A2 A'']; subst. inversion A'' as [|a5 a6 A3 A3']; subst. inversion A3' as [|a7 a8 A4 A4']; subst.
    destruct (operator_written h _ A1) as (j1 & W1). destruct (operator_written h _ A2) as (j2 & W2). destruct (operator_written h _ A3) as (j3 & W3). destruct (operator_written h _ A4) as (j4 & W4).
    exists (JObj (js ++ [("m1", j1); ("c1", j3); ("m2", j2); ("c2", j4)])).
    apply (written_object h r (es ++ [("m1", m1); ("c1", c1); ("m2", m2); ("c2", c2)])).
    + apply (entries_channel h r es (VRef lr) m1 m2 c1 c2 rest); try assumption. now exists lr.
    + apply Forall2_app; [exact G|]. repeat (constructor; [split; [reflexivity|assumption]|]). constructor.
Qed.
Print Assumptions C90_tidy.
(** A channel with fewer than four operators, or none, cannot. *)
Theorem C90_few : forall limit cs v k op, let h := run_client limit boot cs in
  class_of h v = Some CChan -> (forall l os, own h v "operators" = Some l -> list_at h l os -> (List.length os < 4)%nat) ->
  forall j, encode k h op v <> Ok j.
Proof.
  intros limit cs v k op h C S j E. apply encode_written in E; [|apply run_whole, boot_whole]. destruct (class_ref h v _ C) as (r & d & -> & N).
  inversion E as [a|a|a|a|a|r' l js N' F|r' es js N' F]; subst; [congruence|].
  inversion N' as [d' E'|c e C' NB NC F'|e l m1 m2 c1 c2 rest C' F' O L]; subst; [congruence|congruence|].
  specialize (S l _ O L). cbn [List.length] in S. lia.
Qed.
Print Assumptions C90_few.

(** ** The hypotheses above are met *)
(** A client makes a channel, sets one of its operators, copies it, changes the copy, and
    makes a Config of the first: objects 7-12, 13-18, 19. *)
Definition visit : list call :=
  [New CChan None; SetAttr (VRef 8) "multiply" (VInt 5); SetAttr (VRef 12) "fb" (VInt 7); Copy (VRef 12);
   SetAttr (VRef 18) "noise" (VInt 0); NewConfig (VInt 3) None (Some (VRef 12)) (Some (VFlag 15))].
Definition visited : mem := Eval vm_compute in run_client 10 boot visit.
Example ex_visit : visited = run_client 10 boot visit.
Proof. reflexivity. Qed.
Ltac plainly := solve [eexists; split; [reflexivity|intros ?; discriminate]].
Ltac recorded := split; [reflexivity|split; [discriminate|]]; intros n I; cbn [settings In] in I;
  repeat (destruct I as [<-|I]; [plainly|]); destruct I.
Example ex_visited : class_of visited (VRef 12) = Some CChan /\ class_of visited (VRef 18) = Some CChan /\ class_of visited (VRef 19) = Some CConfig
  /\ List.length visited = 20%nat /\ own visited (VRef 15) "multiply" = Some (VInt 5).
Proof. repeat split. Qed.
Example ex_tidy_base : tidy visited CBase (VRef 0).
Proof. split; [recorded|discriminate]. Qed.
Example ex_tidy : tidy visited CChan (VRef 12) /\ tidy visited CChan (VRef 18) /\ tidy visited CChan default_channel.
Proof.
  split; [|split]; (split; [recorded|]); intros _;
    [exists (VRef 11), [VRef 7; VRef 8; VRef 9; VRef 10]|exists (VRef 13), [VRef 14; VRef 15; VRef 16; VRef 17]|exists (VRef 5), [VRef 1; VRef 2; VRef 3; VRef 4]].
  all: split; [reflexivity|split; [eexists; split; reflexivity|]].
  all: repeat (constructor; [recorded|]); constructor.
Qed.
(** C87: False and 0 are equal settings; another operator makes another channel. *)
Example ex_equal : equal 10 visited (VRef 12) (VRef 18) = Ok true /\ equal 10 visited (VRef 12) default_channel = Ok false
  /\ equal 10 visited (VRef 14) (VRef 7) = Ok true /\ equal 10 visited (VRef 14) (VRef 8) = Ok false
  /\ equal 10 visited (VRef 0) (VRef 12) = Ok false /\ equal 10 visited (VRef 19) (VRef 19) = Ok true.
Proof. repeat split. Qed.
Example ex_compare : compare 10 visited (VRef 19) (VRef 0) (VRef 18) (VFlag 15) = Ok true
  /\ compare 10 visited (VRef 19) (VRef 0) (VRef 18) (VFlag 7) = Ok false
  /\ own visited (VRef 19) "_base" = Some (VRef 0) /\ own visited (VRef 19) "_channel" = Some (VRef 12).
Proof. repeat split. Qed.
(** C88: what the copy owns; the hypotheses of C88_apart. *)
Example ex_owns : forall r, owns visited (VRef 18) r <-> (13 <= r <= 18)%nat.
Proof.
  intros r. split.
  - intros O. inversion O as [q E|q C E|l os q C E (lr & -> & L) I]; subst.
    + injection E as <-. lia.
    + injection E as <-. lia.
    + injection E as <-. injection L as <-. cbn [In] in I. repeat (destruct I as [[= <-]|I]; [lia|]). destruct I.
  - intros H. assert (C : (r = 18 \/ r = 13 \/ 14 <= r <= 17)%nat) by lia. destruct C as [->|[->|C]].
    + now constructor.
    + apply owns_list; reflexivity.
    + apply (owns_operator visited (VRef 18) (VRef 13) [VRef 14; VRef 15; VRef 16; VRef 17]); [reflexivity|reflexivity|eexists; split; reflexivity|].
      cbn [In]. assert (D : (r = 14 \/ r = 15 \/ r = 16 \/ r = 17)%nat) by lia. destruct D as [->|[->|[->| ->]]]; tauto.
Qed.
Example ex_apart : let h := run_client 10 visited [SetAttr (VRef 15) "multiply" (VInt 9); Append (VRef 13) (VRef 0)] in
  own h (VRef 8) "multiply" = Some (VInt 5) /\ own h (VRef 15) "multiply" = Some (VInt 9)
  /\ equal 10 h (VRef 12) (VRef 18) = Ok false /\ tidy h CChan (VRef 12).
Proof.
  split; [reflexivity|split; [reflexivity|split; [reflexivity|]]].
  refine (proj1 (C88_untouched visited CChan (VRef 12) 10 _ (proj1 ex_tidy) _)).
  intros a r I C O. assert (R : (13 <= r)%nat) by (cbn [In] in I; destruct I as [<-|[<-|[]]]; cbn in C; injection C as <-; lia).
  inversion O as [q E|q C' E|l os q C' E (lr & -> & L) J]; subst.
  - injection E as <-. lia.
  - injection E as <-. lia.
  - injection E as <-. injection L as <-. cbn [In] in J. repeat (destruct J as [[= <-]|J]; [lia|]). destruct J.
Qed.
Example ex_copy_config : match copy_of 10 visited (VRef 19) with Ok (w, h) => class_of h w = Some CChan | Err _ => False end.
Proof. reflexivity. Qed.
(** C90 *)
Example ex_written : match encode 10 visited [] (VRef 19) with Ok j => member "id" j = Some (JInt 3) | Err _ => False end.
Proof. reflexivity. Qed.
Example ex_can_write : exists j k0, forall k, (k0 <= k)%nat -> encode k visited [] (VRef 12) = Ok j.
Proof.
  apply (C90_tidy visited CChan (VRef 12) (proj1 ex_tidy)); [discriminate|]. intros _.
  exists (VRef 11), (VRef 7), (VRef 8), (VRef 9), (VRef 10), []. split; [reflexivity|]. eexists. split; reflexivity.
Qed.
(** A list that contains itself; an operator whose multiplier is its channel. *)
Example ex_circular_list : circular (run_client 10 boot [Append (VRef 5) (VRef 5)]) 5
  /\ encode 10 (run_client 10 boot [Append (VRef 5) (VRef 5)]) [] (VRef 5) = Err ValueError.
Proof. split; [|reflexivity]. apply below_one. apply (shows_item _ 5 [VRef 1; VRef 2; VRef 3; VRef 4; VRef 5] 5); [reflexivity|]. cbn [In]. tauto. Qed.
Example ex_circular : let h := run_client 10 boot [SetAttr (VRef 1) "multiply" default_channel] in
  circular h 6 /\ encode 10 h [] default_channel = Err ValueError.
Proof.
  intros h. split; [|reflexivity]. apply (below_more h 6 1 6).
  - eapply (shows_entry h 6 _ "m1" 1).
    + apply (repr_entries h 6 CChan _ _ 10 (run_whole 10 _ _ boot_whole) eq_refl eq_refl).
    + right. right. right. right. right. right. left. reflexivity.
  - apply below_one. eapply (shows_entry h 1 _ "mul" 6).
    + apply (repr_entries h 1 COp _ _ 10 (run_whole 10 _ _ boot_whole) eq_refl eq_refl).
    + right. right. right. right. right. right. right. left. reflexivity.
Qed.
Example ex_few : let h := run_client 10 boot [NewList [VRef 1; VRef 2]; SetAttr default_channel "operators" (VRef 7)] in
  class_of h default_channel = Some CChan
  /\ (forall l os, own h default_channel "operators" = Some l -> list_at h l os -> (List.length os < 4)%nat)
  /\ encode 10 h [] default_channel = Err IndexError.
Proof.
  split; [reflexivity|split; [|reflexivity]]. intros l os E (r & -> & L). injection E as <-. injection L as <-. cbn. lia.
Qed.

(** ** Constructors *)
(** Class(other) for an object of the class is a copy of it. *)
Theorem C88_constructor : forall h c v limit, tidy h c v -> (1 <= limit)%nat ->
  construct limit h c (Some v) = copy_of (S limit) h v.
Proof.
  intros h c v limit [R _] L. destruct (record_own h c v R) as (r & d & -> & E & _). destruct R as (C & NC & _).
  cbn [construct truth]. rewrite E. unfold copy_of at 2. cbn [deepcopy memo_find]. rewrite E. destruct limit as [|k]; [lia|]. remember (S k) as k1 eqn:K1.
  assert (CP : copier k1 h r = Ok (c, r)) by (rewrite K1; cbn [copier]; rewrite E; destruct c; try reflexivity; contradiction).
  rewrite CP. cbn [bind]. change (fun (h0 : mem) (x : val) => let! (p, _) := deepcopy k1 h0 [] x in Ok p) with (copy_of k1).
  destruct (construct_from (copy_of k1) k1 h c (VRef r)) as [[y h']|]; reflexivity.
Qed.
Print Assumptions C88_constructor.

Lemma new_ops_all n : forall h os h', new_ops n h = (os, h') ->
  kept h h' /\ List.length os = n /\ List.length h' = (List.length h + n)%nat
  /\ forall i, (i < n)%nat -> nth_error os i = Some (VRef (List.length h + i)) /\ nth_error h' (List.length h + i) = Some (Inst COp (defaults COp)).
Proof.
  induction n as [|n IH]; intros h os h' E; cbn [new_ops] in E.
  - injection E as <- <-. split; [apply kept_refl|]. split; [reflexivity|]. split; [lia|]. intros i I. lia.
  - unfold new_op, new in E. destruct (new_ops n (h ++ [Inst COp (defaults COp)])) as [os1 h1] eqn:Q. injection E as <- <-.
    apply IH in Q. rewrite app_length in Q. cbn [List.length] in Q. destruct Q as (K & LO & LH & A).
    split; [apply (kept_trans h (h ++ [Inst COp (defaults COp)])); [apply kept_new|exact K]|]. split; [cbn; now f_equal|]. split; [lia|].
    intros [|i] I.
    + rewrite Nat.add_0_r. split; [reflexivity|]. apply (kept_nth (h ++ [Inst COp (defaults COp)])); [exact K|apply nth_new].
    + destruct (A i ltac:(lia)) as [A1 A2]. cbn [nth_error]. rewrite A1. replace (List.length h + S i)%nat with (List.length h + 1 + i)%nat by lia. now split.
Qed.
Lemma default_setting c n : In n (settings c) -> look (defaults c) n = Some (initial n).
Proof. intros I. destruct c; cbn [settings In] in I; repeat (destruct I as [<-|I]; [reflexivity|]); destruct I. Qed.
Lemma initial_plain n : plain (initial n).
Proof. intros r. unfold initial. destruct (in_dec _ _ _); [discriminate|]. destruct (string_dec _ _); discriminate. Qed.
Lemma new_record h c r d : nth_error h r = Some (Inst c d) -> c <> CConfig -> (forall n, In n (settings c) -> look d n = look (defaults c) n) ->
  record h c (VRef r) /\ forall n, In n (settings c) -> own h (VRef r) n = Some (initial n).
Proof.
  intros E NC A. assert (Q : forall n, In n (settings c) -> own h (VRef r) n = Some (initial n)).
  { intros n I. rewrite (own_look h r c d n E), A by exact I. now apply default_setting. }
  split; [|exact Q]. split; [cbn; now rewrite E|]. split; [exact NC|]. intros n I. exists (initial n). split; [now apply Q|apply initial_plain].
Qed.
(** Class() and Class(x) for a false x: a new object with the initial settings; a channel
    gets four new operators, all different, with the initial settings. *)
Theorem C88_fresh : forall h c limit other, c <> CConfig -> (other = None \/ exists v, other = Some v /\ falsy h v) ->
  exists w h', construct limit h c other = Ok (w, h')
    /\ (forall i, (i < List.length h)%nat -> nth_error h' i = nth_error h i)
    /\ tidy h' c w
    /\ (forall n, In n (settings c) -> own h' w n = Some (initial n))
    /\ (forall r, owns h' w r -> (List.length h <= r)%nat)
    /\ (c = CChan -> exists l o1 o2 o3 o4, own h' w "operators" = Some l /\ list_at h' l [o1; o2; o3; o4] /\ NoDup [o1; o2; o3; o4]
          /\ forall o n, In o [o1; o2; o3; o4] -> In n (settings COp) -> own h' o n = Some (initial n)).
Proof.
  intros h c limit other NC O. assert (E : construct limit h c other = Ok (construct_default h c)).
  { destruct O as [->|(v & -> & F)]; [reflexivity|]. unfold construct. assert (T : truth h v = false); [|now rewrite T].
    destruct F as [->|[->|[->|[->|(r & -> & L)]]]]; try reflexivity. cbn [truth]. now rewrite L. }
  rewrite E. clear E O. assert (D : c = CChan \/ c <> CChan) by (destruct c; (now left) || (right; congruence)). destruct D as [->|ND].
  - unfold construct_default. destruct (new_ops 4 h) as [os h1] eqn:Q. apply new_ops_all in Q. destruct Q as (K & LO & LH & A). unfold new.
    set (h2 := h1 ++ [Lst os]). set (ob := Inst CChan _).
    assert (K2 : kept h h2) by (apply (kept_trans h h1); [exact K|apply kept_new]).
    assert (K3 : kept h (h2 ++ [ob])) by (apply (kept_trans h h2); [exact K2|apply kept_new]).
    assert (L2 : nth_error (h2 ++ [ob]) (List.length h1) = Some (Lst os)) by (apply (kept_nth h2); [apply kept_new|apply nth_new]).
    assert (OP : forall o, In o os -> record (h2 ++ [ob]) COp o /\ (forall n, In n (settings COp) -> own (h2 ++ [ob]) o n = Some (initial n)) /\ exists r, o = VRef r /\ (List.length h <= r)%nat).
    { intros o I. apply In_nth_error in I as [i I]. assert (i < 4)%nat by (rewrite <- LO; apply nth_error_Some; congruence).
      destruct (A i ltac:(assumption)) as [A1 A2]. assert (o = VRef (List.length h + i)) by congruence. subst o.
      assert (KK : kept h1 (h2 ++ [ob])) by (apply (kept_trans h1 h2); apply kept_new).
      destruct (new_record (h2 ++ [ob]) COp (List.length h + i) (defaults COp) (kept_nth _ _ _ _ KK A2) ltac:(discriminate) ltac:(reflexivity)) as [R S].
      split; [exact R|]. split; [exact S|]. exists (List.length h + i)%nat. split; [reflexivity|lia]. }
    destruct (new_record (h2 ++ [ob]) CChan (List.length h2) (("operators", VRef (List.length h1)) :: defaults CChan) (nth_new h2 _) ltac:(discriminate)) as [R S].
    { intros n I. cbn [look]. destruct (String.eqb_spec "operators" n) as [<-|]; [|reflexivity]. cbn in I. decompose [or] I; try discriminate; contradiction. }
    assert (OO : own (h2 ++ [ob]) (VRef (List.length h2)) "operators" = Some (VRef (List.length h1))) by (unfold ob; rewrite (own_look _ _ CChan _ _ (nth_new h2 _)); reflexivity).
    exists (VRef (List.length h2)), (h2 ++ [ob]). split; [reflexivity|]. split; [exact (proj2 K3)|]. split; [|split; [exact S|split]].
    + split; [exact R|]. intros _. exists (VRef (List.length h1)), os. split; [exact OO|]. split; [now exists (List.length h1)|].
      apply Forall_forall. intros o I. now apply OP.
    + intros r W. inversion W as [r' Er|r' C Er|l os' r' C Er (lr & -> & LA) I]; subst.
      * injection Er as <-. exact (proj1 K2).
      * assert (r = List.length h1) by congruence. subst r. exact (proj1 K).
      * assert (lr = List.length h1) by congruence. subst lr. assert (os' = os) by congruence. subst os'. destruct (OP _ I) as (_ & _ & q & [= <-] & Q). exact Q.
    + intros _. destruct os as [|o1 [|o2 [|o3 [|o4 [|]]]]]; try discriminate. exists (VRef (List.length h1)), o1, o2, o3, o4.
      split; [exact OO|]. split; [now exists (List.length h1)|]. split.
      * destruct (A 0%nat) as [A0 _]; [lia|]. destruct (A 1%nat) as [A1 _]; [lia|]. destruct (A 2%nat) as [A2 _]; [lia|]. destruct (A 3%nat) as [A3 _]; [lia|].
        injection A0 as ->. injection A1 as ->. injection A2 as ->. injection A3 as ->.
        repeat constructor; cbn [In]; intros H; decompose [or] H; try contradiction;
          match goal with H : VRef _ = VRef _ |- _ => injection H; lia end.
      * intros o n I J. now apply OP.
  - assert (E : construct_default h c = (VRef (List.length h), h ++ [Inst c (defaults c)])) by (destruct c; try reflexivity; contradiction). rewrite E.
    destruct (new_record (h ++ [Inst c (defaults c)]) c (List.length h) (defaults c) (nth_new h _) NC ltac:(reflexivity)) as [R S].
    exists (VRef (List.length h)), (h ++ [Inst c (defaults c)]). split; [reflexivity|]. split; [exact (proj2 (kept_new _ _))|].
    split; [split; [exact R|intros ->; contradiction]|]. split; [exact S|]. split; [|intros ->; contradiction].
    intros r W. inversion W as [r' Er|r' C Er|l os' r' C Er (lr & -> & LA) I]; subst; [injection Er as <-; lia| |]; exfalso;
      cbn in C; rewrite nth_new in C; congruence.
Qed.
Print Assumptions C88_fresh.
(** Class(x) for a number, text or enum member that is not false fails. *)
Theorem C88_wrong : forall h c limit v, c <> CConfig -> plain v -> ~ falsy h v -> (1 <= limit)%nat ->
  construct limit h c (Some v) = Err AttributeError.
Proof.
  intros h c [|k] v NC P F L; [lia|]. assert (T : truth h v = true).
  { destruct v as [n|b|s|w|o|r]; cbn [truth].
    - destruct (Z.eqb_spec n 0) as [->|]; [destruct F; now left|reflexivity].
    - destruct b; [reflexivity|]. destruct F. right. now left.
    - destruct (String.eqb_spec s "") as [->|]; [destruct F; right; right; now left|reflexivity].
    - reflexivity.
    - destruct (Z.eqb_spec o 0) as [->|]; [destruct F; right; right; right; now left|reflexivity].
    - now destruct (P r). }
  unfold construct. rewrite T. assert (G : forall n, getattr (S k) h v n = Err AttributeError) by (intros n; destruct v; try reflexivity; now destruct (P r)).
  unfold construct_from. destruct c; cbn [defaults from_other]; rewrite ?G; try reflexivity. contradiction.
Qed.
Print Assumptions C88_wrong.
Example ex_fresh : forall limit, construct limit visited CBase (Some (VInt 0)) = construct limit visited CBase None
  /\ construct 5 visited CBase (Some (VInt 1)) = Err AttributeError.
Proof. split; reflexivity. Qed.

(** ** Operators that occur twice *)
Definition one_to_one (memo : list (nat * val)) : Prop := forall r s w, memo_find memo r = Some w -> memo_find memo s = Some w -> r = s.
Lemma copy_each_memo k h y : forall os h1 memo vs h2 memo2, Forall (record h COp) os -> kept h h1 -> nth_error h1 y = Some (Lst vs) ->
  (forall r w, memo_find memo r = Some w -> exists q, w = VRef q /\ (q < List.length h1)%nat) -> one_to_one memo -> (List.length h <= y)%nat ->
  copy_each (deepcopy (S (S k))) y h1 memo os = Ok (h2, memo2) ->
  exists ws, nth_error h2 y = Some (Lst (vs ++ ws)) /\ Forall2 (fun o w => exists r, o = VRef r /\ memo_find memo2 r = Some w) os ws
    /\ one_to_one memo2 /\ (forall r w, memo_find memo r = Some w -> memo_find memo2 r = Some w).
Proof.
  induction os as [|o os IH]; intros h1 memo vs h2 memo2 F K Y M I HY E; cbn [copy_each] in E.
  { injection E as <- <-. exists []. rewrite app_nil_r. split; [exact Y|]. split; [constructor|]. split; [exact I|auto]. }
  inversion F as [|o' os' Ro Fo]; subst o' os'. destruct (record_own h COp o Ro) as (r & d & -> & N & _).
  assert (G : exists w h3 memo3, deepcopy (S (S k)) h1 memo (VRef r) = Ok (w, h3, memo3) /\ kept h1 h3 /\ memo_find memo3 r = Some w
     /\ (forall s u, memo_find memo3 s = Some u -> exists q, u = VRef q /\ (q < List.length h3)%nat) /\ one_to_one memo3
     /\ (forall s u, memo_find memo s = Some u -> memo_find memo3 s = Some u)).
  { destruct (memo_find memo r) as [w|] eqn:MF.
    - exists w, h1, memo. split; [cbn [deepcopy]; now rewrite MF|]. split; [apply kept_refl|]. split; [exact MF|]. split; [exact M|]. split; [exact I|auto].
    - destruct (copy_record k h h1 memo COp (VRef r) K ltac:(discriminate) Ro) as (w & ob & D & _ & W); [intros ? [= <-]; exact MF|].
      exists w, (h1 ++ [ob]), ((r, w) :: memo). split; [exact D|]. split; [apply kept_new|]. cbn [memo_find]. rewrite Nat.eqb_refl. split; [reflexivity|].
      split; [|split].
      + intros s u. rewrite app_length. cbn [List.length]. destruct (Nat.eqb_spec r s); [intros [= <-]; exists (List.length h1); split; [exact W|lia]|].
        intros Q. destruct (M s u Q) as (q & -> & L). exists q. split; [reflexivity|lia].
      + intros s t u. cbn [memo_find]. destruct (Nat.eqb_spec r s) as [<-|], (Nat.eqb_spec r t) as [<-|]; intros A B; try reflexivity.
        * injection A as <-. destruct (M t w B) as (q & -> & L). injection W as ->. lia.
        * injection B as <-. destruct (M s w A) as (q & -> & L). injection W as ->. lia.
        * now apply (I s t u).
      + intros s u Q. destruct (Nat.eqb_spec r s) as [<-|]; [congruence|exact Q]. }
  destruct G as (w & h3 & memo3 & D & K3 & W & M3 & I3 & S3). rewrite D in E. cbn [bind] in E. rewrite (kept_nth h1 h3 y _ K3 Y) in E.
  destruct (IH (set_nth y (Lst (vs ++ [w])) h3) memo3 (vs ++ [w]) h2 memo2 Fo) as (ws & Y2 & F2 & I2 & S2); try assumption.
  - apply kept_set; [now apply (kept_trans h h1)|exact HY].
  - apply set_nth_here. apply (nth_lt h3 y (Lst vs)). now apply (kept_nth h1).
  - intros s u Q. rewrite set_nth_length. now apply M3 with s.
  - exists (w :: ws). split; [rewrite Y2, <- app_assoc; reflexivity|]. split; [constructor; [exists r; split; [reflexivity|now apply S2]|exact F2]|].
    split; [exact I2|]. intros s u Q. now apply S2, S3.
Qed.
Lemma F2_nth {A B} (R : A -> B -> Prop) : forall l m i, Forall2 R l m -> (i < List.length l)%nat ->
  exists x y, nth_error l i = Some x /\ nth_error m i = Some y /\ R x y.
Proof.
  intros l m i F. revert i. induction F as [|x y l m H F IH]; intros i L; [cbn in L; lia|]. destruct i as [|i]; [now exists x, y|].
  apply IH. cbn in L. lia.
Qed.
(** An operator that occurs several times in a channel occurs just as often, at the same
    places, in the copy. *)
Theorem C88_sharing : forall h v limit w h' l os m ps, tidy h CChan v -> (4 <= limit)%nat -> copy_of limit h v = Ok (w, h') ->
  own h v "operators" = Some l -> list_at h l os -> own h' w "operators" = Some m -> list_at h' m ps ->
  List.length ps = List.length os
  /\ forall i j, (i < List.length os)%nat -> (j < List.length os)%nat -> (nth_error os i = nth_error os j <-> nth_error ps i = nth_error ps j).
Proof.
  intros h v limit w h' l os m ps [R TC] LI E O L O' L'. destruct limit as [|[|[|[|k]]]]; try lia. clear LI.
  destruct (TC eq_refl) as (l0 & os0 & O0 & (lr & -> & LA) & F). assert (l = VRef lr) by congruence. subst l. destruct L as (lr' & [= <-] & L).
  assert (os0 = os) by congruence. subst os0. destruct (record_own h CChan v R) as (r & d & -> & N & _).
  unfold copy_of in E. remember (S (S (S k))) as n3 eqn:En3. cbn [deepcopy memo_find] in E. rewrite N in E. rewrite En3 in E at 1. cbn [copier] in E. rewrite N in E. cbn [bind] in E.
  unfold construct_from in E. rewrite En3 in E at 1. rewrite (getattr_own _ h (VRef r) _ _ O) in E. cbn [bind] in E.
  destruct (deepcopy n3 h [] (VRef lr)) as [[[y h2] memo2]|] eqn:DC; [|discriminate]. cbn [bind] in E.
  rewrite En3 in DC. remember (S (S k)) as n2 eqn:En2. cbn [deepcopy memo_find] in DC. rewrite L in DC.
  destruct (copy_each (deepcopy n2) (List.length h) (h ++ [Lst []]) [(lr, VRef (List.length h))] os) as [[h3 memo3]|] eqn:CE; [|discriminate].
  cbn [bind] in DC. injection DC as <- <- <-. rewrite En2 in CE.
  destruct (copy_each_memo k h (List.length h) os (h ++ [Lst []]) [(lr, VRef (List.length h))] [] h3 memo3 F (kept_new h (Lst [])) (nth_new h _)) as (ws & Y & FW & I & _); [| |lia|exact CE|].
  { intros s u. cbn [memo_find]. destruct (Nat.eqb lr s); [intros [= <-]|discriminate]. exists (List.length h). rewrite app_length. cbn. split; [reflexivity|lia]. }
  { intros s t u. cbn [memo_find]. destruct (Nat.eqb_spec lr s) as [<-|]; [|discriminate]. destruct (Nat.eqb_spec lr t) as [<-|]; [reflexivity|discriminate]. }
  destruct (from_other n3 h3 (VRef r) (defaults CChan)) as [d'|]; [|discriminate]. cbn [bind] in E. unfold new in E. injection E as <- <-.
  rewrite (own_look _ _ CChan _ _ (nth_new h3 _)) in O'. cbn [look String.eqb] in O'. injection O' as <-. destruct L' as (mr & [= <-] & L').
  assert (Y' : nth_error (h3 ++ [Inst CChan (("operators", VRef (List.length h)) :: d')]) (List.length h) = Some (Lst ws)) by (apply (kept_nth h3); [apply kept_new|exact Y]).
  assert (ps = ws) by congruence. subst ps.
  assert (LEN : List.length ws = List.length os) by (clear - FW; induction FW; cbn; [reflexivity|now f_equal]). split; [exact LEN|].
  intros i j Hi Hj. destruct (F2_nth _ _ _ i FW Hi) as (x & a & X & A & s & -> & MS). destruct (F2_nth _ _ _ j FW Hj) as (x' & a' & X' & A' & s' & -> & MS').
  rewrite X, X', A, A'. split; intros [= Q].
  - subst s'. congruence.
  - subst a'. rewrite (I s s' a MS MS'). reflexivity.
Qed.
Print Assumptions C88_sharing.
Example ex_sharing : let h := run_client 10 visited [SetItem (VRef 11) 2 (VRef 8)] in
  match copy_of 10 h (VRef 12) with
  | Ok (w, h') => own h' w "operators" = Some (VRef 20) /\ nth_error h' 20 = Some (Lst [VRef 21; VRef 22; VRef 22; VRef 23])
  | Err _ => False
  end.
Proof. split; reflexivity. Qed.
