(** Rhythms: shifted, with a stray key-on, too fast and too slow. *)
From Coq Require Import ZArith List Bool Lia ZifyBool Sorting.Sorted Sorting.Permutation.
From Verif.Model Require Import Py Config Note State Ticks.
From Verif.Spec Require Import Rhythm.
From Verif.Proofs Require Import PyLemmas TickProofs TempoProofs TempoProofs2.
Import ListNotations.
Open Scope Z_scope.

Lemma count_map {A B} (f : A -> B) (p : B -> bool) l : count p (map f l) = count (fun x => p (f x)) l.
Proof. induction l as [|x l IH]; [reflexivity|]. cbn [map]. rewrite !count_cons, IH. reflexivity. Qed.
Lemma count_app {A} (p : A -> bool) l m : count p (l ++ m) = count p l + count p m.
Proof. induction l as [|x l IH]; [reflexivity|]. cbn [app]. rewrite !count_cons, IH. lia. Qed.
Lemma count_perm {A} (p : A -> bool) l m : Permutation l m -> count p l = count p m.
Proof. induction 1; rewrite ?count_cons; lia. Qed.
Lemma mem_false x l : mem x l = false <-> ~ In x l.
Proof. rewrite <- mem_in. destruct (mem x l); split; intro; try congruence; tauto. Qed.
Lemma mem_shift k x T : mem (x + k) (map (fun t => t + k) T) = mem x T.
Proof.
  unfold mem. induction T as [|y T IH]; [reflexivity|]. cbn [map existsb]. rewrite IH. f_equal. lia.
Qed.
Lemma exists_shift k x T : existsb (Z.ltb (x + k)) (map (fun t => t + k) T) = existsb (Z.ltb x) T.
Proof. induction T as [|y T IH]; [reflexivity|]. cbn [map existsb]. rewrite IH. f_equal. lia. Qed.
Lemma score_shift k T d : score (map (fun t => t + k) T) d = score T d.
Proof.
  unfold score. rewrite !count_map. f_equal; apply count_ext; intros t _.
  - f_equal. replace (t + k - d) with (t - d + k) by lia. apply mem_shift.
  - replace (t + k + d) with (t + d + k) by lia. now rewrite mem_shift, exists_shift.
Qed.
Lemma sorted_shift k T : StronglySorted Z.lt T -> StronglySorted Z.lt (map (fun t => t + k) T).
Proof.
  induction 1 as [|x l S IH F]; [constructor|]. cbn [map]. constructor; [exact IH|].
  apply Forall_forall. intros y I. apply in_map_iff in I as (z & <- & I). rewrite Forall_forall in F. specialize (F z I). lia.
Qed.

Lemma mem_perm x l m : Permutation l m -> mem x l = mem x m.
Proof.
  intro P. destruct (mem x l) eqn:A, (mem x m) eqn:B; try reflexivity.
  - apply mem_in in A. apply mem_false in B. exfalso. apply B. now apply (Permutation_in _ P).
  - apply mem_in in B. apply mem_false in A. exfalso. apply A. now apply (Permutation_in _ (Permutation_sym P)).
Qed.
Lemma exists_perm {A} (p : A -> bool) l m : Permutation l m -> existsb p l = existsb p m.
Proof. induction 1; cbn [existsb]; try congruence. destruct (p x), (p y); reflexivity. Qed.
Lemma score_perm T U d : Permutation T U -> score T d = score U d.
Proof.
  intro P. unfold score. f_equal; rewrite (count_perm _ _ _ P); apply count_ext; intros t _; now rewrite ?(mem_perm _ _ _ P), ?(exists_perm _ _ _ P).
Qed.
Lemma best_perm T U d : Permutation T U -> best U d -> best T d.
Proof.
  intros P (C & A & B). split; [exact C|]. split; intros e He; rewrite !(score_perm T U _ P); auto.
Qed.

(** ** A steady rhythm, cut in two *)
Lemma steady_app a p k n : steady a p (k + n) = steady a p k ++ steady (a + p * Z.of_nat k) p n.
Proof.
  revert a. induction k as [|k IH]; intro a; [change (steady a p n = steady (a + p * 0) p n); f_equal; lia|].
  cbn [Nat.add]. rewrite !steady_cons, IH. cbn [app]. do 3 f_equal. lia.
Qed.
Lemma steady_unique f a p n c : 0 < p -> (forall t, In t (steady a p n) -> f t = true -> t = c) -> count f (steady a p n) <= 1.
Proof.
  intros Hp. revert a. induction n as [|n IH]; intros a U; [cbn; lia|]. rewrite steady_count.
  destruct (f a) eqn:E.
  - rewrite count_none; [lia|]. intros t I. destruct (f t) eqn:F; [|reflexivity].
    assert (a = c) by (apply U; [rewrite steady_cons; now left|exact E]).
    assert (t = c) by (apply U; [rewrite steady_cons; now right|exact F]).
    apply steady_in in I as (i & _ & ->). lia.
  - assert (count f (steady (a + p) p n) <= 1); [|lia]. apply IH. intros t I. apply U. rewrite steady_cons. now right.
Qed.

(** ** One stray key-on *)
Section Stray.
  Variables (a p x : Z) (n : nat).
  Hypothesis Hp : 0 < p.
  Hypothesis Off : (x - a) mod p <> 0.

  Lemma off_grid i : x <> a + p * i.
  Proof. intros ->. apply Off. replace (a + p * i - a) with (i * p) by lia. apply Z_mod_mult. Qed.
  Let T := x :: steady a p n.

  Lemma stray_period : (1 <= n)%nat -> score T p <= 3.
  Proof.
    intros Hn. unfold score, T. rewrite !count_cons. set (S := steady a p n) in *.
    assert (A : count (fun t => negb (mem (t - p) (x :: S))) S <= 1).
    { apply (steady_unique _ a p n a Hp). intros t I F. apply steady_in in I as (i & Hi & ->).
      destruct i as [|i]; [lia|]. exfalso. apply negb_true_iff, mem_false in F. apply F. right. apply steady_in. exists i. split; lia. }
    set (last := a + p * Z.of_nat (n - 1)).
    assert (L : forall t, In t S -> t <= last). { intros t I. apply steady_in in I as (i & Hi & ->). unfold last. nia. }
    assert (B : forall t, In t S -> negb (mem (t + p) (x :: S)) && existsb (Z.ltb (t + p)) (x :: S) = true -> t = last).
    { intros t I F. apply andb_prop in F as [F _]. apply negb_true_iff, mem_false in F. apply steady_in in I as (i & Hi & ->).
      destruct (Nat.eq_dec i (n - 1)) as [->|Ne]; [reflexivity|]. exfalso. apply F. right. apply steady_in. exists (Datatypes.S i). split; lia. }
    pose proof (steady_unique _ a p n last Hp B) as C. fold S in C.
    destruct (Z.leb_spec x last) as [Q|Q].
    - rewrite (count_none (fun t => negb (mem (t + p) (x :: S)) && existsb (Z.ltb (t + p)) (x :: S)) S).
      + destruct (negb (mem (x - p) (x :: S))), (negb (mem (x + p) (x :: S)) && existsb (Z.ltb (x + p)) (x :: S)); lia.
      + intros t I. destruct (negb (mem (t + p) (x :: S)) && existsb (Z.ltb (t + p)) (x :: S)) eqn:F; [|reflexivity].
        pose proof (B t I F) as ->. apply andb_prop in F as [_ F]. apply existsb_exists in F as (y & [<-|Y] & F); [lia|].
        specialize (L y Y). lia.
    - replace (negb (mem (x + p) (x :: S)) && existsb (Z.ltb (x + p)) (x :: S)) with false.
      + destruct (negb (mem (x - p) (x :: S))); lia.
      + symmetry. rewrite andb_false_iff. right. destruct (existsb (Z.ltb (x + p)) (x :: S)) eqn:F; [|reflexivity].
        apply existsb_exists in F as (y & [<-|Y] & F); [lia|]. specialize (L y Y). lia.
  Qed.
  Lemma stray_multiple k : (2 <= n)%nat -> 2 <= k -> 3 <= score T (k * p).
  Proof.
    intros Hn Hk. unfold score.
    pose proof (count_nonneg (fun t => negb (mem (t + k * p) T) && existsb (Z.ltb (t + k * p)) T) T).
    enough (3 <= count (fun t => negb (mem (t - k * p) T)) T) by lia.
    assert (N : forall t, (exists i, t = a + p * i /\ i <= 1) \/ t = x -> negb (mem (t - k * p) T) = true).
    { intros t Ht. apply negb_true_iff, mem_false. intros [I|I].
      - destruct Ht as [(i & -> & Hi)| ->]; [apply (off_grid (i - k)); lia|nia].
      - apply steady_in in I as (j & _ & I). destruct Ht as [(i & -> & Hi)| ->]; [nia|]. apply (off_grid (Z.of_nat j + k)). lia. }
    unfold T at 2. destruct n as [|[|m]]; [lia|lia|]. rewrite !steady_cons, !count_cons.
    rewrite (N x) by now right. rewrite (N a) by (left; exists 0; lia). rewrite (N (a + p)) by (left; exists 1; lia).
    pose proof (count_nonneg (fun t => negb (mem (t - k * p) T)) (steady (a + p + p) p m)). lia.
  Qed.
  Lemma stray_other e : e mod p <> 0 -> Z.of_nat n - 1 <= score T e.
  Proof.
    intros He. unfold score.
    pose proof (count_nonneg (fun t => negb (mem (t + e) T) && existsb (Z.ltb (t + e)) T) T).
    enough (Z.of_nat n - 1 <= count (fun t => negb (mem (t - e) T)) T) by lia.
    unfold T at 2. rewrite count_cons.
    assert (U : count (fun t => mem (t - e) T) (steady a p n) <= 1).
    { apply (steady_unique _ a p n (x + e) Hp). intros t I F. apply mem_in in F as [F|F]; [lia|]. exfalso.
      apply steady_in in I as (i & _ & ->). apply steady_in in F as (j & _ & F). apply He.
      replace e with ((Z.of_nat i - Z.of_nat j) * p) by lia. apply Z_mod_mult. }
    assert (C : forall l, count (fun t => negb (mem (t - e) T)) l + count (fun t => mem (t - e) T) l = Z.of_nat (length l)).
    { induction l as [|y l IH]; [reflexivity|]. rewrite !count_cons. cbn [length]. destruct (mem (y - e) T); cbn [negb]; lia. }
    specialize (C (steady a p n)). rewrite steady_length in C. destruct (negb (mem (x - e) T)); lia.
  Qed.
  Lemma stray_best : (5 <= n)%nat -> candidate p -> best T p.
  Proof.
    intros Hn C. pose proof (stray_period ltac:(lia)) as P. split; [exact C|].
    assert (D : forall e, candidate e -> e <> p -> e mod p = 0 -> exists k, e = k * p /\ 2 <= k).
    { intros e Ce Ne M. exists (e / p). pose proof (Z_div_mod_eq_full e p) as Q. set (q := e / p) in *. unfold candidate in *.
      split; [lia|]. assert (q <> 1) by (intros ->; lia). assert (0 < q) by nia. lia. }
    split.
    - intros e Ce. destruct (Z.eq_dec e p) as [->|Ne]; [lia|]. destruct (Z.eq_dec (e mod p) 0) as [M|M].
      + destruct (D e Ce Ne M) as (k & -> & Hk). pose proof (stray_multiple k ltac:(lia) Hk). lia.
      + pose proof (stray_other e M). lia.
    - intros e Ce L. destruct (Z.eq_dec (e mod p) 0) as [M|M].
      + destruct (D e Ce ltac:(lia) M) as (k & -> & Hk). nia.
      + pose proof (stray_other e M). lia.
  Qed.
End Stray.
Lemma one_more (T S : list Z) x : StronglySorted Z.lt T -> NoDup S -> ~ In x S ->
  (forall t, In t T <-> t = x \/ In t S) -> Permutation T (x :: S).
Proof.
  intros ST NS NX I. apply NoDup_Permutation; [now apply sorted_nodup|now constructor|].
  intros t. rewrite I. cbn [In]. split; intros [A|A]; auto.
Qed.
Lemma steady_nodup a p n : 0 < p -> NoDup (steady a p n).
Proof.
  intros Hp. revert a. induction n as [|n IH]; intro a; [constructor|]. rewrite steady_cons. constructor; [|apply IH].
  intros I. apply steady_in in I as (i & _ & E). nia.
Qed.

(** ** Any steady rhythm *)
Lemma far_apart a p n d : 0 < p -> p * (Z.of_nat n - 1) < d -> score (steady a p n) d = Z.of_nat n.
Proof.
  intros Hp F. unfold score. rewrite count_all, steady_length, count_none; [lia| |].
  - intros t I. apply andb_false_iff. right. destruct (existsb (Z.ltb (t + d)) (steady a p n)) eqn:E; [|reflexivity].
    apply existsb_exists in E as (y & Y & E). apply steady_in in I as (i & Hi & ->). apply steady_in in Y as (j & Hj & ->). nia.
  - intros t I. apply negb_true_iff, mem_false. intros J. apply steady_in in I as (i & Hi & ->). apply steady_in in J as (j & Hj & J). nia.
Qed.
Lemma flat_best T c : (forall e, candidate e -> score T e = c) -> best T 1000.
Proof.
  intros F. assert (C : candidate 1000) by (unfold candidate; lia). split; [exact C|]. split; intros e He.
  - rewrite !F by assumption. lia.
  - unfold candidate in He. lia.
Qed.
Lemma steady_last f a p n : count f (steady a p (S n)) = count f (steady a p n) + (if f (a + p * Z.of_nat n) then 1 else 0).
Proof.
  replace (S n) with (n + 1)%nat by lia. rewrite steady_app, count_app. f_equal. rewrite steady_cons, count_cons.
  change (steady _ p 0) with (@nil Z). rewrite count_nil. lia.
Qed.
Lemma between p e i j : 0 < e < p -> e = p * (i - j) -> False.
Proof. intros B E. destruct (Z_le_gt_dec (i - j) 0); nia. Qed.
Lemma slow_best a p n : 8000 <= p -> best (steady a p n) 1000.
Proof.
  intros Hp. destruct n as [|n].
  { apply (flat_best _ 0). reflexivity. }
  apply (flat_best _ (2 * Z.of_nat n + 1)). intros e He. unfold candidate in He. unfold score.
  rewrite count_all, steady_length.
  2:{ intros t I. apply negb_true_iff, mem_false. intros J. apply steady_in in I as (i & Hi & ->). apply steady_in in J as (j & Hj & J). apply (between p e (Z.of_nat i) (Z.of_nat j)); lia. }
  rewrite steady_last. rewrite (count_all _ (steady a p n)), steady_length.
  - replace (existsb (Z.ltb (a + p * Z.of_nat n + e)) (steady a p (S n))) with false; [rewrite andb_false_r; lia|].
    symmetry. destruct (existsb _ (steady a p (S n))) eqn:E; [|reflexivity]. apply existsb_exists in E as (y & Y & E).
    apply steady_in in Y as (j & Hj & ->). nia.
  - intros t I. apply steady_in in I as (i & Hi & ->). apply andb_true_intro. split.
    + apply negb_true_iff, mem_false. intros J. apply steady_in in J as (j & Hj & J). apply (between p e (Z.of_nat j) (Z.of_nat i)); lia.
    + apply existsb_exists. exists (a + p * Z.of_nat (S i)). split; [apply steady_in; exists (S i); split; lia|lia].
Qed.
Lemma fast_best a p n k : 0 < p -> (k - 1) * p < 1000 <= k * p -> k * p < 8000 -> k < Z.of_nat n -> best (steady a p n) (k * p).
Proof.
  intros Hp K K8 Hn. assert (C : candidate (k * p)) by (unfold candidate; lia). assert (K1 : 1 <= k) by nia.
  assert (EQ : steady a p n = steady a p (Z.to_nat k) ++ steady (a + p * k) p (n - Z.to_nat k)).
  { replace n with (Z.to_nat k + (n - Z.to_nat k))%nat at 1 by lia. rewrite steady_app. do 3 f_equal. lia. }
  assert (U : score (steady a p n) (k * p) <= k).
  { unfold score. rewrite (count_none (fun t => _ && _)).
    - set (f := fun t => negb (mem (t - k * p) (steady a p n))). rewrite EQ, count_app. rewrite (count_none _ (steady (a + p * k) p _)).
      + pose proof (count_le f (steady a p (Z.to_nat k))) as L. rewrite steady_length in L. lia.
      + intros t I. unfold f. apply negb_false_iff, mem_in. apply steady_in in I as (i & Hi & ->). apply steady_in. exists i. split; lia.
    - intros t I. apply steady_in in I as (i & Hi & ->). destruct (mem (a + p * Z.of_nat i + k * p) (steady a p n)) eqn:M; [reflexivity|].
      cbn [negb andb]. apply mem_false in M. destruct (existsb _ _) eqn:E; [|reflexivity]. exfalso.
      apply existsb_exists in E as (y & Y & E). apply steady_in in Y as (j & Hj & ->). apply M. apply steady_in.
      exists (i + Z.to_nat k)%nat. split; [nia|lia]. }
  assert (O : forall e, candidate e -> e mod p <> 0 -> Z.of_nat n <= score (steady a p n) e).
  { intros e Ce M. unfold score.
    pose proof (count_nonneg (fun t => negb (mem (t + e) (steady a p n)) && existsb (Z.ltb (t + e)) (steady a p n)) (steady a p n)).
    rewrite count_all, steady_length; [lia|]. intros t I. apply negb_true_iff, mem_false. intros J.
    apply steady_in in I as (i & Hi & ->). apply steady_in in J as (j & Hj & J). apply M.
    replace e with ((Z.of_nat i - Z.of_nat j) * p) by lia. apply Z_mod_mult. }
  assert (D : forall e, candidate e -> e mod p = 0 -> exists j, e = j * p /\ k <= j).
  { intros e Ce M. exists (e / p). pose proof (Z_div_mod_eq_full e p) as Q. set (q := e / p) in *. unfold candidate in *.
    split; [lia|]. assert (k - 1 < q) by nia. lia. }
  split; [exact C|]. split; intros e He.
  - destruct (Z.eq_dec (e mod p) 0) as [M|M]; [|specialize (O e He M); lia].
    destruct (D e He M) as (j & -> & Hj). unfold score.
    pose proof (count_nonneg (fun t => negb (mem (t + j * p) (steady a p n)) && existsb (Z.ltb (t + j * p)) (steady a p n)) (steady a p n)).
    enough (k <= count (fun t => negb (mem (t - j * p) (steady a p n))) (steady a p n)) by (unfold score in U; lia).
    set (f := fun t => negb (mem (t - j * p) (steady a p n))). rewrite EQ, count_app. rewrite (count_all _ (steady a p (Z.to_nat k))).
    + rewrite steady_length. pose proof (count_nonneg f (steady (a + p * k) p (n - Z.to_nat k))). lia.
    + intros t I. unfold f. apply negb_true_iff, mem_false. intros J. apply steady_in in I as (i & Hi & ->). apply steady_in in J as (m & Hm & J). nia.
  - intro L. destruct (Z.eq_dec (e mod p) 0) as [M|M]; [|specialize (O e He M); lia].
    destruct (D e He M) as (j & -> & Hj). nia.
Qed.
(** The estimate for [n] key-ons [p] samples apart. *)
Lemma any_steady_best a p n : 0 < p ->
  best (steady a p n) (if (8000 <=? p) || (p * (Z.of_nat n - 1) <? 1000) then 1000 else (999 + p) / p * p).
Proof.
  intros Hp. destruct (Z.leb_spec 8000 p) as [S|S]; cbn [orb]; [now apply slow_best|].
  pose proof (Z_div_mod_eq_full (999 + p) p) as Q. pose proof (Z.mod_pos_bound (999 + p) p Hp) as B. set (k := (999 + p) / p) in *.
  destruct (Z.ltb_spec (p * (Z.of_nat n - 1)) 1000) as [L|L].
  - apply (flat_best _ (Z.of_nat n)). intros e He. apply far_apart; [exact Hp|]. unfold candidate in He. lia.
  - apply fast_best; [exact Hp|nia| |nia].
    destruct (Z.leb_spec 1000 p); [|nia]. assert (k = 1) by nia. subst k. nia.
Qed.
