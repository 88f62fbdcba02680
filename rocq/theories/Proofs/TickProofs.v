(** The tick estimator: its loops compute [score]. *)
From Coq Require Import Lia ZifyBool Sorted.
From Verif.Model Require Import Py PyFloat Config Note State Ticks.
From Verif.Spec Require Import Rhythm.
From Verif.Proofs Require Import PyLemmas.

(** ** The two-pointer merge on lists *)
Fixpoint merge (ts : list Z) : list Z -> Z :=
  match ts with
  | [] => fun _ => 0
  | t :: ts' =>
      fix go (ss : list Z) : Z :=
        match ss with
        | [] => 0
        | s :: ss' =>
            if t <? s then 1 + merge ts' ss
            else if s <? t then 1 + go ss'
            else merge ts' ss'
        end
  end.
Lemma merge_cons t ts s ss : merge (t :: ts) (s :: ss) =
  if t <? s then 1 + merge ts (s :: ss) else if s <? t then 1 + merge (t :: ts) ss else merge ts ss.
Proof. reflexivity. Qed.
Lemma merge_nil ts : merge ts [] = 0.
Proof. destruct ts; reflexivity. Qed.

Lemma skipn_get {A} (l : list A) i x r : 0 <= i -> skipn (Z.to_nat i) l = x :: r ->
  py_get l i = Ok x /\ skipn (Z.to_nat (i + 1)) l = r.
Proof.
  intros Hi E. assert (Hlen : (Z.to_nat i < length l)%nat).
  { apply (f_equal (@length A)) in E. rewrite skipn_length in E. cbn in E. lia. }
  split.
  - rewrite (py_get_in l i x) by (unfold len; lia). f_equal.
    rewrite <- (firstn_skipn (Z.to_nat i) l), E, app_nth2; rewrite firstn_length; [|lia].
    replace (Z.to_nat i - Nat.min (Z.to_nat i) (length l))%nat with 0%nat by lia. reflexivity.
  - replace (Z.to_nat (i + 1)) with (1 + Z.to_nat i)%nat by lia.
    rewrite <- (Nat.add_comm (Z.to_nat i)).
    replace (skipn (Z.to_nat i + 1) l) with (skipn 1 (skipn (Z.to_nat i) l)); [now rewrite E|].
    clear. revert l. induction (Z.to_nat i) as [|n IH]; intros l; [reflexivity|].
    destruct l; [now rewrite !skipn_nil|]. apply IH.
Qed.
Lemma skipn_end {A} (l : list A) i : 0 <= i -> skipn (Z.to_nat i) l = [] ->
  py_get l i = Err IndexError.
Proof.
  intros Hi E. apply py_get_over. apply (f_equal (@length A)) in E. rewrite skipn_length in E.
  cbn in E. unfold len. lia.
Qed.

Section Loops.
  Variable tks : list Z.
  Variable d : Z.
  Let at_t (i : Z) (ts : list Z) := 0 <= i /\ skipn (Z.to_nat i) tks = ts.

  Lemma at_len i ts : at_t i ts -> (length ts <= length tks)%nat.
  Proof. intros [_ <-]. rewrite skipn_length. lia. Qed.

  Lemma while_t_merge : forall ts fuel i t s ss sd, (length ts < fuel)%nat -> at_t i (t :: ts) ->
    (while_t tks fuel i t s sd = Exit (sd + merge (t :: ts) (s :: ss)))
    \/ exists i' t' ts', while_t tks fuel i t s sd
         = Fall (i', t', sd + merge (t :: ts) (s :: ss) - merge (t' :: ts') (s :: ss))
       /\ at_t i' (t' :: ts') /\ s <= t' /\ (length ts' <= length ts)%nat
       /\ (t < s -> (length ts' < length ts)%nat) /\ (s <= t -> t' = t).
  Proof.
    induction ts as [|u ts IH]; intros fuel i t s ss sd Hf Ha; (destruct fuel as [|k]; [cbn in Hf; lia|]);
      cbn [while_t]; destruct Ha as [Hi Ea]; destruct (skipn_get _ _ _ _ Hi Ea) as [_ En].
    - destruct (t <? s) eqn:Ets.
      + left. rewrite (skipn_end tks (i + 1)) by (lia || assumption).
        rewrite merge_cons, Ets. cbn [merge]. f_equal.
      + right. exists i, t, []. split; [do 3 f_equal; lia|]. split; [split; assumption|].
        split; [lia|]. split; [lia|]. split; [lia|]. reflexivity.
    - destruct (t <? s) eqn:Ets.
      + destruct (skipn_get tks (i + 1) u ts ltac:(lia) En) as [Eg _]. rewrite Eg.
        destruct (IH k (i + 1) u s ss (sd + 1)) as [E|(i' & t' & ts' & E & H1 & H2 & H3 & H4 & H5)].
        * cbn in Hf. lia.
        * split; [lia|assumption].
        * left. rewrite E. rewrite (merge_cons t (u :: ts)), Ets. f_equal. lia.
        * right. exists i', t', ts'. split.
          { rewrite E. rewrite (merge_cons t (u :: ts)), Ets. do 3 f_equal. lia. }
          split; [assumption|]. split; [assumption|]. cbn [length]. split; [lia|]. split; [lia|]. lia.
      + right. exists i, t, (u :: ts). split; [do 3 f_equal; lia|]. split; [split; assumption|].
        split; [lia|]. split; [lia|]. split; [lia|]. reflexivity.
  Qed.

  Let sh (l : list Z) := map (fun x => x + d) l.
  Lemma while_s_merge : forall ss fuel i t ts s0 sd, (length ss < fuel)%nat -> at_t i (s0 :: ss) ->
    (while_s tks d fuel i t (s0 + d) sd = Exit (sd + merge (t :: ts) (sh (s0 :: ss))))
    \/ exists i' s' ss', while_s tks d fuel i t (s0 + d) sd
         = Fall (i', s' + d, sd + merge (t :: ts) (sh (s0 :: ss)) - merge (t :: ts) (sh (s' :: ss')))
       /\ at_t i' (s' :: ss') /\ t <= s' + d /\ (length ss' <= length ss)%nat
       /\ (s0 + d < t -> (length ss' < length ss)%nat) /\ (t <= s0 + d -> s' = s0).
  Proof.
    induction ss as [|u ss IH]; intros fuel i t ts s0 sd Hf Ha; (destruct fuel as [|k]; [cbn in Hf; lia|]);
      cbn [while_s]; destruct Ha as [Hi Ea]; destruct (skipn_get _ _ _ _ Hi Ea) as [_ En].
    - destruct (s0 + d <? t) eqn:Ets.
      + left. rewrite (skipn_end tks (i + 1)) by (lia || assumption).
        cbn [sh map]. rewrite merge_cons, Ets, merge_nil.
        replace (t <? s0 + d) with false by lia. f_equal.
      + right. exists i, s0, []. split; [do 3 f_equal; lia|]. split; [split; assumption|].
        split; [lia|]. split; [lia|]. split; [lia|]. reflexivity.
    - destruct (s0 + d <? t) eqn:Ets.
      + destruct (skipn_get tks (i + 1) u ss ltac:(lia) En) as [Eg _]. rewrite Eg.
        destruct (IH k (i + 1) t ts u (sd + 1)) as [E|(i' & t' & ts' & E & H1 & H2 & H3 & H4 & H5)].
        * cbn in Hf. lia.
        * split; [lia|assumption].
        * left. rewrite E. unfold sh at 2. cbn [map]. rewrite merge_cons, Ets.
          replace (t <? s0 + d) with false by lia. f_equal. unfold sh. cbn [map]. lia.
        * right. exists i', t', ts'. split.
          { rewrite E. unfold sh at 3. cbn [map]. rewrite (merge_cons t ts (s0 + d)), Ets.
            replace (t <? s0 + d) with false by lia. do 3 f_equal. unfold sh. cbn [map]. lia. }
          split; [assumption|]. split; [assumption|]. cbn [length]. split; [lia|]. split; [lia|]. lia.
      + right. exists i, s0, (u :: ss). split; [do 3 f_equal; lia|]. split; [split; assumption|].
        split; [lia|]. split; [lia|]. split; [lia|]. reflexivity.
  Qed.

  Lemma while_true_merge : forall fuel i j t ts s0 ss sd,
    (length ts + length ss < fuel)%nat -> at_t i (t :: ts) -> at_t j (s0 :: ss) ->
    while_true tks d fuel i j t (s0 + d) sd = Exit (sd + merge (t :: ts) (sh (s0 :: ss))).
  Proof.
    induction fuel as [|k IH]; intros i j t ts s0 ss sd Hf Ht Hs; [lia|]. cbn [while_true].
    pose proof (at_len _ _ Ht) as Lt. pose proof (at_len _ _ Hs) as Ls. cbn [length] in Lt, Ls.
    destruct (while_t_merge ts (S (length tks)) i t (s0 + d) (sh ss) sd ltac:(lia) Ht)
      as [E|(i' & t' & ts' & E & A1 & A2 & A3 & A4 & A5)]; rewrite E.
    { reflexivity. }
    set (sd1 := sd + merge (t :: ts) (s0 + d :: sh ss) - merge (t' :: ts') (s0 + d :: sh ss)).
    destruct (while_s_merge ss (S (length tks)) j t' ts' s0 sd1 ltac:(lia) Hs)
      as [E'|(j' & s' & ss' & E' & B1 & B2 & B3 & B4 & B5)]; rewrite E'.
    { f_equal. subst sd1. unfold sh. cbn [map]. lia. }
    set (sd2 := sd1 + merge (t' :: ts') (sh (s0 :: ss)) - merge (t' :: ts') (sh (s' :: ss'))).
    assert (Etot : sd2 + merge (t' :: ts') (sh (s' :: ss')) = sd + merge (t :: ts) (sh (s0 :: ss))).
    { subst sd2 sd1. unfold sh. cbn [map]. lia. }
    rewrite <- Etot.
    destruct A1 as [Hi' Ei']. destruct B1 as [Hj' Ej'].
    destruct (skipn_get _ _ _ _ Hi' Ei') as [_ Ni]. destruct (skipn_get _ _ _ _ Hj' Ej') as [_ Nj].
    destruct (Z.eqb_spec t' (s' + d)) as [Eq|Ne].
    - assert (Em : merge (t' :: ts') (sh (s' :: ss')) = merge ts' (sh ss')).
      { unfold sh. cbn [map]. rewrite merge_cons. subst t'. now rewrite Z.ltb_irrefl. }
      rewrite Em. destruct ts' as [|u ts'].
      { rewrite (skipn_end tks (i' + 1)) by (lia || assumption). cbn [merge]. f_equal. lia. }
      destruct (skipn_get tks (i' + 1) u ts' ltac:(lia) Ni) as [Eg _]. rewrite Eg.
      destruct ss' as [|w ss'].
      { rewrite (skipn_end tks (j' + 1)) by (lia || assumption). unfold sh. cbn [map]. rewrite merge_nil.
        f_equal. lia. }
      destruct (skipn_get tks (j' + 1) w ss' ltac:(lia) Nj) as [Eg' _]. rewrite Eg'.
      cbn [length] in *.
      rewrite (IH (i' + 1) (j' + 1) u ts' w ss'); [reflexivity|lia| |]; split; (lia || assumption).
    - rewrite (IH i' j' t' ts' s' ss'); [reflexivity| |split; assumption|split; assumption].
      assert (t' < s' + d) by lia.
      destruct (Z.lt_ge_cases t (s0 + d)) as [H1|H1]; [specialize (A4 H1); lia|].
      specialize (A5 H1). subst t'. destruct (Z.lt_ge_cases (s0 + d) t) as [H2|H2]; [specialize (B4 H2); lia|].
      specialize (B5 H2). subst s'. lia.
  Qed.

  Lemma sym_diff_merge : sym_diff_of tks d = Ok (merge tks (sh tks)).
  Proof.
    unfold sym_diff_of.
    assert (C : tks = [] \/ exists t0 r, tks = t0 :: r) by (destruct tks; eauto).
    destruct C as [E|(t0 & r & E)]; [rewrite E; reflexivity|].
    assert (A : at_t 0 (t0 :: r)) by (split; [lia|]; rewrite E; reflexivity).
    rewrite (proj1 (skipn_get tks 0 t0 r ltac:(lia) ltac:(rewrite E; reflexivity))).
    rewrite (while_true_merge _ 0 0 t0 r t0 r 0); [|rewrite E; cbn [length]; lia|assumption|assumption].
    rewrite E. reflexivity.
  Qed.
End Loops.

(** ** The merge counts unmatched positions *)
Lemma mem_in x l : mem x l = true <-> In x l.
Proof.
  unfold mem. rewrite existsb_exists. split.
  - intros (y & Hy & E). assert (x = y) by lia. now subst.
  - intros H. exists x. split; [assumption|lia].
Qed.
Lemma mem_cons x y l : mem x (y :: l) = (x =? y) || mem x l.
Proof. reflexivity. Qed.
Lemma mem_above x l y : Forall (Z.lt y) l -> x <= y -> mem x l = false.
Proof.
  intros H Hx. apply not_true_iff_false. rewrite mem_in. intros Hi.
  pose proof (proj1 (Forall_forall _ _) H _ Hi). cbn in H0. lia.
Qed.
Lemma count_ext {A} (p q : A -> bool) l : (forall x, In x l -> p x = q x) -> count p l = count q l.
Proof. intros H. unfold count. rewrite (filter_ext_in _ _ _ H). reflexivity. Qed.
Lemma count_cons {A} (p : A -> bool) x l : count p (x :: l) = (if p x then 1 else 0) + count p l.
Proof. unfold count. cbn [filter]. destruct (p x); cbn [length]; lia. Qed.
Lemma count_nil {A} (p : A -> bool) : count p [] = 0.
Proof. reflexivity. Qed.
Lemma count_nonneg {A} (p : A -> bool) l : 0 <= count p l.
Proof. unfold count. lia. Qed.
Lemma count_le {A} (p : A -> bool) l : count p l <= Z.of_nat (length l).
Proof. unfold count. induction l as [|x l IH]; cbn [filter length]; [lia|]. destruct (p x); cbn [length]; lia. Qed.

Definition miss (ts ss : list Z) : Z :=
  count (fun t => negb (mem t ss)) ts + count (fun s => negb (mem s ts) && existsb (Z.ltb s) ts) ss.

Lemma merge_miss : forall n ts ss, (length ts + length ss <= n)%nat ->
  StronglySorted Z.lt ts -> StronglySorted Z.lt ss ->
  (forall t, In t ts -> exists s, In s ss /\ t < s) -> merge ts ss = miss ts ss.
Proof.
  induction n as [|n IH]; intros ts ss Hn St Ss Hl.
  - destruct ts, ss; cbn in Hn; try lia. reflexivity.
  - destruct ts as [|t ts].
    + cbn [merge]. unfold miss. rewrite count_nil. symmetry.
      rewrite (count_ext _ (fun _ => false)); [|intros; apply andb_false_r].
      unfold count. induction ss; [reflexivity|]. cbn [filter] in *.
      inversion Ss; subst. apply IHss; [cbn in Hn |- *; lia|assumption|]. intros ? [].
    + destruct ss as [|s ss].
      { destruct (Hl t (or_introl eq_refl)) as (? & [] & _). }
      apply StronglySorted_inv in St as [St Ft]. apply StronglySorted_inv in Ss as [Ss Fs].
      cbn [length] in Hn. rewrite merge_cons. unfold miss.
      pose proof (proj1 (Forall_forall _ _) Ft) as Ft'. pose proof (proj1 (Forall_forall _ _) Fs) as Fs'.
      cbn beta in Ft', Fs'.
      destruct (Z.ltb_spec t s) as [H|H].
      { rewrite (IH ts (s :: ss)); [|cbn [length]; lia|assumption|now constructor|].
        2:{ intros u Hu. apply Hl. now right. }
        unfold miss. rewrite (count_cons _ t ts).
        rewrite mem_cons. replace (t =? s) with false by lia. rewrite (mem_above t ss s) by (assumption || lia).
        cbn [orb negb].
        rewrite (count_ext (fun s0 => negb (mem s0 (t :: ts)) && existsb (Z.ltb s0) (t :: ts))
                   (fun s0 => negb (mem s0 ts) && existsb (Z.ltb s0) ts) (s :: ss)).
        2:{ intros x Hx. assert (s <= x) by (destruct Hx as [<-|Hx]; [lia|specialize (Fs' _ Hx); lia]).
            rewrite mem_cons. cbn [existsb]. replace (x =? t) with false by lia.
            replace (x <? t) with false by lia. reflexivity. }
        lia. }
      destruct (Z.ltb_spec s t) as [H'|H'].
      { rewrite (IH (t :: ts) ss); [|cbn [length]; lia|now constructor|assumption|].
        2:{ intros u Hu. destruct (Hl u Hu) as (w & [<-|Hw] & Hlt); [|eauto].
            destruct Hu as [<-|Hu]; [lia|]. specialize (Ft' _ Hu). lia. }
        unfold miss. rewrite (count_cons _ s ss).
        rewrite mem_cons. replace (s =? t) with false by lia.
        rewrite (mem_above s ts t) by (assumption || lia).
        cbn [existsb]. replace (s <? t) with true by lia. cbn [orb negb andb].
        rewrite (count_ext (fun t0 => negb (mem t0 (s :: ss))) (fun t0 => negb (mem t0 ss)) (t :: ts)).
        2:{ intros x Hx. assert (t <= x) by (destruct Hx as [<-|Hx]; [lia|specialize (Ft' _ Hx); lia]).
            rewrite mem_cons. replace (x =? s) with false by lia. reflexivity. }
        lia. }
      assert (s = t) by lia. subst s.
      rewrite (IH ts ss); [|lia|assumption|assumption|].
      2:{ intros u Hu. destruct (Hl u (or_intror Hu)) as (w & [<-|Hw] & Hlt); [|eauto].
          specialize (Ft' _ Hu). lia. }
      unfold miss. rewrite !count_cons, !mem_cons, Z.eqb_refl. cbn [orb negb andb].
      rewrite (count_ext (fun t0 => negb (mem t0 (t :: ss))) (fun t0 => negb (mem t0 ss)) ts).
      2:{ intros x Hx. specialize (Ft' _ Hx). rewrite mem_cons. replace (x =? t) with false by lia. reflexivity. }
      rewrite (count_ext (fun s0 => negb (mem s0 (t :: ts)) && existsb (Z.ltb s0) (t :: ts))
                 (fun s0 => negb (mem s0 ts) && existsb (Z.ltb s0) ts) ss).
      2:{ intros x Hx. specialize (Fs' _ Hx). rewrite mem_cons. cbn [existsb].
          replace (x =? t) with false by lia. replace (x <? t) with false by lia. reflexivity. }
      lia.
Qed.

Lemma count_map {A B} (f : A -> B) p l : count p (map f l) = count (fun x => p (f x)) l.
Proof. unfold count. induction l as [|x l IH]; [reflexivity|]. cbn [map filter]. destruct (p (f x)); cbn [length]; lia. Qed.
Lemma mem_shift x d l : mem x (map (fun y => y + d) l) = mem (x - d) l.
Proof.
  unfold mem. induction l as [|y l IH]; [reflexivity|]. cbn [map existsb]. rewrite IH. f_equal. lia.
Qed.

Lemma score_ok T d : StronglySorted Z.lt T -> 0 < d -> sym_diff_of T d = Ok (score T d).
Proof.
  intros S Hd. rewrite sym_diff_merge. f_equal.
  rewrite (merge_miss (length T + length (map (fun x => x + d) T))); [|lia|assumption| |].
  - unfold miss, score. rewrite count_map. f_equal.
    apply count_ext. intros t _. now rewrite mem_shift.
  - clear Hd. induction S as [|x l S IH F]; cbn [map]; constructor; [assumption|].
    rewrite Forall_map. eapply Forall_impl; [|exact F]. cbn. lia.
  - intros t Ht. exists (last T 0 + d).
    assert (Hmax : t <= last T 0 /\ In (last T 0) T).
    { clear -S Ht. revert t Ht. induction S as [|x l S IH F]; intros t Ht; [destruct Ht|].
      destruct l as [|y l]; [destruct Ht as [<-|[]]; cbn; split; [lia|auto]|].
      change (last (x :: y :: l) 0) with (last (y :: l) 0).
      destruct Ht as [<-|Ht].
      - destruct (IH y (or_introl eq_refl)) as [H1 H2]. split; [|now right].
        apply Forall_inv in F. lia.
      - destruct (IH t Ht) as [H1 H2]. split; [assumption|now right]. }
    split; [apply in_map_iff; exists (last T 0); split; [reflexivity|apply Hmax]|lia].
Qed.
