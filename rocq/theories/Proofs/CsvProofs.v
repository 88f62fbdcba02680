(** The CSV export. *)
From Coq Require Import ZArith List Bool String Lia ZifyBool Sorting.Sorted.
From Verif.Model Require Import Py PyFloat Config Note State Ticks Song Extract Csv.
From Verif.Spec Require Import Ranges Text Tracker Sheet.
From Verif.Proofs Require Import PyLemmas TextProofs TempoProofs.
Import ListNotations.
Open Scope Z_scope.

Lemma note_str_text n : note_in_range n -> note_str n = Ok (event_text n).
Proof.
  intros (_ & Ho & Hk & Hf & _). unfold width in *. unfold note_str, event_text, is_off.
  destruct (n_config_id n <? 0); [reflexivity|].
  assert (L : lookup note_lookup (n_note n) = Ok (nth (Z.to_nat (n_note n)) code_names ""%string)).
  { unfold lookup. destruct (Z.ltb_spec (n_note n) 0); [lia|].
    rewrite (nth_error_nth' _ ""%string) by (cbn; lia). reflexivity. }
  rewrite L. cbn [bind].
  assert (K : (if 1 <? n_key_fraction n then kf_text (n_key_fraction n) else Ok ""%string) = Ok (fine (n_key_fraction n))).
  { assert (S : match (if 1 <? n_key_fraction n then kf_text (n_key_fraction n) else Ok ""%string) with
                | Ok t => String.eqb t (fine (n_key_fraction n)) | Err _ => false end = true).
    { apply (sweep 64 (fun k => match (if 1 <? k then kf_text k else Ok ""%string) with
                | Ok t => String.eqb t (fine k) | Err _ => false end)); [vm_compute; reflexivity|lia]. }
    destruct (if 1 <? n_key_fraction n then _ else _); [|discriminate].
    apply String.eqb_eq in S. now subst. }
  rewrite K. cbn [bind]. f_equal. f_equal. f_equal. f_equal. f_equal. f_equal. f_equal. f_equal.
  unfold side. destruct (n_right n), (n_left n); reflexivity.
Qed.

Lemma last_event_nil tpn r : last_event tpn [] r = None.
Proof. reflexivity. Qed.
Lemma last_event_cons tpn n l r : last_event tpn (n :: l) r =
  match last_event tpn l r with
  | Some m => Some m
  | None => if n_sample n / tpn =? r then Some n else None
  end.
Proof.
  unfold last_event. cbn [filter]. destruct (n_sample n / tpn =? r).
  - cbn [rev]. destruct (rev (filter _ l)); reflexivity.
  - destruct (rev (filter _ l)); reflexivity.
Qed.
Lemma last_event_none tpn l r : (forall n, In n l -> n_sample n / tpn <> r) -> last_event tpn l r = None.
Proof.
  induction l as [|n l IH]; intro H; [reflexivity|]. rewrite last_event_cons, IH.
  - specialize (H n (or_introl eq_refl)). destruct (Z.eqb_spec (n_sample n / tpn) r); [contradiction|reflexivity].
  - intros m Hm. apply H. now right.
Qed.

Definition sorted_log (l : list note) : Prop := StronglySorted (fun a b => n_sample a <= n_sample b) l.

(** The heads' minimum is the overall minimum. *)
Lemma fold_min l x : fold_left Z.min l x <= x /\ (forall y, In y l -> fold_left Z.min l x <= y)
  /\ (fold_left Z.min l x = x \/ In (fold_left Z.min l x) l).
Proof.
  revert x. induction l as [|a l IH]; intro x; cbn [fold_left].
  - split; [lia|]. split; [intros y []|now left].
  - destruct (IH (Z.min x a)) as (A & B & C). split; [lia|]. split.
    + intros y [<-|Hy]; [lia|auto].
    + destruct C as [C|C]; [|right; now right].
      rewrite C. destruct (Z.min_spec x a) as [[_ ->]|[_ ->]]; [now left|right; now left].
Qed.
Lemma min_sample_none chs : min_sample chs = None -> concat chs = [].
Proof.
  unfold min_sample. destruct (head_samples chs) eqn:E; [|discriminate]. intros _.
  unfold head_samples in E. induction chs as [|l chs IH]; [reflexivity|]. cbn [flat_map concat] in *.
  destruct l; [|discriminate]. apply IH. exact E.
Qed.
Lemma min_sample_some chs m : Forall sorted_log chs -> min_sample chs = Some m ->
  (forall n, In n (concat chs) -> m <= n_sample n)
  /\ (exists l n r, In l chs /\ l = n :: r /\ n_sample n = m).
Proof.
  intros S H. unfold min_sample in H. destruct (head_samples chs) as [|x r] eqn:E; [discriminate|]. injection H as <-.
  destruct (fold_min r x) as (A & B & C).
  assert (LB : forall y, In y (head_samples chs) -> fold_left Z.min r x <= y).
  { rewrite E. intros y [<-|Hy]; auto. }
  assert (MEM : In (fold_left Z.min r x) (head_samples chs)).
  { rewrite E. destruct C as [->|C]; [now left|now right]. }
  split.
  - intros n Hn. apply in_concat in Hn as (l & Hl & Hn). rewrite Forall_forall in S. specialize (S l Hl).
    destruct l as [|h t]; [destruct Hn|].
    assert (fold_left Z.min r x <= n_sample h).
    { apply LB. unfold head_samples. apply in_flat_map. exists (h :: t). split; [assumption|now left]. }
    destruct Hn as [<-|Hn]; [assumption|]. inversion S as [|? ? _ F]; subst. rewrite Forall_forall in F. specialize (F n Hn). lia.
  - unfold head_samples in MEM. apply in_flat_map in MEM as (l & Hl & M). destruct l as [|h t]; [destruct M|].
    destruct M as [M|[]]. exists (h :: t), h, t. auto.
Qed.

(** One pass over the channels: an event of the current row is taken from each
    channel that has one at its head. *)
Definition pop (tpn row : Z) (l : list note) : list note :=
  match l with n :: r => if n_sample n / tpn =? row then r else l | [] => [] end.
Definition show (tpn row : Z) (l : list note) (c : string) : string :=
  match l with n :: _ => if n_sample n / tpn =? row then event_text n else c | [] => c end.
Fixpoint zipw {A B C} (f : A -> B -> C) (a : list A) (b : list B) : list C :=
  match a, b with x :: a, y :: b => f x y :: zipw f a b | _, _ => [] end.
Lemma take_row_ok tpn row : tpn <> 0 -> forall chs nr, List.length nr = List.length chs ->
  Forall (Forall note_in_range) chs ->
  take_row tpn row chs nr = Ok (map (pop tpn row) chs, zipw (show tpn row) chs nr).
Proof.
  intro T. induction chs as [|l chs IH]; intros [|c nr] L R; cbn [List.length] in L; try discriminate; [reflexivity|].
  inversion R as [|? ? Rl R']; subst. cbn [take_row map zipw].
  assert (ST : match l with
     | [] => Ok (l, c)
     | n :: rest => let! r := floor_div (n_sample n) tpn in
         if r =? row then let! t := note_str n in Ok (rest, t) else Ok (l, c)
     end = Ok (pop tpn row l, show tpn row l c)).
  { destruct l as [|n l]; [reflexivity|]. unfold floor_div. destruct (Z.eqb_spec tpn 0); [contradiction|]. cbn [bind].
    unfold pop, show. destruct (n_sample n / tpn =? row); [|reflexivity].
    apply Forall_inv in Rl. rewrite note_str_text by assumption. reflexivity. }
  rewrite ST. cbn [bind]. rewrite IH by (auto with arith). reflexivity.
Qed.

(** The cells of row [i] seen from a state of the loop with pending texts [nr]. *)
Definition cell_of (tpn i : Z) (l : list note) (c : string) : string :=
  match last_event tpn l i with Some n => event_text n | None => c end.

Lemma pop_cell tpn row l c : cell_of tpn row (pop tpn row l) (show tpn row l c) = cell_of tpn row l c.
Proof.
  unfold cell_of. destruct l as [|n l]; [reflexivity|]. unfold pop, show.
  destruct (n_sample n / tpn =? row) eqn:E; [|reflexivity].
  rewrite last_event_cons, E. destruct (last_event tpn l row); reflexivity.
Qed.
Lemma pop_last tpn row i l : i <> row -> last_event tpn (pop tpn row l) i = last_event tpn l i.
Proof.
  intro N. destruct l as [|n l]; [reflexivity|]. unfold pop.
  destruct (Z.eqb_spec (n_sample n / tpn) row); [|reflexivity]. rewrite last_event_cons.
  destruct (last_event tpn l i); [reflexivity|]. destruct (Z.eqb_spec (n_sample n / tpn) i); [congruence|reflexivity].
Qed.
Lemma pop_in tpn row l n : In n (pop tpn row l) -> In n l.
Proof.
  destruct l as [|m l]; [auto|]. unfold pop. destruct (_ =? _); [|auto]. intro; now right.
Qed.
Lemma pop_in_other tpn row l n : In n l -> n_sample n / tpn <> row -> In n (pop tpn row l).
Proof.
  destruct l as [|m l]; [auto|]. unfold pop. destruct (Z.eqb_spec (n_sample m / tpn) row); [|auto].
  intros [<-|H] N; [congruence|assumption].
Qed.
Lemma pop_sorted tpn row l : sorted_log l -> sorted_log (pop tpn row l).
Proof.
  destruct l as [|m l]; [auto|]. unfold pop. destruct (_ =? _); [|auto]. intro H. now inversion H.
Qed.
Lemma pop_length tpn row l : (List.length (pop tpn row l) <= List.length l)%nat.
Proof. destruct l as [|m l]; [auto|]. unfold pop. destruct (_ =? _); cbn; lia. Qed.
Lemma pops_length tpn row chs : (List.length (concat (map (pop tpn row) chs)) <= List.length (concat chs))%nat.
Proof.
  induction chs as [|l chs IH]; cbn [map concat]; [lia|]. rewrite !app_length. pose proof (pop_length tpn row l). lia.
Qed.
Lemma pops_less tpn row chs n r : In (n :: r) chs -> n_sample n / tpn = row ->
  (List.length (concat (map (pop tpn row) chs)) < List.length (concat chs))%nat.
Proof.
  intros H E. induction chs as [|l chs IH]; [destruct H|]. cbn [map concat]. rewrite !app_length.
  destruct H as [->|H].
  - pose proof (pops_length tpn row chs). unfold pop at 1. rewrite E, Z.eqb_refl. cbn [List.length]. lia.
  - specialize (IH H). pose proof (pop_length tpn row l). lia.
Qed.
Lemma zipw_length {A B C} (f : A -> B -> C) a b : List.length b = List.length a -> List.length (zipw f a b) = List.length a.
Proof. revert b. induction a as [|x a IH]; intros [|y b] H; cbn in *; try discriminate; auto. Qed.
Lemma zipw_nth {A B C} (f : A -> B -> C) a b k x y : nth_error a k = Some x -> nth_error b k = Some y ->
  nth_error (zipw f a b) k = Some (f x y).
Proof.
  revert b k. induction a as [|x0 a IH]; intros [|y0 b] [|k]; cbn [nth_error zipw]; intros; try discriminate; auto.
  congruence.
Qed.
Lemma zipw_pop tpn row chs nr : zipw (cell_of tpn row) (map (pop tpn row) chs) (zipw (show tpn row) chs nr)
  = zipw (cell_of tpn row) chs nr.
Proof.
  revert nr. induction chs as [|l chs IH]; intros [|c nr]; cbn [map zipw]; try reflexivity.
  now rewrite pop_cell, IH.
Qed.
Lemma zipw_last tpn row i chs nr nr' : i <> row -> List.length nr = List.length chs -> List.length nr' = List.length chs ->
  zipw (fun l (_ : string) => cell_text (last_event tpn l i)) (map (pop tpn row) chs) nr
  = zipw (fun l (_ : string) => cell_text (last_event tpn l i)) chs nr'.
Proof.
  intro N. revert nr nr'. induction chs as [|l chs IH]; intros [|c nr] [|c' nr']; cbn [map zipw List.length]; try discriminate; auto.
  intros L L'. rewrite pop_last by assumption. f_equal. apply IH; lia.
Qed.

(** The rows expected from a state of the loop. *)
Definition next_time (tpn : Z) (chs : list (list note)) (i t : Z) : Prop :=
  (exists n, In n (concat chs) /\ n_sample n = t /\ i < t / tpn)
  /\ forall n, In n (concat chs) -> i < n_sample n / tpn -> t <= n_sample n.
Definition cells_at (tpn : Z) (chs : list (list note)) (nr : list string) (tr i : Z) : list string :=
  if i =? tr then zipw (cell_of tpn i) chs nr
  else zipw (fun l (_ : string) => cell_text (last_event tpn l i)) chs nr.
Definition row_good (tpn : Z) (chs : list (list note)) (nr : list string) (tr i : Z) (r : list string) : Prop :=
  exists t fr, next_time tpn chs i t /\ csv_fraction t tpn = Ok fr
    /\ r = csv_row t fr i (cells_at tpn chs nr tr i).
Definition top (tpn tr : Z) (chs : list (list note)) : Z :=
  fold_right Z.max tr (map (fun n => n_sample n / tpn) (concat chs)).

Lemma top_ge tpn tr chs : tr <= top tpn tr chs.
Proof. unfold top. induction (map _ _); cbn; lia. Qed.
Lemma top_in tpn tr chs n : In n (concat chs) -> n_sample n / tpn <= top tpn tr chs.
Proof.
  unfold top. induction (concat chs) as [|m l IH]; [intros []|]. cbn [map fold_right].
  intros [->|H]; [lia|]. specialize (IH H). lia.
Qed.
Lemma top_wit tpn tr chs : top tpn tr chs = tr \/ exists n, In n (concat chs) /\ n_sample n / tpn = top tpn tr chs.
Proof.
  unfold top. induction (concat chs) as [|m l IH]; [now left|]. cbn [map fold_right].
  destruct (Z.max_spec (n_sample m / tpn) (fold_right Z.max tr (map (fun n => n_sample n / tpn) l))) as [[_ ->]|[_ ->]].
  - destruct IH as [->|(n & Hn & E)]; [now left|]. right. exists n. split; [now right|assumption].
  - right. exists m. split; [now left|reflexivity].
Qed.

Lemma blanks_nth cs fr : forall fuel tr cr k, (fuel = Z.to_nat (cr - tr)) ->
  nth_error (blanks fuel cs fr tr cr) k =
  if (Z.of_nat k <? cr - tr - 1) then Some (csv_row cs fr (tr + 1 + Z.of_nat k) blank_row) else None.
Proof.
  induction fuel as [|f IH]; intros tr cr k E.
  - cbn [blanks]. destruct (Z.ltb_spec (Z.of_nat k) (cr - tr - 1)); [lia|]. now destruct k.
  - cbn [blanks]. destruct (Z.ltb_spec (tr + 1) cr).
    + destruct k as [|k]; cbn [nth_error].
      * destruct (Z.ltb_spec (Z.of_nat 0) (cr - tr - 1)); [|lia]. do 2 f_equal. lia.
      * rewrite IH by lia. destruct (Z.ltb_spec (Z.of_nat k) (cr - (tr + 1) - 1)), (Z.ltb_spec (Z.of_nat (S k)) (cr - tr - 1)); try lia; [|reflexivity].
        do 2 f_equal. lia.
    + destruct (Z.ltb_spec (Z.of_nat k) (cr - tr - 1)); [lia|]. now destruct k.
Qed.
Lemma blanks_length cs fr tr cr : tr < cr ->
  Z.of_nat (List.length (blanks (Z.to_nat (cr - tr)) cs fr tr cr)) = cr - tr - 1.
Proof.
  intro H. set (l := blanks _ _ _ _ _).
  assert (A : forall k, (k < List.length l)%nat <-> Z.of_nat k < cr - tr - 1).
  { intro k. rewrite <- nth_error_Some. unfold l. rewrite blanks_nth by reflexivity.
    destruct (Z.ltb_spec (Z.of_nat k) (cr - tr - 1)); split; intros; try lia; congruence. }
  pose proof (A (List.length l)). pose proof (A (Z.to_nat (cr - tr - 1))).
  destruct (Z.eq_dec (cr - tr - 1) 0); lia.
Qed.

Lemma in_pops tpn row chs n : In n (concat (map (pop tpn row) chs)) -> In n (concat chs).
Proof.
  intro H. apply in_concat in H as (l & Hl & Hn). apply in_map_iff in Hl as (l0 & <- & Hl).
  apply in_concat. exists l0. split; [assumption|]. eapply pop_in; eassumption.
Qed.
Lemma in_pops_other tpn row chs n : In n (concat chs) -> n_sample n / tpn <> row ->
  In n (concat (map (pop tpn row) chs)).
Proof.
  intros H N. apply in_concat in H as (l & Hl & Hn). apply in_concat. exists (pop tpn row l).
  split; [now apply in_map|]. now apply pop_in_other.
Qed.

Lemma top_pop tpn row chs : (forall n, In n (concat chs) -> row <= n_sample n / tpn) ->
  top tpn row (map (pop tpn row) chs) = top tpn row chs.
Proof.
  intro H. apply Z.le_antisymm.
  - destruct (top_wit tpn row (map (pop tpn row) chs)) as [->|(n & Hn & <-)]; [apply top_ge|].
    apply top_in. eapply in_pops; eassumption.
  - destruct (top_wit tpn row chs) as [->|(n & Hn & E)]; [apply top_ge|].
    destruct (Z.eq_dec (n_sample n / tpn) row) as [X|X].
    + rewrite <- E, X. apply top_ge.
    + rewrite <- E. apply top_in. now apply in_pops_other.
Qed.
Lemma next_pop tpn row chs i t : row <= i -> next_time tpn (map (pop tpn row) chs) i t -> next_time tpn chs i t.
Proof.
  intros Hi ((n & Hn & E & L) & M). split.
  - exists n. split; [eapply in_pops; eassumption|auto].
  - intros m Hm Lm. apply M; [|assumption]. apply in_pops_other; [assumption|lia].
Qed.
Lemma good_pop tpn row chs nr i r : List.length nr = List.length chs -> row <= i ->
  row_good tpn (map (pop tpn row) chs) (zipw (show tpn row) chs nr) row i r -> row_good tpn chs nr row i r.
Proof.
  intros L Hi (t & fr & N & F & E). exists t, fr. split; [eapply next_pop; eassumption|]. split; [assumption|].
  rewrite E. f_equal. unfold cells_at. destruct (Z.eqb_spec i row) as [->|D].
  - apply zipw_pop.
  - apply zipw_last; try assumption. now rewrite zipw_length.
Qed.
Lemma zipw_ext {A B C} (f g : A -> B -> C) a b b' : List.length b = List.length a -> List.length b' = List.length a ->
  (forall x y y', In x a -> In y b -> f x y = g x y') -> zipw f a b = zipw g a b'.
Proof.
  revert b b'. induction a as [|x a IH]; intros [|y b] [|y' b'] L L' H; cbn [List.length zipw] in *; try discriminate; [reflexivity|].
  f_equal; [apply H; now left|]. apply IH; [lia|lia|]. intros; apply H; now right.
Qed.
Lemma zipw_keep {A B} (f : A -> B -> B) a b : List.length b = List.length a ->
  (forall x y, In x a -> f x y = y) -> zipw f a b = b.
Proof.
  revert b. induction a as [|x a IH]; intros [|y b] L H; cbn [List.length zipw] in *; try discriminate; [reflexivity|].
  rewrite H by now left. f_equal. apply IH; [lia|]. intros; apply H; now right.
Qed.
Lemma zipw_const {A B C} (f : A -> B -> C) a b c : List.length b = List.length a ->
  (forall x y, In x a -> f x y = c) -> zipw f a b = repeat c (List.length a).
Proof.
  revert b. induction a as [|x a IH]; intros [|y b] L H; cbn [List.length zipw repeat] in *; try discriminate; [reflexivity|].
  rewrite H by now left. f_equal. apply IH; [lia|]. intros; apply H; now right.
Qed.

Lemma good_flush tpn tr row chs nr i r : List.length chs = 8%nat -> List.length nr = List.length chs -> tr < row <= i ->
  row_good tpn chs blank_row row i r -> row_good tpn chs nr tr i r.
Proof.
  intros L8 L Hi (t & fr & N & F & E). exists t, fr. split; [assumption|]. split; [assumption|].
  rewrite E. f_equal. unfold cells_at. destruct (Z.eqb_spec i tr); [lia|].
  assert (LB : List.length blank_row = List.length chs) by now rewrite L8.
  destruct (Z.eqb_spec i row) as [->|D]; apply zipw_ext; try assumption.
  - intros l y y' _ Hy. apply repeat_spec in Hy. subst y. unfold cell_of, cell_text. reflexivity.
  - reflexivity.
Qed.
Lemma good_now tpn tr row chs nr i m fr : List.length chs = 8%nat -> List.length nr = List.length chs ->
  (forall n, In n (concat chs) -> row <= n_sample n / tpn /\ m <= n_sample n) ->
  (exists n, In n (concat chs) /\ n_sample n = m /\ m / tpn = row) ->
  csv_fraction m tpn = Ok fr -> tr <= i < row ->
  row_good tpn chs nr tr i (csv_row m fr i (if i =? tr then nr else blank_row)).
Proof.
  intros L8 L H (n & Hn & En & Er) F Hi. exists m, fr. split; [|split; [assumption|]].
  - split; [exists n; repeat split; [assumption|assumption|lia]|]. intros k Hk _. now apply H.
  - f_equal. unfold cells_at.
    assert (NONE : forall l, In l chs -> last_event tpn l i = None).
    { intros l Hl. apply last_event_none. intros k Hk. assert (In k (concat chs)) by (apply in_concat; eauto).
      specialize (H k H0). lia. }
    destruct (Z.eqb_spec i tr).
    + symmetry. apply zipw_keep; [assumption|]. intros l c Hl. unfold cell_of. now rewrite NONE.
    + symmetry. rewrite (zipw_const _ _ _ ""%string); [now rewrite L8|assumption|]. intros l c Hl. now rewrite NONE.
Qed.

Lemma csv_loop_ok tpn : 0 < tpn -> forall fuel chs tr nr,
  List.length chs = 8%nat -> List.length nr = List.length chs ->
  Forall (Forall note_in_range) chs -> Forall sorted_log chs ->
  (forall n, In n (concat chs) -> tr <= n_sample n / tpn /\ exists fr, csv_fraction (n_sample n) tpn = Ok fr) ->
  (List.length (concat chs) <= fuel)%nat ->
  exists rows, csv_loop tpn fuel chs tr nr = (rows, Ok tt)
    /\ Z.of_nat (List.length rows) = top tpn tr chs - tr
    /\ forall k r, nth_error rows k = Some r -> row_good tpn chs nr tr (tr + Z.of_nat k) r.
Proof.
  intro T. induction fuel as [|fuel IH]; intros chs tr nr L8 L R SO H F.
  - assert (E : concat chs = []) by (destruct (concat chs); [reflexivity|cbn in F; lia]).
    assert (M : min_sample chs = None).
    { destruct (min_sample chs) as [m|] eqn:M; [|reflexivity].
      destruct (min_sample_some _ _ SO M) as (_ & l & n & r & Hl & -> & _).
      assert (In n (concat chs)) as I by (apply in_concat; exists (n :: r); split; [assumption|now left]).
      rewrite E in I. destruct I. }
    cbn [csv_loop]. rewrite M. exists []. split; [reflexivity|]. unfold top. rewrite E. cbn. split; [lia|].
    intros [|k] r; discriminate.
  - cbn [csv_loop]. destruct (min_sample chs) as [m|] eqn:M.
    + destruct (min_sample_some _ _ SO M) as (LB & l0 & n0 & r0 & Hl0 & -> & E0).
      assert (I0 : In n0 (concat chs)) by (apply in_concat; exists (n0 :: r0); split; [assumption|now left]).
      unfold floor_div. destruct (Z.eqb_spec tpn 0) as [|_]; [lia|].
      set (cr := m / tpn).
      destruct (H n0 I0) as [G0 (fr & FR)]. rewrite E0 in G0, FR. fold cr in G0.
      assert (GE : forall n, In n (concat chs) -> cr <= n_sample n / tpn).
      { intros n Hn. apply Z.div_le_mono; [lia|]. now apply LB. }
      assert (STEP : forall nr0, List.length nr0 = List.length chs -> exists rows,
        (let (rest, r) := csv_loop tpn fuel (map (pop tpn cr) chs) cr (zipw (show tpn cr) chs nr0) in (rest, r)) = (rows, Ok tt)
        /\ Z.of_nat (List.length rows) = top tpn cr chs - cr
        /\ forall k r, nth_error rows k = Some r -> row_good tpn chs nr0 cr (cr + Z.of_nat k) r).
      { intros nr0 L0. destruct (IH (map (pop tpn cr) chs) cr (zipw (show tpn cr) chs nr0)) as (rows & E & LR & G).
        - now rewrite map_length.
        - rewrite zipw_length, map_length by assumption. reflexivity.
        - apply Forall_forall. intros l Hl. apply in_map_iff in Hl as (l1 & <- & Hl). rewrite Forall_forall in R.
          apply Forall_forall. intros n Hn. apply pop_in in Hn. specialize (R l1 Hl). rewrite Forall_forall in R. auto.
        - apply Forall_forall. intros l Hl. apply in_map_iff in Hl as (l1 & <- & Hl). rewrite Forall_forall in SO.
          apply pop_sorted. auto.
        - intros n Hn. apply in_pops in Hn. split; [now apply GE|now apply H].
        - pose proof (pops_less tpn cr chs n0 r0 Hl0 ltac:(unfold cr; now rewrite E0)). lia.
        - exists rows. rewrite E. split; [reflexivity|]. rewrite top_pop in LR by assumption. split; [assumption|].
          intros k r K. specialize (G k r K). apply good_pop; [assumption|lia|assumption]. }
      destruct (Z.eqb_spec cr tr) as [EQ|NE]; cbn [negb].
      * rewrite take_row_ok by (try assumption; lia). rewrite EQ in *.
        destruct (STEP nr L) as (rows & E & LR & G).
        exists rows. split; [|split; assumption].
        destruct (csv_loop tpn fuel _ _ _) as [a b]. injection E as -> ->. reflexivity.
      * rewrite FR. cbn [bind]. rewrite take_row_ok; [|lia|now rewrite L8|assumption].
        destruct (STEP blank_row) as (rows & E & LR & G); [now rewrite L8|].
        destruct (csv_loop tpn fuel _ _ _) as [a b]. injection E as -> ->.
        eexists. split; [reflexivity|].
        set (B := blanks _ _ _ _ _).
        assert (LBk : Z.of_nat (List.length B) = cr - tr - 1) by (apply blanks_length; lia).
        assert (TOP : top tpn cr chs = top tpn tr chs).
        { assert (cr <= top tpn tr chs) by (unfold cr; rewrite <- E0; now apply top_in).
          apply Z.le_antisymm.
          - destruct (top_wit tpn cr chs) as [->|(n & Hn & <-)]; [assumption|now apply top_in].
          - destruct (top_wit tpn tr chs) as [->|(n & Hn & <-)]; [pose proof (top_ge tpn cr chs); lia|now apply top_in]. }
        split.
        { cbn [app List.length]. rewrite app_length. rewrite TOP in LR. lia. }
        assert (W : exists n, In n (concat chs) /\ n_sample n = m /\ m / tpn = cr) by (exists n0; auto).
        assert (LB2 : forall n, In n (concat chs) -> cr <= n_sample n / tpn /\ m <= n_sample n) by (intros; split; auto).
        intros k r K. destruct k as [|k].
        { cbn [app nth_error] in K. injection K as <-.
          pose proof (good_now tpn tr cr chs nr tr m fr L8 L LB2 W FR ltac:(lia)) as Q.
          rewrite Z.eqb_refl in Q. replace (tr + Z.of_nat 0) with tr by lia. exact Q. }
        cbn [app nth_error] in K. destruct (Nat.ltb_spec k (List.length B)) as [KB|KB].
        { rewrite nth_error_app1 in K by assumption. unfold B in K. rewrite blanks_nth in K by reflexivity.
          destruct (Z.ltb_spec (Z.of_nat k) (cr - tr - 1)); [|lia]. injection K as <-.
          pose proof (good_now tpn tr cr chs nr (tr + Z.of_nat (S k)) m fr L8 L LB2 W FR ltac:(lia)) as Q.
          destruct (Z.eqb_spec (tr + Z.of_nat (S k)) tr); [lia|].
          replace (tr + 1 + Z.of_nat k) with (tr + Z.of_nat (S k)) by lia. exact Q. }
        { rewrite nth_error_app2 in K by assumption. specialize (G _ _ K).
          replace (cr + Z.of_nat (k - List.length B)) with (tr + Z.of_nat (S k)) in G by lia.
          apply (good_flush tpn tr cr); [assumption|assumption|lia|exact G]. }
    + pose proof (min_sample_none _ M) as E. exists []. split; [reflexivity|]. unfold top. rewrite E. cbn. split; [lia|].
      intros [|k] r; discriminate.
Qed.

(** Text level: fields contain neither comma nor newline. *)
Definition plain (c : Ascii.ascii) : bool := negb (Ascii.eqb c ",") && negb (Ascii.eqb c (Ascii.ascii_of_nat 10)).
Fixpoint clean (s : string) : bool :=
  match s with EmptyString => true | String c r => plain c && clean r end.
Lemma clean_app a b : clean (a ++ b) = clean a && clean b.
Proof. induction a; cbn [append clean]; [reflexivity|]. now rewrite IHa, andb_assoc. Qed.
Lemma split_clean c s : (forall x, plain x = true -> Ascii.eqb x c = false) -> clean s = true -> split_at c s = [s].
Proof.
  intros P. induction s as [|x s IH]; [reflexivity|]. cbn [clean split_at]. intro H. apply andb_true_iff in H as [H1 H2].
  rewrite P by assumption. now rewrite IH.
Qed.
Lemma split_app c a b : (forall x, plain x = true -> Ascii.eqb x c = false) -> clean a = true ->
  split_at c (a ++ String c b) = a :: split_at c b.
Proof.
  intros P. induction a as [|x a IH]; cbn [append clean split_at]; intro H.
  - now rewrite Ascii.eqb_refl.
  - apply andb_true_iff in H as [H1 H2]. rewrite P by assumption. now rewrite IH.
Qed.
Lemma plain_comma x : plain x = true -> Ascii.eqb x "," = false.
Proof. unfold plain. intro H. apply andb_true_iff in H as [H _]. now apply negb_true_iff. Qed.
Lemma plain_nl x : plain x = true -> Ascii.eqb x (Ascii.ascii_of_nat 10) = false.
Proof. unfold plain. intro H. apply andb_true_iff in H as [_ H]. now apply negb_true_iff. Qed.
Lemma split_join r : r <> [] -> forallb clean r = true -> split_at "," (Json.join "," r) = r.
Proof.
  intro N. induction r as [|a r IH]; [contradiction|]. cbn [forallb]. intro H. apply andb_true_iff in H as [H1 H2].
  destruct r as [|b r].
  - cbn [Json.join]. apply split_clean; [apply plain_comma|assumption].
  - change (Json.join "," (a :: b :: r)) with (a ++ String "," (Json.join "," (b :: r)))%string.
    rewrite split_app; [|apply plain_comma|assumption]. rewrite IH; [reflexivity|discriminate|assumption].
Qed.
Definition no_nl (s : string) : Prop := forall b, split_at (Ascii.ascii_of_nat 10) (s ++ String (Ascii.ascii_of_nat 10) b)
  = s :: split_at (Ascii.ascii_of_nat 10) b.
Lemma join_no_nl r : forallb clean r = true -> no_nl (Json.join "," r).
Proof.
  assert (G : forall a b, clean a = true -> no_nl b -> no_nl (a ++ String "," b)).
  { intros a b Ca Nb z. induction a as [|x a IH].
    - cbn [append split_at]. change (Ascii.eqb "," (Ascii.ascii_of_nat 10)) with false. cbn match.
      rewrite (Nb z). reflexivity.
    - cbn [clean] in Ca. apply andb_true_iff in Ca as [C1 C2]. cbn [append split_at].
      rewrite plain_nl by assumption. rewrite IH by assumption. reflexivity. }
  induction r as [|a r IH]; cbn [forallb]; intro H.
  - intro b. reflexivity.
  - apply andb_true_iff in H as [H1 H2]. destruct r as [|b r].
    + intro z. cbn [Json.join]. apply split_app; [apply plain_nl|assumption].
    + change (Json.join "," (a :: b :: r)) with (a ++ String "," (Json.join "," (b :: r)))%string.
      apply G; [assumption|]. now apply IH.
Qed.
Lemma split_nonempty c s : split_at c s <> [].
Proof. destruct s as [|x s]; cbn; [discriminate|]. destruct (Ascii.eqb x c); [discriminate|]. destruct (split_at c s); discriminate. Qed.
Lemma sheet_text rows : Forall (fun r => r <> [] /\ forallb clean r = true) rows ->
  sheet_of_text (csv_text rows) = rows.
Proof.
  unfold sheet_of_text. induction rows as [|r rows IH]; [reflexivity|]. intro H. inversion H as [|? ? [N C] H']; subst.
  change (csv_text (r :: rows)) with (Json.join "," r ++ String (Ascii.ascii_of_nat 10) (csv_text rows))%string.
  rewrite join_no_nl by assumption.
  pose proof (split_nonempty (Ascii.ascii_of_nat 10) (csv_text rows)) as NE.
  specialize (IH H'). cbn [removelast].
  destruct (split_at (Ascii.ascii_of_nat 10) (csv_text rows)) as [|x l] eqn:E; [contradiction|].
  change (map (split_at ",") (Json.join "," r :: removelast (x :: l)) = r :: rows).
  cbn [map]. now rewrite split_join, IH.
Qed.

Lemma clean_digits fuel n acc : clean acc = true -> clean (dec_digits fuel n acc) = true.
Proof.
  revert n acc. induction fuel as [|k IH]; intros n acc H; cbn [dec_digits]; [assumption|].
  assert (D : plain (digit_ascii (n mod 10)) = true).
  { apply (sweep 10 (fun d => plain (digit_ascii d))); [reflexivity|]. pose proof (Z.mod_pos_bound n 10). lia. }
  assert (C : clean (String (digit_ascii (n mod 10)) acc) = true) by (cbn [clean]; now rewrite D).
  destruct (n <? 10); [assumption|]. now apply IH.
Qed.
Lemma clean_int n : clean (str_int n) = true.
Proof.
  unfold str_int, str_nonneg. destruct (n <? 0); [cbn [clean]; rewrite clean_digits by reflexivity; reflexivity|].
  now apply clean_digits.
Qed.
Lemma clean_event n : note_in_range n -> clean (event_text n) = true.
Proof.
  intros (_ & Ho & Hk & Hf & _). unfold width in *. unfold event_text. destruct (is_off n); [reflexivity|].
  rewrite !clean_app, !clean_int.
  assert (A : clean (nth (Z.to_nat (n_note n)) code_names ""%string) = true).
  { apply (sweep 16 (fun k => clean (nth (Z.to_nat k) code_names ""%string))); [reflexivity|lia]. }
  assert (B : clean (fine (n_key_fraction n)) = true).
  { apply (sweep 64 (fun k => clean (fine k))); [reflexivity|lia]. }
  rewrite A, B. destruct (n_right n), (n_left n); reflexivity.
Qed.
Lemma clean_zeros k : clean (zeros k) = true.
Proof. induction k; [reflexivity|exact IHk]. Qed.
Lemma clean_fraction n d : clean (format_fraction n d) = true.
Proof.
  unfold format_fraction. destruct (n =? 0); [reflexivity|]. destruct (d <=? n); [reflexivity|]. cbv zeta.
  set (k := scale10 _ _ _). set (q := round_ratio _ _). clearbody k q. destruct (q =? 100).
  - destruct k as [|k']; [reflexivity|]. destruct (4 <=? k')%nat.
    + rewrite !clean_app, clean_int. destruct (S k' <? 10)%nat; reflexivity.
    + rewrite !clean_app, clean_zeros. reflexivity.
  - destruct (4 <=? k)%nat.
    + rewrite !clean_app. destruct (Z.of_nat k + 1 <? 10); destruct (q mod 10 =? 0); rewrite ?clean_app, !clean_int; reflexivity.
    + rewrite !clean_app, clean_zeros. unfold two_digits. destruct (q mod 10 =? 0); now rewrite clean_int.
Qed.
Lemma clean_csv_fraction a b t : csv_fraction a b = Ok t -> clean t = true.
Proof.
  unfold csv_fraction. destruct (true_div a b); [|discriminate]. cbn [bind]. intro E. injection E as <-.
  unfold format_2. destruct (float_mod1 a0) as [| | |[] m e]; try reflexivity. destruct (0 <=? e); apply clean_fraction.
Qed.

(** Termination for every tick length. *)
Lemma mapM_length {A B} (f : A -> res B) l r : mapM f l = Ok r -> List.length r = List.length l.
Proof.
  revert r. induction l as [|x l IH]; intros r H; cbn [mapM] in H; [injection H as <-; reflexivity|].
  destruct (f x); [|discriminate]. cbn [bind] in H. destruct (mapM f l); [|discriminate]. cbn [bind] in H.
  injection H as <-. cbn. now rewrite (IH _ eq_refl).
Qed.
Lemma true_div_fuel a b : true_div a b <> Err OutOfFuel.
Proof.
  unfold true_div. destruct b; [discriminate| |]; destruct a; try discriminate.
  all: destruct (SpecFloat.SFdiv_core_binary _ _ _ _ _ _) as [[q e] l].
  all: destruct (SpecFloat.binary_round_aux _ _ _ _ _ _); discriminate.
Qed.
Lemma note_str_fuel n : note_str n <> Err OutOfFuel.
Proof.
  unfold note_str. destruct (_ <? _); [discriminate|]. unfold lookup.
  destruct (n_note n <? 0); [discriminate|]. destruct (nth_error _ _); [|discriminate]. cbn [bind].
  destruct (1 <? n_key_fraction n); [|discriminate]. unfold kf_text, float_of_int.
  destruct (SpecFloat.binary_normalize _ _ _ _ _); discriminate.
Qed.
Lemma take_row_shape tpn row chs nr :
  match take_row tpn row chs nr with
  | Ok (chs', nr') => List.length nr = List.length chs -> chs' = map (pop tpn row) chs /\ List.length nr' = List.length chs
  | Err e => e <> OutOfFuel
  end.
Proof.
  revert nr. induction chs as [|l chs IH]; intros [|c nr]; cbn [take_row].
  - auto.
  - auto.
  - discriminate.
  - destruct l as [|n l].
    + cbn [bind]. specialize (IH nr). destruct (take_row tpn row chs nr) as [[a b]|e]; [|exact IH]. cbn [bind fst snd].
      cbn [List.length map]. intro L. destruct IH as [-> ->]; [lia|]. split; reflexivity.
    + unfold floor_div. destruct (tpn =? 0) eqn:T0; [cbn; discriminate|]. cbn [bind].
      destruct (n_sample n / tpn =? row) eqn:ER.
      * destruct (note_str n) as [t|e] eqn:EN; [|cbn [bind]; intros ->; now apply note_str_fuel in EN]. cbn [bind].
        specialize (IH nr). destruct (take_row tpn row chs nr) as [[a b]|e]; [|exact IH]. cbn [bind fst snd].
        cbn [List.length map]. intro L. destruct IH as [-> ->]; [lia|]. split; [|reflexivity]. unfold pop at 2. now rewrite ER.
      * cbn [bind]. specialize (IH nr). destruct (take_row tpn row chs nr) as [[a b]|e]; [|exact IH]. cbn [bind fst snd].
        cbn [List.length map]. intro L. destruct IH as [-> ->]; [lia|]. split; [|reflexivity]. unfold pop at 2. now rewrite ER.
Qed.
Lemma min_sample_head chs m : min_sample chs = Some m -> exists n r, In (n :: r) chs /\ n_sample n = m.
Proof.
  intro H. unfold min_sample in H. destruct (head_samples chs) as [|x r] eqn:E; [discriminate|]. injection H as <-.
  destruct (fold_min r x) as (_ & _ & C).
  assert (MEM : In (fold_left Z.min r x) (head_samples chs)) by (rewrite E; destruct C as [->|C]; [now left|now right]).
  unfold head_samples in MEM. apply in_flat_map in MEM as (l & Hl & M). destruct l as [|h t]; [destruct M|].
  destruct M as [M|[]]. eauto.
Qed.
Lemma csv_loop_ends tpn fuel chs tr nr : List.length nr = List.length chs -> (List.length (concat chs) <= fuel)%nat ->
  List.length chs = 8%nat ->
  snd (csv_loop tpn fuel chs tr nr) <> Err OutOfFuel.
Proof.
  revert chs tr nr. induction fuel as [|k IH]; intros chs tr nr L F L8; cbn [csv_loop].
  - destruct (min_sample chs) as [m|] eqn:M; [|discriminate].
    destruct (min_sample_head _ _ M) as (n & r & I & _).
    assert (In n (concat chs)) as J by (apply in_concat; exists (n :: r); split; [assumption|now left]).
    destruct (concat chs); [destruct J|cbn in F; lia].
  - destruct (min_sample chs) as [m|] eqn:M; [|discriminate].
    destruct (min_sample_head _ _ M) as (n & r & I & <-).
    unfold floor_div. destruct (tpn =? 0); [discriminate|].
    set (cr := n_sample n / tpn).
    assert (STEP : forall out tr nr, List.length nr = List.length chs -> snd (match take_row tpn cr chs nr with
        | Ok (chs', nr') => let (rest, r) := csv_loop tpn k chs' tr nr' in (out ++ rest, r)
        | Err e => (out, Err e) end) <> Err OutOfFuel).
    { intros out tr' nr' Lr. pose proof (take_row_shape tpn cr chs nr') as S.
      destruct (take_row tpn cr chs nr') as [[a b]|e]; [|cbn; congruence].
      destruct (S Lr) as [-> Lb].
      specialize (IH (map (pop tpn cr) chs) tr' b). rewrite map_length in IH.
      pose proof (pops_less tpn cr chs n r I eq_refl).
      destruct (csv_loop tpn k _ _ _) as [rest r']. cbn [snd] in *. apply IH; [assumption|lia|assumption]. }
    destruct (negb (cr =? tr)).
    + unfold csv_fraction at 1. destruct (true_div (n_sample n) tpn) as [q|e] eqn:TD.
      * cbn [bind]. apply STEP. now rewrite L8.
      * cbn [bind snd]. intro X. injection X as ->. now apply true_div_fuel in TD.
    + apply STEP. assumption.
Qed.
