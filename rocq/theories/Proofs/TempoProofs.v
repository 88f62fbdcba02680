(** The estimate of State.ticks_per_note and the tempo of the song. *)
From Coq Require Import ZArith List Bool Lia ZifyBool Sorting.Sorted Sorting.Permutation Reals SpecFloat Lra.
From Flocq Require Import Core IEEE754.BinarySingleNaN.
From Flocq Require Relative.
From Verif.Model Require Import Py PyFloat Config Note State Ticks Extract.
From Verif.Spec Require Import Rhythm.
From Verif.Proofs Require Import PyLemmas TickProofs FloatProofs.
Import ListNotations.
Open Scope Z_scope.

(** * Lists *)
Lemma mapM_ok {A B} (f : A -> res B) (g : A -> B) l :
  (forall x, In x l -> f x = Ok (g x)) -> mapM f l = Ok (map g l).
Proof.
  induction l as [|x l IH]; intro H; [reflexivity|]. cbn [mapM map].
  rewrite H by (now left). cbn [bind]. rewrite IH by (intros y Hy; apply H; now right). reflexivity.
Qed.

Lemma py_range_in a b x : In x (py_range a b) <-> a <= x < b.
Proof.
  unfold py_range. rewrite in_map_iff. split.
  - intros (k & <- & Hk). apply in_seq in Hk. lia.
  - intro H. exists (Z.to_nat (x - a)). split; [lia|]. apply in_seq. lia.
Qed.
Lemma py_range_sorted a b : StronglySorted Z.lt (py_range a b).
Proof.
  unfold py_range. generalize (Z.to_nat (b - a)) as n. intro n. generalize 0%nat as i.
  induction n as [|n IH]; intro i; cbn [seq map]; constructor; [apply IH|].
  apply Forall_map, Forall_forall. intros k Hk. apply in_seq in Hk. lia.
Qed.

Lemma enumerate_range {A} (g : Z -> A) a b :
  enumerate (map g (py_range a b)) = map (fun d => (d - a, g d)) (py_range a b).
Proof.
  unfold enumerate, py_range. rewrite !map_map, map_length, seq_length.
  generalize (Z.to_nat (b - a)) as n. intro n.
  assert (forall i, combine (map Z.of_nat (seq i n)) (map (fun x => g (a + Z.of_nat x)) (seq i n))
     = map (fun x => (a + Z.of_nat x - a, g (a + Z.of_nat x))) (seq i n)) as H; [|apply H].
  induction n as [|n IH]; intro i; [reflexivity|]. cbn [seq map combine]. rewrite IH. f_equal. f_equal. lia.
Qed.

(** * Stable sorting *)
Section Sort.
  Context {A : Type} (ltb : A -> A -> bool) (f : Z -> A) (key : Z -> Z) (dom : Z -> Prop).
  Hypothesis ltb_key : forall d e, dom d -> dom e -> ltb (f d) (f e) = (key d <? key e).
  Definition lex d e := key d < key e \/ (key d = key e /\ d < e).
  Lemma insert_ok x l : dom x -> Forall dom l -> StronglySorted lex l -> Forall (fun y => y < x) l ->
    exists l', insert_sorted ltb (f x) (map f l) = map f l'
      /\ Permutation (x :: l) l' /\ StronglySorted lex l'.
  Proof.
    intros Dx. induction l as [|y l IH]; intros D S L.
    - exists [x]. repeat split; auto. repeat constructor.
    - cbn [map insert_sorted]. inversion D; inversion S as [|? ? S1 FS]; inversion L; subst.
      rewrite ltb_key by assumption. destruct (Z.ltb_spec (key x) (key y)).
      + exists (x :: y :: l). repeat split; auto. constructor; [assumption|].
        constructor; [left; assumption|].
        eapply Forall_impl; [|exact FS]. intros z [Hz|[Hz _]]; left; lia.
      + destruct IH as (l' & E & P & S'); auto. exists (y :: l'). rewrite E. repeat split.
        * rewrite perm_swap. now constructor.
        * constructor; [assumption|]. rewrite <- P. constructor; [|assumption].
          destruct (Z.eq_dec (key y) (key x)); [right; split; [assumption|lia]|left; lia].
  Qed.
  Lemma fold_insert_ok ds : forall l, Forall dom ds -> Forall dom l -> StronglySorted lex l ->
    StronglySorted Z.lt ds -> (forall y d, In y l -> In d ds -> y < d) ->
    exists l', fold_left (fun acc x => insert_sorted ltb x acc) (map f ds) (map f l) = map f l'
      /\ Permutation (l ++ ds) l' /\ StronglySorted lex l'.
  Proof.
    induction ds as [|d ds IH]; intros l Dd Dl S Sd L.
    - exists l. rewrite app_nil_r. repeat split; auto.
    - inversion Dd; inversion Sd; subst. cbn [map fold_left].
      destruct (insert_ok d l) as (l1 & E & P & S1); auto.
      { apply Forall_forall. intros y Hy. apply L; [assumption|now left]. }
      rewrite E. destruct (IH l1) as (l2 & E2 & P2 & S2); auto.
      + rewrite <- P. now constructor.
      + intros y e Hy He. apply (Permutation_in _ (Permutation_sym P)) in Hy. destruct Hy as [<-|Hy].
        * match goal with H : Forall _ ds |- _ => rewrite Forall_forall in H; now apply H end.
        * apply L; [assumption|now right].
      + exists l2. repeat split; auto. rewrite <- P2, <- P. rewrite <- Permutation_middle. reflexivity.
  Qed.
  Lemma py_sorted_ok ds : Forall dom ds -> StronglySorted Z.lt ds ->
    exists l', py_sorted ltb (map f ds) = map f l' /\ Permutation ds l' /\ StronglySorted lex l'.
  Proof.
    intros D S. destruct (fold_insert_ok ds []) as (l' & E & P & S'); auto.
    - constructor.
    - intros y d [].
    - exists l'. auto.
  Qed.
End Sort.

(** * Scores *)
Lemma count_lt {A} (p : A -> bool) l x : In x l -> p x = false -> count p l <= Z.of_nat (length l) - 1.
Proof.
  induction l as [|y l IH]; intros H E; [destruct H|]. rewrite count_cons. cbn [length].
  destruct H as [->|H]; [rewrite E; pose proof (count_le p l); lia|].
  specialize (IH H E). destruct (p y); lia.
Qed.
Lemma has_max (T : list Z) : T <> [] -> exists m, In m T /\ forall t, In t T -> t <= m.
Proof.
  induction T as [|x T IH]; [easy|]. intros _. destruct T as [|y T].
  - exists x. split; [now left|]. intros t [->|[]]. lia.
  - destruct IH as (m & Hm & H); [easy|]. destruct (Z.leb_spec x m).
    + exists m. split; [now right|]. intros t [->|Ht]; auto.
    + exists x. split; [now left|]. intros t [->|Ht]; [lia|]. specialize (H _ Ht). lia.
Qed.
Lemma score_bounds T d : 0 < d -> T <> [] -> 0 <= score T d <= 2 * Z.of_nat (length T) - 1.
Proof.
  intros Hd HT. unfold score. destruct (has_max T HT) as (m & Hm & H).
  pose proof (count_nonneg (fun t => negb (mem (t - d) T)) T).
  pose proof (count_le (fun t => negb (mem (t - d) T)) T).
  pose proof (count_nonneg (fun t => negb (mem (t + d) T) && existsb (Z.ltb (t + d)) T) T).
  assert (count (fun t => negb (mem (t + d) T) && existsb (Z.ltb (t + d)) T) T <= Z.of_nat (length T) - 1); [|lia].
  apply (count_lt _ _ m Hm). rewrite andb_false_iff. right.
  destruct (existsb (Z.ltb (m + d)) T) eqn:E; [|reflexivity]. apply existsb_exists in E.
  destruct E as (x & Hx & E). specialize (H _ Hx). lia.
Qed.

(** * Quotients *)
Open Scope R_scope.
Definition u53 : R := bpow radix2 (-53).
Lemma rel_err x : x = 0 \/ bpow radix2 (-1022) <= Rabs x -> Rabs (rnd x - x) <= u53 * Rabs x.
Proof.
  intros [->|H].
  - unfold rnd. rewrite round_0 by typeclasses eauto. rewrite Rminus_0_r, Rabs_R0. lra.
  - pose proof (Relative.relative_error_N_FLT radix2 (-1074) 53 Hprec (fun x => negb (Z.even x)) x H) as E.
    change (round radix2 (FLT_exp (-1074) 53) ZnearestE x) with (rnd x) in E.
    eapply Rle_trans; [exact E|]. apply Rmult_le_compat_r; [apply Rabs_pos|].
    unfold u53. cbn. lra.
Qed.
Lemma u53_eq : u53 = / IZR (2 ^ 53).
Proof. reflexivity. Qed.
Lemma rnd_mono x y : x <= y -> rnd x <= rnd y.
Proof. apply round_le; typeclasses eauto. Qed.
Lemma rnd_id x : generic_format radix2 fx x -> rnd x = x.
Proof. apply round_generic; typeclasses eauto. Qed.
Lemma fmt_int n : (Z.abs n <= 2 ^ 53)%Z -> generic_format radix2 fx (IZR n).
Proof.
  intro H. change fx with (FLT_exp (-1074) 53).
  destruct (Z.eq_dec (Z.abs n) (2 ^ 53)) as [E|E].
  - assert (IZR n = bpow radix2 53 \/ IZR n = - bpow radix2 53) as [->| ->].
    { change (bpow radix2 53) with (IZR (2 ^ 53)). rewrite <- opp_IZR.
      destruct (Z.abs_eq_or_opp n) as [A|A]; [left|right]; f_equal; lia. }
    + apply generic_format_bpow. unfold FLT_exp. lia.
    + apply generic_format_opp, generic_format_bpow. unfold FLT_exp. lia.
  - apply generic_format_FLT. exists (Float radix2 n 0).
    + unfold F2R; cbn. lra.
    + cbn [Fnum]. change (radix_val radix2 ^ 53)%Z with (2 ^ 53)%Z. lia.
    + cbn. lia.
Qed.
Lemma rnd_int n : (Z.abs n <= 2 ^ 53)%Z -> rnd (IZR n) = IZR n.
Proof. intro H. now apply rnd_id, fmt_int. Qed.
Lemma rnd_unit x : 0 <= x <= 1 -> 0 <= rnd x <= 1.
Proof.
  intros [H0 H1]. apply rnd_mono in H0, H1. rewrite (rnd_int 0) in H0 by lia.
  rewrite (rnd_int 1) in H1 by lia. auto.
Qed.
Lemma below_huge x : Rabs x <= IZR (2 ^ 53) -> Rlt_bool (Rabs x) huge = true.
Proof.
  intro H. apply Rlt_bool_true. eapply Rle_lt_trans; [exact H|].
  change (IZR (2 ^ 53)) with (bpow radix2 53). apply bpow_lt. reflexivity.
Qed.

Lemma small_big m : (0 < m <= 2 ^ 51)%Z -> bpow radix2 (-1022) <= / IZR m.
Proof.
  intro H. apply Rle_trans with (/ IZR (2 ^ 51)).
  - change (/ IZR (2 ^ 51)) with (bpow radix2 (-51)). apply bpow_le. lia.
  - apply Rinv_le; [now apply IZR_lt|apply IZR_le; lia].
Qed.

Lemma unit_quot a m : (0 < m)%Z -> (0 <= a <= m)%Z -> 0 <= IZR a / IZR m <= 1.
Proof.
  intros Hm [H0 H1]. pose proof (IZR_lt _ _ Hm). apply IZR_le in H0, H1.
  split.
  - apply Rmult_le_pos; [lra|]. apply Rlt_le, Rinv_0_lt_compat. lra.
  - apply Rmult_le_reg_r with (IZR m); [lra|]. unfold Rdiv. rewrite Rmult_assoc, Rinv_l; lra.
Qed.

Lemma quot_strict a b m : (0 < m < 2 ^ 51)%Z -> (0 <= a)%Z -> (a < b)%Z -> (b <= m)%Z ->
  rnd (IZR a / IZR m) < rnd (IZR b / IZR m).
Proof.
  intros Hm Ha Hab Hb.
  assert (Pm : 0 < IZR m) by (apply IZR_lt; lia).
  assert (Im : IZR m < IZR (2 ^ 51)) by (apply IZR_lt; lia).
  set (x := IZR a / IZR m). set (y := IZR b / IZR m).
  assert (D : / IZR m <= y - x).
  { unfold x, y. apply Rmult_le_reg_r with (IZR m); [assumption|].
    rewrite Rinv_l by lra.
    replace ((IZR b / IZR m - IZR a / IZR m) * IZR m) with (IZR b - IZR a) by (field; lra).
    rewrite <- minus_IZR. apply IZR_le. lia. }
  destruct (unit_quot a m) as [X0 X1]; [lia..|]. fold x in X0, X1.
  destruct (unit_quot b m) as [Y0 Y1]; [lia..|]. fold y in Y0, Y1.
  assert (EX : Rabs (rnd x - x) <= u53 * Rabs x).
  { apply rel_err. destruct (Z.eq_dec a 0) as [->|Na].
    - left. unfold x. field. lra.
    - right. rewrite Rabs_pos_eq by assumption. eapply Rle_trans; [apply (small_big m); lia|].
      unfold x, Rdiv. rewrite <- (Rmult_1_l (/ IZR m)) at 1. apply Rmult_le_compat_r.
      + apply Rlt_le, Rinv_0_lt_compat; lra.
      + apply IZR_le. lia. }
  assert (EY : Rabs (rnd y - y) <= u53 * Rabs y).
  { apply rel_err. right. rewrite Rabs_pos_eq by assumption. eapply Rle_trans; [apply (small_big m); lia|].
    unfold y, Rdiv. rewrite <- (Rmult_1_l (/ IZR m)) at 1. apply Rmult_le_compat_r.
    + apply Rlt_le, Rinv_0_lt_compat; lra.
    + apply IZR_le. lia. }
  rewrite (Rabs_pos_eq x) in EX by assumption. rewrite (Rabs_pos_eq y) in EY by assumption.
  apply Rabs_le_inv in EX, EY.
  assert (U : u53 * 4 < / IZR m).
  { rewrite u53_eq. replace (/ IZR (2 ^ 53) * 4) with (/ IZR (2 ^ 51)).
    - apply Rinv_lt; assumption.
    - change (2 ^ 53)%Z with (2 ^ 51 * 4)%Z. rewrite mult_IZR. field. apply not_0_IZR. lia. }
  assert (0 < u53) by (unfold u53; apply bpow_gt_0).
  assert (u53 * x <= u53 * 1) by (apply Rmult_le_compat_l; lra).
  assert (u53 * y <= u53 * 1) by (apply Rmult_le_compat_l; lra).
  lra.
Qed.

Lemma quot_ltb a b m : (0 < m < 2 ^ 51)%Z -> (0 <= a <= m)%Z -> (0 <= b <= m)%Z ->
  Rlt_bool (rnd (IZR a / IZR m)) (rnd (IZR b / IZR m)) = (a <? b)%Z.
Proof.
  intros Hm Ha Hb. destruct (Z.ltb_spec a b).
  - apply Rlt_bool_true, quot_strict; lia.
  - apply Rlt_bool_false. destruct (Z.eq_dec a b) as [->|]; [lra|].
    apply Rlt_le, quot_strict; lia.
Qed.

Lemma quot_val a m : (0 < m < 2 ^ 51)%Z -> (0 <= a <= m)%Z ->
  exists f, true_div a m = Ok f /\ val f (rnd (IZR a / IZR m)).
Proof.
  intros Hm Ha. pose proof (true_div_spec a m) as H.
  destruct (rnd_unit (IZR a / IZR m)) as [R0 R1]; [apply unit_quot; lia|].
  rewrite below_huge in H.
  - apply H. lia.
  - rewrite Rabs_pos_eq by assumption. eapply Rle_trans; [exact R1|]. apply IZR_le. lia.
Qed.
Open Scope Z_scope.

(** * The sorted table *)
Definition den (T : list Z) : Z := len T * 2 - 1.
(** The float stored for candidate [d]. *)
Definition quo (T : list Z) (d : Z) : pyfloat :=
  match true_div (score T d) (den T) with Ok f => f | Err _ => S754_nan end.

Lemma quo_ok T d : 0 < d -> Z.of_nat (length T) <= 32000 ->
  true_div (score T d) (den T) = Ok (quo T d)
  /\ val (quo T d) (rnd (IZR (score T d) / IZR (den T))).
Proof.
  intros Hd HT. unfold quo, den, len. destruct T as [|t T].
  - split; [reflexivity|]. repeat split. cbn. replace (0 / -1)%R with 0%R by field.
    symmetry. apply rnd_int. lia.
  - set (T' := t :: T) in *.
    destruct (score_bounds T' d) as [B0 B1]; [assumption|unfold T'; discriminate|].
    destruct (quot_val (score T' d) (Z.of_nat (length T') * 2 - 1)) as (f & E & V).
    + split; [unfold T'; cbn [length]; lia|]. change (2 ^ 51) with 2251799813685248. lia.
    + lia.
    + rewrite E. auto.
Qed.

Lemma top_list_ok T : StronglySorted Z.lt T -> Z.of_nat (length T) <= 32000 ->
  exists ds, top_list T = Ok (map (fun d => (d, quo T d)) ds)
    /\ Permutation (py_range 1000 8000) ds /\ StronglySorted (lex (score T)) ds.
Proof.
  intros S HT. unfold top_list, corr.
  change off_start with 1000. change off_end with 8000.
  rewrite (mapM_ok _ (score T)); cycle 1.
  { intros d Hd. apply py_range_in in Hd. apply score_ok; [assumption|lia]. }
  cbn [bind]. rewrite enumerate_range.
  rewrite (mapM_ok _ (fun ic => (fst ic + 1000, quo T (fst ic + 1000)))); cycle 1.
  { intros ic Hic. apply in_map_iff in Hic. destruct Hic as (d & <- & Hd). apply py_range_in in Hd.
    cbn [fst snd]. replace (d - 1000 + 1000) with d by lia.
    destruct (quo_ok T d) as [E _]; [lia|assumption|]. unfold den in E. rewrite E. reflexivity. }
  cbn [bind]. rewrite map_map. cbn [fst].
  rewrite (map_ext _ (fun d => (d, quo T d))).
  2:{ intro d. replace (d - 1000 + 1000) with d by lia. reflexivity. }
  destruct (py_sorted_ok (fun a b : Z * pyfloat => float_ltb (snd a) (snd b)) (fun d => (d, quo T d))
              (score T) candidate) with (ds := py_range 1000 8000) as (ds & E & P & S').
  - intros d e Hd He. unfold candidate in *. cbn [snd].
    destruct (quo_ok T d) as [_ Vd]; [lia|assumption|].
    destruct (quo_ok T e) as [_ Ve]; [lia|assumption|].
    rewrite (ltb_val _ _ _ _ Vd Ve).
    destruct T as [|t T].
    + unfold score, count; cbn [filter length]. cbn. apply Rlt_bool_false. lra.
    + destruct (score_bounds (t :: T) d); [lia|discriminate|].
      destruct (score_bounds (t :: T) e); [lia|discriminate|].
      apply quot_ltb; unfold den, len; lia.
  - apply Forall_forall. intros d Hd. now apply py_range_in in Hd.
  - apply py_range_sorted.
  - exists ds. rewrite E. auto.
Qed.

Lemma lex_head T d ds : StronglySorted (lex (score T)) (d :: ds) -> Permutation (py_range 1000 8000) (d :: ds) ->
  best T d.
Proof.
  intros S P. inversion S as [|? ? S' F]; subst. rewrite Forall_forall in F.
  assert (forall e, candidate e <-> In e (d :: ds)) as C.
  { intro e. unfold candidate. rewrite <- py_range_in. split; apply Permutation_in; [assumption|now symmetry]. }
  split; [apply C; now left|]. split.
  - intros e He. apply C in He. destruct He as [->|He]; [lia|]. destruct (F e He) as [|[]]; lia.
  - intros e He Hlt. apply C in He. destruct He as [->|He]; [lia|]. destruct (F e He) as [|[]]; lia.
Qed.

Lemma best_unique T d e : best T d -> best T e -> d = e.
Proof.
  intros (Cd & Md & Sd) (Ce & Me & Se).
  destruct (Z.lt_trichotomy d e) as [H|[H|H]]; [|assumption|].
  - specialize (Se d Cd H). specialize (Md e Ce). lia.
  - specialize (Sd e Ce H). specialize (Me d Cd). lia.
Qed.

Lemma estimate_ok s : StronglySorted Z.lt (early_ticks s) -> Z.of_nat (length (early_ticks s)) <= 32000 ->
  exists d, ticks_per_note s = Ok d /\ best (early_ticks s) d.
Proof.
  intros S L. destruct (top_list_ok _ S L) as (ds & E & P & S'). unfold ticks_per_note. rewrite E. cbn [bind].
  destruct ds as [|d ds].
  { apply Permutation_length in P. vm_compute in P. discriminate. }
  exists d. split; [reflexivity|]. eapply lex_head; eassumption.
Qed.
