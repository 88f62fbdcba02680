(** PatternPool.add_note for arbitrary arguments. *)
From Coq Require Import Lia ZifyBool.
From Verif.Model Require Import Py Song.
From Verif.Spec Require Import Pool.
From Verif.Proofs Require Import PyLemmas.

Section Pool.
  Variables T L : Z.
  Hypothesis HT : 0 <= T.

  Definition cell_at (p : pool) (i j : nat) (l : Z) : option line :=
    match nth_error (pp_patterns p) i with
    | Some pat => match nth_error (p_tracks pat) j with Some t => dict_get Z.eqb t l | None => None end
    | None => None
    end.
  Record books (p : pool) (b : book) : Prop := mkbooks {
    bs_count : len (pp_patterns p) = bk_count b;
    bs_tracks : pp_tracks p = T; bs_lines : pp_lines p = L;
    bs_shape : Forall (fun q => p_lines_per_track q = L /\ len (p_tracks q) = T /\ p_master q = [[]] /\ p_send q = [[]]) (pp_patterns p);
    bs_cells : forall i j l, cell_at p i j l = entry (bk_written b) (Z.of_nat i) (Z.of_nat j) l;
    bs_in : Forall (fun e => 0 <= fst (fst (fst e)) < bk_count b) (bk_written b) }.

  Lemma pattern_new_shape : p_lines_per_track (pattern_new T L) = L /\ len (p_tracks (pattern_new T L)) = T
    /\ p_master (pattern_new T L) = [[]] /\ p_send (pattern_new T L) = [[]].
  Proof. cbn. unfold len. rewrite repeat_length. split; [reflexivity|]. split; [lia|auto]. Qed.
  Lemma new_cell j l : match nth_error (p_tracks (pattern_new T L)) j with Some t => dict_get Z.eqb t l | None => None end = None.
  Proof.
    destruct (nth_error (p_tracks (pattern_new T L)) j) as [t|] eqn:E; [|reflexivity].
    apply nth_error_In in E. apply repeat_spec in E. subst. reflexivity.
  Qed.

  Lemma entry_out w n : Forall (fun e => 0 <= fst (fst (fst e)) < n) w -> forall i j l, n <= i -> entry w i j l = None.
  Proof.
    induction w as [|[[[p c] k] x] w IH]; intros H i j l N; [reflexivity|]. inversion H; subst. cbn in *.
    replace (p =? i) with false by lia. cbn. now apply IH.
  Qed.

  Lemma append_books p b : books p b ->
    books (mkpool (pp_patterns p ++ [pattern_new (pp_tracks p) (pp_lines p)]) (pp_tracks p) (pp_lines p))
      (mkbook (bk_count b + 1) (bk_written b)).
  Proof.
    intros [C T1 L1 S X I]. rewrite T1, L1. constructor; cbn [pp_patterns pp_tracks pp_lines bk_count bk_written]; auto.
    - rewrite len_app, C. reflexivity.
    - apply Forall_app. split; [assumption|]. constructor; [exact pattern_new_shape|constructor].
    - intros i j l. unfold cell_at. cbn [pp_patterns]. rewrite <- X. unfold cell_at.
      destruct (Nat.lt_ge_cases i (length (pp_patterns p))) as [H|H].
      + now rewrite nth_error_app1.
      + rewrite nth_error_app2 by assumption. rewrite (proj2 (nth_error_None (pp_patterns p) i) H).
        destruct (i - length (pp_patterns p))%nat as [|m]; cbn [nth_error]; [apply new_cell|]. destruct m; reflexivity.
    - eapply Forall_impl; [|exact I]. cbn. intros. lia.
  Qed.
  Lemma grow_books : forall fuel i p b, books p b -> i + 1 - len (pp_patterns p) <= Z.of_nat fuel ->
    books (grow fuel i p) (mkbook (Z.max (bk_count b) (i + 1)) (bk_written b)).
  Proof.
    induction fuel as [|k IH]; intros i p b B F; cbn [grow].
    - destruct B as [C T1 L1 S X I]. replace (Z.max (bk_count b) (i + 1)) with (bk_count b) by lia. destruct b. constructor; assumption.
    - destruct (Z.leb_spec (len (pp_patterns p)) i) as [H|H].
      + pose proof (append_books p b B) as B1. specialize (IH i _ _ B1). cbn [pp_patterns bk_count bk_written] in IH.
        rewrite len_app in IH. change (len [pattern_new (pp_tracks p) (pp_lines p)]) with 1 in IH.
        destruct B as [C T1 L1 S X I]. replace (Z.max (bk_count b) (i + 1)) with (Z.max (bk_count b + 1) (i + 1)) by lia.
        apply IH. lia.
      + destruct B as [C T1 L1 S X I]. replace (Z.max (bk_count b) (i + 1)) with (bk_count b) by lia. destruct b. constructor; assumption.
  Qed.

  Lemma py_slot_position {A} (l : list A) n i : len l = n ->
    match position_of n i with
    | Some k => 0 <= k < n /\ exists x, nth_error l (Z.to_nat k) = Some x /\ py_get l i = Ok x
                 /\ forall y, py_set l i y = Ok (set_nth (Z.to_nat k) y l)
    | None => py_get l i = Err IndexError
    end.
  Proof.
    intros H. unfold position_of, py_get, py_set, py_slot. rewrite H.
    destruct ((0 <=? i) && (i <? n)) eqn:E1.
    - split; [lia|]. destruct (nth_error l (Z.to_nat i)) as [x|] eqn:E; [eauto|].
      apply nth_error_None in E. unfold len in H. lia.
    - destruct ((- n <=? i) && (i <? 0)) eqn:E2; [|reflexivity].
      split; [lia|]. destruct (nth_error l (Z.to_nat (n + i))) as [x|] eqn:E; [eauto|].
      apply nth_error_None in E. unfold len in H. lia.
  Qed.
  Lemma dict_get_setZ {V} (d : list (Z * V)) k v k' : dict_get Z.eqb (dict_set Z.eqb d k v) k' = if k =? k' then Some v else dict_get Z.eqb d k'.
  Proof.
    induction d as [|[a w] d IH]; cbn; [reflexivity|]. destruct (Z.eqb_spec a k); cbn.
    - subst. destruct (k =? k'); reflexivity.
    - destruct (Z.eqb_spec a k'); [|exact IH]. subst. destruct (Z.eqb_spec k k'); [congruence|reflexivity].
  Qed.

  Lemma add_books p b a : books p b ->
    fst (add_note_call p a) = fst (book_add T b a) /\ books (snd (add_note_call p a)) (snd (book_add T b a)).
  Proof.
    intro B. unfold add_note_call, book_add, add_note.
    pose proof (grow_books (Z.to_nat (a_pattern a + 1)) (a_pattern a) p b B) as G.
    assert (G' : books (grow (Z.to_nat (a_pattern a + 1)) (a_pattern a) p) (mkbook (Z.max (bk_count b) (a_pattern a + 1)) (bk_written b))).
    { apply G. pose proof (len_nonneg (pp_patterns p)). lia. } clear G. cbv zeta.
    set (q := grow _ _ p) in *. set (n := Z.max _ _) in *. destruct G' as [C T1 L1 S X I]. cbn [bk_count bk_written] in *.
    pose proof (py_slot_position (pp_patterns q) n (a_pattern a) C) as P.
    destruct (position_of n (a_pattern a)) as [k|].
    2:{ rewrite P. cbn [bind fst snd]. split; [reflexivity|]. constructor; assumption. }
    destruct P as (Kr & pat & Np & -> & Sp). cbn [bind].
    pose proof (proj1 (Forall_forall _ _) S pat (nth_error_In _ _ Np)) as (S1 & S2 & S3 & S4).
    pose proof (py_slot_position (p_tracks pat) T (a_channel a) S2) as Q.
    destruct (position_of T (a_channel a)) as [c|].
    2:{ rewrite Q. cbn [bind fst snd]. split; [reflexivity|]. constructor; assumption. }
    destruct Q as (Cr & t & Nt & -> & St). cbn [bind]. rewrite St. cbn [bind]. rewrite Sp. cbn [bind fst snd].
    split; [reflexivity|]. constructor; cbn [pp_patterns pp_tracks pp_lines bk_count bk_written]; auto.
    - unfold len. rewrite set_nth_length. exact C.
    - apply Forall_forall. intros x Hx. apply In_nth_error in Hx as [m Hm]. rewrite nth_error_set_nth in Hm.
      destruct (_ && _).
      + injection Hm as <-. cbn. unfold len. rewrite set_nth_length. auto.
      + exact (proj1 (Forall_forall _ _) S x (nth_error_In _ _ Hm)).
    - intros i j l. specialize (X i j l). unfold cell_at in *. cbn [pp_patterns entry].
      assert (Lk : (Z.to_nat k < length (pp_patterns q))%nat) by (apply nth_error_Some; congruence).
      assert (Lc : (Z.to_nat c < length (p_tracks pat))%nat) by (apply nth_error_Some; congruence).
      rewrite nth_error_set_nth. destruct (Nat.eqb_spec i (Z.to_nat k)) as [Ei|Ei].
      + apply Nat.ltb_lt in Lk as ->. cbn [andb p_tracks]. subst i. rewrite Np in X.
        replace (k =? Z.of_nat (Z.to_nat k)) with true by lia. cbn [andb].
        rewrite nth_error_set_nth. destruct (Nat.eqb_spec j (Z.to_nat c)) as [Ej|Ej].
        * apply Nat.ltb_lt in Lc as ->. cbn [andb]. subst j. rewrite Nt in X.
          replace (c =? Z.of_nat (Z.to_nat c)) with true by lia. cbn [andb]. rewrite dict_get_setZ.
          destruct (a_line a =? l); [reflexivity|exact X].
        * cbn [andb]. replace (c =? Z.of_nat j) with false by lia. cbn [andb]. exact X.
      + cbn [andb]. replace (k =? Z.of_nat i) with false by lia. cbn [andb]. exact X.
  Qed.
  Lemma adds_books : forall l p b, books p b ->
    fst (add_notes l p) = fst (book_adds T l b) /\ books (snd (add_notes l p)) (snd (book_adds T l b)).
  Proof.
    induction l as [|a l IH]; intros p b B; [cbn; auto|]. cbn [add_notes book_adds].
    destruct (add_books p b a B) as [E B1]. destruct (add_note_call p a) as [o p1], (book_add T b a) as [o' b1]. cbn [fst snd] in *.
    destruct (IH p1 b1 B1) as [E2 B2]. destruct (add_notes l p1), (book_adds T l b1). cbn [fst snd] in *. subst. auto.
  Qed.
  Lemma books_new : books (pool_new T L) book_new.
  Proof.
    constructor; cbn; auto. intros i j l. unfold cell_at. cbn. destruct i; reflexivity.
  Qed.
End Pool.
