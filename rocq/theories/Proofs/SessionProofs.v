(** Several open readers. *)
From Coq Require Import Lia ZifyBool.
From Verif.Model Require Import Py Command Core Session.
From Verif.Spec Require Import VgmFormat Sessions.
From Verif.Proofs Require Import PyLemmas CoreProofs ReaderProofs.

Lemma vgm_init_indep ck ck' f : fst (vgm_init ck f) = fst (vgm_init ck' f).
Proof.
  unfold vgm_init. destruct (read32 f) as [[a|e] f1]; [|reflexivity].
  destruct (read_bcd f1) as [[b|e] f2]; [|reflexivity].
  destruct (read32 f2) as [[c|e] f3]; [|reflexivity].
  destruct (read32 f3) as [[d|e] f4]; [|reflexivity].
  destruct (read32 (fseek 48 f4)) as [[h|e] f5]; [|reflexivity].
  cbv zeta. destruct (150 <=? b); [|reflexivity].
  destruct (read32 f5) as [[i|e] f6]; reflexivity.
Qed.
Lemma reader_indep g ck ck' f : fst (reader g ck f) = fst (reader g ck' f).
Proof.
  unfold reader. destruct (fread 4 f) as [h f1].
  assert (F : forall h t,
    fst (if bytes_eqb h magic then match vgm_init ck t with
         | (Ok v, c) => (Ok (Some v), c) | (Err e, c) => (Err e, c) end else (Ok None, ck)) =
    fst (if bytes_eqb h magic then match vgm_init ck' t with
         | (Ok v, c) => (Ok (Some v), c) | (Err e, c) => (Err e, c) end else (Ok None, ck'))).
  { intros h' t. destruct (bytes_eqb h' magic); [|reflexivity].
    pose proof (vgm_init_indep ck ck' t) as E.
    destruct (vgm_init ck t) as [[v|e] c], (vgm_init ck' t) as [[v'|e'] c']; cbn in *; congruence. }
  destruct (bytes_eqb (takeZ 2 h) [31; 139]).
  - destruct (g (fbytes f1)); [|reflexivity]. destruct (fread 4 (mkfile a 0)). apply F.
  - apply F.
Qed.

Section S.
  Variable g : list Z -> res (list Z).
  Variable k : nat.

  (** The k-th reader of the session is the only reader of the other session. *)
  Definition same_reader (s s1 : session) : Prop :=
    length (ss_readers s1) = 1%nat /\
    nth_error (ss_readers s) k = nth_error (ss_readers s1) 0.

  Lemma set_nth_other {A} (x : A) l i j : i <> j ->
    nth_error (set_nth i x l) j = nth_error l j.
  Proof.
    intros H. rewrite nth_error_set_nth. destruct (Nat.eqb_spec j i); [congruence|reflexivity].
  Qed.

  Lemma act_open d s ck' s' :
    let o := fst (act g (Open d) s) in
    ss_readers s' = [] -> ss_clocks s' = ck' ->
    o = fst (act g (Open d) s')
    /\ exists r, ss_readers (snd (act g (Open d) s)) = ss_readers s ++ [r]
         /\ ss_readers (snd (act g (Open d) s')) = [r].
  Proof.
    intros o Hr Hc. subst o. cbn [act].
    pose proof (reader_indep g (ss_clocks s) (ss_clocks s') (mkfile d 0)) as E.
    destruct (reader g (ss_clocks s) (mkfile d 0)) as [[[v|]|e] c],
      (reader g (ss_clocks s') (mkfile d 0)) as [[[v'|]|e'] c']; cbn in *;
      try discriminate; rewrite Hr; try injection E as ->; split; eauto.
  Qed.

  Lemma act_len a s : length (ss_readers (snd (act g a s))) =
    match a with Open _ => S (length (ss_readers s)) | _ => length (ss_readers s) end.
  Proof.
    destruct a; cbn [act].
    - destruct (reader g (ss_clocks s) (mkfile data 0)) as [[[v|]|e] c]; cbn;
        rewrite app_length; cbn; lia.
    - destruct (nth_error (ss_readers s) k0) as [[v|]|]; try reflexivity.
      destruct (vgm_next (vfile v)); cbn; apply set_nth_length.
    - destruct (nth_error (ss_readers s) k0) as [[v|]|]; reflexivity.
  Qed.

  Lemma alone_after : forall l s s1, (k < length (ss_readers s))%nat -> same_reader s s1 ->
    view_of k (length (ss_readers s)) l (fst (run_session g l s))
    = fst (run_session g (alone k (length (ss_readers s)) l) s1).
  Proof.
    induction l as [|a l IH]; intros s s1 Hk Hs; [reflexivity|].
    cbn [run_session].
    pose proof (act_len a s) as Hl.
    destruct (act g a s) as [o s'] eqn:Ea. cbn [snd] in Hl.
    destruct (run_session g l s') as [os s2] eqn:Er.
    destruct a as [d|j|j chip]; cbn [fst view_of alone].
    - (* another open *)
      replace (length (ss_readers s) =? k)%nat with false by lia. cbn [app].
      rewrite <- Hl. rewrite <- (IH s' s1); [rewrite Er; reflexivity|lia|].
      destruct Hs as [H1 H2]. split; [assumption|]. rewrite <- H2.
      assert (exists x, ss_readers s' = ss_readers s ++ [x]) as [x ->].
      { cbn [act] in Ea. destruct (reader g (ss_clocks s) (mkfile d 0)) as [[[v|]|e] c];
          injection Ea as <- <-; cbn; eauto. }
      rewrite nth_error_app1 by assumption. reflexivity.
    - replace (k <? length (ss_readers s))%nat with true by lia. rewrite andb_true_r.
      destruct (Nat.eqb_spec j k) as [->|Hne].
      + cbn [app run_session].
        destruct (act g (Next 0) s1) as [o1 s1'] eqn:E1.
        destruct Hs as [H1 H2]. cbn [act] in Ea, E1. rewrite <- H2 in E1.
        destruct (nth_error (ss_readers s) k) as [[v|]|] eqn:En.
        * assert (G : o1 = o /\ same_reader s' s1').
          { destruct (ss_readers s1) as [|x [|]] eqn:E1r; try discriminate. cbn [set_nth] in E1.
            destruct (vgm_next (vfile v)); injection Ea as <- <-; injection E1 as <- <-;
              (split; [reflexivity|]); (split; [reflexivity|]); cbn;
              apply (set_nth_nth_error _ (Some v)); assumption. }
          destruct G as [-> G].
          rewrite <- Hl. specialize (IH s' s1' ltac:(lia) G). rewrite Er in IH. cbn [fst] in IH.
          destruct (run_session g (alone k (length (ss_readers s')) l) s1') as [os1 s2'].
          cbn [fst] in *. congruence.
        * injection Ea as <- <-. injection E1 as <- <-.
          specialize (IH s s1 Hk (conj H1 (eq_trans En H2))).
          rewrite Er in IH. cbn [fst] in IH.
          destruct (run_session g (alone k (length (ss_readers s)) l) s1) as [os1 s2'].
          cbn [fst] in *. congruence.
        * apply nth_error_None in En. lia.
      + cbn [app]. rewrite <- Hl. rewrite <- (IH s' s1); [rewrite Er; reflexivity|lia|].
        destruct Hs as [H1 H2]. split; [assumption|]. rewrite <- H2.
        cbn [act] in Ea. destruct (nth_error (ss_readers s) j) as [[v|]|]; try congruence.
        destruct (vgm_next (vfile v)); injection Ea as <- <-; cbn [ss_readers];
          apply set_nth_other; assumption.
    - rewrite <- Hl. rewrite <- (IH s' s1); [rewrite Er; reflexivity|lia|].
      cbn [act] in Ea. destruct (nth_error (ss_readers s) j) as [[v|]|]; injection Ea as <- <-; assumption.
  Qed.

  Lemma alone_before : forall l s s1, (length (ss_readers s) <= k)%nat -> ss_readers s1 = [] ->
    view_of k (length (ss_readers s)) l (fst (run_session g l s))
    = fst (run_session g (alone k (length (ss_readers s)) l) s1).
  Proof.
    induction l as [|a l IH]; intros s s1 Hk Hs; [reflexivity|].
    cbn [run_session].
    pose proof (act_len a s) as Hl.
    destruct (act g a s) as [o s'] eqn:Ea. cbn [snd] in Hl.
    destruct (run_session g l s') as [os s2] eqn:Er.
    destruct a as [d|j|j chip]; cbn [fst view_of alone].
    - destruct (Nat.eqb_spec (length (ss_readers s)) k) as [Ek|Ek].
      + cbn [app run_session].
        destruct (act_open d s _ s1 Hs eq_refl) as (E & x & X1 & X2).
        rewrite Ea in E, X1. cbn [fst snd] in *.
        destruct (act g (Open d) s1) as [o1 s1']. cbn [fst snd] in *. subst o1.
        rewrite <- Hl. pose proof (alone_after l s' s1') as A.
        rewrite Er in A. cbn [fst] in A.
        destruct (run_session g (alone k (length (ss_readers s')) l) s1') as [os1 s2'].
        cbn [fst] in *. f_equal. apply A; [lia|].
        split; [rewrite X2; reflexivity|]. rewrite X1, X2. rewrite <- Ek.
        rewrite nth_error_app2, Nat.sub_diag by lia. reflexivity.
      + cbn [app]. rewrite <- Hl. rewrite <- (IH s' s1); [rewrite Er; reflexivity|lia|assumption].
    - replace (k <? length (ss_readers s))%nat with false by lia. rewrite andb_false_r. cbn [app].
      rewrite <- Hl. rewrite <- (IH s' s1); [rewrite Er; reflexivity|lia|assumption].
    - rewrite <- Hl. rewrite <- (IH s' s1); [rewrite Er; reflexivity|lia|assumption].
  Qed.
End S.

Lemma C06_proof g k l :
  view_of k 0 l (fst (run_session g l session_start))
  = fst (run_session g (alone k 0 l) session_start).
Proof. apply (alone_before g k l session_start session_start); [cbn; lia|reflexivity]. Qed.
