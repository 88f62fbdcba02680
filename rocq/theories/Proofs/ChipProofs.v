(** Consequences of the refinement for the chip-state properties. *)
From Coq Require Import Lia ZifyBool Sorted.
From Verif.Model Require Import Py Command Config Note State Ticks Extract History Main.
From Verif.Spec Require Import VgmFormat Ym2151 Ranges.
From Verif.Proofs Require Import PyLemmas CoreProofs StateProofs KeyProofs FileProofs.
Ltac Zify.zify_post_hook ::= Z.div_mod_to_equations.

(** ** Queries on a reached state *)
Lemma run_total h : history_ok h -> exists s, run_calls h state_init = Ok s.
Proof. intros H. destruct (refines_run h H) as (s & E & _). eauto. Qed.

Lemma q_channel h s ch : refines h s -> 0 <= ch < 8 -> channel_config s ch = Ok (chan_of h ch).
Proof. intros H Hc. unfold channel_config. rewrite (rf_channels _ _ H). now apply get8. Qed.
Lemma q_presses h s ch : refines h s -> 0 <= ch < 8 -> key_presses s ch = Ok (notes h ch).
Proof. intros H Hc. unfold key_presses. rewrite (rf_presses _ _ H). now apply get8. Qed.

Lemma key_in_gen : forall h k, In k (keys h) <->
  exists h1 v h2, h = h1 ++ Apply 8 v :: h2 /\ k = key_at h1 v.
Proof.
  induction h as [|c h IH] using rev_ind; intros k.
  - cbn. split; [tauto|]. intros (h1 & v & h2 & E & _). destruct h1; discriminate.
  - rewrite keys_snoc, in_app_iff, IH. split.
    + intros [(h1 & v & h2 & -> & ->)|H].
      * exists h1, v, (h2 ++ [c]). rewrite <- app_assoc. auto.
      * destruct c as [r v|n]; [|destruct H]. destruct (Z.eqb_spec r 8) as [->|]; [|destruct H].
        destruct H as [<-|[]]. exists h, v, []. auto.
    + intros (h1 & v & h2 & E & ->). destruct h2 as [|x h2] using rev_ind.
      * apply app_inj_tail in E as [-> ->]. right. cbn. auto.
      * rewrite app_comm_cons, app_assoc in E. apply app_inj_tail in E as [-> ->].
        left. eauto.
Qed.
Lemma bits_range v hi lo : lo <= hi -> 0 <= bits v hi lo < 2 ^ (hi - lo + 1).
Proof. intros. unfold bits. apply Z.mod_pos_bound, Z.pow_pos_nonneg; lia. Qed.
Lemma key_chan_range h k : In k (keys h) -> 0 <= k_chan k < 8.
Proof.
  intros H. apply key_in_gen in H as (h1 & v & h2 & _ & ->). cbn [k_chan key_at].
  apply (bits_range v 2 0). lia.
Qed.
Lemma recorded_in h k : In k (recorded h) -> In k (keys h).
Proof. apply drop_until_in. Qed.

(** ** Time *)
Lemma time_app h1 h2 : time (h1 ++ h2) = time h1 + time h2.
Proof.
  unfold time. induction h1 as [|c h1 IH]; cbn [app fold_right]; [lia|]. destruct c; lia.
Qed.
Lemma time_nonneg h : history_ok h -> 0 <= time h.
Proof.
  unfold time. induction 1 as [|c h Hc H IH]; cbn [fold_right]; [lia|].
  destruct c; cbn [call_ok] in Hc; lia.
Qed.
Lemma ok_app h1 h2 : history_ok (h1 ++ h2) <-> history_ok h1 /\ history_ok h2.
Proof. apply Forall_app. Qed.

(** Key times never decrease. *)
Lemma keys_sorted h : history_ok h ->
  StronglySorted (fun a b => k_time a <= k_time b) (keys h)
  /\ Forall (fun k => 0 <= k_time k <= time h) (keys h).
Proof.
  induction h as [|c h IH] using rev_ind; intros H.
  - split; constructor.
  - apply ok_app in H as [H Hc]. destruct (IH H) as [S F]. rewrite keys_snoc, time_snoc.
    inversion Hc as [|? ? Hc0 _]; subst.
    destruct c as [r v|n]; cbn in Hc0.
    + destruct (r =? 8); [|rewrite app_nil_r, Z.add_0_r; auto]. split.
      * clear -S F. induction S as [|x l Sl IHl Fx]; cbn [app]; [repeat constructor|].
        inversion F; subst. constructor; [now apply IHl|]. apply Forall_app. split; [assumption|].
        repeat constructor. cbn. lia.
      * rewrite Z.add_0_r. apply Forall_app. split; [assumption|]. repeat constructor; cbn; try lia.
        now apply time_nonneg.
    + rewrite app_nil_r. split; [assumption|]. eapply Forall_impl; [|exact F]. cbn. lia.
Qed.

Lemma drop_sorted {A} (R : A -> A -> Prop) p l : StronglySorted R l -> StronglySorted R (drop_until p l).
Proof.
  induction 1 as [|x l S IH F]; cbn [drop_until]; [constructor|].
  destruct (p x); [now constructor|assumption].
Qed.
Lemma filter_sorted {A} (R : A -> A -> Prop) p l : StronglySorted R l -> StronglySorted R (filter p l).
Proof.
  induction 1 as [|x l S IH F]; cbn [filter]; [constructor|].
  destruct (p x); [|assumption]. constructor; [assumption|].
  apply Forall_forall. intros y Hy. apply filter_In in Hy as [Hy _].
  now apply (proj1 (Forall_forall _ _) F).
Qed.
Lemma map_sorted {A B} (f : A -> B) (R : A -> A -> Prop) (Q : B -> B -> Prop) l :
  (forall a b, R a b -> Q (f a) (f b)) -> StronglySorted R l -> StronglySorted Q (map f l).
Proof.
  intros H. induction 1 as [|x l S IH F]; cbn [map]; [constructor|].
  constructor; [assumption|]. apply Forall_map. eapply Forall_impl; [|exact F]. auto.
Qed.
Lemma drop_until_head {A} (p : A -> bool) l x r : drop_until p l = x :: r -> p x = true.
Proof.
  induction l as [|y l IH]; cbn [drop_until]; [discriminate|].
  destruct (p y) eqn:E; [|assumption]. intros H. injection H as -> _. assumption.
Qed.

Lemma recorded_positive h k : history_ok h -> In k (recorded h) -> 0 < k_time k <= time h.
Proof.
  intros H Hk. destruct (keys_sorted h H) as [S F].
  pose proof (drop_sorted _ starts _ S) as Sd. fold (recorded h) in Sd.
  pose proof (proj1 (Forall_forall _ _) F k (recorded_in _ _ Hk)) as Fk. cbn in Fk.
  split; [|lia].
  destruct (recorded h) as [|k0 r] eqn:E; [destruct Hk|].
  pose proof (drop_until_head _ _ _ _ E) as Hs. unfold starts in Hs.
  apply andb_true_iff in Hs as [_ Hs].
  assert (H0 : In k0 (keys h)) by (apply recorded_in; rewrite E; now left).
  pose proof (proj1 (Forall_forall _ _) F k0 H0) as F0.
  cbn in F0. apply StronglySorted_inv in Sd as [_ Fr].
  destruct Hk as [->|Hk]; [lia|].
  pose proof (proj1 (Forall_forall _ _) Fr k Hk) as F1. cbn in F1. lia.
Qed.

Lemma C24_proof h s ch l : history_ok h -> refines h s -> 0 <= ch < 8 -> key_presses s ch = Ok l ->
  StronglySorted (fun a b => n_sample a <= n_sample b) l
  /\ Forall (fun n => 0 < n_sample n <= time h) l.
Proof.
  intros H R Hc E. rewrite (q_presses _ _ _ R Hc) in E. injection E as <-. unfold notes. split.
  - eapply map_sorted; [|apply filter_sorted, drop_sorted, (proj1 (keys_sorted h H))].
    cbn. auto.
  - apply Forall_map, Forall_forall. intros k Hk. apply filter_In in Hk as [Hk _].
    cbn. now apply recorded_positive.
Qed.

(** ** Ticks *)
Lemma insert_perm x l y : In y (insert_sorted Z.ltb x l) <-> y = x \/ In y l.
Proof.
  induction l as [|z l IH]; cbn [insert_sorted]; [cbn; intuition|].
  destruct (x <? z); cbn [In]; [intuition|]. rewrite IH. intuition.
Qed.
Lemma insert_lt x l : StronglySorted Z.lt l -> ~ In x l ->
  StronglySorted Z.lt (insert_sorted Z.ltb x l).
Proof.
  induction 1 as [|z l S IH F]; intros Hx; cbn [insert_sorted]; [repeat constructor|].
  cbn [In] in Hx. destruct (Z.ltb_spec x z).
  - constructor; [now constructor|]. constructor; [assumption|].
    eapply Forall_impl; [|exact F]. intros; lia.
  - constructor; [apply IH; tauto|]. apply Forall_forall. intros y Hy. apply insert_perm in Hy as [->|Hy].
    + destruct (Z.eq_dec x z); [subst; tauto|lia].
    + now apply (proj1 (Forall_forall _ _) F).
Qed.
Lemma sorted_gen : forall l acc, StronglySorted Z.lt acc -> NoDup l -> (forall x, In x l -> ~ In x acc) ->
  let r := fold_left (fun acc x => insert_sorted Z.ltb x acc) l acc in
  StronglySorted Z.lt r /\ forall y, In y r <-> In y acc \/ In y l.
Proof.
  induction l as [|x l IH]; intros acc S N D; cbn [fold_left].
  - split; [assumption|]. cbn. tauto.
  - inversion N as [|? ? Nx Nl]; subst.
    destruct (IH (insert_sorted Z.ltb x acc)) as [S' P'].
    + apply insert_lt; [assumption|]. apply D. now left.
    + assumption.
    + intros y Hy Hi. apply insert_perm in Hi as [->|Hi]; [contradiction|]. apply (D y); [now right|assumption].
    + split; [assumption|]. intros y. rewrite P', insert_perm. cbn [In]. intuition.
Qed.
Lemma sorted_set l : NoDup l -> StronglySorted Z.lt (py_sorted Z.ltb l)
  /\ forall y, In y (py_sorted Z.ltb l) <-> In y l.
Proof.
  intros N. destruct (sorted_gen l [] ltac:(constructor) N ltac:(auto)) as [S P].
  split; [exact S|]. intros y. unfold py_sorted. rewrite P. cbn. tauto.
Qed.
Lemma key_on_in h k : In k (key_ons h) <-> exists h1 v h2, h = h1 ++ Apply 8 v :: h2
  /\ bits v 6 3 <> 0 /\ k = key_at h1 v.
Proof.
  unfold key_ons. rewrite filter_In, key_in_gen. split.
  - intros [(h1 & v & h2 & E & ->) Ho]. exists h1, v, h2. split; [assumption|]. split; [|reflexivity].
    unfold k_on in Ho. cbn [key_at k_settings st_ops] in Ho. lia.
  - intros (h1 & v & h2 & E & Hv & ->). split; [eauto|].
    unfold k_on. cbn [key_at k_settings st_ops]. lia.
Qed.
Lemma C25_proof h s : refines h s -> StronglySorted Z.lt (ticks s)
  /\ forall t, In t (ticks s) <-> exists h1 v h2, h = h1 ++ Apply 8 v :: h2 /\ bits v 6 3 <> 0 /\ time h1 = t.
Proof.
  intros R. destruct (rf_beats _ _ R) as [N B]. unfold ticks. destruct (sorted_set _ N) as [S P].
  split; [assumption|]. intros t. rewrite P, B. split.
  - intros (k & Hk & <-). apply key_on_in in Hk as (h1 & v & h2 & E & Hv & ->).
    exists h1, v, h2. auto.
  - intros (h1 & v & h2 & E & Hv & <-). exists (key_at h1 v). split; [|reflexivity].
    apply key_on_in. eauto 6.
Qed.

(** ** Instruments *)
Lemma config_nth h s i c : refines h s -> nth_error (s_configs s) i = Some c ->
  exists x, nth_error (distinct h) i = Some x
  /\ c = mkconfig (Z.of_nat i) (st_base x) (st_chan x) (st_ops x).
Proof.
  intros R H. rewrite (rf_configs _ _ R) in H. unfold instruments in H. rewrite numbered_nth in H.
  destruct (nth_error (distinct h) i) as [x|]; [|discriminate]. injection H as <-.
  exists x. auto.
Qed.
Lemma C19_proof h s : refines h s ->
  (forall i c, nth_error (s_configs s) i = Some c -> c_id c = Z.of_nat i)
  /\ (forall i j a b, nth_error (s_configs s) i = Some a -> nth_error (s_configs s) j = Some b ->
      c_base a = c_base b -> c_channel a = c_channel b -> c_operators a = c_operators b -> i = j).
Proof.
  intros R. split.
  - intros i c H. destruct (config_nth _ _ _ _ R H) as (x & _ & ->). reflexivity.
  - intros i j a b Ha Hb E1 E2 E3.
    destruct (config_nth _ _ _ _ R Ha) as (x & Hx & ->).
    destruct (config_nth _ _ _ _ R Hb) as (y & Hy & ->). cbn in *.
    assert (x = y) by (destruct x, y; cbn in *; congruence). subst y.
    apply (proj1 (NoDup_nth_error (distinct h)) (distinct_nodup h)); [|congruence].
    apply nth_error_Some. congruence.
Qed.

(** Growth: what was there stays, in place. *)
Definition grows {A} (a b : list A) : Prop := exists l, b = a ++ l.
Lemma grows_refl {A} (a : list A) : grows a a.
Proof. exists []. now rewrite app_nil_r. Qed.
Lemma grows_trans {A} (a b c : list A) : grows a b -> grows b c -> grows a c.
Proof. intros [l ->] [m ->]. exists (l ++ m). now rewrite app_assoc. Qed.
Lemma grows_map {A B} (f : A -> B) a b : grows a b -> grows (map f a) (map f b).
Proof. intros [l ->]. exists (map f l). apply map_app. Qed.
Lemma grows_distinct h g : grows (distinct h) (distinct (h ++ g)).
Proof.
  induction g as [|c g IH] using rev_ind; [rewrite app_nil_r; apply grows_refl|].
  eapply grows_trans; [exact IH|]. rewrite app_assoc. apply distinct_snoc_app.
Qed.
Lemma grows_keys h g : grows (keys h) (keys (h ++ g)).
Proof.
  induction g as [|c g IH] using rev_ind; [rewrite app_nil_r; apply grows_refl|].
  eapply grows_trans; [exact IH|]. rewrite app_assoc, keys_snoc. eexists; reflexivity.
Qed.
Lemma grows_drop {A} (p : A -> bool) a b : grows a b -> grows (drop_until p a) (drop_until p b).
Proof.
  intros [l ->]. induction a as [|x a IH]; cbn [app drop_until].
  - exists (drop_until p l). reflexivity.
  - destruct (p x); [|exact IH]. exists l. reflexivity.
Qed.
Lemma grows_filter {A} (p : A -> bool) a b : grows a b -> grows (filter p a) (filter p b).
Proof. intros [l ->]. exists (filter p l). apply filter_app. Qed.
Lemma note_of_later h g k : In k (keys h) -> note_of (h ++ g) k = note_of h k.
Proof.
  intros H. unfold note_of. destruct (grows_distinct h g) as [l ->].
  rewrite note_of_grow; [reflexivity|]. now apply key_distinct.
Qed.
Lemma grows_notes h g ch : grows (notes h ch) (notes (h ++ g) ch).
Proof.
  unfold notes.
  destruct (grows_filter (fun k => k_chan k =? ch) _ _ (grows_drop starts _ _ (grows_keys h g))) as [l E].
  unfold recorded. rewrite E, map_app. exists (map (note_of (h ++ g)) l). f_equal.
  apply map_ext_in. intros k Hk. apply filter_In in Hk as [Hk _].
  apply note_of_later. eapply drop_until_in. exact Hk.
Qed.
Lemma grows_instruments h g : grows (instruments h) (instruments (h ++ g)).
Proof.
  unfold instruments. destruct (grows_distinct h g) as [l ->]. rewrite numbered_app. eexists; reflexivity.
Qed.
Lemma run_app h g s : run_calls (h ++ g) s = let! s' := run_calls h s in run_calls g s'.
Proof. unfold run_calls. apply foldM_app. Qed.
Lemma C20_proof h g s s' : history_ok h -> history_ok g ->
  run_calls h state_init = Ok s -> run_calls g s = Ok s' ->
  (exists new, s_configs s' = s_configs s ++ new)
  /\ (forall ch l, 0 <= ch < 8 -> key_presses s ch = Ok l ->
       exists new, key_presses s' ch = Ok (l ++ new)).
Proof.
  intros Hh Hg E E'. pose proof (refines_of_run _ _ Hh E) as R.
  assert (E2 : run_calls (h ++ g) state_init = Ok s') by (rewrite run_app, E; exact E').
  pose proof (refines_of_run _ _ (proj2 (ok_app h g) (conj Hh Hg)) E2) as R'.
  split.
  - rewrite (rf_configs _ _ R), (rf_configs _ _ R'). apply grows_instruments.
  - intros ch l Hc El. rewrite (q_presses _ _ _ R Hc) in El. injection El as <-.
    rewrite (q_presses _ _ _ R' Hc). destruct (grows_notes h g ch) as [new ->]. eauto.
Qed.

(** Events of a channel, aligned with its notes. *)
Lemma note_event h s ch l i n : refines h s -> 0 <= ch < 8 -> key_presses s ch = Ok l ->
  nth_error l i = Some n ->
  exists k, nth_error (filter (fun k => k_chan k =? ch) (recorded h)) i = Some k /\ n = note_of h k
    /\ In k (recorded h) /\ k_chan k = ch.
Proof.
  intros R Hc E Hn. rewrite (q_presses _ _ _ R Hc) in E. injection E as <-.
  unfold notes in Hn. rewrite nth_error_map in Hn.
  destruct (nth_error _ i) as [k|] eqn:Ek; [|discriminate]. injection Hn as <-.
  exists k. split; [reflexivity|]. split; [reflexivity|].
  apply nth_error_In, filter_In in Ek as [? ?]. split; [assumption|lia].
Qed.
Lemma note_source h s ch l n : refines h s -> 0 <= ch < 8 -> key_presses s ch = Ok l -> In n l ->
  exists h1 v h2, h = h1 ++ Apply 8 v :: h2 /\ bits v 2 0 = ch /\ n = note_of h (key_at h1 v).
Proof.
  intros R Hc E Hn. apply In_nth_error in Hn as [i Hi].
  destruct (note_event _ _ _ _ _ _ R Hc E Hi) as (k & _ & -> & Hk & Hch).
  apply recorded_in, key_in_gen in Hk as (h1 & v & h2 & Eh & ->).
  exists h1, v, h2. auto.
Qed.
Lemma index_inj x y l : In x l -> index_of x l = index_of y l -> x = y.
Proof.
  intros Hx E. pose proof (index_nth _ _ Hx) as Nx. rewrite E in Nx.
  destruct (in_dec settings_eq_dec y l) as [Hy|Hy].
  - rewrite (index_nth _ _ Hy) in Nx. congruence.
  - rewrite index_notin in Nx by assumption. unfold len in Nx. rewrite Nat2Z.id in Nx.
    rewrite (proj2 (nth_error_None l (length l))) in Nx by lia. discriminate.
Qed.
Lemma note_on h k : In k (keys h) -> (0 <= n_config_id (note_of h k) <-> k_on k = true).
Proof.
  intros H. cbn [n_config_id note_of]. destruct (k_on k) eqn:E.
  - pose proof (index_in _ _ (key_distinct h k H E)). split; [reflexivity|lia].
  - split; [lia|discriminate].
Qed.
Lemma note_config h s k : refines h s -> In k (keys h) -> k_on k = true ->
  nth_error (s_configs s) (Z.to_nat (n_config_id (note_of h k)))
  = Some (mkconfig (n_config_id (note_of h k)) (st_base (k_settings k)) (st_chan (k_settings k))
            (st_ops (k_settings k))).
Proof.
  intros R H E. rewrite (rf_configs _ _ R). unfold instruments. rewrite numbered_nth.
  cbn [n_config_id note_of]. rewrite E. pose proof (key_distinct h k H E) as Hd.
  rewrite (index_nth _ _ Hd). pose proof (index_in _ _ Hd). rewrite Z2Nat.id by lia.
  rewrite Z.add_0_l. reflexivity.
Qed.

Lemma keys_from_app : forall a b past, keys_from past (a ++ b) = keys_from past a ++ keys_from (past ++ a) b.
Proof.
  induction a as [|c a IH]; intros b past; cbn [app keys_from]; [now rewrite app_nil_r|].
  rewrite IH, <- !app_assoc. reflexivity.
Qed.
Lemma drop_until_skip {A} (p : A -> bool) a b : (forall x, In x a -> p x = false) ->
  drop_until p (a ++ b) = drop_until p b.
Proof.
  induction a as [|x a IH]; intros H; [reflexivity|]. cbn [app drop_until].
  rewrite (H x) by now left. apply IH. intros y Hy. apply H. now right.
Qed.
