(** Key events and the master refinement theorem. *)
From Coq Require Import Lia ZifyBool.
From Verif.Model Require Import Py Config Note State Extract History.
From Verif.Spec Require Import VgmFormat Ym2151.
From Verif.Proofs Require Import PyLemmas StateProofs.

(** ** Key events *)
Lemma add_new_in acc x y : In y (add_new acc x) <-> In y acc \/ y = x.
Proof.
  unfold add_new. destruct (in_dec settings_eq_dec x acc) as [H|H].
  - split; [tauto|]. intros [?| ->]; assumption.
  - rewrite in_app_iff. cbn [In]. split; intros [?|?]; auto. destruct H0; [|contradiction]. auto.
Qed.
Lemma distinct_gen : forall l acc x, In x (fold_left add_new l acc) <-> In x acc \/ In x l.
Proof.
  induction l as [|y l IH]; intros acc x; cbn [fold_left In]; [tauto|].
  rewrite IH, add_new_in. intuition congruence.
Qed.
Lemma distinct_in h x : In x (distinct h) <-> exists k, In k (key_ons h) /\ k_settings k = x.
Proof.
  unfold distinct. rewrite distinct_gen, in_map_iff. cbn [In].
  split; [intros [[]|(k & E & H)]; eauto|]. intros (k & H & E). eauto.
Qed.
Lemma NoDup_snoc {A} (l : list A) x : NoDup l -> ~ In x l -> NoDup (l ++ [x]).
Proof.
  intros H Hx. apply NoDup_rev in H. rewrite <- (rev_involutive (l ++ [x])).
  apply NoDup_rev. rewrite rev_unit. constructor; [|assumption]. now rewrite <- in_rev.
Qed.
Lemma distinct_nodup_gen : forall l acc, NoDup acc -> NoDup (fold_left add_new l acc).
Proof.
  induction l as [|y l IH]; intros acc H; cbn [fold_left]; [assumption|].
  apply IH. unfold add_new. destruct (in_dec settings_eq_dec y acc); [assumption|].
  now apply NoDup_snoc.
Qed.
Lemma distinct_nodup h : NoDup (distinct h).
Proof. apply distinct_nodup_gen. constructor. Qed.
Lemma key_ons_on h k : In k (key_ons h) -> k_on k = true.
Proof. unfold key_ons. rewrite filter_In. tauto. Qed.

Lemma drop_until_snoc {A} (p : A -> bool) l x :
  drop_until p (l ++ [x]) =
  if is_nil (drop_until p l) then (if p x then [x] else []) else drop_until p l ++ [x].
Proof.
  induction l as [|y l IH]; cbn [app drop_until].
  - cbn. destruct (p x); reflexivity.
  - destruct (p y); [reflexivity|apply IH].
Qed.
Lemma drop_until_in {A} (p : A -> bool) l x : In x (drop_until p l) -> In x l.
Proof.
  induction l as [|y l IH]; cbn [drop_until]; [tauto|]. destruct (p y); [auto|]. cbn; auto.
Qed.

Lemma set_add_in x l y : In y (set_add x l) <-> In y l \/ y = x.
Proof.
  unfold set_add. destruct (existsb (Z.eqb x) l) eqn:E.
  - apply existsb_exists in E as (z & Hz & Ez). apply Z.eqb_eq in Ez. subst z.
    split; [tauto|]. intros [?| ->]; assumption.
  - cbn [In]. split; intros [?|?]; auto.
Qed.
Lemma set_add_nodup x l : NoDup l -> NoDup (set_add x l).
Proof.
  unfold set_add. intros H. destruct (existsb (Z.eqb x) l) eqn:E; [assumption|].
  constructor; [|assumption]. intros Hx. rewrite <- not_true_iff_false in E. apply E.
  apply existsb_exists. exists x. split; [assumption|apply Z.eqb_refl].
Qed.

Lemma reg_key h v r : r <> 8 -> reg (h ++ [Apply 8 v]) r = reg h r.
Proof. intros H. rewrite reg_snoc. destruct (Z.eqb_spec 8 r); [congruence|reflexivity]. Qed.
Lemma chan_key h v ch : 0 <= ch < 8 -> chan_of (h ++ [Apply 8 v]) ch = chan_of h ch.
Proof. intros. apply chan_frame; lia. Qed.

Lemma note_of_grow h k l : (k_on k = true -> In (k_settings k) (distinct h)) ->
  (if k_on k then index_of (k_settings k) (distinct h ++ l) else -1) =
  (if k_on k then index_of (k_settings k) (distinct h) else -1).
Proof. intros H. destruct (k_on k); [|reflexivity]. apply index_app_in; auto. Qed.
Lemma key_distinct h k : In k (keys h) -> k_on k = true -> In (k_settings k) (distinct h).
Proof.
  intros H Ho. apply distinct_in. exists k. split; [|reflexivity].
  unfold key_ons. apply filter_In. auto.
Qed.

Lemma distinct_snoc_app h c : exists l, distinct (h ++ [c]) = distinct h ++ l.
Proof.
  rewrite distinct_snoc. destruct c as [r v|]; [|exists []; now rewrite app_nil_r].
  destruct (_ && _); [|exists []; now rewrite app_nil_r]. unfold add_new.
  destruct (in_dec _ _ _); [exists []; now rewrite app_nil_r|eauto].
Qed.
Lemma note_of_stable h c k : In k (keys h) -> note_of (h ++ [c]) k = note_of h k.
Proof.
  intros H. unfold note_of. destruct (distinct_snoc_app h c) as (l & ->).
  rewrite note_of_grow; [reflexivity|]. now apply key_distinct.
Qed.

Lemma refines_key h s v : byte v -> refines h s ->
  exists s', apply 8 v s = Ok s' /\ refines (h ++ [Apply 8 v]) s'.
Proof.
  intros Hv Hs. unfold byte in Hv. unfold apply. change (8 =? 8) with true. cbn iota.
  set (ev := key_at h v).
  assert (Hch : 0 <= bits v 2 0 < 8).
  { unfold bits. rewrite Z.pow_0_r, Z.div_1_r. change (2 ^ (2 - 0 + 1)) with 8. lia. }
  unfold key_event. rewrite (shiftr_bits v 6 3), (land_bits v 2) by lia. cbv zeta.
  rewrite (rf_channels _ _ Hs), get8 by assumption. cbn [bind].
  rewrite (rf_configs _ _ Hs), (rf_base _ _ Hs). change (instruments h) with (numbered 0 (distinct h)).
  rewrite !find_config_index, !Z.add_0_l.
  replace (len (numbered 0 (distinct h))) with (len (distinct h))
    by (unfold len; now rewrite numbered_len).
  change (mksettings (base_of h) (chan_of h (bits v 2 0)) (bits v 6 3)) with (k_settings ev).
  assert (Eon : op_true (bits v 6 3) = k_on ev) by reflexivity.
  rewrite !Eon.
  pose proof (keys_snoc h (Apply 8 v)) as Ek. cbn iota in Ek.
  change (8 =? 8) with true in Ek. cbn iota in Ek.
  fold ev in Ek.
  pose proof (distinct_snoc h (Apply 8 v)) as Ed. cbn iota in Ed.
  change (8 =? 8) with true in Ed. cbn [andb] in Ed.
  fold ev in Ed.
  (* the config list and the config id *)
  set (cid := if k_on ev then index_of (k_settings ev) (distinct (h ++ [Apply 8 v])) else -1).
  assert (Hsel : (if len (distinct h) =? index_of (k_settings ev) (distinct h)
                  then if k_on ev
                       then (set_configs s (numbered 0 (distinct h) ++
                               [mkconfig (index_of (k_settings ev) (distinct h)) (base_of h)
                                  (chan_of h (bits v 2 0)) (bits v 6 3)]),
                             index_of (k_settings ev) (distinct h))
                       else (s, -1)
                  else (s, index_of (k_settings ev) (distinct h)))
                 = (set_configs s (instruments (h ++ [Apply 8 v])), cid)).
  { assert (Es : set_configs s (numbered 0 (distinct h)) = s).
    { rewrite <- (rf_configs _ _ Hs : _ = numbered 0 (distinct h)). now destruct s. }
    unfold instruments, cid. rewrite Ed.
    destruct (in_dec settings_eq_dec (k_settings ev) (distinct h)) as [Hin|Hin].
    - pose proof (index_in _ _ Hin).
      replace (len (distinct h) =? index_of (k_settings ev) (distinct h)) with false by lia.
      assert (Hk : k_on ev = true).
      { apply distinct_in in Hin as (k & Hk & Ekk). apply key_ons_on in Hk.
        unfold k_on in *. now rewrite <- Ekk. }
      rewrite Hk. unfold add_new. destruct (in_dec _ _ _); [|contradiction].
      now rewrite Es.
    - rewrite index_notin by assumption. rewrite Z.eqb_refl.
      destruct (k_on ev); [|now rewrite Es].
      unfold add_new. destruct (in_dec _ _ _); [contradiction|].
      rewrite index_app_new, numbered_app by assumption. reflexivity. }
  rewrite Hsel. clear Hsel.
  (* first beat *)
  set (s1 := set_configs s (instruments (h ++ [Apply 8 v]))).
  set (s2 := if k_on ev && negb (first_beat_true (s_first_beat s1))
             then set_first_beat s1 (Some (s_samples s1)) else s1).
  assert (Hfb : first_beat_true (s_first_beat s2) = negb (is_nil (recorded (h ++ [Apply 8 v])))).
  { pose proof (rf_first _ _ Hs) as F. unfold recorded in *. rewrite Ek, drop_until_snoc.
    subst s2. change (s_first_beat s1) with (s_first_beat s). rewrite F.
    destruct (drop_until starts (keys h)) as [|k0 l0]; cbn [is_nil negb andb app].
    - unfold starts. destruct (k_on ev) eqn:Eo; cbn [andb].
      + change (s_first_beat (set_first_beat s1 (Some (s_samples s1)))) with (Some (s_samples s)).
        cbn [first_beat_true]. rewrite (rf_samples _ _ Hs).
        change (k_time ev) with (time h). destruct (time h =? 0); reflexivity.
      + change (s_first_beat s1) with (s_first_beat s). rewrite F. reflexivity.
    - rewrite andb_false_r. change (s_first_beat s1) with (s_first_beat s). rewrite F. reflexivity. }
  assert (Hsame : s_channels s2 = s_channels s /\ s_notes s2 = s_notes s /\ s_base s2 = s_base s
    /\ s_configs s2 = instruments (h ++ [Apply 8 v]) /\ s_samples s2 = s_samples s
    /\ s_key_presses s2 = s_key_presses s /\ s_note_beats s2 = s_note_beats s).
  { subst s2. destruct (k_on ev && negb (first_beat_true (s_first_beat s1))); repeat split. }
  destruct Hsame as (X1 & X2 & X3 & X4 & X5 & X6 & X7).
  (* the recorded note *)
  assert (Hrec : exists s3,
    (if first_beat_true (s_first_beat s2) then
      let! nc := py_get (s_notes s2) (bits v 2 0) in
      let! kp := py_get (s_key_presses s2) (bits v 2 0) in
      let! kps := py_set (s_key_presses s2) (bits v 2 0)
                    (kp ++ [note_new cid nc (s_samples s2)]) in
      Ok (set_key_presses s2 kps)
    else Ok s2) = Ok s3
    /\ s_key_presses s3 = map (notes (h ++ [Apply 8 v])) chans
    /\ s_channels s3 = s_channels s2 /\ s_notes s3 = s_notes s2 /\ s_base s3 = s_base s2
    /\ s_configs s3 = s_configs s2 /\ s_samples s3 = s_samples s2
    /\ s_note_beats s3 = s_note_beats s2 /\ s_first_beat s3 = s_first_beat s2).
  { assert (Hold : forall ch, map (note_of (h ++ [Apply 8 v]))
                    (filter (fun k => k_chan k =? ch) (recorded h)) = notes h ch).
    { intros ch. unfold notes. apply map_ext_in. intros k Hk. apply filter_In in Hk as [Hk _].
      apply note_of_stable. eapply drop_until_in. exact Hk. }
    destruct (first_beat_true (s_first_beat s2)) eqn:Ef.
    - rewrite X2, (rf_notes _ _ Hs), get8 by assumption. cbn [bind].
      rewrite X6, (rf_presses _ _ Hs), get8 by assumption. cbn [bind].
      rewrite set8 by assumption. cbn [bind].
      eexists; split; [reflexivity|]. cbn [s_key_presses set_key_presses].
      split; [|repeat split; cbn [s_notes set_key_presses]; rewrite X2, (rf_notes _ _ Hs); reflexivity].
      apply map_ext_in. intros j Hj. apply chans_in in Hj.
      symmetry in Hfb. unfold recorded in Hfb. rewrite Ek, drop_until_snoc in Hfb.
      unfold notes at 3. unfold recorded. rewrite Ek, drop_until_snoc.
      unfold recorded in Hold.
      assert (Enote : note_of (h ++ [Apply 8 v]) ev = note_new cid (pitch_of h (bits v 2 0)) (s_samples s2)).
      { unfold note_of, note_new, cid. rewrite X5, (rf_samples _ _ Hs). reflexivity. }
      destruct (drop_until starts (keys h)) as [|k0 l0] eqn:Er.
      + cbn [is_nil] in *. destruct (starts ev); [|discriminate].
        pose proof (Hold j) as Hj0. cbn [filter map] in Hj0.
        cbn [filter]. change (k_chan ev) with (bits v 2 0).
        rewrite (Z.eqb_sym (bits v 2 0) j).
        destruct (Z.eqb_spec j (bits v 2 0)) as [->|]; [|exact (eq_sym Hj0)].
        rewrite <- Hj0. cbn [map app]. now rewrite Enote.
      + cbn [is_nil] in *. rewrite filter_app, map_app, Hold. cbn [filter].
        change (k_chan ev) with (bits v 2 0). rewrite (Z.eqb_sym (bits v 2 0) j).
        destruct (Z.eqb_spec j (bits v 2 0)) as [->|]; [|cbn [map]; now rewrite app_nil_r].
        cbn [map]. now rewrite Enote.
    - eexists; split; [reflexivity|]. split; [|repeat split].
      rewrite X6, (rf_presses _ _ Hs). apply map_ext_in. intros j Hj.
      unfold notes. symmetry in Hfb. unfold recorded in *. rewrite Ek, drop_until_snoc in Hfb |- *.
      destruct (drop_until starts (keys h)) as [|k0 l0]; cbn [is_nil] in *.
      + destruct (starts ev); [discriminate|]. reflexivity.
      + discriminate. }
  destruct Hrec as (s3 & E3 & Y0 & Y1 & Y2 & Y3 & Y4 & Y5 & Y6 & Y7).
  rewrite E3. cbn [bind]. eexists; split; [reflexivity|].
  assert (Hcid : (0 <=? cid) = k_on ev).
  { unfold cid. destruct (k_on ev) eqn:Eo; [|reflexivity].
    assert (In (k_settings ev) (distinct (h ++ [Apply 8 v]))) as Hin.
    { rewrite Ed. apply add_new_in. auto. }
    pose proof (index_in _ _ Hin). lia. }
  rewrite Hcid.
  assert (Hchan : map (chan_of (h ++ [Apply 8 v])) chans = map (chan_of h) chans).
  { apply map_ext_in. intros j Hj. apply chans_in in Hj. now apply chan_key. }
  assert (Hpitch : map (pitch_of (h ++ [Apply 8 v])) chans = map (pitch_of h) chans).
  { apply map_ext_in. intros j Hj. apply chans_in in Hj. apply pitch_frame; lia. }
  assert (Hbase : base_of (h ++ [Apply 8 v]) = base_of h) by (apply base_frame; lia).
  assert (Hon : forall t, (exists k, In k (key_ons (h ++ [Apply 8 v])) /\ k_time k = t) <->
                (exists k, In k (key_ons h) /\ k_time k = t) \/ (k_on ev = true /\ t = time h)).
  { intros t. unfold key_ons. rewrite Ek, filter_app. cbn [filter]. split.
    - intros (k & Hk & <-). apply in_app_iff in Hk as [Hk|Hk]; [left; eauto|].
      destruct (k_on ev); [|contradiction]. destruct Hk as [<-|[]]. auto.
    - intros [(k & Hk & <-)|(Ho & ->)].
      + exists k. split; [apply in_app_iff; auto|reflexivity].
      + exists ev. rewrite Ho. split; [apply in_app_iff; right; now left|reflexivity]. }
  destruct (rf_beats _ _ Hs) as [B1 B2].
  destruct (k_on ev) eqn:Eo.
  - constructor; cbn [set_note_beats s_key_presses s_channels s_notes s_base s_configs s_samples
      s_note_beats s_first_beat]; try congruence.
    + rewrite Y1, X1, (rf_channels _ _ Hs). congruence.
    + rewrite Y2, X2, (rf_notes _ _ Hs). congruence.
    + rewrite Y3, X3, (rf_base _ _ Hs). congruence.
    + rewrite Y5, X5, (rf_samples _ _ Hs). symmetry. apply time_apply.
    + rewrite Y5, X5, Y6, X7, (rf_samples _ _ Hs). split; [now apply set_add_nodup|].
      intros t. rewrite set_add_in, Hon, B2. intuition.
  - constructor; try congruence.
    + rewrite Y1, X1, (rf_channels _ _ Hs). congruence.
    + rewrite Y2, X2, (rf_notes _ _ Hs). congruence.
    + rewrite Y3, X3, (rf_base _ _ Hs). congruence.
    + rewrite Y5, X5, (rf_samples _ _ Hs). symmetry. apply time_apply.
    + rewrite Y6, X7. split; [assumption|]. intros t. rewrite Hon, B2. intuition congruence.
Qed.

Lemma refines_beat h s n : refines h s ->
  exists s', beat (Some n) s = Ok s' /\ refines (h ++ [Beat n]) s'.
Proof.
  intros Hs. eexists; split; [reflexivity|].
  apply (refines_frame h _ s); [reflexivity|assumption| | | |].
  - rewrite (rf_channels _ _ Hs). apply map_ext. intros j. unfold chan_of, op_of.
    rewrite ?reg_beat. f_equal. apply map_ext. intros o. rewrite ?reg_beat. reflexivity.
  - rewrite (rf_notes _ _ Hs). apply map_ext. intros j. unfold pitch_of. now rewrite !reg_beat.
  - rewrite (rf_base _ _ Hs). unfold base_of, depth. now rewrite !last_such_snoc, !reg_beat.
  - rewrite (rf_samples _ _ Hs), time_snoc. reflexivity.
Qed.

(** The master theorem: after any history the state is what the spec says. *)
Lemma foldM_app {A B} (f : A -> B -> res A) l1 l2 a :
  foldM f (l1 ++ l2) a = let! a := foldM f l1 a in foldM f l2 a.
Proof.
  revert a. induction l1 as [|x l1 IH]; intros a; cbn [app foldM]; [reflexivity|].
  destruct (f a x); cbn [bind]; auto.
Qed.
Lemma refines_run h : history_ok h -> exists s, run_calls h state_init = Ok s /\ refines h s.
Proof.
  induction h as [|c h IH] using rev_ind; intros Hok.
  - exists state_init. split; [reflexivity|apply refines_init].
  - apply Forall_app in Hok as [Hh Hc]. inversion Hc as [|? ? Hc0 _]; subst.
    destruct (IH Hh) as (s & E & Hs). unfold run_calls. rewrite foldM_app.
    fold (run_calls h state_init). rewrite E. cbn [bind foldM].
    assert (exists s', do_call s c = Ok s' /\ refines (h ++ [c]) s') as (s' & E' & H').
    { destruct c as [r v|n]; cbn [call_ok do_call] in *.
      - destruct Hc0. destruct (Z.eq_dec r 8) as [->|]; [now apply refines_key|].
        now apply refines_apply_nonkey.
      - now apply refines_beat. }
    rewrite E'. cbn [bind]. eauto.
Qed.
Lemma refines_of_run h s : history_ok h -> run_calls h state_init = Ok s -> refines h s.
Proof. intros H E. destruct (refines_run h H) as (s' & E' & H'). congruence. Qed.
