(** Histories with the same registers, clock and key events are interchangeable. *)
From Coq Require Import Lia ZifyBool Sorted.
From Verif.Model Require Import Py Command Config Note State Ticks Song Extract Csv History Main.
From Verif.Spec Require Import VgmFormat Ym2151 Ranges View.
From Verif.Proofs Require Import PyLemmas CoreProofs StateProofs KeyProofs FileProofs ChipProofs ChipProofs2.
Ltac Zify.zify_post_hook ::= Z.div_mod_to_equations.

(** ** Exports only look at the logs, the instruments and the ticks. *)
Lemma foldM_ext {A B} (f g : A -> B -> res A) l : (forall a x, In x l -> f a x = g a x) ->
  forall a, foldM f l a = foldM g l a.
Proof.
  induction l as [|x l IH]; intros H a; [reflexivity|]. cbn [foldM]. rewrite (H a x) by now left.
  destruct (g a x); [|reflexivity]. cbn [bind]. apply IH. intros. apply H. now right.
Qed.
Lemma mapM_ext {A B} (f g : A -> res B) l : (forall x, In x l -> f x = g x) -> mapM f l = mapM g l.
Proof.
  induction l as [|x l IH]; intros H; [reflexivity|]. cbn [mapM]. rewrite (H x) by now left.
  rewrite IH; [reflexivity|]. intros. apply H. now right.
Qed.
Lemma exports_ext s s' : (forall ch, 0 <= ch < 8 -> key_presses s ch = key_presses s' ch) ->
  s_configs s = s_configs s' -> ticks s = ticks s' -> same_exports s s'.
Proof.
  intros K C T.
  assert (R : forall ch, In ch (py_range 0 8) -> 0 <= ch < 8).
  { intros ch H. change (py_range 0 8) with chans in H. now apply chans_in. }
  constructor.
  - intros tpn. unfold build_song. rewrite C. destruct (bpm_of tpn); [|reflexivity]. cbn [bind].
    rewrite (foldM_ext (place_channel s tpn) (place_channel s' tpn)); [reflexivity|].
    intros acc ch H. unfold place_channel. rewrite K; [reflexivity|]. now apply R.
  - intros tpn. unfold csv_rows. rewrite (mapM_ext (key_presses s) (key_presses s')); [reflexivity|].
    intros ch H. apply K. now apply R.
  - unfold instruments_text. now rewrite C.
  - unfold ticks_per_note, early_ticks. now rewrite T.
  - intro b. unfold estimate_output, printed_table, early_ticks. now rewrite T.
Qed.

(** ** Agreement *)
Record agree (h h' : history) : Prop := mkagree {
  ag_reg : forall r, r <> 8 -> r <> 0x19 -> reg h r = reg h' r;
  ag_depth : forall b, depth b h = depth b h';
  ag_time : time h = time h';
  ag_keys : keys h = keys h' }.
Lemma agree_refl h : agree h h.
Proof. now constructor. Qed.
Lemma agree_sym h h' : agree h h' -> agree h' h.
Proof. intros []. constructor; intros; symmetry; auto. Qed.
Lemma agree_trans a b c : agree a b -> agree b c -> agree a c.
Proof.
  intros A B. constructor.
  - intros r H H'. now rewrite (ag_reg _ _ A), (ag_reg _ _ B).
  - intros d. now rewrite (ag_depth _ _ A), (ag_depth _ _ B).
  - now rewrite (ag_time _ _ A), (ag_time _ _ B).
  - now rewrite (ag_keys _ _ A), (ag_keys _ _ B).
Qed.

Lemma agree_base h h' : agree h h' -> base_of h = base_of h'.
Proof. intros []. unfold base_of. now rewrite !ag_depth0, !ag_reg0 by lia. Qed.
Lemma agree_op h h' ch o : agree h h' -> 0 <= ch < 8 -> 0 <= o < 4 -> op_of h ch o = op_of h' ch o.
Proof. intros [] H Ho. unfold op_of. now rewrite !ag_reg0 by lia. Qed.
Lemma agree_chan h h' ch : agree h h' -> 0 <= ch < 8 -> chan_of h ch = chan_of h' ch.
Proof.
  intros A H. unfold chan_of. rewrite (map_ext_in (op_of h ch) (op_of h' ch)).
  - destruct A. now rewrite !ag_reg0 by lia.
  - intros o Ho. apply agree_op; [assumption|assumption|]. cbn [In] in Ho. lia.
Qed.
Lemma agree_pitch h h' ch : agree h h' -> 0 <= ch < 8 -> pitch_of h ch = pitch_of h' ch.
Proof. intros [] H. unfold pitch_of. now rewrite !ag_reg0 by lia. Qed.
Lemma agree_key_at h h' v : agree h h' -> key_at h v = key_at h' v.
Proof.
  intros A. unfold key_at. pose proof (bits_range v 2 0 ltac:(lia)) as B. change (2 ^ (2 - 0 + 1)) with 8 in B.
  now rewrite (ag_time _ _ A), (agree_base _ _ A), (agree_chan _ _ _ A B), (agree_pitch _ _ _ A B).
Qed.
Lemma agree_snoc h h' c : agree h h' -> agree (h ++ [c]) (h' ++ [c]).
Proof.
  intros A. constructor.
  - intros r H H'. destruct c as [r' v|n]; [rewrite !reg_snoc|rewrite !reg_beat]; now rewrite (ag_reg _ _ A r H H').
  - intros b. pose proof (ag_depth _ _ A b) as D. unfold depth in *. rewrite !last_such_snoc. destruct c as [r' v|n]; [|assumption].
    destruct ((r' =? 25) && Bool.eqb (bit v 7) b); [reflexivity|assumption].
  - rewrite !time_snoc. now rewrite (ag_time _ _ A).
  - rewrite !keys_snoc, (ag_keys _ _ A). destruct c as [r v|n]; [|reflexivity].
    now rewrite (agree_key_at _ _ v A).
Qed.
Lemma agree_app h h' g : agree h h' -> agree (h ++ g) (h' ++ g).
Proof.
  revert h h'. induction g as [|c g IH]; intros h h' A; [now rewrite !app_nil_r|].
  change (c :: g) with ([c] ++ g). rewrite !app_assoc. apply IH. now apply agree_snoc.
Qed.

(** Same key events: same instruments, logs and ticks. *)
Lemma same_keys h h' s s' : refines h s -> refines h' s' -> keys h = keys h' ->
  s_configs s = s_configs s' /\ s_key_presses s = s_key_presses s' /\ ticks s = ticks s'.
Proof.
  intros R R' K. split; [|split].
  - rewrite (rf_configs _ _ R), (rf_configs _ _ R'). unfold instruments, distinct, key_ons. now rewrite K.
  - rewrite (rf_presses _ _ R), (rf_presses _ _ R'). apply map_ext. intros ch.
    unfold notes, recorded, note_of, distinct, key_ons. now rewrite K.
  - eapply ticks_ext; [eassumption|eassumption|]. intros t. unfold key_ons. now rewrite K.
Qed.
Lemma agree_view h h' s s' : refines h s -> refines h' s' -> agree h h' -> same_view s s'.
Proof.
  intros R R' A. destruct (same_keys _ _ _ _ R R' (ag_keys _ _ A)) as (C & P & T). constructor.
  - intros ch. unfold key_presses. now rewrite P.
  - intros ch. unfold channel_config. rewrite (rf_channels _ _ R), (rf_channels _ _ R').
    rewrite (map_ext_in (chan_of h) (chan_of h')); [reflexivity|]. intros j Hj. apply chans_in in Hj. now apply agree_chan.
  - rewrite (rf_base _ _ R), (rf_base _ _ R'). now apply agree_base.
  - assumption.
  - rewrite (rf_samples _ _ R), (rf_samples _ _ R'). apply (ag_time _ _ A).
  - assumption.
Qed.
Lemma agree_interchangeable h h' : history_ok h -> history_ok h' -> agree h h' ->
  forall g s s', history_ok g -> run_calls (h ++ g) state_init = Ok s -> run_calls (h' ++ g) state_init = Ok s' ->
  same_view s s' /\ same_exports s s'.
Proof.
  intros H H' A g s s' G E E'.
  assert (R : refines (h ++ g) s) by (apply refines_of_run; [apply ok_app; auto|assumption]).
  assert (R' : refines (h' ++ g) s') by (apply refines_of_run; [apply ok_app; auto|assumption]).
  pose proof (agree_view _ _ _ _ R R' (agree_app _ _ g A)) as V. split; [assumption|].
  destruct V. apply exports_ext; auto.
Qed.

(** ** The rewriting rules *)
Lemma agree_split h a b : agree (h ++ [Beat (a + b)]) (h ++ [Beat a; Beat b]).
Proof.
  change [Beat a; Beat b] with ([Beat a] ++ [Beat b]). rewrite app_assoc. constructor.
  - intros r _ _. now rewrite !reg_beat.
  - intros s. unfold depth. now rewrite !last_such_snoc.
  - rewrite !time_snoc. lia.
  - rewrite !keys_snoc. now rewrite !app_nil_r.
Qed.
Lemma agree_zero h : agree (h ++ [Beat 0]) h.
Proof.
  constructor.
  - intros r _ _. now rewrite reg_beat.
  - intros s. unfold depth. now rewrite last_such_snoc.
  - rewrite time_snoc. lia.
  - rewrite keys_snoc. now rewrite app_nil_r.
Qed.
Lemma agree_swap h r v r' v' : r <> 8 -> r' <> 8 -> r <> r' \/ (r = 0x19 /\ bit v 7 <> bit v' 7) ->
  agree (h ++ [Apply r v; Apply r' v']) (h ++ [Apply r' v'; Apply r v]).
Proof.
  intros H8 H8' N.
  change [Apply r v; Apply r' v'] with ([Apply r v] ++ [Apply r' v']).
  change [Apply r' v'; Apply r v] with ([Apply r' v'] ++ [Apply r v]). rewrite !app_assoc. constructor.
  - intros x _ X. rewrite !reg_snoc. destruct (Z.eqb_spec r' x), (Z.eqb_spec r x); intuition congruence.
  - intros b. unfold depth. rewrite !last_such_snoc.
    destruct (Z.eqb_spec r 25), (Z.eqb_spec r' 25); cbn [andb]; try reflexivity.
    destruct (bit v 7), (bit v' 7), b; cbn [Bool.eqb]; try reflexivity; intuition congruence.
  - rewrite !time_snoc. lia.
  - rewrite !keys_snoc. replace (r =? 8) with false by lia. replace (r' =? 8) with false by lia.
    now rewrite !app_nil_r.
Qed.
Lemma agree_late h r v n : r <> 8 -> agree (h ++ [Apply r v; Beat n]) (h ++ [Beat n; Apply r v]).
Proof.
  intros H8. change [Apply r v; Beat n] with ([Apply r v] ++ [Beat n]).
  change [Beat n; Apply r v] with ([Beat n] ++ [Apply r v]). rewrite !app_assoc. constructor.
  - intros x _ X. rewrite reg_beat, !reg_snoc, reg_beat. reflexivity.
  - intros b. unfold depth. rewrite !last_such_snoc. reflexivity.
  - rewrite !time_snoc. lia.
  - rewrite !keys_snoc. replace (r =? 8) with false by lia. now rewrite !app_nil_r.
Qed.
Lemma agree_redundant h r v : r <> 8 -> holds h r v -> agree (h ++ [Apply r v]) h.
Proof.
  intros H8 H. unfold holds in H. constructor.
  - intros x _ X. rewrite reg_snoc. destruct (Z.eqb_spec r x) as [->|]; [|reflexivity].
    destruct (Z.eqb_spec x 25); congruence.
  - intros b. unfold depth at 1. rewrite last_such_snoc. destruct (Z.eqb_spec r 25) as [->|]; cbn [andb]; [|reflexivity].
    destruct (Bool.eqb (bit v 7) b) eqn:B; [|reflexivity]. apply Bool.eqb_prop in B. now subst b.
  - rewrite time_snoc. lia.
  - rewrite keys_snoc. replace (r =? 8) with false by lia. now rewrite app_nil_r.
Qed.
Lemma agree_overwritten h r v v' : r <> 8 -> (r = 0x19 -> bit v 7 = bit v' 7) ->
  agree (h ++ [Apply r v; Apply r v']) (h ++ [Apply r v']).
Proof.
  intros H8 S. change [Apply r v; Apply r v'] with ([Apply r v] ++ [Apply r v']). rewrite app_assoc. constructor.
  - intros x _ X. rewrite !reg_snoc. now destruct (r =? x).
  - intros b. unfold depth. rewrite !last_such_snoc. destruct (Z.eqb_spec r 25) as [E|]; cbn [andb]; [|reflexivity].
    rewrite (S E). destruct (Bool.eqb (bit v' 7) b); reflexivity.
  - rewrite !time_snoc. lia.
  - rewrite !keys_snoc. replace (r =? 8) with false by lia. now rewrite !app_nil_r.
Qed.

(** ** Stretching *)
Section Stretch.
  Variable k : Z.
  Hypothesis Hk : 0 < k.
  Definition slow (x : key) : key := mkkey (k * k_time x) (k_chan x) (k_settings x) (k_pitch x).
  Definition slow_note (n : note) : note :=
    mknote (n_config_id n) (n_right n) (n_left n) (n_octave n) (n_note n) (n_key_fraction n) (k * n_sample n).
  Lemma stretched_snoc h c : stretched k (h ++ [c]) = stretched k h ++ stretched k [c].
  Proof. apply map_app. Qed.
  Lemma last_such_stretched p h r : last_such p (stretched k h) r = last_such p h r.
  Proof.
    induction h as [|c h IH] using rev_ind; [reflexivity|]. rewrite stretched_snoc. cbn [stretched map].
    rewrite !last_such_snoc, IH. destruct c; reflexivity.
  Qed.
  Lemma reg_stretched h r : reg (stretched k h) r = reg h r.
  Proof. unfold reg, last_write. now rewrite last_such_stretched. Qed.
  Lemma depth_stretched h b : depth b (stretched k h) = depth b h.
  Proof. unfold depth. now rewrite last_such_stretched. Qed.
  Lemma time_stretched h : time (stretched k h) = k * time h.
  Proof.
    induction h as [|c h IH] using rev_ind; [cbn; lia|]. rewrite stretched_snoc. cbn [stretched map].
    rewrite !time_snoc, IH. destruct c; lia.
  Qed.
  Lemma base_stretched h : base_of (stretched k h) = base_of h.
  Proof. unfold base_of. now rewrite !depth_stretched, !reg_stretched. Qed.
  Lemma chan_stretched h ch : chan_of (stretched k h) ch = chan_of h ch.
  Proof.
    unfold chan_of. rewrite (map_ext (op_of (stretched k h) ch) (op_of h ch)).
    - now rewrite !reg_stretched.
    - intros o. unfold op_of. now rewrite !reg_stretched.
  Qed.
  Lemma pitch_stretched h ch : pitch_of (stretched k h) ch = pitch_of h ch.
  Proof. unfold pitch_of. now rewrite !reg_stretched. Qed.
  Lemma keys_stretched h : keys (stretched k h) = map slow (keys h).
  Proof.
    induction h as [|c h IH] using rev_ind; [reflexivity|]. rewrite stretched_snoc. cbn [stretched map].
    rewrite !keys_snoc, IH, map_app. f_equal. destruct c as [r v|n]; [|reflexivity]. destruct (r =? 8); [|reflexivity].
    cbn [map]. f_equal. unfold key_at, slow. cbn [k_time k_chan k_settings k_pitch].
    now rewrite time_stretched, base_stretched, chan_stretched, pitch_stretched.
  Qed.
  Lemma filter_map {A B} (f : A -> B) p l : filter p (map f l) = map f (filter (fun x => p (f x)) l).
  Proof. induction l as [|x l IH]; [reflexivity|]. cbn. rewrite IH. destruct (p (f x)); reflexivity. Qed.
  Lemma key_ons_stretched h : key_ons (stretched k h) = map slow (key_ons h).
  Proof. unfold key_ons. rewrite keys_stretched. rewrite filter_map. f_equal. Qed.
  Lemma distinct_stretched h : distinct (stretched k h) = distinct h.
  Proof. unfold distinct. rewrite key_ons_stretched, map_map. reflexivity. Qed.
  Lemma recorded_stretched h : recorded (stretched k h) = map slow (recorded h).
  Proof.
    unfold recorded. rewrite keys_stretched. induction (keys h) as [|x l IH]; [reflexivity|]. cbn [map drop_until].
    assert (E : starts (slow x) = starts x).
    { unfold starts. change (k_on (slow x)) with (k_on x). f_equal. unfold slow. cbn [k_time]. f_equal. nia. }
    rewrite E. destruct (starts x); [reflexivity|exact IH].
  Qed.
  Lemma notes_stretched h ch : notes (stretched k h) ch = map slow_note (notes h ch).
  Proof.
    unfold notes. rewrite recorded_stretched, filter_map, !map_map. apply map_ext. intros x.
    unfold note_of, slow_note. rewrite distinct_stretched. reflexivity.
  Qed.
  Lemma stretched_ok h : history_ok h -> history_ok (stretched k h).
  Proof.
    intros H. apply Forall_forall. intros c Hc. apply in_map_iff in Hc as (x & <- & Hx).
    unfold history_ok in H; rewrite Forall_forall in H. specialize (H x Hx). destruct x; [exact H|]. cbn in *. lia.
  Qed.
End Stretch.

Lemma slow_row k t n : 0 < k -> t <> 0 -> (k * n) / (k * t) = n / t.
Proof. intros. apply Z.div_mul_cancel_l; lia. Qed.
Lemma place_slow k tpn ch p n : 0 < k -> tpn <> 0 -> place_note (k * tpn) ch p (slow_note k n) = place_note tpn ch p n.
Proof.
  intros Hk Ht. unfold place_note, floor_div. replace (k * tpn =? 0) with false by nia.
  replace (tpn =? 0) with false by lia. cbn [bind slow_note n_sample]. rewrite slow_row by assumption. reflexivity.
Qed.
Lemma foldM_map {A B C} (f : A -> C -> res A) (g : B -> C) l a : foldM f (map g l) a = foldM (fun a x => f a (g x)) l a.
Proof. revert a. induction l as [|x l IH]; intros a; [reflexivity|]. cbn. destruct (f a (g x)); [apply IH|reflexivity]. Qed.
Lemma grid_slow k tpn s s' p : 0 < k -> tpn <> 0 ->
  (forall ch, 0 <= ch < 8 -> exists l, key_presses s ch = Ok l /\ key_presses s' ch = Ok (map (slow_note k) l)) ->
  foldM (place_channel s' (k * tpn)) (py_range 0 channel_count) p = foldM (place_channel s tpn) (py_range 0 channel_count) p.
Proof.
  intros Hk Ht H. apply foldM_ext. intros a ch Hc. change (py_range 0 channel_count) with chans in Hc. apply chans_in in Hc.
  destruct (H ch Hc) as (l & E & E'). unfold place_channel. rewrite E, E'. cbn [bind]. rewrite foldM_map.
  apply foldM_ext. intros b n _. now apply place_slow.
Qed.
