(** Frame, range, key-off, pitch/panning, masking and delay lemmas. *)
From Coq Require Import Lia ZifyBool Sorted.
From Verif.Model Require Import Py Command Config Note State Ticks Extract History Main.
From Verif.Spec Require Import VgmFormat Ym2151 Ranges.
From Verif.Proofs Require Import PyLemmas CoreProofs StateProofs KeyProofs FileProofs ChipProofs.
Ltac Zify.zify_post_hook ::= Z.div_mod_to_equations.

(** One more call from a reached state. *)
Lemma refines_step h s c s' : history_ok h -> refines h s -> run_calls h state_init = Ok s ->
  call_ok c -> do_call s c = Ok s' -> refines (h ++ [c]) s'.
Proof.
  intros Hh R E Hc Es. apply refines_of_run.
  - apply ok_app. split; [assumption|]. now repeat constructor.
  - rewrite run_app, E. unfold run_calls. cbn [bind foldM]. now rewrite Es.
Qed.

(** Strictly increasing lists are determined by their elements. *)
Lemma sorted_ext l : StronglySorted Z.lt l -> forall m, StronglySorted Z.lt m ->
  (forall x, In x l <-> In x m) -> l = m.
Proof.
  induction 1 as [|x l S IH F]; intros m Sm H.
  - destruct m as [|y m]; [reflexivity|]. destruct (proj2 (H y)). now left.
  - destruct Sm as [|y m Sm Fm]; [destruct (proj1 (H x)); now left|].
    rewrite Forall_forall in F, Fm.
    assert (x = y).
    { destruct (proj1 (H x) (or_introl eq_refl)) as [?|Hx]; [auto|].
      destruct (proj2 (H y) (or_introl eq_refl)) as [?|Hy]; [auto|].
      apply F in Hy. apply Fm in Hx. lia. }
    subst y. f_equal. apply IH; [assumption|]. intros z. split; intros Hz.
    + destruct (proj1 (H z) (or_intror Hz)) as [->|?]; [|assumption]. apply F in Hz. lia.
    + destruct (proj2 (H z) (or_intror Hz)) as [->|?]; [|assumption]. apply Fm in Hz. lia.
Qed.
Lemma ticks_ext h s h' s' : refines h s -> refines h' s' ->
  (forall t, (exists k, In k (key_ons h) /\ k_time k = t) <->
             (exists k, In k (key_ons h') /\ k_time k = t)) -> ticks s = ticks s'.
Proof.
  intros R R' H. destruct (rf_beats _ _ R) as [N B]. destruct (rf_beats _ _ R') as [N' B'].
  unfold ticks. destruct (sorted_set _ N) as [S P]. destruct (sorted_set _ N') as [S' P'].
  apply sorted_ext; [assumption|assumption|]. intros t. now rewrite P, P', B, B', H.
Qed.

(** ** C16 *)
Lemma C16_proof h s r v s' : history_ok h -> run_calls h state_init = Ok s -> byte r -> byte v ->
  r <> 8 -> apply r v s = Ok s' ->
  (forall ch, 0 <= ch < 8 -> key_presses s' ch = key_presses s ch)
  /\ s_configs s' = s_configs s /\ ticks s' = ticks s /\ s_samples s' = s_samples s
  /\ (forall ch, 0 <= ch < 8 -> ~ (0x20 <= r /\ r mod 8 = ch) -> ~ (r = 0x0F /\ ch = 7) ->
       channel_config s' ch = channel_config s ch)
  /\ (~ In r [0x18; 0x19; 0x1B] -> s_base s' = s_base s)
  /\ (forall ch c c', 0 <= ch < 8 -> channel_config s ch = Ok c -> channel_config s' ch = Ok c' ->
       (forall o, 0 <= o < 4 -> ~ (0x40 <= r /\ r mod 8 = ch /\ (r / 8) mod 4 = o) ->
          nth_error (ch_operators c') (Z.to_nat o) = nth_error (ch_operators c) (Z.to_nat o))
       /\ (0x40 <= r -> ch_fb c' = ch_fb c /\ ch_connection c' = ch_connection c
            /\ ch_pms c' = ch_pms c /\ ch_ams c' = ch_ams c /\ ch_noise c' = ch_noise c
            /\ ch_noise_freq c' = ch_noise_freq c)).
Proof.
  intros Hh E Hr Hv H8 Es. pose proof (refines_of_run _ _ Hh E) as R.
  assert (R' : refines (h ++ [Apply r v]) s') by (eapply refines_step; try eassumption; split; assumption).
  assert (Hk : is_key (Apply r v) = false) by (cbn [is_key]; lia).
  unfold byte in *.
  split; [|split; [|split; [|split; [|split; [|split]]]]].
  - intros ch Hc. rewrite (q_presses _ _ _ R Hc), (q_presses _ _ _ R' Hc). now rewrite notes_frame.
  - rewrite (rf_configs _ _ R), (rf_configs _ _ R'). unfold instruments, distinct, key_ons.
    now rewrite keys_frame.
  - eapply ticks_ext; [eassumption|eassumption|]. intros t. unfold key_ons. now rewrite keys_frame.
  - rewrite (rf_samples _ _ R), (rf_samples _ _ R'). apply time_apply.
  - intros ch Hc H1 H2. rewrite (q_channel _ _ _ R Hc), (q_channel _ _ _ R' Hc). f_equal.
    apply chan_frame; lia.
  - intros Hn. cbn [In] in Hn. rewrite (rf_base _ _ R), (rf_base _ _ R').
    apply base_frame; lia.
  - intros ch c c' Hc E1 E2. rewrite (q_channel _ _ _ R Hc) in E1. rewrite (q_channel _ _ _ R' Hc) in E2.
    injection E1 as <-. injection E2 as <-. split.
    + intros o Ho Hn.
      assert (nth_error [0; 1; 2; 3] (Z.to_nat o) = Some o) as En.
      { assert (o = 0 \/ o = 1 \/ o = 2 \/ o = 3) as Hoo by lia.
        destruct Hoo as [ -> | [ -> | [ -> | -> ]]]; reflexivity. }
      cbn [ch_operators chan_of]. rewrite !nth_error_map, En. cbn [option_map]. f_equal.
      apply op_frame; lia.
    + intros H4. cbn [ch_fb ch_connection ch_pms ch_ams ch_noise ch_noise_freq chan_of].
      regs. repeat split; reflexivity.
Qed.

(** ** C17 *)
Lemma C17_proof r v s : 0 <= r < 0x20 -> ~ In r [0x08; 0x0F; 0x18; 0x19; 0x1B] -> apply r v s = Ok s.
Proof.
  intros Hr Hn. cbn [In] in Hn. unfold apply.
  replace (r =? 8) with false by lia. replace (r =? 15) with false by lia.
  replace (r =? 24) with false by lia. replace (r =? 25) with false by lia.
  replace (r =? 27) with false by lia. unfold byte in *.
  rewrite land_f8, land_e0 by (unfold byte; lia).
  repeat match goal with
         | |- context [if ?a =? ?b then _ else _] => replace (a =? b) with false by lia
         end.
  reflexivity.
Qed.

(** ** C18 *)
Lemma last_such_in p h r v : last_such p h r = Some v -> In (Apply r v) h.
Proof.
  induction h as [|c h IH] using rev_ind; [discriminate|].
  rewrite last_such_snoc, in_app_iff. cbn [In].
  destruct c as [r' v'|n]; [|auto].
  destruct ((r' =? r) && p v') eqn:E; [|auto].
  apply andb_true_iff in E as [E _]. intros H. injection H as <-. right. left. f_equal. lia.
Qed.
Lemma reg_byte h r : history_ok h -> byte (reg h r).
Proof.
  intros H. unfold reg. destruct (last_write h r) as [v|] eqn:E; [|unfold byte; lia].
  apply last_such_in in E. pose proof (proj1 (Forall_forall _ _) H _ E) as [_ B]. exact B.
Qed.
Lemma width_bits v hi lo n : lo <= hi -> n = hi - lo + 1 -> width n (bits v hi lo).
Proof. intros H ->. now apply bits_range. Qed.
Lemma op_range h ch o : op_in_range (op_of h ch o).
Proof. unfold op_in_range. cbn. repeat split; apply bits_range; lia. Qed.
Lemma chan_range h ch : chan_in_range (chan_of h ch).
Proof.
  unfold chan_in_range. cbn [chan_of ch_operators ch_fb ch_connection ch_pms ch_ams ch_noise_freq].
  repeat split; try (apply bits_range; lia).
  - rewrite Forall_map. apply Forall_forall. intros o _. apply op_range.
  - destruct (ch =? 7); [apply bits_range; lia|lia].
  - destruct (ch =? 7); [apply bits_range; lia|reflexivity].
Qed.
Lemma base_range h : history_ok h -> base_in_range (base_of h).
Proof.
  intros H. unfold base_in_range. cbn [base_of b_lfo b_amp_md b_phs_md]. repeat split.
  - apply (reg_byte h 0x18 H).
  - apply (reg_byte h 0x18 H).
  - unfold depth. destruct (last_such _ _ _); [apply bits_range|]; lia.
  - unfold depth. destruct (last_such _ _ _); [apply bits_range|]; lia.
  - unfold depth. destruct (last_such _ _ _); [apply bits_range|]; lia.
  - unfold depth. destruct (last_such _ _ _); [apply bits_range|]; lia.
Qed.
Lemma distinct_source h x : In x (distinct h) -> exists h1 v h2, h = h1 ++ Apply 8 v :: h2
  /\ bits v 6 3 <> 0 /\ x = mksettings (base_of h1) (chan_of h1 (bits v 2 0)) (bits v 6 3).
Proof.
  intros H. apply distinct_in in H as (k & Hk & <-).
  apply key_on_in in Hk as (h1 & v & h2 & E & Hv & ->). exists h1, v, h2. auto.
Qed.
Lemma C18_proof h s : history_ok h -> run_calls h state_init = Ok s ->
  length (s_channels s) = 8%nat
  /\ (forall ch, 0 <= ch < 8 -> exists c, channel_config s ch = Ok c /\ chan_in_range c)
  /\ base_in_range (s_base s)
  /\ Forall config_in_range (s_configs s)
  /\ (forall ch, 0 <= ch < 8 -> exists l, key_presses s ch = Ok l /\ Forall note_in_range l).
Proof.
  intros Hh E. pose proof (refines_of_run _ _ Hh E) as R.
  split; [|split; [|split; [|split]]].
  - rewrite (rf_channels _ _ R). reflexivity.
  - intros ch Hc. exists (chan_of h ch). split; [now apply q_channel|apply chan_range].
  - rewrite (rf_base _ _ R). now apply base_range.
  - apply Forall_forall. intros c Hc. apply In_nth_error in Hc as [i Hi].
    destruct (config_nth _ _ _ _ R Hi) as (x & Hx & ->).
    apply nth_error_In, distinct_source in Hx as (h1 & v & h2 & -> & Hv & ->).
    apply ok_app in Hh as [Hh1 _].
    unfold config_in_range. cbn [c_id c_base c_channel c_operators st_base st_chan st_ops].
    split; [lia|]. split; [now apply base_range|]. split; [apply chan_range|].
    pose proof (bits_range v 6 3 ltac:(lia)) as B. change (2 ^ (6 - 3 + 1)) with (2 ^ 4) in B. lia.
  - intros ch Hc. exists (notes h ch). split; [now apply q_presses|].
    apply Forall_forall. intros n Hn.
    destruct (note_source _ _ _ _ _ R Hc (q_presses _ _ _ R Hc) Hn) as (h1 & v & h2 & Eh & Hch & ->).
    assert (Hk : In (key_at h1 v) (keys h)) by (apply key_in_gen; eauto).
    unfold note_in_range. cbn [note_of n_octave n_note n_key_fraction n_sample k_pitch key_at
      nc_octave nc_note nc_key_fraction pitch_of k_time].
    split; [|repeat split; try (apply bits_range; lia)].
    + destruct (k_on (key_at h1 v)) eqn:Eo.
      * pose proof (proj2 (note_on h _ Hk) Eo). lia.
      * cbn [n_config_id note_of]. rewrite Eo. lia.
    + subst h. apply ok_app in Hh as [Hh1 _]. now apply time_nonneg.
Qed.

(** ** C22 *)
Lemma C22_proof h s v s' : history_ok h -> run_calls h state_init = Ok s -> byte v ->
  apply 8 v s = Ok s' -> let ch := bits v 2 0 in
  (forall c, 0 <= c < 8 -> c <> ch -> key_presses s' c = key_presses s c)
  /\ (bits v 6 3 = 0 -> s_configs s' = s_configs s /\ ticks s' = ticks s)
  /\ exists l new, key_presses s ch = Ok l /\ key_presses s' ch = Ok (l ++ new)
     /\ (length new <= 1)%nat
     /\ Forall (fun n => if bits v 6 3 =? 0 then n_config_id n = -1 else 0 <= n_config_id n) new.
Proof.
  intros Hh E Hv Es ch. pose proof (refines_of_run _ _ Hh E) as R.
  assert (Hc : call_ok (Apply 8 v)) by (split; [unfold byte; lia|assumption]).
  pose proof (refines_step _ _ _ _ Hh R E Hc Es) as R'.
  assert (Hch : 0 <= ch < 8) by (apply (bits_range v 2 0); lia).
  pose proof (keys_snoc h (Apply 8 v)) as Ek. cbn iota in Ek. change (8 =? 8) with true in Ek.
  cbn iota in Ek.
  assert (Hrec : exists new, recorded (h ++ [Apply 8 v]) = recorded h ++ new
                 /\ (new = [] \/ new = [key_at h v])).
  { unfold recorded. rewrite Ek, drop_until_snoc. destruct (drop_until starts (keys h)) as [|k0 l0].
    - cbn [is_nil app]. destruct (starts (key_at h v)); eauto.
    - cbn [is_nil]. eauto. }
  destruct Hrec as (new & Er & Hnew).
  assert (Hnotes : forall c, notes (h ++ [Apply 8 v]) c = notes h c ++
            map (note_of (h ++ [Apply 8 v])) (filter (fun k => k_chan k =? c) new)).
  { intros c. unfold notes. rewrite Er, filter_app, map_app. f_equal.
    apply map_ext_in. intros k Hk. apply filter_In in Hk as [Hk _].
    apply note_of_stable. now apply recorded_in. }
  split; [|split].
  - intros c Hc' Hn. rewrite (q_presses _ _ _ R Hc'), (q_presses _ _ _ R' Hc'). rewrite Hnotes.
    destruct Hnew as [->| ->]; [cbn [filter map]; now rewrite app_nil_r|].
    cbn [filter]. change (k_chan (key_at h v)) with ch. replace (ch =? c) with false by lia.
    cbn [map]. now rewrite app_nil_r.
  - intros H0. assert (Ho : k_on (key_at h v) = false).
    { unfold k_on. cbn [key_at k_settings st_ops]. lia. }
    assert (Eo : key_ons (h ++ [Apply 8 v]) = key_ons h).
    { unfold key_ons. rewrite Ek, filter_app. cbn [filter]. rewrite Ho. apply app_nil_r. }
    split.
    + rewrite (rf_configs _ _ R), (rf_configs _ _ R'). unfold instruments, distinct. now rewrite Eo.
    + eapply ticks_ext; [eassumption|eassumption|]. intros t. now rewrite Eo.
  - exists (notes h ch), (map (note_of (h ++ [Apply 8 v])) (filter (fun k => k_chan k =? ch) new)).
    split; [now apply q_presses|]. split; [rewrite (q_presses _ _ _ R' Hch); now rewrite Hnotes|].
    assert (Hin : In (key_at h v) (keys (h ++ [Apply 8 v]))) by (apply key_in_gen; exists h, v, []; auto).
    destruct Hnew as [->| ->]; [split; [cbn; lia|constructor]|].
    cbn [filter]. change (k_chan (key_at h v)) with ch. rewrite Z.eqb_refl. cbn [map].
    split; [cbn; lia|]. repeat constructor.
    pose proof (note_on _ _ Hin) as Hon. unfold k_on in Hon at 1. cbn [key_at k_settings st_ops] in Hon.
    destruct (Z.eqb_spec (bits v 6 3) 0) as [H0|H0].
    + cbn [n_config_id note_of]. unfold k_on. cbn [key_at k_settings st_ops]. rewrite H0. reflexivity.
    + apply Hon. reflexivity.
Qed.

(** ** C26: pitch, panning and waits do not change the settings. *)
Lemma bits_low v w hi lo : 0 <= lo <= hi -> hi <= 5 -> bits v 5 0 = bits w 5 0 -> bits v hi lo = bits w hi lo.
Proof.
  unfold bits. rewrite !Z.pow_0_r, !Z.div_1_r. change (2 ^ (5 - 0 + 1)) with 64. intros Hl Hh H.
  assert (D : forall x, (x / 2 ^ lo) mod 2 ^ (hi - lo + 1) = ((x mod 64) / 2 ^ lo) mod 2 ^ (hi - lo + 1)).
  { intros x. change 64 with (2 ^ 6).
    rewrite <- (Z.land_ones x 6), <- !Z.shiftr_div_pow2, <- !Z.land_ones by lia.
    apply Z.bits_inj'. intros n Hn. rewrite !Z.land_spec, !Z.shiftr_spec, Z.land_spec by lia.
    destruct (Z.ltb_spec n (hi - lo + 1)).
    - rewrite (Z.ones_spec_low 6 (n + lo)) by lia. now rewrite andb_true_r.
    - rewrite !(Z.ones_spec_high _ n) by lia. now rewrite !andb_false_r. }
  now rewrite (D v), (D w), H.
Qed.
Lemma keeps_step h c : keeps_sound h c -> base_of (h ++ [c]) = base_of h
  /\ forall ch, 0 <= ch < 8 -> chan_of (h ++ [c]) ch = chan_of h ch.
Proof.
  destruct c as [r w|n]; cbn [keeps_sound].
  - intros H. split; [apply base_frame; lia|]. intros ch Hc.
    destruct H as [H|[H Hw]]; [apply chan_frame; lia|].
    destruct (Z.eq_dec r (0x20 + ch)) as [->|Hn]; [|apply chan_frame; lia].
    assert (E1 : bits (reg (h ++ [Apply (0x20 + ch) w]) (0x20 + ch)) 5 0 = bits (reg h (0x20 + ch)) 5 0).
    { rewrite reg_snoc, Z.eqb_refl. exact Hw. }
    unfold chan_of. rewrite ops_frame by lia.
    rewrite !(bits_low (reg (h ++ [Apply (0x20 + ch) w]) (0x20 + ch)) (reg h (0x20 + ch))) by (assumption || lia).
    rewrite (reg_snoc h (0x20 + ch) w (0x38 + ch)), (reg_snoc h (0x20 + ch) w 0x0F).
    replace (0x20 + ch =? 0x38 + ch) with false by lia. replace (0x20 + ch =? 0x0F) with false by lia.
    reflexivity.
  - intros _. split.
    + unfold base_of, depth. now rewrite !last_such_snoc, !reg_beat.
    + intros ch _. unfold chan_of, op_of. rewrite !reg_beat. f_equal. apply map_ext. intros o.
      now rewrite !reg_beat.
Qed.
Lemma keeps_all : forall g h, all_keep h g -> base_of (h ++ g) = base_of h
  /\ (forall ch, 0 <= ch < 8 -> chan_of (h ++ g) ch = chan_of h ch)
  /\ keys (h ++ g) = keys h.
Proof.
  induction g as [|c g IH]; intros h H; [rewrite app_nil_r; auto|].
  destruct H as [Hc Hg]. destruct (keeps_step h c Hc) as [B C].
  destruct (IH _ Hg) as (B' & C' & K'). rewrite <- app_assoc in B', C', K'. cbn [app] in *.
  split; [congruence|]. split.
  - intros ch Hch. rewrite C', C by assumption. reflexivity.
  - rewrite K'. apply keys_frame. destruct c as [r w|]; [|reflexivity]. cbn in *. lia.
Qed.
Lemma C26_proof h v g s s' : history_ok (h ++ [Apply 8 v] ++ g ++ [Apply 8 v]) ->
  all_keep (h ++ [Apply 8 v]) g ->
  run_calls (h ++ [Apply 8 v]) state_init = Ok s ->
  run_calls (g ++ [Apply 8 v]) s = Ok s' -> s_configs s' = s_configs s.
Proof.
  intros Hok Hg E E'.
  assert (Hall : history_ok ((h ++ [Apply 8 v]) ++ g ++ [Apply 8 v])) by (rewrite <- app_assoc; exact Hok).
  pose proof (proj1 (proj1 (ok_app _ _) Hall)) as H1.
  pose proof (refines_of_run _ _ H1 E) as R.
  assert (E2 : run_calls ((h ++ [Apply 8 v]) ++ g ++ [Apply 8 v]) state_init = Ok s')
    by (rewrite run_app, E; exact E').
  pose proof (refines_of_run _ _ Hall E2) as R'.
  rewrite (rf_configs _ _ R), (rf_configs _ _ R'). unfold instruments. f_equal.
  rewrite app_assoc. set (hg := (h ++ [Apply 8 v]) ++ g).
  destruct (keeps_all g _ Hg) as (B & C & K). fold hg in B, C, K.
  assert (Hd : distinct hg = distinct (h ++ [Apply 8 v])) by (unfold distinct, key_ons; now rewrite K).
  assert (Hch : 0 <= bits v 2 0 < 8) by (apply (bits_range v 2 0); lia).
  rewrite (distinct_snoc hg (Apply 8 v)). change (8 =? 8) with true. cbn iota. cbn [andb].
  rewrite Hd. destruct (k_on (key_at hg v)) eqn:Eo; [|reflexivity].
  unfold add_new. destruct (in_dec _ _ _) as [_|Hn]; [reflexivity|]. exfalso. apply Hn.
  apply distinct_in. exists (key_at h v). split.
  - apply key_on_in. exists h, v, []. split; [reflexivity|]. split; [|reflexivity].
    unfold k_on in Eo. cbn [key_at k_settings st_ops] in Eo. lia.
  - cbn [key_at k_settings]. rewrite B, (C _ Hch).
    rewrite (chan_key h v _ Hch), (base_frame h 8 v) by lia. reflexivity.
Qed.

(** ** C46: bits 5 and 4 of the 0xC0 block are never looked at. *)
Lemma C46_step s c c' : same_but_d2r c c' -> do_call s c = do_call s c'.
Proof.
  intros [->|(r & v & v' & -> & -> & Hr & H1 & H2)]; [reflexivity|]. cbn [do_call]. unfold apply.
  rewrite !land_f8, !land_e0 by (unfold byte; lia).
  replace (32 * (r / 32) =? 192) with true by lia.
  repeat match goal with
         | |- context [if ?a =? ?b then _ else _] => replace (a =? b) with false by lia
         end.
  rewrite !(shiftr_bits v 7 6), !(shiftr_bits v' 7 6) by (reflexivity || lia).
  rewrite !(land_bits v 3), !(land_bits v' 3) by (reflexivity || lia).
  now rewrite H1, H2.
Qed.
Lemma C46_proof h h' : Forall2 same_but_d2r h h' -> forall s, run_calls h s = run_calls h' s.
Proof.
  unfold run_calls. induction 1 as [|c c' h h' Hc H IH]; intros s; cbn [foldM]; [reflexivity|].
  rewrite (C46_step s c c' Hc). destruct (do_call s c'); cbn [bind]; [apply IH|reflexivity].
Qed.

(** ** C49: delaying *)
Section Delay.
  Variable k : Z.
  Lemma last_such_delay p h r : last_such p (Beat k :: h) r = last_such p h r.
  Proof. reflexivity. Qed.
  Lemma reg_delay h r : reg (Beat k :: h) r = reg h r.
  Proof. reflexivity. Qed.
  Lemma time_delay h : time (Beat k :: h) = k + time h.
  Proof. reflexivity. Qed.
  Definition late (x : key) : key := mkkey (k + k_time x) (k_chan x) (k_settings x) (k_pitch x).
  Lemma key_at_delay h v : key_at (Beat k :: h) v = late (key_at h v).
  Proof. reflexivity. Qed.
  Lemma keys_delay h : keys (Beat k :: h) = map late (keys h).
  Proof.
    induction h as [|c h IH] using rev_ind; [reflexivity|].
    rewrite app_comm_cons, !keys_snoc, IH, map_app. f_equal.
    destruct c as [r v|]; [|reflexivity]. destruct (r =? 8); [|reflexivity].
    cbn [map]. now rewrite key_at_delay.
  Qed.
  Lemma late_on x : k_on (late x) = k_on x.
  Proof. reflexivity. Qed.
  Lemma key_ons_delay h : key_ons (Beat k :: h) = map late (key_ons h).
  Proof.
    unfold key_ons. rewrite keys_delay. induction (keys h) as [|x l IH]; [reflexivity|].
    cbn [map filter]. rewrite late_on. destruct (k_on x); cbn [map]; now rewrite IH.
  Qed.
  Lemma distinct_delay h : distinct (Beat k :: h) = distinct h.
  Proof. unfold distinct. rewrite key_ons_delay, map_map. reflexivity. Qed.
  Lemma recorded_delay h : 0 <= k -> (forall x, In x (key_ons h) -> 0 < k_time x) ->
    recorded (Beat k :: h) = map late (recorded h).
  Proof.
    intros Hk Hp. unfold recorded. rewrite keys_delay. unfold key_ons in Hp.
    induction (keys h) as [|x l IH]; [reflexivity|]. cbn [map drop_until].
    assert (starts (late x) = starts x) as ->.
    { unfold starts. rewrite late_on. destruct (k_on x) eqn:Ex; [|reflexivity]. cbn [andb].
      assert (0 < k_time x) by (apply Hp; cbn [filter]; rewrite Ex; now left).
      cbn [late k_time]. f_equal. lia. }
    destruct (starts x); [reflexivity|]. apply IH. intros y Hy. apply Hp. cbn [filter].
    destruct (k_on x); [now right|assumption].
  Qed.
  Lemma notes_delay h ch : 0 <= k -> (forall x, In x (key_ons h) -> 0 < k_time x) ->
    notes (Beat k :: h) ch = map (delayed k) (notes h ch).
  Proof.
    intros Hk Hp. unfold notes. rewrite recorded_delay by assumption.
    induction (recorded h) as [|x l IH]; [reflexivity|]. cbn [map filter].
    change (k_chan (late x)) with (k_chan x). destruct (k_chan x =? ch); [|exact IH].
    cbn [map]. rewrite IH. f_equal. unfold note_of, delayed. rewrite distinct_delay, late_on.
    cbn [n_config_id n_right n_left n_octave n_note n_key_fraction n_sample late k_pitch k_time k_settings].
    f_equal. lia.
  Qed.
End Delay.
Lemma map_add_sorted k l : StronglySorted Z.lt l -> StronglySorted Z.lt (map (fun t => t + k) l).
Proof. apply map_sorted. intros; lia. Qed.
Lemma C49_proof k h s s' : 0 <= k -> history_ok h ->
  (forall h1 v h2, h = h1 ++ Apply 8 v :: h2 -> bits v 6 3 <> 0 -> 0 < time h1) ->
  run_calls h state_init = Ok s -> run_calls (Beat k :: h) state_init = Ok s' ->
  s_configs s' = s_configs s /\ s_base s' = s_base s /\ s_samples s' = s_samples s + k
  /\ ticks s' = map (fun t => t + k) (ticks s)
  /\ forall ch, 0 <= ch < 8 -> channel_config s' ch = channel_config s ch
     /\ exists l, key_presses s ch = Ok l /\ key_presses s' ch = Ok (map (delayed k) l).
Proof.
  intros Hk Hh Hp E E'.
  assert (Hp' : forall x, In x (key_ons h) -> 0 < k_time x).
  { intros x Hx. apply key_on_in in Hx as (h1 & v & h2 & Eh & Hv & ->). cbn. eauto. }
  pose proof (refines_of_run _ _ Hh E) as R.
  assert (Hh' : history_ok (Beat k :: h)) by (constructor; assumption).
  pose proof (refines_of_run _ _ Hh' E') as R'.
  split; [|split; [|split; [|split]]].
  - rewrite (rf_configs _ _ R), (rf_configs _ _ R'). unfold instruments. now rewrite distinct_delay.
  - rewrite (rf_base _ _ R), (rf_base _ _ R'). reflexivity.
  - rewrite (rf_samples _ _ R), (rf_samples _ _ R'), time_delay. lia.
  - apply sorted_ext.
    + apply (C25_proof _ _ R').
    + apply map_add_sorted, (C25_proof _ _ R).
    + intros t. unfold ticks. destruct (rf_beats _ _ R) as [N B]. destruct (rf_beats _ _ R') as [N' B'].
      rewrite (proj2 (sorted_set _ N')), B', in_map_iff, key_ons_delay. split.
      * intros (x & Hx & <-). apply in_map_iff in Hx as (y & <- & Hy). exists (k_time y).
        split; [cbn; lia|]. apply (proj2 (sorted_set _ N)), B. eauto.
      * intros (u & <- & Hu). apply (proj2 (sorted_set _ N)), B in Hu as (y & Hy & <-).
        exists (late k y). split; [apply in_map_iff; eauto|cbn; lia].
  - intros ch Hc. rewrite (q_channel _ _ _ R Hc), (q_channel _ _ _ R' Hc). split; [reflexivity|].
    exists (notes h ch). split; [now apply q_presses|].
    rewrite (q_presses _ _ _ R' Hc). f_equal. now apply notes_delay.
Qed.
