(** C11-C26, C46, C49-C51: from commands to chip state, notes and instruments. *)
From Coq Require Import Lia ZifyBool Sorted.
From Verif.Model Require Import Py Command Core Config Note State Ticks Extract History Main.
From Verif.Spec Require Import VgmFormat Ym2151 Ranges.
From Verif.Proofs Require Import PyLemmas CoreProofs ReaderProofs StateProofs KeyProofs FileProofs
  ChipProofs ChipProofs2.
From Verif.Props Require Import Reader.

(** A song fragment: LFO, a patch on channel 0, a key-on at 1000, panning and
    pitch changes, an equal key-on, a key-off, another patch on channel 3. *)
Definition tune : history :=
  [Apply 0x18 200; Apply 0x19 0x85; Apply 0x19 0x0A; Apply 0x1B 2; Apply 0x20 0xC7;
   Apply 0x28 0x3E; Apply 0x30 0xFC; Apply 0x60 0x7F; Apply 0xC8 0x1F; Beat 1000;
   Apply 0x08 0x78; Apply 0x28 0x45; Apply 0x20 0x47; Beat 300; Apply 0x08 0x78; Beat 200;
   Apply 0x08 0x00; Apply 0x3B 0x52; Apply 0x08 0x7B; Beat 10].
Lemma tune_ok : history_ok tune.
Proof. repeat constructor; cbn; unfold byte; lia. Qed.
Definition tune_state : state :=
  match run_calls tune state_init with Ok s => s | Err _ => state_init end.
Lemma tune_run : run_calls tune state_init = Ok tune_state.
Proof. vm_compute. reflexivity. Qed.

(** C51: processing an opened file makes exactly the calls of its commands, in
    order, on a fresh state, and fails exactly when reading the commands fails. *)
Theorem C51_extraction_is_a_history : forall gunzip ck ck' d p v cs e,
  content gunzip d (Ok p) -> bytes p -> reader gunzip ck (mkfile d 0) = (Ok (Some v), ck') ->
  stream (skipn (Z.to_nat (data_offset p)) p) cs e ->
  history_ok (calls_of cs) /\
  exists s, run_calls (calls_of cs) state_init = Ok s /\
    process_vgm_file (Some v) = match e with None => Ok s | Some x => Err x end.
Proof. exact process_file. Qed.
Print Assumptions C51_extraction_is_a_history.
Example C51_sample : exists v ck', reader no_gzip clocks_empty (mkfile sample_file 0) = (Ok (Some v), ck')
  /\ calls_of (map op_command sample_ops)
     = [Apply 0x20 0xC7; Beat 1000; Apply 0x08 0x78; Beat 4; Beat 735; Beat 882].
Proof. eexists _, _. vm_compute. auto. Qed.

(** C11: 0x66 is skipped like any other uninteresting command ... *)
Theorem C11_end_command_skipped : forall before id after st,
  process_cmds (before ++ Eos id :: after) st = process_cmds (before ++ after) st.
Proof.
  intros a id b st. unfold process_cmds. rewrite !foldM_app. destruct (foldM _ a st); reflexivity.
Qed.
Print Assumptions C11_end_command_skipped.
(** ... so bytes after it do change the result. *)
Theorem C11_nothing_after_end_refuted : exists p trailer v v' s s',
  (exists body, skipn (Z.to_nat (data_offset p)) p = body ++ [0x66])
  /\ fst (reader no_gzip clocks_empty (mkfile p 0)) = Ok (Some v)
  /\ fst (reader no_gzip clocks_empty (mkfile (p ++ trailer) 0)) = Ok (Some v')
  /\ process_vgm_file (Some v) = Ok s /\ process_vgm_file (Some v') = Ok s'
  /\ ticks s <> ticks s'.
Proof.
  exists sample_file, [0x54; 0x08; 0x78].
  eexists _, _, _, _. split; [exists (flat_map encode (removelast sample_ops)); vm_compute; reflexivity|].
  split; [vm_compute; reflexivity|]. split; [vm_compute; reflexivity|].
  split; [vm_compute; reflexivity|]. split; [vm_compute; reflexivity|]. vm_compute. discriminate.
Qed.
Print Assumptions C11_nothing_after_end_refuted.

(** C12: the sample clock. *)
Theorem C12_clock_is_sum_of_waits : forall r cs e s, bytes r -> stream r cs e ->
  process_cmds cs state_init = Ok s ->
  s_samples s = fold_right Z.add 0 (map wait_of cs).
Proof.
  intros r cs e s Hb Hs E. pose proof (stream_cmds_ok _ _ _ Hs Hb) as Hok.
  rewrite process_calls in E by assumption.
  rewrite (rf_samples _ _ (refines_of_run _ _ (calls_ok _ Hok) E)).
  clear E Hs. induction Hok as [|c cs Hc H IH]; [reflexivity|].
  unfold calls_of. cbn [flat_map]. rewrite time_app. fold (calls_of cs). rewrite IH.
  cbn [map fold_right]. f_equal. destruct c as [| |id [n|]|]; unfold time; cbn; try reflexivity. lia.
Qed.
Print Assumptions C12_clock_is_sum_of_waits.
Theorem C12_sample_bank_waits_refuted : exists cs s, stream [0x85] cs None
  /\ process_cmds cs state_init = Ok s /\ fold_right Z.add 0 (map format_wait cs) = 5
  /\ s_samples s = 0.
Proof.
  exists [Plain 0x85 None], state_init. split; [|vm_compute; auto].
  apply (stream_cmd 0x85 [] (Plain 0x85 None) [] [] None); [|constructor].
  apply (fixed_size 0x85 []); [split; lia|reflexivity].
Qed.
Print Assumptions C12_sample_bank_waits_refuted.
Example C12_sample : exists cs s, stream (flat_map encode sample_ops) cs None /\
  bytes (flat_map encode sample_ops) /\
  process_cmds cs state_init = Ok s /\ s_samples s = 1000 + 4 + 735 + 882.
Proof.
  exists (map op_command sample_ops). eexists. split; [apply encode_stream; exact C08_sample_valid|].
  split; [apply bytesb_ok; reflexivity|]. vm_compute. auto.
Qed.

(** C13: the channel configuration is the register file, field by field
    ([chan_of] in Spec/Ym2151.v is the register map). *)
Theorem C13_channel_config : forall h s ch, history_ok h -> run_calls h state_init = Ok s ->
  0 <= ch < 8 -> channel_config s ch = Ok (chan_of h ch).
Proof. intros h s ch H E. apply q_channel. now apply refines_of_run. Qed.
Print Assumptions C13_channel_config.
Example C13_tune : channel_config tune_state 0 = Ok (chan_of tune 0)
  /\ ch_connection (chan_of tune 0) = 7 /\ ch_pms (chan_of tune 3) = 5
  /\ map total_level (ch_operators (chan_of tune 0)) = [127; 0; 0; 0].
Proof. vm_compute. auto. Qed.

(** C14: LFO settings. *)
Theorem C14_lfo : forall h s, history_ok h -> run_calls h state_init = Ok s -> s_base s = base_of h.
Proof. intros h s H E. apply rf_base. now apply refines_of_run. Qed.
Print Assumptions C14_lfo.
Example C14_tune : base_of tune = mkbase TRIANGLE 200 10 5.
Proof. reflexivity. Qed.

(** C15: pitch and panning of a recorded event are those in force when it
    happened. *)
Theorem C15_pitch_in_force : forall h s ch l n, history_ok h -> run_calls h state_init = Ok s ->
  0 <= ch < 8 -> key_presses s ch = Ok l -> In n l ->
  exists before v after, h = before ++ Apply 0x08 v :: after /\ bits v 2 0 = ch
    /\ n_sample n = time before
    /\ mknc (n_right n) (n_left n) (n_octave n) (n_note n) (n_key_fraction n) = pitch_of before ch.
Proof.
  intros h s ch l n H E Hc El Hn.
  destruct (note_source _ _ _ _ _ (refines_of_run _ _ H E) Hc El Hn) as (h1 & v & h2 & Eh & Hch & ->).
  exists h1, v, h2. subst ch. split; [assumption|]. split; [reflexivity|]. split; reflexivity.
Qed.
Print Assumptions C15_pitch_in_force.
Example C15_tune : exists l, key_presses tune_state 0 = Ok l
  /\ map (fun n => (n_right n, n_left n, n_octave n, n_note n)) l
     = [(true, true, 3, 14); (false, true, 4, 5); (false, true, 4, 5)].
Proof. eexists. vm_compute. auto. Qed.

(** C16: what a register write does not touch. *)
Theorem C16_frame : forall h s r v s', history_ok h -> run_calls h state_init = Ok s ->
  byte r -> byte v -> r <> 0x08 -> apply r v s = Ok s' ->
  (forall ch, 0 <= ch < 8 -> key_presses s' ch = key_presses s ch)
  /\ s_configs s' = s_configs s /\ ticks s' = ticks s /\ s_samples s' = s_samples s
  /\ (forall ch, 0 <= ch < 8 -> ~ (0x20 <= r /\ r mod 8 = ch) -> ~ (r = 0x0F /\ ch = 7) ->
       channel_config s' ch = channel_config s ch)
  /\ (~ In r [0x18; 0x19; 0x1B] -> s_base s' = s_base s)
  /\ (forall ch c c', 0 <= ch < 8 -> channel_config s ch = Ok c -> channel_config s' ch = Ok c' ->
       (forall o, 0 <= o < 4 -> ~ (0x40 <= r /\ r mod 8 = ch /\ (r / 8) mod 4 = o) ->
          nth_error (ch_operators c') (Z.to_nat o) = nth_error (ch_operators c) (Z.to_nat o))
       /\ (0x40 <= r -> ch_fb c' = ch_fb c /\ ch_connection c' = ch_connection c
            /\ ch_pms c' = ch_pms c /\ ch_ams c' = ch_ams c /\ ch_noise c' = ch_noise c
            /\ ch_noise_freq c' = ch_noise_freq c)).
Proof. exact C16_proof. Qed.
Print Assumptions C16_frame.
Example C16_tune : exists s', apply 0x9B 0x5F tune_state = Ok s'
  /\ channel_config s' 3 <> channel_config tune_state 3.
Proof. eexists. split; [vm_compute; reflexivity|vm_compute; discriminate]. Qed.

(** C17: registers outside the map are ignored, in any state. *)
Theorem C17_unknown_registers : forall r v s, 0 <= r < 0x20 ->
  ~ In r [0x08; 0x0F; 0x18; 0x19; 0x1B] -> apply r v s = Ok s.
Proof. exact C17_proof. Qed.
Print Assumptions C17_unknown_registers.
Example C17_timer : ~ In 0x14 [0x08; 0x0F; 0x18; 0x19; 0x1B].
Proof. cbn. lia. Qed.

(** C18: apply never fails and every field stays in its hardware width. *)
Theorem C18_never_fails : forall h, history_ok h -> exists s, run_calls h state_init = Ok s.
Proof. exact run_total. Qed.
Print Assumptions C18_never_fails.
Theorem C18_ranges : forall h s, history_ok h -> run_calls h state_init = Ok s ->
  length (s_channels s) = 8%nat
  /\ (forall ch, 0 <= ch < 8 -> exists c, channel_config s ch = Ok c /\ chan_in_range c)
  /\ base_in_range (s_base s)
  /\ Forall config_in_range (s_configs s)
  /\ (forall ch, 0 <= ch < 8 -> exists l, key_presses s ch = Ok l /\ Forall note_in_range l).
Proof. exact C18_proof. Qed.
Print Assumptions C18_ranges.

(** C19: numbering and uniqueness of instruments. *)
Theorem C19_instruments_distinct : forall h s, history_ok h -> run_calls h state_init = Ok s ->
  (forall i c, nth_error (s_configs s) i = Some c -> c_id c = Z.of_nat i)
  /\ (forall i j a b, nth_error (s_configs s) i = Some a -> nth_error (s_configs s) j = Some b ->
      c_base a = c_base b -> c_channel a = c_channel b -> c_operators a = c_operators b -> i = j).
Proof. intros h s H E. apply (C19_proof h). now apply refines_of_run. Qed.
Print Assumptions C19_instruments_distinct.
Example C19_tune : map (fun c => (c_id c, c_operators c)) (s_configs tune_state) = [(0, 15); (1, 15)].
Proof. reflexivity. Qed.

(** C20: nothing stored is ever removed, reordered or altered. *)
Theorem C20_append_only : forall h g s s', history_ok h -> history_ok g ->
  run_calls h state_init = Ok s -> run_calls g s = Ok s' ->
  (exists new, s_configs s' = s_configs s ++ new)
  /\ (forall ch l, 0 <= ch < 8 -> key_presses s ch = Ok l ->
       exists new, key_presses s' ch = Ok (l ++ new)).
Proof. exact C20_proof. Qed.
Print Assumptions C20_append_only.

(** C21: a recorded key-on's instrument is exactly the sound in force at that
    moment; two recorded key-ons share an instrument exactly when these agree. *)
Theorem C21_note_instrument : forall h s ch l n, history_ok h -> run_calls h state_init = Ok s ->
  0 <= ch < 8 -> key_presses s ch = Ok l -> In n l -> 0 <= n_config_id n ->
  exists before v after, h = before ++ Apply 0x08 v :: after /\ bits v 2 0 = ch
    /\ n_sample n = time before
    /\ nth_error (s_configs s) (Z.to_nat (n_config_id n))
       = Some (mkconfig (n_config_id n) (base_of before) (chan_of before ch) (bits v 6 3)).
Proof.
  intros h s ch l n H E Hc El Hn H0. pose proof (refines_of_run _ _ H E) as R.
  destruct (note_source _ _ _ _ _ R Hc El Hn) as (h1 & v & h2 & Eh & Hch & ->).
  assert (Hk : In (key_at h1 v) (keys h)) by (apply key_in_gen; eauto).
  exists h1, v, h2. split; [assumption|]. split; [assumption|]. split; [reflexivity|].
  apply (note_on h _ Hk) in H0. rewrite (note_config h s _ R Hk H0).
  cbn [key_at k_settings st_base st_chan st_ops]. now rewrite Hch.
Qed.
Print Assumptions C21_note_instrument.
(** Position by position: the i-th note of a channel is the i-th recorded event. *)
Theorem C21_same_instrument_iff : forall h s ch ch' l l' i i' n n' k k', history_ok h ->
  run_calls h state_init = Ok s -> 0 <= ch < 8 -> 0 <= ch' < 8 ->
  key_presses s ch = Ok l -> key_presses s ch' = Ok l' ->
  nth_error l i = Some n -> nth_error l' i' = Some n' ->
  nth_error (filter (fun k => k_chan k =? ch) (recorded h)) i = Some k ->
  nth_error (filter (fun k => k_chan k =? ch') (recorded h)) i' = Some k' ->
  k_on k = true -> k_on k' = true ->
  (n_config_id n = n_config_id n' <-> k_settings k = k_settings k').
Proof.
  intros h s ch ch' l l' i i' n n' k k' H E Hc Hc' El El' Hi Hi' Hk Hk' Ho Ho'.
  pose proof (refines_of_run _ _ H E) as R.
  destruct (note_event _ _ _ _ _ _ R Hc El Hi) as (k0 & E0 & -> & I0 & _).
  destruct (note_event _ _ _ _ _ _ R Hc' El' Hi') as (k1 & E1 & -> & I1 & _).
  assert (k0 = k) by congruence. assert (k1 = k') by congruence. subst k0 k1.
  cbn [n_config_id note_of]. rewrite Ho, Ho'. split; [|intros ->; reflexivity].
  apply index_inj. apply key_distinct; [now apply recorded_in|assumption].
Qed.
Print Assumptions C21_same_instrument_iff.
Example C21_tune : exists l l', key_presses tune_state 0 = Ok l /\ key_presses tune_state 3 = Ok l'
  /\ map n_config_id l = [0; 0; -1] /\ map n_config_id l' = [1].
Proof. eexists _, _. vm_compute. auto. Qed.

(** C22: key-off. *)
Theorem C22_key_off : forall h s v s', history_ok h -> run_calls h state_init = Ok s -> byte v ->
  apply 0x08 v s = Ok s' -> let ch := bits v 2 0 in
  (forall c, 0 <= c < 8 -> c <> ch -> key_presses s' c = key_presses s c)
  /\ (bits v 6 3 = 0 -> s_configs s' = s_configs s /\ ticks s' = ticks s)
  /\ exists l new, key_presses s ch = Ok l /\ key_presses s' ch = Ok (l ++ new)
     /\ (length new <= 1)%nat
     /\ Forall (fun n => if bits v 6 3 =? 0 then n_config_id n = -1 else 0 <= n_config_id n) new.
Proof. exact C22_proof. Qed.
Print Assumptions C22_key_off.

(** C23: the recorded notes are the channel's key events, in order, from the
    first key-on at a non-zero position on ([notes], [recorded] in the spec). *)
Theorem C23_recorded_events : forall h s ch, history_ok h -> run_calls h state_init = Ok s ->
  0 <= ch < 8 -> key_presses s ch = Ok (notes h ch).
Proof. intros h s ch H E. apply q_presses. now apply refines_of_run. Qed.
Print Assumptions C23_recorded_events.
(** With a wait before the first key-on nothing from that key-on on is lost. *)
Theorem C23_complete_after_wait : forall h1 v h2 s ch,
  history_ok (h1 ++ Apply 0x08 v :: h2) -> key_ons h1 = [] -> bits v 6 3 <> 0 -> 0 < time h1 ->
  run_calls (h1 ++ Apply 0x08 v :: h2) state_init = Ok s -> 0 <= ch < 8 ->
  key_presses s ch = Ok (map (note_of (h1 ++ Apply 0x08 v :: h2))
    (filter (fun k => k_chan k =? ch) (keys_from h1 (Apply 0x08 v :: h2)))).
Proof.
  intros h1 v h2 s ch H Ho Hv Ht E Hc. rewrite (q_presses _ _ _ (refines_of_run _ _ H E) Hc).
  unfold notes. do 3 f_equal. unfold recorded, keys. rewrite (keys_from_app h1 (Apply 0x08 v :: h2) []).
  cbn [app]. rewrite drop_until_skip.
  - cbn [keys_from]. change (8 =? 8) with true. cbn iota. cbn [app drop_until].
    assert (starts (key_at h1 v) = true) as ->; [|reflexivity].
    unfold starts, k_on. cbn [key_at k_settings st_ops k_time].
    destruct (Z.eqb_spec (bits v 6 3) 0); [contradiction|].
    destruct (Z.eqb_spec (time h1) 0); [lia|reflexivity].
  - intros k Hk. unfold starts. destruct (k_on k) eqn:Ek; [|reflexivity].
    assert (In k (key_ons h1)) as Hin by (apply filter_In; auto). rewrite Ho in Hin. destruct Hin.
Qed.
Print Assumptions C23_complete_after_wait.
Theorem C23_every_key_on_refuted : exists h s, history_ok h /\ run_calls h state_init = Ok s
  /\ length (key_ons h) = 1%nat /\ length (s_configs s) = 1%nat
  /\ forall ch, 0 <= ch < 8 -> key_presses s ch = Ok [].
Proof.
  exists [Apply 0x08 0x78]. eexists. split; [repeat constructor; cbn; unfold byte; lia|].
  split; [vm_compute; reflexivity|]. split; [reflexivity|]. split; [reflexivity|].
  intros ch Hc. rewrite <- (chans_in ch) in Hc. cbn [chans In] in Hc.
  repeat (destruct Hc as [<-|Hc]; [reflexivity|]). destruct Hc.
Qed.
Print Assumptions C23_every_key_on_refuted.
Example C23_tune : key_ons (firstn 10 tune) = [] /\ 0 < time (firstn 10 tune)
  /\ exists h2, tune = firstn 10 tune ++ Apply 0x08 0x78 :: h2.
Proof. split; [reflexivity|]. split; [reflexivity|]. eexists. reflexivity. Qed.

(** C24: chronological order. *)
Theorem C24_chronological : forall h s ch l, history_ok h -> run_calls h state_init = Ok s ->
  0 <= ch < 8 -> key_presses s ch = Ok l ->
  StronglySorted (fun a b => n_sample a <= n_sample b) l
  /\ Forall (fun n => 0 < n_sample n <= time h) l.
Proof. intros h s ch l H E. apply C24_proof; [assumption|]. now apply refines_of_run. Qed.
Print Assumptions C24_chronological.

(** C25: ticks(). *)
Theorem C25_ticks : forall h s, history_ok h -> run_calls h state_init = Ok s ->
  StronglySorted Z.lt (ticks s)
  /\ forall t, In t (ticks s) <->
       exists before v after, h = before ++ Apply 0x08 v :: after /\ bits v 6 3 <> 0 /\ time before = t.
Proof. intros h s H E. apply C25_proof. now apply refines_of_run. Qed.
Print Assumptions C25_ticks.
Example C25_tune : ticks tune_state = [1000; 1300; 1500].
Proof. reflexivity. Qed.

(** C26: pitch, panning and waits between equal key-ons make no instrument. *)
Theorem C26_pitch_panning : forall h v g s s',
  history_ok (h ++ [Apply 0x08 v] ++ g ++ [Apply 0x08 v]) -> all_keep (h ++ [Apply 0x08 v]) g ->
  run_calls (h ++ [Apply 0x08 v]) state_init = Ok s ->
  run_calls (g ++ [Apply 0x08 v]) s = Ok s' -> s_configs s' = s_configs s.
Proof. exact C26_proof. Qed.
Print Assumptions C26_pitch_panning.
Example C26_tune : all_keep (firstn 10 tune ++ [Apply 0x08 0x78])
  [Apply 0x28 0x45; Apply 0x20 0x47; Beat 300].
Proof. repeat split; cbn; try lia. right. split; [lia|reflexivity]. Qed.

(** C46: the instrument settings ignore bits 5 and 4 of the D2R register ... *)
Theorem C46_d2r_high_bit_ignored : forall h h', Forall2 same_but_d2r h h' ->
  forall s, run_calls h s = run_calls h' s.
Proof. exact C46_proof. Qed.
Print Assumptions C46_d2r_high_bit_ignored.
(** ... although bit 4 is part of the rate: rates 31 and 15 share an instrument. *)
Theorem C46_all_settings_distinguished_refuted : exists h s, history_ok h
  /\ run_calls h state_init = Ok s /\ length (key_ons h) = 2%nat
  /\ last_write (firstn 1 h) 0xC0 = Some 0x1F /\ last_write h 0xC0 = Some 0x0F
  /\ length (s_configs s) = 1%nat.
Proof.
  exists [Apply 0xC0 0x1F; Beat 1; Apply 0x08 0x78; Apply 0xC0 0x0F; Beat 1; Apply 0x08 0x78].
  eexists. split; [repeat constructor; cbn; unfold byte; lia|]. vm_compute. auto.
Qed.
Print Assumptions C46_all_settings_distinguished_refuted.
Example C46_pair : Forall2 same_but_d2r [Apply 0xC0 0x1F; Beat 7] [Apply 0xC0 0x2F; Beat 7].
Proof.
  constructor; [|constructor; [now left|constructor]].
  right. exists 0xC0, 0x1F, 0x2F. repeat split; lia.
Qed.

(** C49: a delay of the whole song. *)
Theorem C49_delay : forall k h s s', 0 <= k -> history_ok h ->
  (forall before v after, h = before ++ Apply 0x08 v :: after -> bits v 6 3 <> 0 -> 0 < time before) ->
  run_calls h state_init = Ok s -> run_calls (Beat k :: h) state_init = Ok s' ->
  s_configs s' = s_configs s /\ s_base s' = s_base s /\ s_samples s' = s_samples s + k
  /\ ticks s' = map (fun t => t + k) (ticks s)
  /\ forall ch, 0 <= ch < 8 -> channel_config s' ch = channel_config s ch
     /\ exists l, key_presses s ch = Ok l /\ key_presses s' ch = Ok (map (delayed k) l).
Proof. exact C49_proof. Qed.
Print Assumptions C49_delay.
Example C49_tune_positive : forallb (fun k => 0 <? k_time k) (key_ons tune) = true.
Proof. reflexivity. Qed.

(** C50: commands that are neither YM2151 writes nor waits do not matter. *)
Theorem C50_other_commands_irrelevant : forall cs st,
  process_cmds (filter (fun c => match command_type c with
                                 | Some TYm2151 | Some TWait => true | _ => false end) cs) st
  = process_cmds cs st.
Proof.
  intros cs. unfold process_cmds. induction cs as [|c cs IH]; intros st; [reflexivity|].
  cbn [filter]. destruct c as [id p|id|id n|id r v]; cbn [command_type foldM process_step bind].
  - apply IH.
  - apply IH.
  - destruct (beat n st); cbn [bind]; [apply IH|reflexivity].
  - destruct (apply r v st); cbn [bind]; [apply IH|reflexivity].
Qed.
Print Assumptions C50_other_commands_irrelevant.
