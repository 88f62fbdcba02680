(** C54-C59: edits of the command stream that must not change the result. *)
From Coq Require Import Lia ZifyBool Sorted.
From Verif.Model Require Import Py Command Config Note State Ticks Song Serializer Extract Csv History Main.
From Verif.Spec Require Import VgmFormat Ym2151 Ranges Rhythm Text Tracker View.
From Verif.Proofs Require Import PyLemmas CoreProofs StateProofs KeyProofs FileProofs ChipProofs ChipProofs2
  TempoProofs BpmProofs GridProofs SongProofs ViewProofs.
From Verif.Props Require Import Chip.
Ltac Zify.zify_post_hook ::= Z.div_mod_to_equations.

Lemma ok_snoc h c : history_ok h -> call_ok c -> history_ok (h ++ [c]).
Proof. intros H C. apply ok_app. split; [assumption|]. now repeat constructor. Qed.
Lemma ok_snoc2 h c c' : history_ok h -> call_ok c -> call_ok c' -> history_ok (h ++ [c; c']).
Proof. intros H C C'. apply ok_app. split; [assumption|]. now repeat constructor. Qed.

(** C54: waits can be split, merged and, if 0, dropped. *)
Theorem C54_split_wait : forall h a b, history_ok h -> 0 <= a -> 0 <= b ->
  interchangeable (h ++ [Beat (a + b)]) (h ++ [Beat a; Beat b]).
Proof.
  intros h a b H A B g s s' G E E'. refine (agree_interchangeable _ _ _ _ (agree_split h a b) g s s' G E E').
  - apply ok_snoc; [assumption|cbn; lia].
  - now apply ok_snoc2.
Qed.
Print Assumptions C54_split_wait.
Theorem C54_zero_wait : forall h, history_ok h -> interchangeable (h ++ [Beat 0]) h.
Proof.
  intros h H g s s' G E E'. refine (agree_interchangeable _ _ _ H (agree_zero h) g s s' G E E').
  apply ok_snoc; [assumption|cbn; lia].
Qed.
Print Assumptions C54_zero_wait.
Example C54_sample : exists s s', run_calls [Apply 0x28 0x4A; Beat 700; Apply 0x08 0x79; Beat 40] state_init = Ok s
  /\ run_calls [Apply 0x28 0x4A; Beat 300; Beat 400; Apply 0x08 0x79; Beat 40] state_init = Ok s'
  /\ key_presses s 1 = key_presses s' 1 /\ key_presses s 1 <> Ok [].
Proof. eexists _, _. split; [vm_compute; reflexivity|]. split; [vm_compute; reflexivity|]. split; [reflexivity|discriminate]. Qed.

(** C55: a write that repeats what the register holds, or that is overwritten
    before anything else happens, can be dropped - unless it is a key event. *)
Theorem C55_redundant_write : forall h r v, history_ok h -> byte r -> byte v -> r <> 0x08 ->
  holds h r v -> interchangeable (h ++ [Apply r v]) h.
Proof.
  intros h r v H R V N Q g s s' G E E'. refine (agree_interchangeable _ _ _ H (agree_redundant h r v N Q) g s s' G E E').
  now apply ok_snoc.
Qed.
Print Assumptions C55_redundant_write.
Theorem C55_overwritten_write : forall h r v v', history_ok h -> byte r -> byte v -> byte v' -> r <> 0x08 ->
  (r = 0x19 -> bit v 7 = bit v' 7) ->
  interchangeable (h ++ [Apply r v; Apply r v']) (h ++ [Apply r v']).
Proof.
  intros h r v v' H R V V' N Q g s s' G E E'. refine (agree_interchangeable _ _ _ _ (agree_overwritten h r v v' N Q) g s s' G E E').
  - now apply ok_snoc2.
  - now apply ok_snoc.
Qed.
Print Assumptions C55_overwritten_write.
Example C55_tune : holds tune 0x18 200 /\ holds tune 0x19 0x85 /\ holds tune 0x19 0x0A /\ holds tune 0x61 0.
Proof. unfold holds. repeat split. Qed.
(** Key events are never redundant. *)
Theorem C55_key_events_refuted : exists h s s', history_ok h /\ holds h 0x08 0x78
  /\ run_calls (h ++ [Apply 0x08 0x78]) state_init = Ok s /\ run_calls h state_init = Ok s'
  /\ key_presses s 0 <> key_presses s' 0.
Proof.
  exists [Beat 5; Apply 0x08 0x78]. eexists _, _. split; [repeat constructor; cbn; unfold byte; lia|]. split; [reflexivity|].
  split; [vm_compute; reflexivity|]. split; [vm_compute; reflexivity|]. discriminate.
Qed.
Print Assumptions C55_key_events_refuted.

(** C56: writes to different registers can be exchanged, and moved across waits,
    as long as no key event is involved. *)
Theorem C56_exchange_writes : forall h r v r' v', history_ok h -> byte r -> byte v -> byte r' -> byte v' ->
  r <> 0x08 -> r' <> 0x08 -> r <> r' \/ (r = 0x19 /\ bit v 7 <> bit v' 7) ->
  interchangeable (h ++ [Apply r v; Apply r' v']) (h ++ [Apply r' v'; Apply r v]).
Proof.
  intros h r v r' v' H R V R' V' N N' Q g s s' G E E'.
  refine (agree_interchangeable _ _ _ _ (agree_swap h r v r' v' N N' Q) g s s' G E E'); now apply ok_snoc2.
Qed.
Print Assumptions C56_exchange_writes.
Theorem C56_exchange_wait : forall h r v n, history_ok h -> byte r -> byte v -> 0 <= n -> r <> 0x08 ->
  interchangeable (h ++ [Apply r v; Beat n]) (h ++ [Beat n; Apply r v]).
Proof.
  intros h r v n H R V N Q g s s' G E E'.
  refine (agree_interchangeable _ _ _ _ (agree_late h r v n Q) g s s' G E E'); now apply ok_snoc2.
Qed.
Print Assumptions C56_exchange_wait.
(** The order matters once a key event stands in between. *)
Theorem C56_key_order_refuted : exists s s',
  run_calls [Beat 1; Apply 0x28 0x4A; Apply 0x08 0x78] state_init = Ok s
  /\ run_calls [Beat 1; Apply 0x08 0x78; Apply 0x28 0x4A] state_init = Ok s' /\ key_presses s 0 <> key_presses s' 0.
Proof. eexists _, _. split; [vm_compute; reflexivity|]. split; [vm_compute; reflexivity|]. discriminate. Qed.
Print Assumptions C56_key_order_refuted.

(** C57: the exports are determined by the key events, each with the settings,
    pitch and position in force when it happened; nothing else in the stream matters. *)
Theorem C57_only_key_events : forall h h' s s', history_ok h -> history_ok h' ->
  run_calls h state_init = Ok s -> run_calls h' state_init = Ok s' -> keys h = keys h' ->
  (forall ch, key_presses s ch = key_presses s' ch) /\ s_configs s = s_configs s' /\ ticks s = ticks s'
  /\ same_exports s s'.
Proof.
  intros h h' s s' H H' E E' K.
  destruct (same_keys _ _ _ _ (refines_of_run _ _ H E) (refines_of_run _ _ H' E') K) as (C & P & T).
  assert (Q : forall ch, key_presses s ch = key_presses s' ch) by (intros; unfold key_presses; now rewrite P).
  split; [exact Q|]. split; [exact C|]. split; [exact T|]. apply exports_ext; auto.
Qed.
Print Assumptions C57_only_key_events.
Example C57_sample : keys (tune ++ [Apply 0x28 0x11; Beat 77; Apply 0x60 3]) = keys tune /\ keys tune <> [].
Proof. split; [reflexivity|discriminate]. Qed.

(** C58: playing everything k times as slowly and making the rows k times as long
    gives the same song, tempo aside. *)
Theorem C58_stretch : forall k h s s' tpn sg sg', 0 < k -> history_ok h -> tpn <> 0 ->
  run_calls h state_init = Ok s -> run_calls (stretched k h) state_init = Ok s' ->
  build_song s tpn = Ok sg -> build_song s' (k * tpn) = Ok sg' ->
  s_configs s' = s_configs s
  /\ xs_patterns (render sg') = xs_patterns (render sg) /\ xs_sequence (render sg') = xs_sequence (render sg)
  /\ xs_instruments (render sg') = xs_instruments (render sg) /\ xs_tracks (render sg') = xs_tracks (render sg).
Proof.
  intros k h s s' tpn sg sg' K H Ht E E' B B'.
  pose proof (refines_of_run _ _ H E) as R. pose proof (refines_of_run _ _ (stretched_ok k K h H) E') as R'.
  assert (C : s_configs s' = s_configs s).
  { rewrite (rf_configs _ _ R), (rf_configs _ _ R'). unfold instruments. now rewrite distinct_stretched. }
  split; [exact C|]. unfold build_song in B, B'. rewrite C in B'.
  rewrite (grid_slow k tpn s s') in B'; [|assumption|assumption|].
  2: { intros ch Hc. exists (notes h ch). split; [now apply q_presses|].
       rewrite <- notes_stretched by assumption. now apply q_presses. }
  destruct (bpm_of tpn); [|discriminate]. destruct (bpm_of (k * tpn)); [|discriminate]. cbn [bind] in B, B'.
  destruct (foldM (place_channel s tpn) (py_range 0 channel_count) _) as [p|]; [|discriminate].
  cbn [bind] in B, B'. injection B as <-. injection B' as <-. repeat split.
Qed.
Print Assumptions C58_stretch.
Example C58_tune : exists s' sg sg', run_calls (stretched 3 tune) state_init = Ok s'
  /\ build_song tune_state 200 = Ok sg /\ build_song s' 600 = Ok sg' /\ xs_patterns (render sg') <> [].
Proof.
  eexists _, _, _. split; [vm_compute; reflexivity|]. split; [vm_compute; reflexivity|]. split; [vm_compute; reflexivity|].
  vm_compute. discriminate.
Qed.

(** C59: a delay of k whole rows moves every cell down by k rows and leaves the
    first k rows empty. *)
Lemma last_event_delayed tpn k log row : 0 < tpn ->
  last_event tpn (map (delayed (k * tpn)) log) row = option_map (delayed (k * tpn)) (last_event tpn log (row - k)).
Proof.
  intros Ht. unfold last_event. rewrite filter_map, <- map_rev.
  rewrite (filter_ext (fun x => n_sample (delayed (k * tpn) x) / tpn =? row) (fun n => n_sample n / tpn =? row - k)).
  - destruct (rev _); reflexivity.
  - intros n. unfold delayed. cbn [n_sample]. rewrite Z.div_add by lia. lia.
Qed.
Theorem C59_delay_rows : forall h s s' k tpn sg sg' ch row, history_ok h -> 0 <= k -> 0 < tpn -> 0 <= ch < 8 ->
  (forall before v after, h = before ++ Apply 0x08 v :: after -> bits v 6 3 <> 0 -> 0 < time before) ->
  run_calls h state_init = Ok s -> run_calls (Beat (k * tpn) :: h) state_init = Ok s' ->
  build_song s tpn = Ok sg -> build_song s' tpn = Ok sg' -> 0 <= row ->
  cell (render sg') (row / 64) ch (row mod 64) =
  if row <? k then None else cell (render sg) ((row - k) / 64) ch ((row - k) mod 64).
Proof.
  intros h s s' k tpn sg sg' ch row H K Ht Hc P E E' B B' Hr.
  pose proof (run_logs h s H E) as L.
  assert (H' : history_ok (Beat (k * tpn) :: h)) by (constructor; [cbn; nia|assumption]).
  pose proof (run_logs _ s' H' E') as L'.
  destruct (C49_delay (k * tpn) h s s' ltac:(nia) H P E E') as (_ & _ & _ & _ & D).
  destruct (D ch Hc) as (_ & l & El & El'). destruct (L ch Hc) as (Q & _ & _ & POS). destruct (L' ch Hc) as (Q' & _).
  assert (l = notes h ch) by congruence. subst l. assert (EN : notes (Beat (k * tpn) :: h) ch = map (delayed (k * tpn)) (notes h ch)) by congruence.
  rewrite (cell_last _ _ _ _ _ _ _ L' Ht (song_facts_of _ _ _ _ L' Ht B')) by lia.
  rewrite EN. replace (64 * (row / 64) + row mod 64) with row by lia. rewrite last_event_delayed by assumption.
  destruct (Z.ltb_spec row k) as [S|S].
  - destruct (last_event tpn (notes h ch) (row - k)) as [n|] eqn:LE; [|reflexivity].
    apply last_event_in in LE as [I X]. rewrite Forall_forall in POS. specialize (POS n I).
    assert (0 <= n_sample n / tpn) by (apply Z.div_pos; lia). lia.
  - rewrite (cell_last _ _ _ _ _ _ _ L Ht (song_facts_of _ _ _ _ L Ht B)) by lia.
    replace (64 * ((row - k) / 64) + (row - k) mod 64) with (row - k) by lia.
    destruct (last_event tpn (notes h ch) (row - k)) as [n|]; reflexivity.
Qed.
Print Assumptions C59_delay_rows.
Example C59_tune : exists s' sg sg', run_calls (Beat (70 * 200) :: tune) state_init = Ok s'
  /\ build_song tune_state 200 = Ok sg /\ build_song s' 200 = Ok sg'
  /\ cell (render sg) 0 0 5 <> None /\ cell (render sg') 1 0 11 = cell (render sg) 0 0 5.
Proof.
  eexists _, _, _. split; [vm_compute; reflexivity|]. split; [vm_compute; reflexivity|]. split; [vm_compute; reflexivity|].
  split; [vm_compute; discriminate|vm_compute; reflexivity].
Qed.
