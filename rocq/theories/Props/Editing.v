(** C96-C98: changes of a recording show in the right place and nowhere else. *)
From Coq Require Import Lia ZifyBool Sorted.
From Verif.Model Require Import Py Command Config Note State Ticks Song Serializer Extract Csv History Main.
From Verif.Spec Require Import VgmFormat Ym2151 Ranges Rhythm Text Tracker View Whole Editing.
From Verif.Proofs Require Import PyLemmas CoreProofs StateProofs KeyProofs FileProofs ChipProofs ChipProofs2
  TempoProofs BpmProofs GridProofs SongProofs ViewProofs EditProofs.
From Verif.Props Require Import Chip Tempo Song Whole.
Ltac Zify.zify_post_hook ::= Z.div_mod_to_equations.

(** ** C96: a longer recording only adds *)

(** The logs and the instruments of the shorter recording are the beginnings of those
    of the longer one, and no new event lies before the end of the shorter one. *)
Theorem C96_log : forall h g s s' ch l l', history_ok h -> history_ok g ->
  run_calls h state_init = Ok s -> run_calls (h ++ g) state_init = Ok s' ->
  0 <= ch < 8 -> key_presses s ch = Ok l -> key_presses s' ch = Ok l' ->
  (exists new, l' = l ++ new /\ Forall (fun n => time h <= n_sample n) new)
  /\ (exists added, s_configs s' = s_configs s ++ added)
  /\ Forall (fun n => n_sample n <= time h) l.
Proof.
  intros h g s s' ch l l' H G E E' Hc K K'. pose proof (proj2 (ok_app h g) (conj H G)) as HG.
  rewrite (press_log _ _ _ _ H E Hc K), (press_log _ _ _ _ HG E' Hc K'). split; [now apply notes_later|]. split.
  - rewrite (rf_configs _ _ (refines_of_run _ _ H E)), (rf_configs _ _ (refines_of_run _ _ HG E')). apply grows_instruments.
  - apply Forall_forall. intros n I. unfold notes in I. apply in_map_iff in I as (k & <- & I). apply filter_In in I as [I _].
    cbn [note_of n_sample]. pose proof (recorded_positive h k H I). lia.
Qed.
Print Assumptions C96_log.
(** From 32000 samples on the estimate is settled: what follows changes neither its
    result nor what it prints. *)
Theorem C96_estimate : forall h g s s', history_ok h -> history_ok g ->
  run_calls h state_init = Ok s -> run_calls (h ++ g) state_init = Ok s' -> 32000 <= time h ->
  ticks_per_note s' = ticks_per_note s
  /\ (forall show_progress, estimate_output show_progress s' = estimate_output show_progress s)
  /\ (forall o t, row_length (h ++ g) o t <-> row_length h o t).
Proof.
  intros h g s s' H G E E' T. pose proof (early_same h g s s' H G E E' T) as Q. pose proof (proj2 (ok_app h g) (conj H G)) as HG.
  assert (TP : ticks_per_note s' = ticks_per_note s) by (unfold ticks_per_note; now rewrite Q).
  split; [exact TP|]. split; [intro b; unfold estimate_output, printed_table; now rewrite Q|].
  intros o t. rewrite <- (row_length_of (h ++ g) s' o t HG E'), <- (row_length_of h s o t H E).
  split; (intros [n N|o' t' D T']; [now constructor|]; apply Cli.estimated; [exact D|]; congruence).
Qed.
Print Assumptions C96_estimate.
(** The rows that were over before the shorter recording ended stay as they were; the
    tempo and the other settings of the song too; instruments and patterns are only added. *)
Theorem C96_song : forall h g s s' tpn sg sg', history_ok h -> history_ok g ->
  run_calls h state_init = Ok s -> run_calls (h ++ g) state_init = Ok s' ->
  0 < tpn -> build_song s tpn = Ok sg -> build_song s' tpn = Ok sg' ->
  xs_globals (render sg') = xs_globals (render sg) /\ xs_tracks (render sg') = xs_tracks (render sg)
  /\ (forall p ch j, 0 <= p -> 0 <= ch < 8 -> 0 <= j < 64 -> (64 * p + j + 1) * tpn <= time h ->
        cell (render sg') p ch j = cell (render sg) p ch j)
  /\ (List.length (xs_instruments (render sg)) <= List.length (xs_instruments (render sg')))%nat
  /\ (List.length (xs_patterns (render sg)) <= List.length (xs_patterns (render sg')))%nat.
Proof.
  intros h g s s' tpn sg sg' H G E E' Ht B B'. pose proof (proj2 (ok_app h g) (conj H G)) as HG.
  pose proof (run_logs h s H E) as L. pose proof (run_logs _ s' HG E') as L'.
  pose proof (song_facts_of s _ tpn sg L Ht B) as F. pose proof (song_facts_of s' _ tpn sg' L' Ht B') as F'.
  split; [|split; [|split; [|split]]].
  - unfold render. cbn [xs_globals]. now rewrite (sf_globals _ _ _ _ F), (sf_globals _ _ _ _ F').
  - unfold render. cbn [xs_tracks]. now rewrite (sf_tracks _ _ _ _ F), (sf_tracks _ _ _ _ F').
  - intros p ch j Hp Hc Hj Q. rewrite (cell_last _ _ _ _ _ _ _ L Ht F Hp Hc Hj), (cell_last _ _ _ _ _ _ _ L' Ht F' Hp Hc Hj). f_equal.
    destruct (notes_later h g ch G) as (new & -> & FN). apply last_event_app. eapply Forall_impl; [|exact FN].
    intros n Hn. cbn beta in Hn. assert (64 * p + j + 1 <= n_sample n / tpn) by (apply Z.div_le_lower_bound; lia). lia.
  - unfold render, render_instruments. cbn [xs_instruments]. rewrite !map_length, (sf_instruments _ _ _ _ F), (sf_instruments _ _ _ _ F'), !repeat_length.
    rewrite (rf_configs _ _ (refines_of_run _ _ H E)), (rf_configs _ _ (refines_of_run _ _ HG E')).
    destruct (grows_instruments h g) as [x ->]. rewrite app_length. lia.
  - unfold render. cbn [xs_patterns]. rewrite !map_length, (sf_count _ _ _ _ F), (sf_count _ _ _ _ F').
    assert (A : forall (s0 : state) log, logs_ok s0 log -> Forall note_in_range (flat_map log chans)).
    { intros s0 log L0. apply Forall_forall. intros n I. apply in_flat_map in I as (c & Hc & I). apply chans_in in Hc.
      destruct (L0 c Hc) as (_ & R & _). rewrite Forall_forall in R. auto. }
    apply need_incl; [exact Ht|exact (A _ _ L)|exact (A _ _ L')|]. intros n I. apply in_flat_map in I as (c & Hc & I).
    apply in_flat_map. exists c. split; [exact Hc|]. destruct (grows_notes h g c) as [x ->]. apply in_app_iff. now left.
Qed.
Print Assumptions C96_song.
(** The row in which the shorter recording ends can change. *)
Theorem C96_last_row_refuted : exists h g s s' tpn sg sg', history_ok h /\ history_ok g
  /\ run_calls h state_init = Ok s /\ run_calls (h ++ g) state_init = Ok s' /\ build_song s tpn = Ok sg /\ build_song s' tpn = Ok sg'
  /\ time h / tpn = 1 /\ cell (render sg) 0 0 1 <> cell (render sg') 0 0 1.
Proof.
  exists [Beat 1000; Apply 0x08 0x78], [Beat 10; Apply 0x08 0x00]. eexists _, _. exists 1000. eexists _, _.
  split; [repeat constructor; cbn; unfold byte; lia|]. split; [repeat constructor; cbn; unfold byte; lia|].
  split; [vm_compute; reflexivity|]. split; [vm_compute; reflexivity|]. split; [vm_compute; reflexivity|]. split; [vm_compute; reflexivity|].
  split; [reflexivity|discriminate].
Qed.
Print Assumptions C96_last_row_refuted.
(** The tune so far, and a later key-on with another instrument. *)
Definition more : history := [Beat 40000; Apply 0x60 9; Apply 0x08 0x78].
Definition more_state : state := match run_calls (tune ++ more) state_init with Ok s => s | Err _ => state_init end.
Example C96_met : history_ok more /\ run_calls (tune ++ more) state_init = Ok more_state
  /\ 32000 <= time (tune ++ [Beat 40000]) /\ time tune = 1510
  /\ List.length (s_configs tune_state) = 2%nat /\ List.length (s_configs more_state) = 3%nat
  /\ (64 * 1 + 1 + 1) * 20 <= time tune /\ last_event 20 (notes tune 0) (64 * 1 + 1) <> None.
Proof.
  split; [repeat constructor; cbn; unfold byte; lia|]. split; [vm_compute; reflexivity|].
  split; [vm_compute; discriminate|]. split; [vm_compute; reflexivity|]. split; [vm_compute; reflexivity|]. split; [vm_compute; reflexivity|].
  split; [vm_compute; discriminate|vm_compute; discriminate].
Qed.

(** ** C97: a track depends on its channel only *)

(** Two recordings with the same waits, the same writes to the common registers and the
    same writes and key events of channel [ch] have the same events for [ch] from its first
    recorded key-on, up to the numbers of the instruments; before it there are only key-offs. *)
Theorem C97_log : forall ch h h' s s' l l', 0 <= ch < 8 -> history_ok h -> history_ok h' ->
  filter (concerns ch) h = filter (concerns ch) h' ->
  run_calls h state_init = Ok s -> run_calls h' state_init = Ok s' -> key_presses s ch = Ok l -> key_presses s' ch = Ok l' ->
  Forall2 (same_event (s_configs s) (s_configs s')) (from_first_on l) (from_first_on l')
  /\ (exists before, l = before ++ from_first_on l /\ Forall (fun n => is_off n = true) before)
  /\ (exists before, l' = before ++ from_first_on l' /\ Forall (fun n => is_off n = true) before).
Proof.
  intros ch h h' s s' l l' Hc H H' P E E' K K'. split; [|split; apply before_on].
  rewrite (press_log _ _ _ _ H E Hc K), (press_log _ _ _ _ H' E' Hc K'), !from_on by assumption.
  pose proof (pick_keys ch Hc h) as Q. pose proof (pick_keys ch Hc h') as Q'. cbn beta zeta in Q, Q'. rewrite P, Q' in Q. rewrite <- Q.
  pose proof (refines_of_run _ _ H E) as R. pose proof (refines_of_run _ _ H' E') as R'.
  set (d := drop_until starts (filter (fun k => k_chan k =? ch) (keys h'))).
  assert (I : forall k, In k d -> In k (keys h) /\ In k (keys h')).
  { intros k I. apply drop_until_in in I. split; [rewrite Q in I|]; now apply filter_In in I as [I _]. }
  clearbody d. induction d as [|k d IH]; [constructor|]. cbn [map]. constructor.
  - destruct (I k (or_introl eq_refl)). now apply same_note.
  - apply IH. intros x X. apply I. now right.
Qed.
Print Assumptions C97_log.
(** The cells of the track: from the row of the channel's first key-on on they show the
    same notes, panning and sounds; before it they are empty or key-offs. *)
Theorem C97_song : forall ch h h' s s' tpn sg sg' l p j, 0 <= ch < 8 -> history_ok h -> history_ok h' ->
  filter (concerns ch) h = filter (concerns ch) h' ->
  run_calls h state_init = Ok s -> run_calls h' state_init = Ok s' -> 0 < tpn ->
  build_song s tpn = Ok sg -> build_song s' tpn = Ok sg' -> key_presses s ch = Ok l -> 0 <= p -> 0 <= j < 64 ->
  ((exists n, In n l /\ is_off n = false /\ n_sample n / tpn <= 64 * p + j) ->
     match cell (render sg) p ch j, cell (render sg') p ch j with
     | None, None => True
     | Some c, Some c' => same_cell (s_configs s) (s_configs s') c c'
     | _, _ => False
     end)
  /\ ((forall n, In n l -> is_off n = false -> 64 * p + j < n_sample n / tpn) ->
     forall c, cell (render sg) p ch j = Some c \/ cell (render sg') p ch j = Some c ->
       xn_note c = "Off"%string /\ xn_instrument c = None).
Proof.
  intros ch h h' s s' tpn sg sg' l p j Hc H H' P E E' Ht B B' K Hp Hj.
  pose proof (run_logs h s H E) as L. pose proof (run_logs _ s' H' E') as L'.
  pose proof (song_facts_of s _ tpn sg L Ht B) as F. pose proof (song_facts_of s' _ tpn sg' L' Ht B') as F'.
  destruct (L' ch Hc) as (K' & _ & S' & _). destruct (L ch Hc) as (_ & _ & S & _).
  pose proof (C97_log ch h h' s s' l _ Hc H H' P E E' K K') as (FE & BO & BO').
  rewrite (press_log _ _ _ _ H E Hc K) in *. clear l K K'.
  rewrite (cell_last _ _ _ _ _ _ _ L Ht F Hp Hc Hj), (cell_last _ _ _ _ _ _ _ L' Ht F' Hp Hc Hj).
  set (r := 64 * p + j). split.
  - intros (n & I & O & Q). rewrite (on_row tpn (notes h ch) r n Ht S I O Q).
    destruct BO as (pre & EP & OFF).
    assert (Ip : In n (from_first_on (notes h ch))).
    { rewrite EP in I. apply in_app_iff in I as [I|I]; [|exact I]. rewrite Forall_forall in OFF. rewrite (OFF n I) in O. discriminate. }
    assert (exists n', In n' (notes h' ch) /\ is_off n' = false /\ n_sample n' / tpn <= r) as (n' & I' & O' & Q').
    { destruct BO' as (pre' & EP' & _). clear - FE Ip O Q EP'.
      assert (exists n', In n' (from_first_on (notes h' ch)) /\ same_event (s_configs s) (s_configs s') n n') as (n' & J & SE).
      { clear EP' O Q. induction FE as [|a b la lb X FE IH]; [destruct Ip|]. destruct Ip as [->|Ip].
        - exists b. split; [now left|exact X].
        - destruct (IH Ip) as (n' & J & Y). exists n'. split; [now right|exact Y]. }
      exists n'. split; [rewrite EP'; apply in_app_iff; now right|]. destruct SE as [A _ _ D]. split; congruence. }
    rewrite (on_row tpn (notes h' ch) r n' Ht S' I' O' Q').
    pose proof (last_event2 _ tpn _ _ r (se_sample (s_configs s) (s_configs s')) FE) as X.
    destruct (last_event tpn (from_first_on (notes h ch)) r) as [m|], (last_event tpn (from_first_on (notes h' ch)) r) as [m'|];
      cbn [option_map]; try exact X.
    destruct X as (SE & J & J'). destruct (column_displays m) as (D1 & D2 & D3). destruct (column_displays m') as (D1' & D2' & D3').
    destruct SE as [A1 A2 A3 A4]. injection A3 as A31 A32 A33 A34 A35. split; [|split].
    + now rewrite D1, D1', A1, A33, A34.
    + now rewrite D3, D3', A31, A32.
    + destruct (xn_instrument (column_of m)) as [t|], (xn_instrument (column_of m')) as [t'|]; try exact Logic.I.
      * destruct D2 as [OO HT], D2' as [_ HT']. exists (n_config_id m), (n_config_id m'). split; [exact HT|]. split; [exact HT'|].
        split; [exact A2|].
        assert (JK : In m (notes h ch)) by (rewrite EP; apply in_app_iff; now right).
        unfold notes in JK. apply in_map_iff in JK as (k & <- & JK). apply filter_In in JK as [JK _]. apply recorded_in in JK.
        rewrite (sound_of h s k (refines_of_run _ _ H E) JK). pose proof (off_note h k JK) as ON. rewrite OO in ON. cbn in ON. rewrite <- ON. discriminate.
      * destruct D2 as [OO _]. congruence.
      * destruct D2' as [OO _]. congruence.
  - intros NO c C.
    assert (NO' : forall n, In n (notes h' ch) -> is_off n = false -> r < n_sample n / tpn).
    { intros n I O. destruct BO' as (pre' & EP' & OFF'). rewrite EP' in I. apply in_app_iff in I as [I|I].
      - rewrite Forall_forall in OFF'. rewrite (OFF' n I) in O. discriminate.
      - destruct BO as (pre & EP & _).
        assert (exists m, In m (from_first_on (notes h ch)) /\ same_event (s_configs s) (s_configs s') m n) as (m & J & SE).
        { clear - FE I. induction FE as [|a b la lb X FE IH]; [destruct I|]. destruct I as [->|I].
          - exists a. split; [now left|exact X].
          - destruct (IH I) as (m & J & Y). exists m. split; [now right|exact Y]. }
        destruct SE as [A _ _ D]. rewrite <- D. apply NO; [rewrite EP; apply in_app_iff; now right|congruence]. }
    assert (W : forall lg c, (forall n, In n lg -> is_off n = false -> r < n_sample n / tpn) ->
        option_map column_of (last_event tpn lg r) = Some c -> xn_note c = "Off"%string /\ xn_instrument c = None).
    { intros lg c0 N0 C0. destruct (last_event tpn lg r) as [n|] eqn:LE; [|discriminate]. injection C0 as <-.
      apply last_event_in in LE as [I Q]. destruct (is_off n) eqn:O; [|specialize (N0 n I O); lia].
      destruct (column_displays n) as (D1 & D2 & _). rewrite O in D1, D2. split; [exact D1|].
      destruct (xn_instrument (column_of n)); [destruct D2; discriminate|reflexivity]. }
    destruct C as [C|C]; [exact (W _ _ NO C)|exact (W _ _ NO' C)].
Qed.
Print Assumptions C97_song.
(** Neither the key-offs before the channel's first key-on nor the instrument numbers
    depend on the channel alone. *)
Theorem C97_exactly_the_channel_refuted : exists h h' s s', history_ok h /\ history_ok h'
  /\ filter (concerns 0) h = filter (concerns 0) h' /\ run_calls h state_init = Ok s /\ run_calls h' state_init = Ok s'
  /\ option_map (map n_config_id) (match key_presses s 0 with Ok l => Some l | Err _ => None end) = Some [0]
  /\ option_map (map n_config_id) (match key_presses s' 0 with Ok l => Some l | Err _ => None end) = Some [-1; 1].
Proof.
  exists [Beat 5; Beat 5; Apply 0x08 0x00; Beat 5; Apply 0x08 0x78],
         [Beat 5; Apply 0x61 7; Apply 0x08 0x79; Beat 5; Apply 0x08 0x00; Beat 5; Apply 0x08 0x78]. eexists _, _.
  split; [repeat constructor; cbn; unfold byte; lia|]. split; [repeat constructor; cbn; unfold byte; lia|]. split; [reflexivity|].
  split; [vm_compute; reflexivity|]. split; [vm_compute; reflexivity|]. split; reflexivity.
Qed.
Print Assumptions C97_exactly_the_channel_refuted.
(** The tune with everything removed that does not concern channel 3, and its event. *)
Definition solo : history := filter (concerns 3) tune.
Definition solo_state : state := match run_calls solo state_init with Ok s => s | Err _ => state_init end.
Example C97_met : history_ok solo /\ filter (concerns 3) solo = filter (concerns 3) tune /\ solo <> tune
  /\ run_calls solo state_init = Ok solo_state
  /\ (exists n, key_presses tune_state 3 = Ok [n] /\ is_off n = false /\ n_sample n / 20 <= 64 * 1 + 11 /\ n_config_id n = 1)
  /\ (exists n, key_presses solo_state 3 = Ok [n] /\ n_config_id n = 0)
  /\ option_map xn_instrument (cell (render tune_song) 1 3 11) = Some (Some "01"%string).
Proof.
  split; [|split; [reflexivity|split; [discriminate|split; [vm_compute; reflexivity|split; [|split]]]]].
  - apply Forall_forall. intros c I. apply filter_In in I as [I _]. pose proof tune_ok as T. unfold history_ok in T. rewrite Forall_forall in T. auto.
  - eexists. split; [vm_compute; reflexivity|]. split; [reflexivity|]. split; [vm_compute; discriminate|reflexivity].
  - eexists. split; [vm_compute; reflexivity|reflexivity].
  - vm_compute. reflexivity.
Qed.

(** ** C98: pitch writes change only the note column *)

Definition same_but_pitch (n n' : note) : Prop := n' = at_pitch (n_octave n') (n_note n') (n_key_fraction n') n.
Theorem C98_log : forall h h' s s', history_ok h -> history_ok h' -> Forall2 repitched h h' ->
  run_calls h state_init = Ok s -> run_calls h' state_init = Ok s' ->
  s_configs s' = s_configs s /\ ticks s' = ticks s /\ instruments_text s' = instruments_text s
  /\ ticks_per_note s' = ticks_per_note s
  /\ (forall ch l l', 0 <= ch < 8 -> key_presses s ch = Ok l -> key_presses s' ch = Ok l' -> Forall2 same_but_pitch l l').
Proof.
  intros h h' s s' H H' F E E'. pose proof (repitched_keys h h' F) as FK.
  pose proof (refines_of_run _ _ H E) as R. pose proof (refines_of_run _ _ H' E') as R'.
  pose proof (alike_distinct key_like (fun _ _ X => X) h h' FK) as D.
  assert (C : s_configs s' = s_configs s) by (rewrite (rf_configs _ _ R), (rf_configs _ _ R'); unfold instruments; now rewrite D).
  assert (T : ticks s' = ticks s).
  { symmetry. eapply ticks_ext; [exact R|exact R'|]. intro t. apply (alike_times key_like (fun _ _ X => X) h h' FK t). }
  split; [exact C|]. split; [exact T|]. split; [unfold instruments_text; now rewrite C|].
  split; [unfold ticks_per_note, early_ticks; now rewrite T|].
  intros ch l l' Hc K K'. rewrite (press_log _ _ _ _ H E Hc K), (press_log _ _ _ _ H' E' Hc K').
  pose proof (alike_notes key_like (fun _ _ X => X) h h' FK ch) as N. eapply Forall2_weaken; [|exact N].
  intros n n' (k & k' & Q & _ & _ & -> & ->). unfold same_but_pitch. rewrite (like_note h h' k k' D Q) at 1. reflexivity.
Qed.
Print Assumptions C98_log.
Theorem C98_song : forall h h' s s' tpn sg sg', history_ok h -> history_ok h' -> Forall2 repitched h h' ->
  run_calls h state_init = Ok s -> run_calls h' state_init = Ok s' -> 0 < tpn ->
  build_song s tpn = Ok sg -> build_song s' tpn = Ok sg' ->
  xs_globals (render sg') = xs_globals (render sg) /\ xs_tracks (render sg') = xs_tracks (render sg)
  /\ xs_instruments (render sg') = xs_instruments (render sg) /\ xs_sequence (render sg') = xs_sequence (render sg)
  /\ List.length (xs_patterns (render sg')) = List.length (xs_patterns (render sg))
  /\ forall p ch j, 0 <= p -> 0 <= ch < 8 -> 0 <= j < 64 ->
       match cell (render sg) p ch j, cell (render sg') p ch j with
       | None, None => True
       | Some c, Some c' => xn_instrument c' = xn_instrument c /\ xn_panning c' = xn_panning c
           /\ (xn_note c' = "Off"%string <-> xn_note c = "Off"%string)
       | _, _ => False
       end.
Proof.
  intros h h' s s' tpn sg sg' H H' FR E E' Ht B B'.
  pose proof (run_logs h s H E) as L. pose proof (run_logs _ s' H' E') as L'.
  pose proof (song_facts_of s _ tpn sg L Ht B) as F. pose proof (song_facts_of s' _ tpn sg' L' Ht B') as F'.
  destruct (C98_log h h' s s' H H' FR E E') as (C & _ & _ & _ & N).
  assert (N' : forall ch, 0 <= ch < 8 -> Forall2 same_but_pitch (notes h ch) (notes h' ch)).
  { intros ch Hc. apply (N ch); [exact Hc|apply (L ch Hc)|apply (L' ch Hc)]. }
  assert (SS : forall n n', same_but_pitch n n' -> n_sample n = n_sample n') by (intros n n' Q; rewrite Q; reflexivity).
  assert (PC : List.length (pp_patterns (sg_pool sg')) = List.length (pp_patterns (sg_pool sg))).
  { rewrite (sf_count _ _ _ _ F), (sf_count _ _ _ _ F'). symmetry. apply (need2 same_but_pitch tpn SS). apply flat2.
    intros c Hc. apply N'. now apply chans_in. }
  split; [unfold render; cbn [xs_globals]; now rewrite (sf_globals _ _ _ _ F), (sf_globals _ _ _ _ F')|].
  split; [unfold render; cbn [xs_tracks]; now rewrite (sf_tracks _ _ _ _ F), (sf_tracks _ _ _ _ F')|].
  split; [unfold render; cbn [xs_instruments]; now rewrite (sf_instruments _ _ _ _ F), (sf_instruments _ _ _ _ F'), C|].
  split; [unfold render; cbn [xs_sequence]; rewrite (sf_sequence _ _ _ _ F), (sf_sequence _ _ _ _ F'); unfold len; now rewrite PC|].
  split; [unfold render; cbn [xs_patterns]; now rewrite !map_length|].
  intros p ch j Hp Hc Hj.
  rewrite (cell_last _ _ _ _ _ _ _ L Ht F Hp Hc Hj), (cell_last _ _ _ _ _ _ _ L' Ht F' Hp Hc Hj).
  pose proof (last_event2 same_but_pitch tpn _ _ (64 * p + j) SS (N' ch Hc)) as X.
  destruct (last_event tpn (notes h ch) (64 * p + j)) as [n|], (last_event tpn (notes h' ch) (64 * p + j)) as [n'|];
    cbn [option_map]; try exact X.
  destruct X as (Q & I & I').
  destruct (L ch Hc) as (_ & R & _). destruct (L' ch Hc) as (_ & R' & _). rewrite Forall_forall in R, R'.
  destruct (R n I) as (_ & O1 & O2 & _). destruct (R' n' I') as (_ & O1' & O2' & _). unfold width in *.
  unfold same_but_pitch in Q.
  assert (QI : n_config_id n' = n_config_id n) by (rewrite Q; reflexivity).
  assert (QR : n_right n' = n_right n) by (rewrite Q; reflexivity). assert (QL : n_left n' = n_left n) by (rewrite Q; reflexivity).
  split; [|split].
  - unfold column_of, instr_text. cbn [xn_instrument]. now rewrite QI.
  - destruct (column_displays n) as (_ & _ & D). destruct (column_displays n') as (_ & _ & D'). now rewrite D, D', QR, QL.
  - destruct (column_displays n) as (D & _). destruct (column_displays n') as (D' & _). rewrite D, D'.
    assert (QO : is_off n' = is_off n) by (unfold is_off; now rewrite QI). rewrite QO. destruct (is_off n); [now split|].
    split; intro X; exfalso; revert X; apply name_not_off; lia.
Qed.
Print Assumptions C98_song.
(** Moving every key code by [k] octaves moves every note of the log and of the song by
    [k] octaves (and nothing else). *)
Theorem C98_octaves_log : forall k h s s' ch l l', history_ok h -> Forall (room k) h -> keyed h ->
  run_calls h state_init = Ok s -> run_calls (map (transposed k) h) state_init = Ok s' ->
  0 <= ch < 8 -> key_presses s ch = Ok l -> key_presses s' ch = Ok l' -> Forall2 (octaves_apart k) l l'.
Proof.
  intros k h s s' ch l l' H RM KD E E' Hc K K'. pose proof (transposed_ok k h H RM) as H'.
  pose proof (transposed_keys k h H RM KD) as FK.
  assert (LK : forall a b, octave_like k a b -> key_like a b) by (intros a b X; apply X).
  pose proof (alike_distinct (octave_like k) LK h _ FK) as D.
  rewrite (press_log _ _ _ _ H E Hc K), (press_log _ _ _ _ H' E' Hc K').
  pose proof (alike_notes (octave_like k) LK h _ FK ch) as N. eapply Forall2_weaken; [|exact N].
  intros n n' (a & b & Q & I & _ & -> & ->). pose proof Q as (_ & Q1 & Q2 & Q3). pose proof (like_note h (map (transposed k) h) a b D (LK a b Q)) as X.
  split.
  - rewrite X at 1. unfold note_of at 2 3 4. cbn [n_octave n_note n_key_fraction]. now rewrite Q1, Q2.
  - intros O. cbn [note_of n_octave]. apply Q3. pose proof (off_note h a I) as OF. rewrite O in OF. now rewrite <- OF.
Qed.
Print Assumptions C98_octaves_log.
Theorem C98_octaves_song : forall k h s s' tpn sg sg' p ch j, history_ok h -> Forall (room k) h -> keyed h ->
  run_calls h state_init = Ok s -> run_calls (map (transposed k) h) state_init = Ok s' -> 0 < tpn ->
  build_song s tpn = Ok sg -> build_song s' tpn = Ok sg' -> 0 <= p -> 0 <= ch < 8 -> 0 <= j < 64 ->
  match cell (render sg) p ch j, cell (render sg') p ch j with
  | None, None => True
  | Some c, Some c' =>
      (xn_note c = "Off"%string /\ xn_note c' = "Off"%string)
      \/ exists q, 0 <= q < 120 /\ 0 <= q + 12 * k < 120 /\ xn_note c = pitch_name q /\ xn_note c' = pitch_name (q + 12 * k)
  | _, _ => False
  end.
Proof.
  intros k h s s' tpn sg sg' p ch j H RM KD E E' Ht B B' Hp Hc Hj. pose proof (transposed_ok k h H RM) as H'.
  pose proof (run_logs h s H E) as L. pose proof (run_logs _ s' H' E') as L'.
  pose proof (song_facts_of s _ tpn sg L Ht B) as F. pose proof (song_facts_of s' _ tpn sg' L' Ht B') as F'.
  rewrite (cell_last _ _ _ _ _ _ _ L Ht F Hp Hc Hj), (cell_last _ _ _ _ _ _ _ L' Ht F' Hp Hc Hj).
  pose proof (C98_octaves_log k h s s' ch _ _ H RM KD E E' Hc (proj1 (L ch Hc)) (proj1 (L' ch Hc))) as FO.
  assert (SS : forall n n', octaves_apart k n n' -> n_sample n = n_sample n') by (intros n n' [Q _]; rewrite Q; reflexivity).
  pose proof (last_event2 (octaves_apart k) tpn _ _ (64 * p + j) SS FO) as X.
  destruct (last_event tpn (notes h ch) (64 * p + j)) as [n|], (last_event tpn (notes (map (transposed k) h) ch) (64 * p + j)) as [n'|];
    cbn [option_map]; try exact X.
  destruct X as ((Q & QO) & I & I').
  destruct (L ch Hc) as (_ & R & _). destruct (L' ch Hc) as (_ & R' & _). rewrite Forall_forall in R, R'.
  destruct (R n I) as (_ & O1 & O2 & _). destruct (R' n' I') as (_ & O1' & O2' & _). unfold width in *.
  assert (QI : n_config_id n' = n_config_id n) by (rewrite Q; reflexivity).
  assert (QN : n_note n' = n_note n) by (rewrite Q; reflexivity).
  destruct (column_displays n) as (D & _). destruct (column_displays n') as (D' & _). rewrite D, D'.
  assert (QF : is_off n' = is_off n) by (unfold is_off; now rewrite QI). rewrite QF. destruct (is_off n); [now left|]. right.
  specialize (QO eq_refl). exists (shown_pitch (n_octave n) (n_note n)).
  pose proof (octave_pitch (n_octave n) (n_note n) k) as OP. rewrite <- OP.
  split; [apply shown_range; lia|]. split; [apply shown_range; lia|]. split; [reflexivity|]. now rewrite QN, QO.
Qed.
Print Assumptions C98_octaves_song.
(** Channel 0 of the tune, and the same two octaves higher. *)
Definition low : history := firstn 17 tune.
Definition state_of (h : history) : state := match run_calls h state_init with Ok s => s | Err _ => state_init end.
Definition song_at (tpn : Z) (h : history) : song := match build_song (state_of h) tpn with Ok sg => sg | Err _ => song_new 0 0 0 end.
Example C98_met : history_ok low /\ Forall (room 2) low /\ keyed low
  /\ run_calls low state_init = Ok (state_of low)
  /\ run_calls (map (transposed 2) low) state_init = Ok (state_of (map (transposed 2) low))
  /\ build_song (state_of low) 20 = Ok (song_at 20 low)
  /\ build_song (state_of (map (transposed 2) low)) 20 = Ok (song_at 20 (map (transposed 2) low))
  /\ option_map xn_note (cell (render (song_at 20 low)) 1 0 1) = Some "F-4"%string
  /\ option_map xn_note (cell (render (song_at 20 (map (transposed 2) low))) 1 0 1) = Some "F-6"%string
  /\ option_map xn_note (cell (render (song_at 20 (map (transposed 2) low))) 1 0 11) = Some "Off"%string.
Proof.
  split; [repeat constructor; cbn; unfold byte; lia|].
  split. { unfold low, tune; cbn [firstn]; repeat (apply Forall_cons; [cbn [room]; first [exact Logic.I | intros X; first [lia | vm_compute; intuition congruence]]|]); apply Forall_nil. }
  split.
  { intros before v after E N. unfold low, tune in E. cbn [firstn] in E.
    do 17 (destruct before as [|? before];
      [cbn [app] in E; first [discriminate E | injection E as <- <-; try (now elim N); exists 62; cbn; tauto]
      |cbn [app] in E; injection E as <- E]; [idtac]).
    destruct before; discriminate E. }
  split; [vm_compute; reflexivity|]. split; [vm_compute; reflexivity|]. split; [vm_compute; reflexivity|].
  split; [vm_compute; reflexivity|]. split; [vm_compute; reflexivity|]. split; [vm_compute; reflexivity|]. vm_compute. reflexivity.
Qed.
(** A key-on of a channel whose key code was never written stays where it is. *)
Theorem C98_unwritten_code_refuted : exists h s s', history_ok h /\ Forall (room 1) h
  /\ run_calls h state_init = Ok s /\ run_calls (map (transposed 1) h) state_init = Ok s'
  /\ key_presses s 0 = key_presses s' 0 /\ exists n, key_presses s 0 = Ok [n] /\ is_off n = false.
Proof.
  exists [Beat 7; Apply 0x29 0x2A; Apply 0x08 0x78]. eexists _, _.
  split; [repeat constructor; cbn; unfold byte; lia|].
  split. { repeat (apply Forall_cons; [cbn [room]; first [exact Logic.I | intros X; first [lia | vm_compute; intuition congruence]]|]); apply Forall_nil. }
  split; [vm_compute; reflexivity|]. split; [vm_compute; reflexivity|]. split; [reflexivity|]. eexists. split; reflexivity.
Qed.
Print Assumptions C98_unwritten_code_refuted.
