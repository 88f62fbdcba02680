(** C31-C37, C47, C48: the exported tracker song. *)
From Coq Require Import Lia ZifyBool Sorted.
From Verif.Model Require Import Py PyFloat Config Note State Ticks Song Serializer Extract History.
From Verif.Spec Require Import VgmFormat Ym2151 Ranges Rhythm Text Tracker.
From Verif.Proofs Require Import PyLemmas StateProofs KeyProofs ChipProofs TextProofs TickProofs TempoProofs
  BpmProofs GridProofs SongProofs.
From Verif.Props Require Import Chip.

Ltac Zify.zify_post_hook ::= Z.div_mod_to_equations.

Lemma press_log h s ch l : history_ok h -> run_calls h state_init = Ok s -> 0 <= ch < 8 ->
  key_presses s ch = Ok l -> l = notes h ch.
Proof. intros H E Hc K. rewrite (proj1 (run_logs h s H E ch Hc)) in K. now injection K. Qed.

(** C31: each cell holds the last event of its row. *)
Theorem C31_cells : forall h s tpn sg ch l p j,
  history_ok h -> run_calls h state_init = Ok s -> 0 < tpn -> build_song s tpn = Ok sg ->
  0 <= ch < 8 -> key_presses s ch = Ok l -> 0 <= p -> 0 <= j < 64 ->
  match last_event tpn l (64 * p + j) with
  | None => cell (render sg) p ch j = None
  | Some n => exists c, cell (render sg) p ch j = Some c /\ displays n c
  end.
Proof.
  intros h s tpn sg ch l p j H E Ht B Hc K Hp Hj. rewrite (press_log _ _ _ _ H E Hc K).
  pose proof (run_logs h s H E) as L. pose proof (song_facts_of s _ tpn sg L Ht B) as F.
  rewrite (cell_last _ _ _ _ _ _ _ L Ht F Hp Hc Hj).
  destruct (last_event tpn (notes h ch) (64 * p + j)) as [n|]; [|reflexivity].
  exists (column_of n). split; [reflexivity|apply column_displays].
Qed.
Print Assumptions C31_cells.
(** The song is built for every positive tick length below the float limit. *)
Theorem C31_song_built : forall h s tpn, history_ok h -> run_calls h state_init = Ok s ->
  0 < tpn < float_limit -> exists sg, build_song s tpn = Ok sg.
Proof.
  intros h s tpn H E Ht. destruct (song_exists s _ tpn (run_logs h s H E) Ht) as (sg & B & _). eauto.
Qed.
Print Assumptions C31_song_built.

Definition tune_song : song :=
  match build_song tune_state 20 with Ok sg => sg | Err _ => song_new 0 0 0 end.
Example tune_song_built : build_song tune_state 20 = Ok tune_song.
Proof. vm_compute. reflexivity. Qed.
Example C31_tune :
  cell (render tune_song) 0 0 50 = Some (mkxnc "C-4" (Some "00") None)%string
  /\ cell (render tune_song) 1 0 1 = Some (mkxnc "F-4" (Some "00") (Some "F0"))%string
  /\ cell (render tune_song) 1 0 11 = Some (mkxnc "Off" None (Some "F0"))%string
  /\ cell (render tune_song) 1 0 12 = None
  /\ cell (render tune_song) 1 3 11 = Some (mkxnc "C#0" (Some "01") (Some "F0"))%string
  /\ List.length (xs_patterns (render tune_song)) = 2%nat.
Proof. vm_compute. auto 10. Qed.

(** C32: shape of the grid. *)
Definition line_ok (ln : x_line) : Prop := 0 <= xl_index ln < 64 /\ List.length (xl_note_columns ln) = 1%nat.
Definition track_ok (t : x_ptrack) : Prop := Forall line_ok t /\ StronglySorted Z.lt (map xl_index t).
Theorem C32_well_formed : forall h s tpn sg,
  history_ok h -> run_calls h state_init = Ok s -> 0 < tpn -> build_song s tpn = Ok sg ->
  let doc := render sg in
  Forall (fun pat => List.length (xp_tracks pat) = 8%nat /\ List.length (xp_master pat) = 1%nat
                     /\ List.length (xp_send pat) = 1%nat /\ Forall track_ok (xp_tracks pat)) (xs_patterns doc)
  /\ List.length (xs_tracks doc) = 8%nat /\ List.length (xs_master doc) = 1%nat
  /\ List.length (xs_send doc) = 1%nat.
Proof.
  intros h s tpn sg H E Ht B doc. pose proof (run_logs h s H E) as L.
  pose proof (song_facts_of s _ tpn sg L Ht B) as F. split; [|split; [|split]].
  - apply Forall_forall. intros pat Hp. split; [|split; [|split]].
    1-3: unfold doc, render in Hp; cbn [xs_patterns] in Hp; apply in_map_iff in Hp as (p0 & <- & Hp);
      destruct (sf_pool _ _ _ _ F) as (_ & _ & A); rewrite Forall_forall in A; specialize (A _ Hp);
      destruct A as (_ & A1 & A2 & A3); cbn [render_pattern xp_tracks xp_master xp_send]; rewrite map_length;
      first [exact A1 | now rewrite A2 | now rewrite A3].
    apply Forall_forall. intros t Hin.
    destruct (doc_tracks _ _ _ _ _ _ F Hp Hin) as (i & c & Hc & ->).
    destruct (L c Hc) as (_ & R & S & _). split.
    + apply Forall_forall. intros ln Hl. unfold render_ptrack in Hl. apply in_map_iff in Hl as ([k v] & <- & Hk).
      split; [|reflexivity]. cbn [xl_index].
      assert (In k (map fst (fill tpn i [] (notes h c)))) as I by (apply in_map_iff; exists (k, v); auto).
      apply fill_keys in I as (n & Hn & _ & ->). lia.
    + rewrite render_track_index. now apply fill_sorted.
  - unfold doc, render. cbn [xs_tracks]. rewrite (sf_tracks _ _ _ _ F). reflexivity.
  - unfold doc, render. cbn [xs_master]. rewrite (sf_tracks _ _ _ _ F). reflexivity.
  - unfold doc, render. cbn [xs_send]. rewrite (sf_tracks _ _ _ _ F). reflexivity.
Qed.
Print Assumptions C32_well_formed.
(** Exactly as many patterns as the events need. *)
Theorem C32_pattern_count : forall h s tpn sg,
  history_ok h -> run_calls h state_init = Ok s -> 0 < tpn -> build_song s tpn = Ok sg ->
  let count := Z.of_nat (List.length (xs_patterns (render sg))) in
  (forall ch l n, 0 <= ch < 8 -> key_presses s ch = Ok l -> In n l -> n_sample n / tpn < 64 * count)
  /\ (count = 0 \/ exists ch l n, 0 <= ch < 8 /\ key_presses s ch = Ok l /\ In n l
                    /\ 64 * (count - 1) <= n_sample n / tpn).
Proof.
  intros h s tpn sg H E Ht B count. pose proof (run_logs h s H E) as L.
  pose proof (song_facts_of s _ tpn sg L Ht B) as F.
  assert (C : count = Z.of_nat (need tpn 0 (flat_map (notes h) chans))).
  { unfold count, render. cbn [xs_patterns]. rewrite map_length. now rewrite (sf_count _ _ _ _ F). }
  destruct (need_spec tpn Ht (flat_map (notes h) chans) 0) as (_ & A & D).
  { apply Forall_forall. intros n Hn. apply in_flat_map in Hn as (c & Hc & Hn). apply chans_in in Hc.
    destruct (L c Hc) as (_ & R & _). rewrite Forall_forall in R. auto. }
  rewrite C. split.
  - intros ch l n Hc K Hn. rewrite (press_log _ _ _ _ H E Hc K) in Hn. apply A.
    apply in_flat_map. exists ch. split; [now apply chans_in|assumption].
  - destruct D as [->|(n & Hn & D)]; [now left|]. right.
    apply in_flat_map in Hn as (c & Hc & Hn). apply chans_in in Hc.
    exists c, (notes h c), n. destruct (L c Hc) as (K & _). auto.
Qed.
Print Assumptions C32_pattern_count.

(** C33: the sequence plays all patterns in order. *)
Theorem C33_sequence : forall s tpn sg, build_song s tpn = Ok sg ->
  List.length (xs_sequence (render sg)) = List.length (xs_patterns (render sg))
  /\ forall i, (i < List.length (xs_patterns (render sg)))%nat ->
       nth_error (xs_sequence (render sg)) i = Some (Z.of_nat i).
Proof.
  intros s tpn sg B. unfold build_song in B.
  destruct (bpm_of tpn) as [b|]; [|discriminate]. cbn [bind] in B.
  destruct (foldM _ _ _) as [p|]; [|discriminate]. cbn [bind] in B. injection B as <-.
  unfold render, render_sequence. cbn [xs_sequence xs_patterns sg_sequence sg_pool]. rewrite map_id, map_length.
  rewrite fold_add. unfold song_new. cbn [sg_sequence app]. unfold py_range, len.
  rewrite Z.sub_0_r, Nat2Z.id. rewrite map_length, seq_length. split; [reflexivity|].
  intros i Hi. rewrite nth_error_map. rewrite (nth_error_nth' _ 0%nat) by now rewrite seq_length.
  rewrite seq_nth by assumption. reflexivity.
Qed.
Print Assumptions C33_sequence.
Example C33_tune : xs_sequence (render tune_song) = [0; 1].
Proof. reflexivity. Qed.

(** C34: instrument references. *)
Theorem C34_references : forall h s tpn sg pat t ln c,
  history_ok h -> run_calls h state_init = Ok s -> 0 < tpn -> build_song s tpn = Ok sg ->
  In pat (xs_patterns (render sg)) -> In t (xp_tracks pat) -> In ln t -> In c (xl_note_columns ln) ->
  match xn_instrument c with
  | None => xn_note c = "Off"%string
  | Some txt => xn_note c <> "Off"%string
      /\ exists id, hex_text id txt /\ 0 <= id < Z.of_nat (List.length (xs_instruments (render sg)))
  end
  /\ List.length (xs_instruments (render sg)) = List.length (s_configs s).
Proof.
  intros h s tpn sg pat t ln c H E Ht B Hp Hin Hl Hc.
  pose proof (run_logs h s H E) as L. pose proof (song_facts_of s _ tpn sg L Ht B) as F.
  destruct (doc_tracks _ _ _ _ _ _ F Hp Hin) as (i & ch & Hch & ->).
  unfold render_ptrack in Hl. apply in_map_iff in Hl as ([k v] & <- & Hk).
  destruct Hc as [<-|[]]. cbn [xn_instrument xn_note].
  apply fill_values in Hk as (n & Hn & ->). cbn [line_of l_note l_instrument].
  assert (NI : List.length (xs_instruments (render sg)) = List.length (s_configs s)).
  { unfold render, render_instruments. cbn [xs_instruments]. rewrite map_length, (sf_instruments _ _ _ _ F).
    now rewrite repeat_length. }
  split; [|assumption]. rewrite NI.
  unfold instr_text, name_text, is_off.
  pose proof (refines_of_run _ _ H E) as R.
  destruct (Z.leb_spec 0 (n_config_id n)) as [P|P].
  - replace (n_config_id n <? 0) with false by lia. split.
    + destruct (L ch Hch) as (_ & RR & _). rewrite Forall_forall in RR. destruct (RR n Hn) as (_ & Ho & Hk & _).
      unfold width in *.
      assert (forallb (fun o => forallb (fun k => negb (String.eqb (pitch_name (shown_pitch o k)) "Off"))
                (map Z.of_nat (seq 0 16))) (map Z.of_nat (seq 0 8)) = true) as C by (vm_compute; reflexivity).
      apply (sweep 8) with (b := n_octave n) in C; [|lia]. cbv beta in C.
      apply (sweep 16) with (b := n_note n) in C; [|lia]. cbv beta in C.
      apply negb_true_iff in C. now apply String.eqb_neq in C.
    + exists (n_config_id n). split; [now apply hex02_text|]. split; [assumption|].
      destruct (C21_note_instrument h s ch (notes h ch) n H E Hch) as (b & w & a & _ & _ & _ & Q);
        [now apply q_presses|assumption|assumption|].
      assert (nth_error (s_configs s) (Z.to_nat (n_config_id n)) <> None) as NN by congruence.
      apply nth_error_Some in NN. lia.
  - replace (n_config_id n <? 0) with true by lia. reflexivity.
Qed.
Print Assumptions C34_references.
(** The text read back is the instrument of the event shown. *)
Theorem C34_reads_back : forall h s tpn sg ch l p j c txt,
  history_ok h -> run_calls h state_init = Ok s -> 0 < tpn -> build_song s tpn = Ok sg ->
  0 <= ch < 8 -> key_presses s ch = Ok l -> 0 <= p -> 0 <= j < 64 ->
  cell (render sg) p ch j = Some c -> xn_instrument c = Some txt ->
  exists n, last_event tpn l (64 * p + j) = Some n /\ hex_value txt = Some (n_config_id n).
Proof.
  intros h s tpn sg ch l p j c txt H E Ht B Hc K Hp Hj C T.
  pose proof (C31_cells h s tpn sg ch l p j H E Ht B Hc K Hp Hj) as Q.
  destruct (last_event tpn l (64 * p + j)) as [n|]; [|congruence].
  destruct Q as (c' & C' & (_ & D & _)). rewrite C in C'. injection C' as <-. rewrite T in D.
  exists n. split; [reflexivity|]. apply D.
Qed.
Print Assumptions C34_reads_back.
(** Two digits suffice exactly while there are at most 256 instruments. *)
Theorem C34_two_digits : forall id txt, hex_text id txt -> 0 <= id < 256 -> String.length txt = 2%nat.
Proof.
  intros id txt (V & L & M) H. destruct (Nat.eq_dec (String.length txt) 2) as [|N]; [assumption|].
  assert (16 ^ (Z.of_nat (String.length txt) - 1) <= id) as Q by (apply M; lia).
  assert (16 ^ 2 <= 16 ^ (Z.of_nat (String.length txt) - 1)) by (apply Z.pow_le_mono_r; lia).
  change (16 ^ 2) with 256 in *. lia.
Qed.
Print Assumptions C34_two_digits.
(** 257 instruments: volume of operator 0 and LFO speed vary. *)
Definition orchestra : history :=
  flat_map (fun i => [Apply 0x18 (i mod 256); Apply 0x60 (i / 256); Beat 10; Apply 0x08 0x78])
    (map Z.of_nat (seq 0 257)).
Theorem C34_always_two_digits_refuted : exists h s tpn sg c,
  history_ok h /\ run_calls h state_init = Ok s /\ build_song s tpn = Ok sg
  /\ cell (render sg) 4 0 1 = Some c /\ xn_instrument c = Some "100"%string.
Proof.
  exists orchestra. eexists. exists 10. eexists. eexists.
  split.
  { apply Forall_forall. intros c Hc. unfold orchestra in Hc. apply in_flat_map in Hc as (i & Hi & Hc).
    apply in_map_iff in Hi as (k & <- & Hk). apply in_seq in Hk. cbn [In] in Hc.
    destruct Hc as [<-|[<-|[<-|[<-|[]]]]]; cbn [call_ok]; unfold byte; lia. }
  split; [vm_compute; reflexivity|]. split; [vm_compute; reflexivity|].
  split; [vm_compute; reflexivity|reflexivity].
Qed.
Print Assumptions C34_always_two_digits_refuted.

(** C35: pitch names. *)
Theorem C35_pitch : forall n, note_in_range n -> 0 <= n_config_id n ->
  xrns_note n = Ok (pitch_name (shown_pitch (n_octave n) (n_note n))).
Proof.
  intros n R P. rewrite xrns_name by assumption. unfold name_text, is_off.
  replace (n_config_id n <? 0) with false by lia. reflexivity.
Qed.
Print Assumptions C35_pitch.
(** For valid codes the pitch shown is the chip's; different keys get different
    names, higher keys higher pitches. *)
Theorem C35_valid_codes : forall o c, 0 <= o < 8 -> valid_code c ->
  shown_pitch o c = chip_pitch o c /\ 1 <= chip_pitch o c <= 96.
Proof.
  unfold valid_code, shown_pitch, chip_pitch. intros o c Ho Hc. split; [|lia].
  destruct (Z.eqb_spec c 3); [lia|]. destruct (Z.eqb_spec c 7); [lia|].
  destruct (Z.eqb_spec c 11); [lia|]. destruct (Z.eqb_spec c 15); lia.
Qed.
Print Assumptions C35_valid_codes.
Theorem C35_monotone : forall o c o' c', valid_code c -> valid_code c' -> 16 * o + c < 16 * o' + c' ->
  chip_pitch o c < chip_pitch o' c'.
Proof. unfold valid_code, chip_pitch. intros. lia. Qed.
Print Assumptions C35_monotone.
(** All 96 pitches are hit: the name space is exactly chromatic. *)
Theorem C35_every_pitch : forall p, 1 <= p <= 96 -> exists o c, 0 <= o < 8 /\ valid_code c /\ chip_pitch o c = p.
Proof.
  intros p Hp. exists ((p - 1) / 12), ((p - 1) mod 12 + (p - 1) mod 12 / 3). unfold valid_code, chip_pitch. lia.
Qed.
Print Assumptions C35_every_pitch.
Theorem C35_names_injective : forall p q, 0 <= p < 120 -> 0 <= q < 120 -> pitch_name p = pitch_name q -> p = q.
Proof.
  intros p q Hp Hq N.
  assert (C : forallb (fun p => forallb (fun q => (p =? q) || negb (String.eqb (pitch_name p) (pitch_name q)))
    (map Z.of_nat (seq 0 120))) (map Z.of_nat (seq 0 120)) = true) by (vm_compute; reflexivity).
  apply (sweep 120) with (b := p) in C; [|lia]. cbv beta in C.
  apply (sweep 120) with (b := q) in C; [|lia]. cbv beta in C.
  apply orb_true_iff in C as [C|C]; [lia|]. apply negb_true_iff in C. apply String.eqb_neq in C. contradiction.
Qed.
Print Assumptions C35_names_injective.
(** Over all sixteen codes the order is not kept: code 15 falls back an octave. *)
Theorem C35_monotone_all_codes_refuted : exists o c c', 0 <= c < c' /\ c' < 16
  /\ shown_pitch o c' < shown_pitch o c.
Proof. exists 4, 14, 15. vm_compute. intuition discriminate. Qed.
Print Assumptions C35_monotone_all_codes_refuted.
Example C35_middle_c : xrns_note (mknote 0 true true 3 14 0 5) = Ok "C-4"%string
  /\ pitch_name (chip_pitch 3 14) = "C-4"%string.
Proof. split; reflexivity. Qed.

(** C36: panning column. *)
Theorem C36_panning : forall h s tpn sg ch l p j c n,
  history_ok h -> run_calls h state_init = Ok s -> 0 < tpn -> build_song s tpn = Ok sg ->
  0 <= ch < 8 -> key_presses s ch = Ok l -> 0 <= p -> 0 <= j < 64 ->
  last_event tpn l (64 * p + j) = Some n -> cell (render sg) p ch j = Some c ->
  (xn_panning c = None <-> n_right n = true /\ n_left n = true)
  /\ (xn_panning c = Some "00"%string <-> n_right n = true /\ n_left n = false)
  /\ (xn_panning c = Some "F0"%string <-> n_right n = false).
Proof.
  intros h s tpn sg ch l p j c n H E Ht B Hc K Hp Hj N C.
  pose proof (C31_cells h s tpn sg ch l p j H E Ht B Hc K Hp Hj) as Q. rewrite N in Q.
  destruct Q as (c' & C' & (_ & _ & D)). rewrite C in C'. injection C' as <-. rewrite D.
  unfold pan_shown. destruct (n_right n), (n_left n); repeat split; intros; try discriminate; intuition discriminate.
Qed.
Print Assumptions C36_panning.
Example C36_tune : last_event 20 (notes tune 0) (64 * 1 + 1) = Some (mknote 0 false true 4 5 63 1300).
Proof. reflexivity. Qed.
(** A channel heard on the left only and a silent one look the same. *)
Theorem C36_sides_distinguished_refuted : exists h h' s s' sg,
  history_ok h /\ history_ok h' /\ run_calls h state_init = Ok s /\ run_calls h' state_init = Ok s'
  /\ map n_left (notes h 0) <> map n_left (notes h' 0)
  /\ build_song s 1000 = Ok sg /\ build_song s' 1000 = Ok sg.
Proof.
  exists [Apply 0x20 0x40; Beat 10; Apply 0x08 0x78], [Apply 0x20 0x00; Beat 10; Apply 0x08 0x78].
  eexists _, _, _. split; [repeat constructor; cbn; unfold byte; lia|].
  split; [repeat constructor; cbn; unfold byte; lia|].
  split; [vm_compute; reflexivity|]. split; [vm_compute; reflexivity|].
  split; [vm_compute; discriminate|]. split; vm_compute; reflexivity.
Qed.
Print Assumptions C36_sides_distinguished_refuted.

(** C37: which events survive. *)
Theorem C37_shown_unless_overwritten : forall h s tpn sg ch before n after,
  history_ok h -> run_calls h state_init = Ok s -> 0 < tpn -> build_song s tpn = Ok sg ->
  0 <= ch < 8 -> key_presses s ch = Ok (before ++ n :: after) ->
  (forall m, In m after -> n_sample m / tpn <> n_sample n / tpn) ->
  let row := n_sample n / tpn in
  exists c, cell (render sg) (row / 64) ch (row mod 64) = Some c /\ displays n c.
Proof.
  intros h s tpn sg ch l1 n l2 H E Ht B Hc K A row.
  assert (0 <= row).
  { apply Z.div_pos; [|lia]. destruct (run_logs h s H E ch Hc) as (K' & R & _). rewrite K in K'.
    injection K' as K'. rewrite Forall_forall in R. destruct (R n) as (_ & _ & _ & _ & Q); [|lia].
    rewrite <- K', in_app_iff. cbn. auto. }
  pose proof (C31_cells h s tpn sg ch _ (row / 64) (row mod 64) H E Ht B Hc K) as Q.
  replace (64 * (row / 64) + row mod 64) with row in Q by lia.
  unfold row in Q at 3. rewrite last_event_split in Q by assumption. apply Q; lia.
Qed.
Print Assumptions C37_shown_unless_overwritten.
(** In particular, with one sample per row, every event that is alone in its
    channel at its time survives; with longer rows key-ons can be lost. *)
Theorem C37_no_key_on_lost_refuted : exists h s tpn sg n,
  history_ok h /\ run_calls h state_init = Ok s /\ 0 < tpn /\ build_song s tpn = Ok sg
  /\ In n (notes h 0) /\ 0 <= n_config_id n
  /\ cell (render sg) (n_sample n / tpn / 64) 0 (n_sample n / tpn mod 64)
     = Some (mkxnc "Off" None (Some "F0"))%string.
Proof.
  exists [Beat 1000; Apply 0x08 0x78; Beat 100; Apply 0x08 0x00]. eexists. exists 1000. eexists.
  exists (mknote 0 false false 0 0 0 1000).
  split; [repeat constructor; cbn; unfold byte; lia|].
  split; [vm_compute; reflexivity|]. split; [lia|]. split; [vm_compute; reflexivity|].
  split; [left; reflexivity|]. split; [vm_compute; discriminate|reflexivity].
Qed.
Print Assumptions C37_no_key_on_lost_refuted.

(** C47: non-positive tick lengths. *)
Theorem C47_negative : forall h s tpn, history_ok h -> run_calls h state_init = Ok s ->
  - float_limit < tpn < 0 ->
  (forall ch l, 0 <= ch < 8 -> key_presses s ch = Ok l -> l <> [] -> build_song s tpn = Err IndexError)
  /\ ((forall ch, 0 <= ch < 8 -> key_presses s ch = Ok []) ->
      exists sg, build_song s tpn = Ok sg /\ xs_patterns (render sg) = [] /\ xs_sequence (render sg) = []
        /\ g_beats_per_min (xs_globals (render sg)) = - tempo (- tpn)
        /\ g_beats_per_min (xs_globals (render sg)) <= 0).
Proof.
  intros h s tpn H E Ht. pose proof (run_logs h s H E) as L.
  pose proof (song_negative s tpn _ L Ht) as N. split.
  - intros ch l Hc K Hl. rewrite (press_log _ _ _ _ H E Hc K) in Hl.
    destruct (flat_map (notes h) chans) eqn:Q; [|assumption].
    destruct (notes h ch) as [|n l'] eqn:En; [congruence|].
    assert (In n (flat_map (notes h) chans)) as I.
    { apply in_flat_map. exists ch. rewrite En. split; [now apply chans_in|now left]. }
    rewrite Q in I. destruct I.
  - intros Z. destruct (flat_map (notes h) chans) as [|n l] eqn:Q.
    + destruct N as (sg & B & P & S & T). exists sg. split; [assumption|].
      unfold render, render_globals, render_sequence. cbn [xs_patterns xs_sequence xs_globals g_beats_per_min].
      rewrite P, S, T. repeat split. unfold tempo.
      assert (0 <= 661500 / - tpn) by (apply Z.div_pos; lia).
      destruct (mem (- tpn) dips) eqn:M; [|lia]. apply mem_in in M. cbn [dips In] in M.
      decompose [or] M; try contradiction; subst; lia.
    + assert (In n (flat_map (notes h) chans)) as I by (rewrite Q; now left).
      apply in_flat_map in I as (c & Hc & I). apply chans_in in Hc.
      pose proof (press_log _ _ _ _ H E Hc (Z c Hc)) as X. rewrite <- X in I. destruct I.
Qed.
Print Assumptions C47_negative.
Theorem C47_zero_and_huge : forall s tpn,
  (tpn = 0 -> build_song s tpn = Err ZeroDivisionError)
  /\ (float_limit <= Z.abs tpn -> build_song s tpn = Err OverflowError).
Proof.
  intros s tpn. split; intro H.
  - subst. reflexivity.
  - unfold build_song. now rewrite tempo_overflow.
Qed.
Print Assumptions C47_zero_and_huge.
Theorem C47_always_rejected_refuted : exists s sg, run_calls [] state_init = Ok s
  /\ build_song s (-1000) = Ok sg /\ g_beats_per_min (xs_globals (render sg)) = -661.
Proof.
  eexists. eexists. split; [reflexivity|]. split; [vm_compute; reflexivity|reflexivity].
Qed.
Print Assumptions C47_always_rejected_refuted.
Example C47_tune : build_song tune_state (-20) = Err IndexError.
Proof.
  assert (K : key_presses tune_state 3 = Ok (notes tune 3)) by reflexivity.
  apply (proj1 (C47_negative tune tune_state (-20) tune_ok tune_run
           (conj (eq_refl : - float_limit < -20) (eq_refl : -20 < 0))) 3 (notes tune 3)); [lia|exact K|].
  vm_compute. discriminate.
Qed.

(** C48: the document mirrors the song. *)
Definition line_mirrors (kl : Z * line) (x : x_line) : Prop :=
  xl_index x = fst kl
  /\ exists c, xl_note_columns x = [c] /\ xn_note c = l_note (snd kl)
     /\ xn_instrument c = l_instrument (snd kl) /\ xn_panning c = l_pan (snd kl).
Definition pattern_mirrors (p : pattern) (x : x_pattern) : Prop :=
  Forall2 (Forall2 line_mirrors) (p_tracks p) (xp_tracks x)
  /\ List.length (xp_master x) = List.length (p_master p)
  /\ List.length (xp_send x) = List.length (p_send p).
Definition track_mirrors (t : strack) (x : x_strack) : Prop :=
  xt_name x = t_name t /\ xt_state x = t_state t /\ xt_soloed x = t_soloed t.
Lemma forall2_map {A B} (R : A -> B -> Prop) f l : (forall x, R x (f x)) -> Forall2 R l (map f l).
Proof. intro H. induction l; cbn; constructor; auto. Qed.
Theorem C48_mirror : forall sg, let doc := render sg in
  Forall2 pattern_mirrors (pp_patterns (sg_pool sg)) (xs_patterns doc)
  /\ Forall2 track_mirrors (ts_tracks (sg_tracks sg)) (xs_tracks doc)
  /\ Forall2 track_mirrors (ts_master (sg_tracks sg)) (xs_master doc)
  /\ Forall2 track_mirrors (ts_send (sg_tracks sg)) (xs_send doc)
  /\ List.length (xs_instruments doc) = List.length (sg_instruments sg)
  /\ xs_sequence doc = sg_sequence sg
  /\ xs_globals doc = sg_globals sg.
Proof.
  intros sg doc. unfold doc, render. cbn.
  split; [|split; [|split; [|split; [|split; [|split]]]]].
  - apply forall2_map. intro p. split; [|split; cbn; now rewrite map_length].
    apply forall2_map. intro t. apply forall2_map. intros [k v]. split; [reflexivity|]. eexists. repeat split.
  - generalize track_colors as cs. induction (ts_tracks (sg_tracks sg)) as [|t l IH]; intro cs; cbn [render_tracks]; [constructor|].
    destruct cs; constructor; try apply IH; repeat split.
  - apply forall2_map. repeat split.
  - apply forall2_map. repeat split.
  - unfold render_instruments. now rewrite map_length.
  - unfold render_sequence. apply map_id.
  - unfold render_globals. now destruct (sg_globals sg).
Qed.
Print Assumptions C48_mirror.
(** Track colours: the first eight tracks get the eight configured colours. *)
Definition palette : list string :=
  ["166,41,41"; "166,80,41"; "166,118,41"; "166,144,41"; "161,166,41"; "118,166,47"; "71,166,47"; "63,166,106"]%string.
Theorem C48_colors : forall sg i x, nth_error (xs_tracks (render sg)) i = Some x ->
  xt_color x = nth_error palette i.
Proof.
  intros sg i x. unfold render. cbn [xs_tracks]. change palette with track_colors.
  generalize track_colors as cs. generalize (ts_tracks (sg_tracks sg)) as l. revert i.
  induction i as [|i IH]; intros [|t l] cs; cbn [render_tracks nth_error]; try discriminate.
  - destruct cs; intro E; injection E as <-; reflexivity.
  - destruct cs as [|c cs]; cbn [nth_error]; intro E.
    + rewrite (IH l [] E). now destruct i.
    + now apply (IH l cs).
Qed.
Print Assumptions C48_colors.
(** The exported song has the requested tempo. *)
Theorem C48_tempo : forall h s tpn sg, history_ok h -> run_calls h state_init = Ok s -> 0 < tpn ->
  build_song s tpn = Ok sg -> g_beats_per_min (xs_globals (render sg)) = tempo tpn
  /\ g_lines_per_beat (xs_globals (render sg)) = 4.
Proof.
  intros h s tpn sg H E Ht B. pose proof (song_facts_of s _ tpn sg (run_logs h s H E) Ht B) as F.
  unfold render, render_globals. cbn [xs_globals g_beats_per_min g_lines_per_beat].
  rewrite (sf_globals _ _ _ _ F). split; reflexivity.
Qed.
Print Assumptions C48_tempo.

(** ** C80: the text of the cells of the song in memory *)
Theorem C80_cell_text : forall h s tpn sg ch l p j pat trk c,
  history_ok h -> run_calls h state_init = Ok s -> 0 < tpn -> build_song s tpn = Ok sg ->
  0 <= ch < 8 -> key_presses s ch = Ok l -> 0 <= p -> 0 <= j < 64 ->
  nth_error (pp_patterns (sg_pool sg)) (Z.to_nat p) = Some pat -> nth_error (p_tracks pat) (Z.to_nat ch) = Some trk ->
  dict_get Z.eqb trk j = Some c ->
  exists n, last_event tpn l (64 * p + j) = Some n /\ cell_text n (line_str c).
Proof.
  intros h s tpn sg ch l p j pat trk c H E Ht B Hc K Hp Hj Hpat Htrk Hcell. rewrite (press_log _ _ _ _ H E Hc K).
  pose proof (run_logs h s H E) as L. pose proof (song_facts_of s _ tpn sg L Ht B) as F.
  pose proof (sf_fill _ _ _ _ F (Z.to_nat p) ch Hc) as SF. unfold track in SF.
  rewrite (nth_error_nth _ _ _ Hpat), (nth_error_nth _ _ _ Htrk) in SF.
  destruct (L ch Hc) as (_ & R & _). rewrite SF, (fill_get tpn Ht _ R _ _ Hj), Z2Nat.id in Hcell by assumption.
  destruct (last_event tpn (notes h ch) (64 * p + j)) as [n|]; [|discriminate]. injection Hcell as <-.
  exists n. split; [reflexivity|]. destruct (column_displays n) as (D1 & D2 & D3).
  cbn [column_of xn_note xn_instrument xn_panning] in *. unfold cell_text, line_str, line_of. cbn [l_note l_instrument l_pan].
  rewrite <- D1, <- D3. exists (or_None (instr_text n)). split; [|reflexivity].
  destruct (instr_text n) as [t|]; cbn [or_None].
  - destruct D2 as [-> D2]. exact D2.
  - now rewrite D2.
Qed.
Print Assumptions C80_cell_text.
Example C80_tune :
  map (fun jc => (fst jc, line_str (snd jc))) (nth 0 (p_tracks (nth 1 (pp_patterns (sg_pool tune_song)) empty_pattern)) [])
  = [(1, "F-4 00 F0"); (11, "Off None F0")]%string.
Proof. vm_compute. reflexivity. Qed.
