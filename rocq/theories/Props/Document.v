(** C60-C62: the Song.xml document. *)
From Coq Require Import Lia ZifyBool QArith.
From Verif.Model Require Import Py Command Config Note State Ticks Song Serializer Dataclass Dao Document Extract History.
From Verif.Spec Require Import VgmFormat Ym2151 Ranges Rhythm Text Tracker SongFile.
From Verif.Proofs Require Import PyLemmas CoreProofs StateProofs KeyProofs TextProofs BpmProofs GridProofs SongProofs DocumentProofs.
From Verif.Props Require Import Chip Song.
Ltac Zify.zify_post_hook ::= Z.div_mod_to_equations.
Open Scope string_scope.
Open Scope list_scope.
Open Scope Z_scope.

(** C61: the document is the template of Spec/SongFile.v, whatever the song, and
    writing it never fails. *)
Theorem C61_document : exists dec, (forall n, int_value (dec n) = Some n)
  /\ forall sg, song_xml sg = Ok (song_doc dec (render sg)).
Proof. exists str_int. split; [exact int_value_str|exact song_xml_doc]. Qed.
Print Assumptions C61_document.
(** A consumer looking elements up by name recovers the song. *)
Theorem C61_reads_back : forall sg, exists x, song_xml sg = Ok x /\ read_song x = Some (render sg).
Proof.
  intros sg. eexists. split; [apply song_xml_doc|]. apply r_song. exact int_value_str.
Qed.
Print Assumptions C61_reads_back.
(** The archive has exactly one member. *)
Theorem C61_archive : forall sg, exists x, song_archive sg = Ok [("Song.xml", x)] /\ song_xml sg = Ok x.
Proof. intros sg. exists (song_doc str_int (render sg)). unfold song_archive. rewrite song_xml_doc. split; reflexivity. Qed.
Print Assumptions C61_archive.
(** The number of lines per pattern is not written. *)
Theorem C61_pattern_length_lost : forall sg x, song_xml sg = Ok x -> ~ occurs "NumberOfLines" x.
Proof. exact no_pattern_length. Qed.
Print Assumptions C61_pattern_length_lost.
Theorem C61_pattern_length_kept_refuted : exists sg sg' x,
  map p_lines_per_track (pp_patterns (sg_pool sg)) <> map p_lines_per_track (pp_patterns (sg_pool sg'))
  /\ song_xml sg = Ok x /\ song_xml sg' = Ok x.
Proof.
  exists (mksong globals_new [] (tracks_new 1) (mkpool [pattern_new 1 64] 1 64) [0]),
    (mksong globals_new [] (tracks_new 1) (mkpool [pattern_new 1 16] 1 16) [0]). eexists.
  split; [discriminate|]. split; vm_compute; reflexivity.
Qed.
Print Assumptions C61_pattern_length_kept_refuted.
Example C61_tune : exists x, song_xml tune_song = Ok x /\ read_song x = Some (render tune_song)
  /\ cell (render tune_song) 1 0 11 <> None.
Proof.
  destruct (C61_reads_back tune_song) as (x & E & R). exists x. split; [exact E|]. split; [exact R|vm_compute; discriminate].
Qed.

(** C60: what every exported song contains besides its patterns. *)
Definition song_track (name color : string) : x_strack := mkxstrack name (Some color) "Active" false "TrackMixerDevice".
Theorem C60_defaults : forall s tpn sg x, build_song s tpn = Ok sg -> song_xml sg = Ok x ->
  exists doc B, read_song x = Some doc /\ bpm_of tpn = Ok B
  /\ xs_globals doc =
       {| g_beats_per_min := B; g_lines_per_beat := 4; g_ticks_per_line := 12;
          g_signature_numerator := 4; g_signature_denominator := 4;
          g_metronome_beats_per_bar := 4; g_metronome_lines_per_beat := 0;
          g_shuffle_is_active := false; g_shuffle_amounts := [0; 0; 0; 0]; g_octave := 3; g_loop_coeff := 4;
          g_song_name := "Untitled"; g_artist := "FooBar" |}
  /\ xs_tracks doc =
       [song_track "Track 1" "166,41,41"; song_track "Track 2" "166,80,41"; song_track "Track 3" "166,118,41";
        song_track "Track 4" "166,144,41"; song_track "Track 5" "161,166,41"; song_track "Track 6" "118,166,47";
        song_track "Track 7" "71,166,47"; song_track "Track 8" "63,166,106"]
  /\ xs_master doc = [mkxstrack "Mst" (Some "220,220,220") "Active" false "MasterTrackMixerDevice"]
  /\ xs_send doc = [mkxstrack "S01" (Some "41,166,153") "Active" false "SendTrackMixerDevice"]
  /\ List.length (xs_instruments doc) = List.length (s_configs s).
Proof.
  intros s tpn sg x B X. destruct (C61_reads_back sg) as (x' & X' & R). rewrite X in X'. injection X' as <-.
  unfold build_song in B. destruct (bpm_of tpn) as [b|] eqn:E; [|discriminate]. cbn [bind] in B.
  destruct (foldM _ _ _) as [p|]; [|discriminate]. cbn [bind] in B. injection B as <-.
  eexists _, b. split; [exact R|]. split; [reflexivity|]. split; [reflexivity|]. split; [reflexivity|].
  split; [reflexivity|]. split; [reflexivity|].
  unfold render, render_instruments. cbn [xs_instruments sg_instruments song_new]. rewrite map_length, repeat_length.
  unfold len. apply Nat2Z.id.
Qed.
Print Assumptions C60_defaults.
Example C60_tune : exists x, build_song tune_state 20 = Ok tune_song /\ song_xml tune_song = Ok x.
Proof. eexists. split; [vm_compute; reflexivity|]. apply song_xml_doc. Qed.

(** C62: playback speed.  A row of the document lasts 60 / (tempo * lines per beat)
    seconds; a row of the recording lasts tpn / 44100 seconds. *)
Definition document_row (doc : x_song) : Q :=
  (60 / inject_Z (g_beats_per_min (xs_globals doc) * g_lines_per_beat (xs_globals doc)))%Q.
Definition recorded_row (tpn : Z) : Q := (inject_Z tpn / 44100)%Q.
Theorem C62_playback_speed : forall s tpn sg x, build_song s tpn = Ok sg -> song_xml sg = Ok x -> 0 < tpn <= 661500 ->
  exists doc, read_song x = Some doc
  /\ let B := g_beats_per_min (xs_globals doc) in
     1 <= B /\ (recorded_row tpn <= document_row doc)%Q
     /\ (document_row doc <= recorded_row tpn * (1 + 1 / inject_Z B))%Q.
Proof.
  intros s tpn sg x B X T. destruct (C60_defaults s tpn sg x B X) as (doc & b & R & E & G & _).
  exists doc. split; [exact R|]. unfold document_row, recorded_row. rewrite G. cbn [g_beats_per_min g_lines_per_beat].
  assert (FL : 661500 < float_limit) by (vm_compute; reflexivity).
  rewrite tempo_ok in E by (clear - T FL; lia). injection E as <-. clear FL.
  assert (K : tempo tpn * tpn <= 661500 <= (tempo tpn + 1) * tpn /\ 1 <= tempo tpn).
  { unfold tempo. destruct (mem tpn dips) eqn:M.
    - unfold mem, dips in M. apply existsb_exists in M as (d & I & D). cbn [In] in I. assert (d = tpn) by lia. subst d.
      repeat (destruct I as [<-|I]; [vm_compute; intuition discriminate|]). destruct I.
    - assert (1 <= 661500 / tpn) by (apply Z.div_le_lower_bound; lia). lia. }
  destruct K as [[K1 K2] K3]. split; [exact K3|].
  set (t := tempo tpn) in *. clearbody t. destruct t as [|t|t]; try lia. destruct tpn as [|n|n]; try lia.
  change (Z.pos t * 4) with (Z.pos (t * 4)). clear - K1 K2 T. split.
  - unfold Qle, Qdiv, Qmult, Qinv, inject_Z. cbn [Qnum Qden]. lia.
  - unfold Qle, Qdiv, Qmult, Qinv, Qplus, inject_Z. cbn [Qnum Qden]. nia.
Qed.
Print Assumptions C62_playback_speed.
Example C62_song : exists sg x, build_song tune_state 5000 = Ok sg /\ song_xml sg = Ok x
  /\ g_beats_per_min (xs_globals (render sg)) = 132.
Proof. eexists _, _. split; [vm_compute; reflexivity|]. split; [apply song_xml_doc|]. vm_compute. reflexivity. Qed.
