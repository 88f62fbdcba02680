(** Model of src/xrns/xrns_serializer.py: from a Song to the document tree that
    xsdata turns into XML.  The generated dataclasses of
    src/xrns/xml/song/renoise_song65.py become records holding the fields the
    serializer sets; the fields it leaves at their defaults (None) are absent. *)
From Verif.Model Require Import Py Song.

(** dao.PatternLineNoteColumnNode (renoise_song65.py:1790) as built at
    xrns_serializer.py:192-196. *)
Record x_note_column := mkxnc { xn_note : string; xn_instrument : option string; xn_panning : option string }.
(** dao.PatternLineNode (renoise_song65.py:3309), xrns_serializer.py:188-199. *)
Record x_line := mkxline { xl_index : Z; xl_note_columns : list x_note_column }.
(** dao.PatternTrack.Lines, xrns_serializer.py:185-203. *)
Definition x_ptrack := list x_line.
(** dao.Pattern.Tracks, xrns_serializer.py:167-182; master and send tracks are
    rendered without content (205-213). *)
Inductive x_empty := XEmpty.
Record x_pattern := mkxpattern {
  xp_tracks : list x_ptrack; xp_master : list x_empty; xp_send : list x_empty }.
(** dao.SequencerTrack / SequencerMasterTrack / SequencerSendTrack,
    xrns_serializer.py:106-158 ([color] None when the colours ran out). *)
Record x_strack := mkxstrack {
  xt_name : string; xt_color : option string; xt_state : string; xt_soloed : bool;
  xt_mixer : string (* which mixer device element *) }.
(** dao.RenoiseSong, xrns_serializer.py:54-60. *)
Record x_song := mkxsong {
  xs_globals : globals (* GlobalSongData has the same fields, 62-79 *);
  xs_instruments : list x_empty;
  xs_tracks : list x_strack; xs_master : list x_strack; xs_send : list x_strack;
  xs_patterns : list x_pattern;
  xs_sequence : list Z }.

(** SerializerConfig, xrns_serializer.py:17-31. *)
Definition track_colors : list string :=
  ["166,41,41"; "166,80,41"; "166,118,41"; "166,144,41"; "161,166,41"; "118,166,47";
   "71,166,47"; "63,166,106"]%string.
Definition master_track_color : string := "220,220,220".
Definition send_track_color : string := "41,166,153".

(** _render_global_song_data, 62-79: field by field. *)
Definition render_globals (g : globals) : globals :=
  mkglobals (g_beats_per_min g) (g_lines_per_beat g) (g_ticks_per_line g)
    (g_signature_numerator g) (g_signature_denominator g) (g_metronome_beats_per_bar g)
    (g_metronome_lines_per_beat g) (g_shuffle_is_active g) (g_shuffle_amounts g)
    (g_octave g) (g_loop_coeff g) (g_song_name g) (g_artist g).

(** _render_instruments / _render_instrument, 81-89. *)
Definition render_instruments (l : list instrument) : list x_empty := map (fun _ => XEmpty) l.

(** _render_track over tracks.tracks with the shared colour iterator, 92-93, 106-128. *)
Fixpoint render_tracks (l : list strack) (colors : list string) : list x_strack :=
  match l with
  | [] => []
  | t :: r =>
      let '(c, cs) := match colors with [] => (None, []) | c :: cs => (Some c, cs) end in
      mkxstrack (t_name t) c (t_state t) (t_soloed t) "TrackMixerDevice" :: render_tracks r cs
  end.
(** _render_master_track, 130-144; _render_send_track, 146-158. *)
Definition render_master (t : strack) : x_strack :=
  mkxstrack (t_name t) (Some master_track_color) (t_state t) (t_soloed t) "MasterTrackMixerDevice".
Definition render_send (t : strack) : x_strack :=
  mkxstrack (t_name t) (Some send_track_color) (t_state t) (t_soloed t) "SendTrackMixerDevice".

(** _render_pattern_track, 184-203: in dict order. *)
Definition render_ptrack (t : ptrack) : x_ptrack :=
  map (fun il : Z * line => let (idx, ln) := il in
         mkxline idx [mkxnc (l_note ln) (l_instrument ln) (l_pan ln)]) t.
(** _render_pattern, 167-182. *)
Definition render_pattern (p : pattern) : x_pattern :=
  mkxpattern (map render_ptrack (p_tracks p)) (map (fun _ => XEmpty) (p_master p))
    (map (fun _ => XEmpty) (p_send p)).
(** _render_pattern_sequence / _render_sequence_entry, 215-230. *)
Definition render_sequence (s : sequence) : list Z := map (fun p => p) s.

(** render, 38-60. *)
Definition render (s : song) : x_song :=
  mkxsong (render_globals (sg_globals s)) (render_instruments (sg_instruments s))
    (render_tracks (ts_tracks (sg_tracks s)) track_colors)
    (map render_master (ts_master (sg_tracks s))) (map render_send (ts_send (sg_tracks s)))
    (map render_pattern (pp_patterns (sg_pool s)))
    (render_sequence (sg_sequence s)).
