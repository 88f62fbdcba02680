(** Model of src/xrns/xrns_serializer.py and writer.py at the level of the generated
    dataclasses: every constructor call with the arguments of the source, then the
    XML that xsdata writes.  (Model/Serializer.v is the same code with records in the
    place of the dataclasses.) *)
From Verif.Model Require Import Py Song Dataclass Dao Serializer.

Open Scope string_scope.
Open Scope Z_scope.

(** [f(x) for x in l] *)
Fixpoint each {A B} (f : A -> res B) (l : list A) : res (list B) :=
  match l with
  | [] => Ok []
  | x :: r => let! y := f x in let! ys := each f r in Ok (y :: ys)
  end.
Definition vstr (o : option string) : pyval := match o with Some s => VStr s | None => VNone end.

(** _render_global_song_data, 62-79. *)
Definition d_globals (g : globals) : res pyval :=
  let! amounts := new GlobalSongData_ShuffleAmounts_fields []
    [("shuffle_amount", VList (map VInt (g_shuffle_amounts g)))] in
  new GlobalSongData_fields []
    [("beats_per_min", VInt (g_beats_per_min g));
     ("lines_per_beat", VInt (g_lines_per_beat g));
     ("ticks_per_line", VInt (g_ticks_per_line g));
     ("signature_numerator", VInt (g_signature_numerator g));
     ("signature_denominator", VInt (g_signature_denominator g));
     ("metronome_beats_per_bar", VInt (g_metronome_beats_per_bar g));
     ("metronome_lines_per_beat", VInt (g_metronome_lines_per_beat g));
     ("shuffle_is_active", VBool (g_shuffle_is_active g));
     ("shuffle_amounts", amounts);
     ("octave", VInt (g_octave g));
     ("loop_coeff", VInt (g_loop_coeff g));
     ("song_name", VStr (g_song_name g));
     ("artist", VStr (g_artist g))].

(** _render_instruments, _render_instrument, 81-89. *)
Definition d_instrument (_ : instrument) : res pyval := new RenoiseInstrument_fields [] [].
Definition d_instruments (l : list instrument) : res pyval :=
  let! xs := each d_instrument l in new RenoiseSong_Instruments_fields [VList xs] [].

(** dao.TrackFilterDeviceChain(devices=dao.TrackFilterDeviceChain.Devices(<mixer>=[...])),
    116-120, 139-143, 153-157. *)
Definition d_devices (field : string) (mixer : list fdecl) : res pyval :=
  let! m := new mixer [] [] in
  let! d := new TrackFilterDeviceChain_Devices_fields [] [(field, VList [m])] in
  new TrackFilterDeviceChain_fields [] [("devices", d)].

(** _render_track, 106-128, with what remains of the colour iterator. *)
Definition d_track (t : strack) (colors : list string) : res (pyval * list string) :=
  let! dev := d_devices "track_mixer_device" TrackMixerDevice_fields in
  let! o := new SequencerTrack_fields []
    [("name", VStr (t_name t)); ("color_blend", VInt 0); ("state", VStr (t_state t));
     ("soloed", VBool (t_soloed t)); ("panning_column_is_visible", VBool true);
     ("filter_devices", dev)] in
  match colors with
  | c :: cs => Ok (set_field "color" (VStr c) o, cs)               (* 123-124 *)
  | [] => Ok (o, [])                                               (* 125-126 *)
  end.
Fixpoint d_seq_tracks (l : list strack) (colors : list string) : res (list pyval) :=
  match l with
  | [] => Ok []
  | t :: r => let! (o, cs) := d_track t colors in let! os := d_seq_tracks r cs in Ok (o :: os)
  end.
(** _render_master_track, 130-144. *)
Definition d_master (t : strack) : res pyval :=
  let! dev := d_devices "master_track_mixer_device" MasterTrackMixerDevice_fields in
  new SequencerMasterTrack_fields []
    [("name", VStr (t_name t)); ("color", VStr master_track_color); ("color_blend", VInt 0);
     ("state", VStr (t_state t)); ("soloed", VBool (t_soloed t)); ("filter_devices", dev)].
(** _render_send_track, 146-158. *)
Definition d_send (t : strack) : res pyval :=
  let! dev := d_devices "send_track_mixer_device" SendTrackMixerDevice_fields in
  new SequencerSendTrack_fields []
    [("name", VStr (t_name t)); ("color", VStr send_track_color); ("color_blend", VInt 0);
     ("state", VStr (t_state t)); ("soloed", VBool (t_soloed t)); ("filter_devices", dev)].
(** _render_tracks, 91-104. *)
Definition d_tracks (t : tracks) : res pyval :=
  let! seq_track := d_seq_tracks (ts_tracks t) track_colors in
  let! master_track := each d_master (ts_master t) in
  let! send_track := each d_send (ts_send t) in
  let! output := new RenoiseSong_Tracks_fields []
    [("sequencer_track", VList seq_track); ("sequencer_master_track", VList master_track);
     ("sequencer_send_track", VList send_track)] in
  Ok (set_field "sequencer_master_track" (VList master_track) output).   (* 103 *)

(** _render_pattern_track, 184-203. *)
Definition d_line (il : Z * line) : res pyval :=
  let (idx, ln) := il in
  let! c := new PatternLineNoteColumnNode_fields []
    [("note", VStr (l_note ln)); ("instrument", vstr (l_instrument ln)); ("panning", vstr (l_pan ln))] in
  let! cols := new PatternLineNode_NoteColumns_fields [] [("note_column", VList [c])] in
  new PatternLineNode_fields [] [("index", VInt idx); ("note_columns", cols)].
Definition d_ptrack (t : ptrack) : res pyval :=
  let! ls := each d_line t in
  let! lines := new PatternTrack_Lines_fields [] [("line", VList ls)] in
  new PatternTrack_fields [] [("lines", lines)].
(** _render_pattern_master_track, _render_pattern_send_track, 205-213. *)
Definition d_pmaster (_ : ptrack) : res pyval := new PatternMasterTrack_fields [] [].
Definition d_psend (_ : ptrack) : res pyval := new PatternSendTrack_fields [] [].
(** _render_pattern, 167-182. *)
Definition d_pattern (p : pattern) : res pyval :=
  let! ts := each d_ptrack (p_tracks p) in
  let! ms := each d_pmaster (p_master p) in
  let! ss := each d_psend (p_send p) in
  let! trks := new Pattern_Tracks_fields []
    [("pattern_track", VList ts); ("pattern_master_track", VList ms); ("pattern_send_track", VList ss)] in
  new Pattern_fields [] [("tracks", trks)].
(** _render_pattern_pool, 160-165. *)
Definition d_pool (p : pool) : res pyval :=
  let! ps := each d_pattern (pp_patterns p) in
  let! pats := new PatternPool_Patterns_fields [VList ps] [] in
  new PatternPool_fields [] [("patterns", pats)].

(** _render_pattern_sequence, _render_sequence_entry, 215-230. *)
Definition d_entry (p : Z) : res pyval := new PatternSequenceEntry_fields [] [("pattern", VInt p)].
Definition d_sequence (s : sequence) : res pyval :=
  let! es := each d_entry s in
  let! entries := new PatternSequence_SequenceEntries_fields [VList es] [] in
  new PatternSequence_fields [] [("sequence_entries", entries)].

(** render, 38-60. *)
Definition d_song (s : song) : res pyval :=
  let! g := d_globals (sg_globals s) in
  let! i := d_instruments (sg_instruments s) in
  let! t := d_tracks (sg_tracks s) in
  let! p := d_pool (sg_pool s) in
  let! q := d_sequence (sg_sequence s) in
  new RenoiseSong_fields []
    [("global_song_data", g); ("instruments", i); ("tracks", t); ("pattern_pool", p);
     ("pattern_sequence", q)].

(** writer, writer.py:12-23: one archive member "Song.xml" holding the document
    (zip container and the textual layout of the XML are not modelled). *)
Definition song_xml (s : song) : res xml :=
  let! v := d_song s in
  match document_of "RenoiseSong" v with Some x => Ok x | None => Err TypeError end.
Definition song_archive (s : song) : res (list (string * xml)) :=
  let! x := song_xml s in Ok [("Song.xml"%string, x)].
