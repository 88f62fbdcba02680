(** Model of src/xrns/parts/*.py. *)
From Verif.Model Require Import Py.

(** Pattern.Line, pattern.py:5-9. *)
Record line := mkline { l_note : string; l_instrument : option string; l_pan : option string }.
(** Pattern.PatternTrack, pattern.py:14-16: a dict line number -> Line, in
    insertion order.  Master and send tracks (18-22) are the same class. *)
Definition ptrack := list (Z * line).
(** Pattern, pattern.py:24-33. *)
Record pattern := mkpattern {
  p_lines_per_track : Z; p_tracks : list ptrack; p_master : list ptrack; p_send : list ptrack }.
Definition pattern_new (tracks lines_per_track : Z) : pattern :=
  mkpattern lines_per_track (repeat [] (Z.to_nat tracks)) [[]] [[]].

(** PatternPool, pattern.py:36-40. *)
Record pool := mkpool { pp_patterns : list pattern; pp_tracks : Z; pp_lines : Z }.
Definition pool_new (tracks lines_per_track : Z) : pool := mkpool [] tracks lines_per_track.

(** while pattern >= len(self.patterns): append(...), pattern.py:51-52.  [fuel]
    bounds the iterations; [add_note] passes enough. *)
Fixpoint grow (fuel : nat) (pattern : Z) (p : pool) : pool :=
  match fuel with
  | O => p
  | S k =>
      if len (pp_patterns p) <=? pattern then
        grow k pattern (mkpool (pp_patterns p ++ [pattern_new (pp_tracks p) (pp_lines p)])
                          (pp_tracks p) (pp_lines p))
      else p
  end.

(** PatternPool.add_note, pattern.py:42-55. *)
Definition add_note (p : pool) (pattern channel ln : Z) (note : string)
  (instrument pan : option string) : res pool :=
  let p := grow (Z.to_nat (pattern + 1)) pattern p in
  let! pat := py_get (pp_patterns p) pattern in
  let! trk := py_get (p_tracks pat) channel in
  let trk := dict_set Z.eqb trk ln (mkline note instrument pan) in
  let! trks := py_set (p_tracks pat) channel trk in
  let! pats := py_set (pp_patterns p) pattern
                 (mkpattern (p_lines_per_track pat) trks (p_master pat) (p_send pat)) in
  Ok (mkpool pats (pp_tracks p) (pp_lines p)).

(** The same call seen from outside, with the pool it leaves behind in either
    case: the appended patterns stay when the indexing of pattern.py:53 raises. *)
Record note_args := mkargs {
  a_pattern : Z; a_channel : Z; a_line : Z; a_note : string; a_instrument : option string;
  a_pan : option string }.
Definition add_note_call (p : pool) (a : note_args) : res unit * pool :=
  match add_note p (a_pattern a) (a_channel a) (a_line a) (a_note a) (a_instrument a) (a_pan a) with
  | Ok p' => (Ok tt, p')
  | Err e => (Err e, grow (Z.to_nat (a_pattern a + 1)) (a_pattern a) p)
  end.
Fixpoint add_notes (l : list note_args) (p : pool) : list (res unit) * pool :=
  match l with
  | [] => ([], p)
  | a :: r =>
      let (o, p) := add_note_call p a in
      let (os, p) := add_notes r p in (o :: os, p)
  end.

(** Pattern.Line.__str__, pattern.py:11-12. *)
Definition line_str (l : line) : string :=
  let show o := match o with Some s => s | None => "None"%string end in
  (l_note l ++ " " ++ show (l_instrument l) ++ " " ++ show (l_pan l))%string.

(** Globals, globals.py:4-18. *)
Record globals := mkglobals {
  g_beats_per_min : Z; g_lines_per_beat : Z; g_ticks_per_line : Z;
  g_signature_numerator : Z; g_signature_denominator : Z;
  g_metronome_beats_per_bar : Z; g_metronome_lines_per_beat : Z;
  g_shuffle_is_active : bool; g_shuffle_amounts : list Z; g_octave : Z; g_loop_coeff : Z;
  g_song_name : string; g_artist : string }.
Definition globals_new : globals :=
  mkglobals 120 4 12 4 4 4 0 false [0; 0; 0; 0] 3 4 "Untitled" "FooBar".
Definition set_bpm (g : globals) (b : Z) : globals :=
  mkglobals b (g_lines_per_beat g) (g_ticks_per_line g) (g_signature_numerator g)
    (g_signature_denominator g) (g_metronome_beats_per_bar g) (g_metronome_lines_per_beat g)
    (g_shuffle_is_active g) (g_shuffle_amounts g) (g_octave g) (g_loop_coeff g)
    (g_song_name g) (g_artist g).

(** SequencerTrack and its two empty subclasses, track.py:4-16. *)
Record strack := mkstrack { t_name : string; t_state : string; t_soloed : bool }.
Definition strack_new (name : string) : strack := mkstrack name "Active" false.
(** Tracks, track.py:19-25. *)
Record tracks := mktracks { ts_tracks : list strack; ts_master : list strack; ts_send : list strack }.
Definition tracks_new (n : Z) : tracks :=
  mktracks (map (fun i => strack_new ("Track " ++ str_int (Z.of_nat i + 1))%string)
              (seq 0 (Z.to_nat n)))
    [strack_new "Mst"] [strack_new "S01"].

(** PatternSequence, pattern_sequence.py:4-13: the entries' pattern numbers. *)
Definition sequence := list Z.
Definition add_pattern (s : sequence) (p : Z) : sequence := s ++ [p].

(** Instrument, instrument.py:4-6: no attributes. *)
Inductive instrument := Instrument.

(** Song, song.py:10-18. *)
Record song := mksong {
  sg_globals : globals; sg_instruments : list instrument; sg_tracks : tracks;
  sg_pool : pool; sg_sequence : sequence }.
Definition song_new (tracks instruments lines_per_track : Z) : song :=
  mksong globals_new (repeat Instrument (Z.to_nat instruments)) (tracks_new tracks)
    (pool_new tracks lines_per_track) [].
