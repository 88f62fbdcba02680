(** The Song.xml of a Renoise song (document version 65), element by element. *)
From Coq Require Import ZArith List Bool String.
From Verif.Model Require Import Song Serializer Dataclass.
From Verif.Spec Require Import Text.
Import ListNotations.
Open Scope string_scope.
Open Scope list_scope.
Open Scope Z_scope.

(** ** The document as a template; [dec] writes numbers in decimal. *)
Section Template.
  Variable dec : Z -> string.
  Definition leaf (tag text : string) : xml := Node tag [] text [].
  Definition branch (tag : string) (kids : list xml) : xml := Node tag [] "" kids.
  Definition typed (tag : string) (kids : list xml) : xml := Node tag [("type", tag)] "" kids.
  Definition opt_leaf (tag : string) (t : option string) : list xml :=
    match t with Some s => [leaf tag s] | None => [] end.
  Definition flag (b : bool) : string := if b then "true" else "false".

  Definition globals_doc (g : globals) : xml :=
    branch "GlobalSongData"
      [leaf "BeatsPerMin" (dec (g_beats_per_min g));
       leaf "LinesPerBeat" (dec (g_lines_per_beat g));
       leaf "TicksPerLine" (dec (g_ticks_per_line g));
       leaf "SignatureNumerator" (dec (g_signature_numerator g));
       leaf "SignatureDenominator" (dec (g_signature_denominator g));
       leaf "MetronomeBeatsPerBar" (dec (g_metronome_beats_per_bar g));
       leaf "MetronomeLinesPerBeat" (dec (g_metronome_lines_per_beat g));
       leaf "ShuffleIsActive" (flag (g_shuffle_is_active g));
       branch "ShuffleAmounts" (map (fun n => leaf "ShuffleAmount" (dec n)) (g_shuffle_amounts g));
       leaf "Octave" (dec (g_octave g));
       leaf "LoopCoeff" (dec (g_loop_coeff g));
       leaf "SongName" (g_song_name g);
       leaf "Artist" (g_artist g)].
  Definition strack_doc (tag : string) (extra : list xml) (t : x_strack) : xml :=
    typed tag
      ([leaf "Name" (xt_name t)] ++ opt_leaf "Color" (xt_color t) ++
       [leaf "ColorBlend" "0"; leaf "State" (xt_state t); leaf "Soloed" (flag (xt_soloed t))] ++ extra ++
       [branch "FilterDevices" [branch "Devices" [typed (xt_mixer t) []]]]).
  Definition column_doc (c : x_note_column) : xml :=
    branch "NoteColumn"
      ([leaf "Note" (xn_note c)] ++ opt_leaf "Instrument" (xn_instrument c) ++ opt_leaf "Panning" (xn_panning c)).
  Definition line_doc (l : x_line) : xml :=
    Node "Line" [("index", dec (xl_index l))] "" [branch "NoteColumns" (map column_doc (xl_note_columns l))].
  Definition ptrack_doc (t : x_ptrack) : xml := typed "PatternTrack" [branch "Lines" (map line_doc t)].
  Definition pattern_doc (p : x_pattern) : xml :=
    branch "Pattern"
      [branch "Tracks"
         (map ptrack_doc (xp_tracks p)
          ++ map (fun _ => typed "PatternMasterTrack" []) (xp_master p)
          ++ map (fun _ => typed "PatternSendTrack" []) (xp_send p))].
  Definition song_doc (s : x_song) : xml :=
    Node "RenoiseSong" [("doc_version", "65")] ""
      [globals_doc (xs_globals s);
       branch "Instruments" (map (fun _ => branch "Instrument" []) (xs_instruments s));
       branch "Tracks"
         (map (strack_doc "SequencerTrack" [leaf "PanningColumnIsVisible" "true"]) (xs_tracks s)
          ++ map (strack_doc "SequencerMasterTrack" []) (xs_master s)
          ++ map (strack_doc "SequencerSendTrack" []) (xs_send s));
       branch "PatternPool" [branch "Patterns" (map pattern_doc (xs_patterns s))];
       branch "PatternSequence"
         [branch "SequenceEntries"
            (map (fun n => branch "SequenceEntry" [leaf "Pattern" (dec n)]) (xs_sequence s))]].
End Template.

(** ** Reading a document by element names, as a consumer of the format would. *)
Definition tag (x : xml) : string := let (t, _, _, _) := x in t.
Definition text (x : xml) : string := let (_, _, t, _) := x in t.
Definition kids (x : xml) : list xml := let (_, _, _, k) := x in k.
Definition attribute (a : string) (x : xml) : option string :=
  let (_, l, _, _) := x in option_map snd (find (fun p => String.eqb (fst p) a) l).
Definition all (t : string) (x : xml) : list xml := filter (fun k => String.eqb (tag k) t) (kids x).
(** The child named [t], if there is exactly one. *)
Definition one (t : string) (x : xml) : option xml := match all t x with [k] => Some k | _ => None end.
Definition maybe (t : string) (x : xml) : option (option string) :=
  match all t x with [] => Some None | [k] => Some (Some (text k)) | _ => None end.
Definition obind {A B} (o : option A) (f : A -> option B) : option B :=
  match o with Some a => f a | None => None end.
Notation "'do' x '<-' o ';' k" := (obind o (fun x => k)) (at level 200, x name, o at level 100, k at level 200).
Fixpoint every {A B} (f : A -> option B) (l : list A) : option (list B) :=
  match l with
  | [] => Some []
  | a :: r => do b <- f a; do bs <- every f r; Some (b :: bs)
  end.
Definition read_text (t : string) (x : xml) : option string := option_map text (one t x).
Definition read_int (t : string) (x : xml) : option Z := do s <- read_text t x; int_value s.
Definition read_flag (t : string) (x : xml) : option bool :=
  do s <- read_text t x;
  if String.eqb s "true" then Some true else if String.eqb s "false" then Some false else None.

Definition read_globals (x : xml) : option globals :=
  do a <- read_int "BeatsPerMin" x; do b <- read_int "LinesPerBeat" x; do c <- read_int "TicksPerLine" x;
  do d <- read_int "SignatureNumerator" x; do e <- read_int "SignatureDenominator" x;
  do f <- read_int "MetronomeBeatsPerBar" x; do g <- read_int "MetronomeLinesPerBeat" x;
  do h <- read_flag "ShuffleIsActive" x;
  do am <- one "ShuffleAmounts" x; do i <- every (fun k => int_value (text k)) (all "ShuffleAmount" am);
  do j <- read_int "Octave" x; do k <- read_int "LoopCoeff" x;
  do l <- read_text "SongName" x; do m <- read_text "Artist" x;
  Some (mkglobals a b c d e f g h i j k l m).
Definition read_strack (x : xml) : option x_strack :=
  do n <- read_text "Name" x; do c <- maybe "Color" x; do s <- read_text "State" x; do so <- read_flag "Soloed" x;
  do fd <- one "FilterDevices" x; do ds <- one "Devices" fd;
  match kids ds with [d] => Some (mkxstrack n c s so (tag d)) | _ => None end.
Definition read_column (x : xml) : option x_note_column :=
  do n <- read_text "Note" x; do i <- maybe "Instrument" x; do p <- maybe "Panning" x; Some (mkxnc n i p).
Definition read_line (x : xml) : option x_line :=
  do t <- attribute "index" x; do i <- int_value t;
  do cs <- one "NoteColumns" x; do l <- every read_column (all "NoteColumn" cs); Some (mkxline i l).
Definition read_ptrack (x : xml) : option x_ptrack :=
  do ls <- one "Lines" x; every read_line (all "Line" ls).
Definition read_pattern (x : xml) : option x_pattern :=
  do t <- one "Tracks" x; do l <- every read_ptrack (all "PatternTrack" t);
  Some (mkxpattern l (map (fun _ => XEmpty) (all "PatternMasterTrack" t)) (map (fun _ => XEmpty) (all "PatternSendTrack" t))).
Definition read_song (x : xml) : option x_song :=
  if negb (String.eqb (tag x) "RenoiseSong") then None else
  do gx <- one "GlobalSongData" x; do g <- read_globals gx;
  do ix <- one "Instruments" x;
  do tx <- one "Tracks" x; do ts <- every read_strack (all "SequencerTrack" tx);
  do ms <- every read_strack (all "SequencerMasterTrack" tx); do ss <- every read_strack (all "SequencerSendTrack" tx);
  do pp <- one "PatternPool" x; do px <- one "Patterns" pp; do ps <- every read_pattern (all "Pattern" px);
  do qx <- one "PatternSequence" x; do ex <- one "SequenceEntries" qx;
  do q <- every (read_int "Pattern") (all "SequenceEntry" ex);
  Some (mkxsong g (map (fun _ => XEmpty) (all "Instrument" ix)) ts ms ss ps q).

(** An element named [t] occurs somewhere in the document. *)
Inductive occurs (t : string) : xml -> Prop :=
| occurs_here a s k : occurs t (Node t a s k)
| occurs_below u a s k x : In x k -> occurs t x -> occurs t (Node u a s k).
