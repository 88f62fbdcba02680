(** What a tracker song should show for a log of key events. *)
From Coq Require Import ZArith List Bool String.
From Verif.Model Require Import Note Song Serializer.
From Verif.Spec Require Import Text.
Import ListNotations.
Open Scope Z_scope.

(** ** Pitch *)

(** The twelve notes of an octave in Renoise's spelling. *)
Definition scale : list string :=
  ["C-"; "C#"; "D-"; "D#"; "E-"; "F-"; "F#"; "G-"; "G#"; "A-"; "A#"; "B-"]%string.
Definition octave_names : list string := ["0"; "1"; "2"; "3"; "4"; "5"; "6"; "7"; "8"; "9"]%string.
(** Name of the pitch [p] semitones above C of octave 0. *)
Definition pitch_name (p : Z) : string :=
  (nth (Z.to_nat (p mod 12)) scale "" ++ nth (Z.to_nat (p / 12)) octave_names "")%string.

(** The chip's note codes 0, 1, 2, 4, 5, 6, 8, 9, 10, 12, 13, 14 are the notes
    C#, D, ..., B, C; the others are not valid codes. *)
Definition valid_code (c : Z) : Prop := 0 <= c < 16 /\ c mod 4 <> 3.
Definition chip_pitch (octave code : Z) : Z := 12 * octave + (code - code / 4) + 1.
(** The invalid codes 3, 7, 11, 15 are shown as D#, F#, A#, C#. *)
Definition shown_pitch (octave code : Z) : Z :=
  if code =? 3 then 12 * octave + 3
  else if code =? 7 then 12 * octave + 6
  else if code =? 11 then 12 * octave + 10
  else if code =? 15 then 12 * octave + 1
  else chip_pitch octave code.

(** ** Cells *)
Definition is_off (n : note) : bool := n_config_id n <? 0.

(** The text is [id] in upper-case hexadecimal with at least two digits and no
    superfluous zeros. *)
Definition hex_text (id : Z) (t : string) : Prop :=
  hex_value t = Some id
  /\ (2 <= String.length t)%nat
  /\ ((String.length t > 2)%nat -> 16 ^ (Z.of_nat (String.length t) - 1) <= id).

Definition pan_shown (right left : bool) : option string :=
  match right, left with
  | true, true => None
  | true, false => Some "00"%string
  | false, _ => Some "F0"%string
  end.

(** The note column [c] shows the event [n]. *)
Definition displays (n : note) (c : x_note_column) : Prop :=
  xn_note c = (if is_off n then "Off"%string else pitch_name (shown_pitch (n_octave n) (n_note n)))
  /\ match xn_instrument c with
     | None => is_off n = true
     | Some t => is_off n = false /\ hex_text (n_config_id n) t
     end
  /\ xn_panning c = pan_shown (n_right n) (n_left n).

(** The last of [log]'s events in row [row] when a row lasts [tpn] samples. *)
Definition last_event (tpn : Z) (log : list note) (row : Z) : option note :=
  match rev (filter (fun n => n_sample n / tpn =? row) log) with
  | [] => None
  | n :: _ => Some n
  end.

(** The note column at line [l] of track [ch] of pattern [p] of a document, if
    there is such a line (with exactly one note column). *)
Definition cell (doc : x_song) (p ch l : Z) : option x_note_column :=
  match nth_error (xs_patterns doc) (Z.to_nat p) with
  | None => None
  | Some pat =>
      match nth_error (xp_tracks pat) (Z.to_nat ch) with
      | None => None
      | Some track =>
          match find (fun ln => xl_index ln =? l) track with
          | Some (mkxline _ [c]) => Some c
          | _ => None
          end
      end
  end.

(** The text of a cell as a person reads it: note, instrument and panning with one
    blank between them; None where there is nothing. *)
Definition or_None (o : option string) : string := match o with Some t => t | None => "None"%string end.
Definition cell_text (n : note) (t : string) : Prop :=
  exists instrument,
    (if is_off n then instrument = "None"%string else hex_text (n_config_id n) instrument)
    /\ t = ((if is_off n then "Off" else pitch_name (shown_pitch (n_octave n) (n_note n)))
            ++ " " ++ instrument ++ " " ++ or_None (pan_shown (n_right n) (n_left n)))%string.
