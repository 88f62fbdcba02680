(** What the CSV sheet should contain. *)
From Coq Require Import ZArith List Bool String Ascii.
From Verif.Model Require Import Py Note.
From Verif.Spec Require Import Text Tracker.
Import ListNotations.
Open Scope Z_scope.

(** The row of the last of all events, 0 without events. *)
Definition last_row (tpn : Z) (logs : list (list note)) : Z :=
  fold_right Z.max 0 (map (fun n => n_sample n / tpn) (concat logs)).

(** Chip note codes as spelled in the sheet; "?" marks invalid codes. *)
Definition code_names : list string :=
  ["C#"; "D "; "D#"; "D?"; "E "; "F "; "F#"; "F?"; "G "; "G#"; "A "; "A?"; "A#"; "B "; "C "; "C?"]%string.
(** Fine tuning: 1.6 times the key fraction, rounded; 0 and 1 are not shown. *)
Definition fine (kf : Z) : string :=
  if kf <=? 1 then ""%string
  else
    let c := (16 * kf + 5) / 10 in
    ("-" ++ (if (c <? 10)%Z then "0" else "") ++ str_int c)%string.
Definition side (right left : bool) : string :=
  match right, left with
  | true, true => ""
  | true, false => "Pan R"
  | false, _ => "Pan L"
  end%string.
(** The text of an event. *)
Definition event_text (n : note) : string :=
  if is_off n then "Key Off"%string
  else (nth (Z.to_nat (n_note n)) code_names "" ++ "-" ++ str_int (n_octave n) ++ fine (n_key_fraction n)
        ++ " [" ++ str_int (n_config_id n) ++ "] " ++ side (n_right n) (n_left n))%string.
Definition cell_text (e : option note) : string :=
  match e with None => ""%string | Some n => event_text n end.

(** Splitting a text at a character. *)
Fixpoint split_at (c : ascii) (s : string) : list string :=
  match s with
  | EmptyString => [""%string]
  | String x r =>
      if Ascii.eqb x c then ""%string :: split_at c r
      else match split_at c r with
           | [] => [String x ""]
           | h :: t => String x h :: t
           end
  end.
(** A sheet: lines ended by a newline, fields separated by commas, no quoting. *)
Definition sheet_of_text (s : string) : list (list string) :=
  map (split_at ",") (removelast (split_at (ascii_of_nat 10) s)).
