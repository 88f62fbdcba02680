(** The CSV sheet of a score and of a tune. *)
From Coq Require Import ZArith List Bool String.
From Verif.Model Require Import Py Config Note State History.
From Verif.Spec Require Import VgmFormat Ym2151 Text Tracker Sheet Decimal Rhythm Score Tune.
Import ListNotations.
Open Scope Z_scope.
Open Scope list_scope.

Definition sheet_columns : list string :=
  ["Samples"; "Row"; "Pattern"; "Total Row"; "Fraction"; "Channel 1"; "Channel 2"; "Channel 3"; "Channel 4"; "Channel 5";
   "Channel 6"; "Channel 7"; "Channel 8"]%string.
(** A note of the score, on any channel. *)
Definition is_heard (b : base_config) (sc : list step) (n : note) : Prop := exists ch, 0 <= ch < 8 /\ In n (score_notes b sc ch).

(** Under the column names, one line for each row before the row of the last event: the
    time of the next event after the row, the line in its pattern, the pattern, the row,
    a fraction, and for every channel its last event in the row. *)
Definition score_sheet (b : base_config) (sc : list step) (t : Z) (rows : list (list string)) : Prop :=
  exists data, rows = sheet_columns :: data
  /\ (forall k, (k < List.length data)%nat <-> exists n, is_heard b sc n /\ Z.of_nat k < n_sample n / t)
  /\ forall k row, nth_error data k = Some row ->
     exists u fr, (exists n, is_heard b sc n /\ n_sample n = u) /\ Z.of_nat k < u / t
       /\ (forall n, is_heard b sc n -> Z.of_nat k < n_sample n / t -> u <= n_sample n)
       /\ (u < 2 ^ 53 -> fraction_shown u t fr)
       /\ row = [str_int u; str_int (Z.of_nat k mod 64); str_int (Z.of_nat k / 64); str_int (Z.of_nat k); fr]
                ++ map (fun ch => cell_text (last_event t (score_notes b sc ch) (Z.of_nat k))) [0; 1; 2; 3; 4; 5; 6; 7].

(** A voice as text: note, octave, fine tuning, the number of its sound, side. *)
Definition voice_text (b : base_config) (beats : list (list voice)) (v : voice) : string :=
  let p := v_pitch v in
  (nth (Z.to_nat (nc_note p)) code_names "" ++ "-" ++ str_int (nc_octave p) ++ fine (nc_key_fraction p)
   ++ " [" ++ str_int (index_of (mksettings b (v_sound v) (v_ops v)) (tune_sounds b beats)) ++ "] "
   ++ side (nc_right p) (nc_left p))%string.
Definition channel_text (b : base_config) (beats : list (list voice)) (chord : list voice) (ch : Z) : string :=
  match find (fun v => v_chan v =? ch) chord with Some v => voice_text b beats v | None => ""%string end.
(** Chord [i] is on line [a / p + i], next to the time of the chord after it; lines before
    the first chord are empty, next to its time; the last chord is on no line.
    All in less than 2^53 samples. *)
Definition tune_sheet (b : base_config) (a p : Z) (beats : list (list voice)) (rows : list (list string)) : Prop :=
  exists data, rows = sheet_columns :: data
  /\ Z.of_nat (List.length data) = a / p + Z.of_nat (List.length beats) - 1
  /\ forall k row, nth_error data k = Some row ->
     exists fr, let r := Z.of_nat k in let u := if r <? a / p then a else a + p * (r - a / p + 1) in
       fraction_shown u p fr
       /\ row = [str_int u; str_int (r mod 64); str_int (r / 64); str_int r; fr]
             ++ map (fun ch => if r <? a / p then ""%string
                               else channel_text b beats (nth (Z.to_nat (r - a / p)) beats []) ch) [0; 1; 2; 3; 4; 5; 6; 7].
