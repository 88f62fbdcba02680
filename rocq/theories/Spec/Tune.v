(** Tunes in time: notes, or chords, at equal distances. *)
From Coq Require Import ZArith List Bool String.
From Verif.Model Require Import Config Note Song Serializer History.
From Verif.Spec Require Import VgmFormat Ym2151 Tracker Rhythm Score.
Import ListNotations.
Open Scope Z_scope.
Open Scope list_scope.

(** A note of a chord: its channel, sound, operators switched on, pitch and panning. *)
Record voice := mkvoice { v_chan : Z; v_sound : chan_config; v_ops : Z; v_pitch : note_config }.
Definition strike (v : voice) : step := Play (v_chan v) (v_sound v) (v_ops v) (v_pitch v).
(** After [a] samples a chord every [p] samples. *)
Definition beat_steps (p : Z) (chord : list voice) : list step := map strike chord ++ [Rest p].
Definition in_time (a p : Z) (beats : list (list voice)) : list step := Rest a :: flat_map (beat_steps p) beats.

(** A tune on a grid: chords may be empty, no channel is twice in a chord. *)
Definition voice_fits (v : voice) : Prop :=
  0 <= v_chan v < 8 /\ chan_fits (v_chan v) (v_sound v) /\ 0 < v_ops v < 16 /\ pitch_fits (v_pitch v).
Definition chord_fits (chord : list voice) : Prop := Forall voice_fits chord /\ NoDup (map v_chan chord).
Definition grid_fits (a p : Z) (beats : list (list voice)) : Prop :=
  0 < a < 65536 /\ 0 < p < 65536 /\ Forall chord_fits beats.
(** A tune whose distance is found: 1000 to 7999 samples, no chord is empty, the second
    chord begins before sample 32000. *)
Definition tune_fits (a p : Z) (beats : list (list voice)) : Prop :=
  grid_fits a p beats /\ 1000 <= p < 8000 /\ Forall (fun chord => chord <> []) beats
  /\ (2 <= List.length beats)%nat /\ a + p < 32000.

(** The different sounds in order of first use. *)
Definition tune_sounds (b : base_config) (beats : list (list voice)) : list settings :=
  fold_left add_new (map (fun v => mksettings b (v_sound v) (v_ops v)) (List.concat beats)) [].

(** The document shows the tune: its tempo, its sounds, chord [i] on row [a / p + i] -
    64 rows are a pattern -, every note in the track of its channel, and nothing else. *)
Definition at_row (doc : x_song) (r ch : Z) : option x_note_column := cell doc (r / 64) ch (r mod 64).
Definition tune_shown (b : base_config) (a p : Z) (beats : list (list voice)) (doc : x_song) : Prop :=
  g_beats_per_min (xs_globals doc) = tempo p
  /\ List.length (xs_instruments doc) = List.length (tune_sounds b beats)
  /\ (forall i chord v, nth_error beats i = Some chord -> In v chord ->
       exists cl k txt, at_row doc (a / p + Z.of_nat i) (v_chan v) = Some cl
       /\ xn_note cl = pitch_name (shown_pitch (nc_octave (v_pitch v)) (nc_note (v_pitch v)))
       /\ xn_instrument cl = Some txt /\ hex_text (Z.of_nat k) txt
       /\ nth_error (tune_sounds b beats) k = Some (mksettings b (v_sound v) (v_ops v))
       /\ xn_panning cl = pan_shown (nc_right (v_pitch v)) (nc_left (v_pitch v)))
  /\ (forall r ch, 0 <= r -> 0 <= ch < 8 ->
       (forall i chord v, nth_error beats i = Some chord -> In v chord -> r = a / p + Z.of_nat i -> v_chan v <> ch) ->
       at_row doc r ch = None).

(** The row length without -t, for chords at any distance (none of them empty): 1000 if
    the distance is 8000 or more or the chords that begin before sample 32000 lie within
    less than 1000 samples, else the first multiple of the distance that is at least 1000. *)
Definition early_chords (a p n : Z) : Z := Z.max 0 (Z.min n ((31999 - a) / p + 1)).
Definition rows_of (a p n : Z) : Z :=
  if (8000 <=? p) || (p * (early_chords a p n - 1) <? 1000) then 1000 else (999 + p) / p * p.
