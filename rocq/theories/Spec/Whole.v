(** What a whole run makes of a file's commands, in terms of the register map
    (Spec/Ym2151.v), the rhythm (Spec/Rhythm.v), the tracker (Spec/Tracker.v) and
    JSON (Spec/JsonText.v) only. *)
From Coq Require Import ZArith List Bool String Sorted.
From Verif.Model Require Import Config Note Song Serializer Json History.
From Verif.Spec Require Import Ym2151 Rhythm Tracker JsonText.
Import ListNotations.
Open Scope Z_scope.

(** The different positions of key-ons before sample 32000, in order. *)
Definition early_keys (h : history) (T : list Z) : Prop :=
  StronglySorted Z.lt T
  /\ forall t, In t T <-> t < 32000 /\ exists k, In k (key_ons h) /\ k_time k = t.
(** The row length of the song: the requested one, or the best guess. *)
Inductive row_length (h : history) : option Z -> Z -> Prop :=
| row_given n : n <> 0 -> row_length h (Some n) n
| row_guessed o T t : o = None \/ o = Some 0 -> early_keys h T -> best T t -> row_length h o t.

(** All recorded events. *)
Definition all_notes (h : history) : list note := flat_map (notes h) [0; 1; 2; 3; 4; 5; 6; 7].
(** The document shows the history [h] with rows of [t] samples. *)
Record song_shows (h : history) (t : Z) (doc : x_song) : Prop := mkshows {
  ss_tempo : g_beats_per_min (xs_globals doc) = tempo t;
  ss_lines : g_lines_per_beat (xs_globals doc) = 4;
  ss_instruments : List.length (xs_instruments doc) = List.length (distinct h);
  ss_tracks : List.length (xs_tracks doc) = 8%nat;
  ss_pattern_tracks : Forall (fun p => List.length (xp_tracks p) = 8%nat) (xs_patterns doc);
  (* enough patterns for the last event, and not one more *)
  ss_patterns : forall m, (m < List.length (xs_patterns doc))%nat
    <-> exists n, In n (all_notes h) /\ 64 * Z.of_nat m <= n_sample n / t;
  ss_sequence : xs_sequence doc = map Z.of_nat (seq 0 (List.length (xs_patterns doc)));
  ss_cells : forall ch p l, 0 <= ch < 8 -> 0 <= p -> 0 <= l < 64 ->
    match last_event t (notes h ch) (64 * p + l) with
    | None => cell doc p ch l = None
    | Some n => exists c, cell doc p ch l = Some c /\ displays n c
    end }.

(** The text is a JSON array of the different key-on settings, in order of first use. *)
Definition instruments_shown (h : history) (txt : string) : Prop :=
  exists l, json_of_text txt = Some (JList l) /\ Forall2 shows_config l (instruments h).
