(** What the CSV sheet tells about a recording. *)
From Coq Require Import ZArith List Bool.
From Verif.Model Require Import Py Note History.
From Verif.Spec Require Import Ym2151 Tracker Sheet Whole.
Import ListNotations.
Open Scope Z_scope.

(** [t] is the time of the first event after row [i] when a row lasts [tpn] samples. *)
Definition next_event (h : history) (tpn i t : Z) : Prop :=
  (exists n, In n (all_notes h) /\ n_sample n = t /\ i < t / tpn)
  /\ forall n, In n (all_notes h) -> i < n_sample n / tpn -> t <= n_sample n.
(** Two events with the same text: both key-offs, or both key-ons of the same instrument with
    the same octave, note code, fine tuning (0 and 1 are not distinguished) and side shown. *)
Definition reads_alike (n n' : note) : Prop :=
  is_off n = is_off n'
  /\ (is_off n = false ->
      n_config_id n = n_config_id n' /\ n_octave n = n_octave n' /\ n_note n = n_note n'
      /\ Z.max 1 (n_key_fraction n) = Z.max 1 (n_key_fraction n')
      /\ side (n_right n) (n_left n) = side (n_right n') (n_left n')).
Definition cells_alike (e e' : option note) : Prop :=
  match e, e' with
  | None, None => True
  | Some n, Some n' => reads_alike n n'
  | _, _ => False
  end.
(** Row by row: the same time of the next event, or no further event; and, as long as there
    is a further event, the same cells. *)
Definition same_sheet (tpn : Z) (h h' : history) : Prop :=
  forall i, 0 <= i ->
    (forall t, next_event h tpn i t <-> next_event h' tpn i t)
    /\ ((exists t, next_event h tpn i t) -> forall ch, 0 <= ch < 8 ->
        cells_alike (last_event tpn (notes h ch) i) (last_event tpn (notes h' ch) i)).
