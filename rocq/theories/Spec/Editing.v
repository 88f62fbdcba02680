(** Changes of a recording that must show in the right place and nowhere else. *)
From Coq Require Import ZArith List Bool String.
From Verif.Model Require Import Py Config Note State Song Serializer History.
From Verif.Spec Require Import VgmFormat Ym2151 Text Tracker.
Import ListNotations.
Open Scope Z_scope.

(** ** The channels *)

(** Does the call concern channel [ch]?  Waits and the registers below 0x20 concern all
    channels, except that a key event names its channel (bits 2..0); the registers from
    0x20 on belong to the channel in their three low bits. *)
Definition concerns (ch : Z) (c : call) : bool :=
  match c with
  | Beat _ => true
  | Apply r v => if r =? 0x08 then bits v 2 0 =? ch else (r <? 0x20) || (r mod 8 =? ch)
  end.

(** The events of a log from its first key-on. *)
Definition from_first_on (l : list note) : list note := drop_until (fun n => negb (is_off n)) l.
(** The sound an event's instrument number stands for. *)
Definition sound (configs : list config) (id : Z) : option (base_config * chan_config * Z) :=
  if id <? 0 then None
  else match nth_error configs (Z.to_nat id) with
       | Some c => Some (c_base c, c_channel c, c_operators c)
       | None => None
       end.
(** The same event, whatever the number its instrument has. *)
Record same_event (configs configs' : list config) (n n' : note) : Prop := mksameevent {
  se_off : is_off n = is_off n';
  se_sound : sound configs (n_config_id n) = sound configs' (n_config_id n');
  se_pitch : (n_right n, n_left n, n_octave n, n_note n, n_key_fraction n)
             = (n_right n', n_left n', n_octave n', n_note n', n_key_fraction n');
  se_sample : n_sample n = n_sample n' }.
(** The same cell, whatever the number the instrument has. *)
Definition same_cell (configs configs' : list config) (c c' : x_note_column) : Prop :=
  xn_note c = xn_note c' /\ xn_panning c = xn_panning c'
  /\ match xn_instrument c, xn_instrument c' with
     | None, None => True
     | Some t, Some t' => exists i i', hex_text i t /\ hex_text i' t'
         /\ sound configs i = sound configs' i' /\ sound configs i <> None
     | _, _ => False
     end.

(** ** The pitches *)

(** Calls that differ at most in the value written to a pitch register (key code
    0x28-0x2F, key fraction 0x30-0x37). *)
Definition repitched (c c' : call) : Prop :=
  c = c' \/ exists r v v', c = Apply r v /\ c' = Apply r v' /\ 0x28 <= r < 0x38.
(** An event at another pitch. *)
Definition at_pitch (octave code fraction : Z) (n : note) : note :=
  mknote (n_config_id n) (n_right n) (n_left n) octave code fraction (n_sample n).
(** Key codes [k] octaves higher. *)
Definition transposed (k : Z) (c : call) : call :=
  match c with
  | Apply r v => if (0x28 <=? r) && (r <? 0x30) then Apply r (v + 16 * k) else c
  | Beat _ => c
  end.
(** Every written key code can be moved by [k] octaves. *)
Definition room (k : Z) (c : call) : Prop :=
  match c with
  | Apply r v => 0x28 <= r < 0x30 -> v < 128 /\ 0 <= bits v 6 4 + k < 8
  | Beat _ => True
  end.
(** Every key-on comes after a key code was written for its channel. *)
Definition keyed (h : history) : Prop :=
  forall before v after, h = before ++ Apply 0x08 v :: after -> bits v 6 3 <> 0 ->
    exists w, In (Apply (0x28 + bits v 2 0) w) before.
(** The same event, [k] octaves higher if it is a key-on. *)
Definition octaves_apart (k : Z) (n n' : note) : Prop :=
  n' = at_pitch (n_octave n') (n_note n) (n_key_fraction n) n
  /\ (is_off n = false -> n_octave n' = n_octave n + k).

(** ** What a song tells about a recording *)

(** Two events that look the same in the tracker: both key-offs or both key-ons of the same
    instrument with the same note shown, and the same panning shown. *)
Definition look_alike (n n' : note) : Prop :=
  is_off n = is_off n'
  /\ (is_off n = false -> n_config_id n = n_config_id n' /\ shown_pitch (n_octave n) (n_note n) = shown_pitch (n_octave n') (n_note n'))
  /\ pan_shown (n_right n) (n_left n) = pan_shown (n_right n') (n_left n').
(** Row by row, the last events of all channels look the same. *)
Definition same_rows (h : history) (t : Z) (h' : history) (t' : Z) : Prop :=
  forall ch row, 0 <= ch < 8 -> 0 <= row ->
    match last_event t (notes h ch) row, last_event t' (notes h' ch) row with
    | None, None => True
    | Some n, Some n' => look_alike n n'
    | _, _ => False
    end.
