(** Hardware widths of the decoded YM2151 fields. *)
From Coq Require Import ZArith List.
From Verif.Model Require Import Config Note.
Import ListNotations.
Open Scope Z_scope.

(** [width n x]: [x] fits in [n] bits. *)
Definition width (n x : Z) : Prop := 0 <= x < 2 ^ n.

Definition op_in_range (o : op_config) : Prop :=
  width 7 (total_level o) /\ width 5 (attack_rate o) /\ width 5 (first_decay_rate o)
  /\ width 4 (first_decay_level o) /\ width 4 (second_decay_rate o) /\ width 4 (release_rate o)
  /\ width 2 (key_scale o) /\ width 4 (multiply o) /\ width 3 (first_detune o)
  /\ width 2 (second_detune o).
Definition chan_in_range (c : chan_config) : Prop :=
  length (ch_operators c) = 4%nat /\ Forall op_in_range (ch_operators c)
  /\ width 3 (ch_fb c) /\ width 3 (ch_connection c) /\ width 3 (ch_pms c) /\ width 2 (ch_ams c)
  /\ width 5 (ch_noise_freq c).
Definition base_in_range (b : base_config) : Prop :=
  width 8 (b_lfo b) /\ width 7 (b_amp_md b) /\ width 7 (b_phs_md b).
Definition config_in_range (c : config) : Prop :=
  0 <= c_id c /\ base_in_range (c_base c) /\ chan_in_range (c_channel c)
  /\ 0 < c_operators c < 2 ^ 4.
Definition note_in_range (n : note) : Prop :=
  -1 <= n_config_id n /\ width 3 (n_octave n) /\ width 4 (n_note n) /\ width 6 (n_key_fraction n)
  /\ 0 <= n_sample n.
