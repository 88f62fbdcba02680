(** Model of src/vgm/ym2151/config.py (data classes; JSON is in Json.v).
    Values are immutable here; that this is a faithful view of the mutable
    Python objects is the subject of Heap.v. *)
From Verif.Model Require Import Py.

(** Waveform, config.py:10-17. *)
Inductive waveform := SAW | SQUARE | TRIANGLE | NOISE.
(** Waveform(n): lookup by value, config.py:11-14 (used at state.py:95 with
    n = value & 3; any other n raises ValueError in Python, modelled as None). *)
Definition waveform_of (n : Z) : option waveform :=
  if n =? 0 then Some SAW else if n =? 1 then Some SQUARE
  else if n =? 2 then Some TRIANGLE else if n =? 3 then Some NOISE else None.
Definition waveform_eqb (a b : waveform) : bool :=
  match a, b with
  | SAW, SAW | SQUARE, SQUARE | TRIANGLE, TRIANGLE | NOISE, NOISE => true
  | _, _ => false
  end.

(** Operators, config.py:20-24: a Flag with MOD1=1, CAR1=2, MOD2=4, CAR2=8; all
    16 combinations are members.  Modelled by its integer value. *)
Definition operators := Z.
Definition MOD1 := 1. Definition CAR1 := 2. Definition MOD2 := 4. Definition CAR2 := 8.
(** bool(op) for a Flag: non-zero value. *)
Definition op_true (o : operators) : bool := negb (o =? 0).

(** BaseConfig, config.py:39-44. *)
Record base_config := mkbase {
  b_waveform : waveform; b_lfo : Z; b_amp_md : Z; b_phs_md : Z }.
Definition base_init : base_config := mkbase SAW 0 0 0.
(** BaseConfig.__eq__, config.py:46-54. *)
Definition base_eqb (a b : base_config) : bool :=
  (b_lfo a =? b_lfo b) && (b_phs_md a =? b_phs_md b)
  && (b_amp_md a =? b_amp_md b) && waveform_eqb (b_waveform a) (b_waveform b).

(** OperatorConfig, config.py:64-76. *)
Record op_config := mkop {
  total_level : Z; attack_rate : Z; first_decay_rate : Z; first_decay_level : Z;
  second_decay_rate : Z; release_rate : Z; key_scale : Z; multiply : Z;
  first_detune : Z; second_detune : Z; ase : bool }.
Definition op_init : op_config := mkop 0 0 0 0 0 0 0 0 0 0 false.
(** OperatorConfig.__eq__, config.py:78-93. *)
Definition op_eqb (a b : op_config) : bool :=
  (first_detune a =? first_detune b) && (second_detune a =? second_detune b)
  && (multiply a =? multiply b) && (total_level a =? total_level b)
  && (key_scale a =? key_scale b) && (attack_rate a =? attack_rate b)
  && Bool.eqb (ase a) (ase b) && (first_decay_rate a =? first_decay_rate b)
  && (second_decay_rate a =? second_decay_rate b)
  && (first_decay_level a =? first_decay_level b)
  && (release_rate a =? release_rate b).

(** NoteConfig, config.py:115-121. *)
Record note_config := mknc {
  nc_right : bool; nc_left : bool; nc_octave : Z; nc_note : Z; nc_key_fraction : Z }.
Definition nc_init : note_config := mknc false false 0 0 0.

(** ChannelConfig, config.py:148-163: four operators. *)
Record chan_config := mkch {
  ch_operators : list op_config; ch_fb : Z; ch_ams : Z; ch_pms : Z;
  ch_connection : Z; ch_noise : bool; ch_noise_freq : Z }.
Definition ch_init : chan_config :=
  mkch [op_init; op_init; op_init; op_init] 0 0 0 0 false 0.
(** Python list equality with element equality [op_eqb]. *)
Fixpoint list_eqb {A} (eqb : A -> A -> bool) (a b : list A) : bool :=
  match a, b with
  | [], [] => true
  | x :: a, y :: b => eqb x y && list_eqb eqb a b
  | _, _ => false
  end.
(** ChannelConfig.__eq__, config.py:165-176. *)
Definition ch_eqb (a b : chan_config) : bool :=
  (ch_fb a =? ch_fb b) && (ch_connection a =? ch_connection b)
  && (ch_ams a =? ch_ams b) && (ch_pms a =? ch_pms b)
  && list_eqb op_eqb (ch_operators a) (ch_operators b)
  && Bool.eqb (ch_noise a) (ch_noise b) && (ch_noise_freq a =? ch_noise_freq b).

(** Config, config.py:197-208. *)
Record config := mkconfig {
  c_id : Z; c_base : base_config; c_channel : chan_config; c_operators : operators }.
(** Config.compare, config.py:224-229. *)
Definition config_compare (c : config) (base : base_config) (channel : chan_config)
  (ops : operators) : bool :=
  base_eqb (c_base c) base && ch_eqb (c_channel c) channel && (c_operators c =? ops).
(* Config.__getattr__ (config.py:210-222) is in Model/Attr.v. *)
