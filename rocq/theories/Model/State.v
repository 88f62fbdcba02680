(** Model of src/vgm/ym2151/state.py (the tick estimator is in Ticks.v). *)
From Verif.Model Require Import Py Config Note.

(** State, state.py:16-30.  [_note_beats] is a Python set: a duplicate-free list.
    [_first_beat] is None or an int. *)
Record state := mkstate {
  s_key_presses : list (list note);       (* _channel_key_presses *)
  s_channels : list chan_config;          (* _channel_configs *)
  s_notes : list note_config;             (* _note_configs *)
  s_base : base_config;                   (* _current_base_config *)
  s_configs : list config;                (* configs *)
  s_samples : Z;                          (* _samples *)
  s_note_beats : list Z;                  (* _note_beats *)
  s_first_beat : option Z                 (* _first_beat *) }.

(** State.__init__, state.py:17-30. *)
Definition state_init : state :=
  mkstate (repeat [] 8) (repeat ch_init 8) (repeat nc_init 8) base_init [] 0 [] None.

(* Field assignments on the records (obj.field = v). *)
Definition set_key_presses (s : state) x := mkstate x (s_channels s) (s_notes s) (s_base s)
  (s_configs s) (s_samples s) (s_note_beats s) (s_first_beat s).
Definition set_channels (s : state) x := mkstate (s_key_presses s) x (s_notes s) (s_base s)
  (s_configs s) (s_samples s) (s_note_beats s) (s_first_beat s).
Definition set_notes (s : state) x := mkstate (s_key_presses s) (s_channels s) x (s_base s)
  (s_configs s) (s_samples s) (s_note_beats s) (s_first_beat s).
Definition set_base (s : state) x := mkstate (s_key_presses s) (s_channels s) (s_notes s) x
  (s_configs s) (s_samples s) (s_note_beats s) (s_first_beat s).
Definition set_configs (s : state) x := mkstate (s_key_presses s) (s_channels s) (s_notes s)
  (s_base s) x (s_samples s) (s_note_beats s) (s_first_beat s).
Definition set_samples (s : state) x := mkstate (s_key_presses s) (s_channels s) (s_notes s)
  (s_base s) (s_configs s) x (s_note_beats s) (s_first_beat s).
Definition set_note_beats (s : state) x := mkstate (s_key_presses s) (s_channels s) (s_notes s)
  (s_base s) (s_configs s) (s_samples s) x (s_first_beat s).
Definition set_first_beat (s : state) x := mkstate (s_key_presses s) (s_channels s) (s_notes s)
  (s_base s) (s_configs s) (s_samples s) (s_note_beats s) x.

(** set.add *)
Definition set_add (x : Z) (l : list Z) : list Z :=
  if existsb (Z.eqb x) l then l else x :: l.

(** The generator expression of state.py:43-52: index of the first matching
    config, default len(configs). *)
Fixpoint find_config (cs : list config) (b : base_config) (c : chan_config) (op : operators)
  (i : Z) : Z :=
  match cs with
  | [] => i
  | x :: r => if config_compare x b c op then i else find_config r b c op (i + 1)
  end.

(** Truth value of _first_beat (None or int), as used at state.py:68,71. *)
Definition first_beat_true (o : option Z) : bool :=
  match o with None => false | Some z => negb (z =? 0) end.

(** Key On/Off branch, state.py:40-75. *)
Definition key_event (value : Z) (s : state) : res state :=
  let op := Z.land (Z.shiftr value 3) 15 in                            (* 41 *)
  let ch := Z.land value 7 in                                          (* 42 *)
  let! chan := py_get (s_channels s) ch in
  let n := len (s_configs s) in
  let config_id := find_config (s_configs s) (s_base s) chan op 0 in   (* 43-52 *)
  let '(s, config_id) :=
    if n =? config_id then                                             (* 54 *)
      if op_true op then                                               (* 55-64; deepcopies are *)
        (set_configs s (s_configs s ++ [mkconfig config_id (s_base s) chan op]),
         config_id)                                                    (* the identity on values *)
      else (s, -1)                                                     (* 65-66 *)
    else (s, config_id) in
  let s := if op_true op && negb (first_beat_true (s_first_beat s))    (* 68-69 *)
           then set_first_beat s (Some (s_samples s)) else s in
  let! s :=
    if first_beat_true (s_first_beat s) then                           (* 71-73 *)
      let! nc := py_get (s_notes s) ch in
      let! kp := py_get (s_key_presses s) ch in
      let! kps := py_set (s_key_presses s) ch (kp ++ [note_new config_id nc (s_samples s)]) in
      Ok (set_key_presses s kps)
    else Ok s in
  Ok (if 0 <=? config_id                                               (* 74-75 *)
      then set_note_beats s (set_add (s_samples s) (s_note_beats s)) else s).

(** obj.list[i].field = v for the channel / note / operator lists. *)
Definition upd_channel (s : state) (ch : Z) (g : chan_config -> chan_config) : res state :=
  let! c := py_get (s_channels s) ch in
  let! cs := py_set (s_channels s) ch (g c) in
  Ok (set_channels s cs).
Definition upd_note (s : state) (ch : Z) (g : note_config -> note_config) : res state :=
  let! c := py_get (s_notes s) ch in
  let! cs := py_set (s_notes s) ch (g c) in
  Ok (set_notes s cs).
Definition set_operators (c : chan_config) x :=
  mkch x (ch_fb c) (ch_ams c) (ch_pms c) (ch_connection c) (ch_noise c) (ch_noise_freq c).
Definition upd_operator (s : state) (ch op : Z) (g : op_config -> op_config) : res state :=
  let! c := py_get (s_channels s) ch in
  let! o := py_get (ch_operators c) op in
  let! os := py_set (ch_operators c) op (g o) in
  let! cs := py_set (s_channels s) ch (set_operators c os) in
  Ok (set_channels s cs).

(** State.apply, state.py:35-152, for a command with register [reg] and value
    [value].  [(x & m) > 0] tests are [0 <? Z.land x m]. *)
Definition apply (reg value : Z) (s : state) : res state :=
  let channel := Z.land reg 7 in                                       (* 36 *)
  let operator := Z.land (Z.shiftr reg 3) 3 in                         (* 37 *)
  if reg =? 8 then key_event value s                                   (* 40: 0x08 *)
  else if reg =? 15 then                                               (* 78-80: 0x0F *)
    upd_channel s 7 (fun c => mkch (ch_operators c) (ch_fb c) (ch_ams c) (ch_pms c)
      (ch_connection c) (0 <? Z.land value 128) (Z.land value 31))
  else if reg =? 24 then                                               (* 83-84: 0x18 *)
    Ok (set_base s (mkbase (b_waveform (s_base s)) value (b_amp_md (s_base s))
      (b_phs_md (s_base s))))
  else if reg =? 25 then                                               (* 87-91: 0x19 *)
    if 0 <? Z.land value 128 then
      Ok (set_base s (mkbase (b_waveform (s_base s)) (b_lfo (s_base s))
        (b_amp_md (s_base s)) (Z.land value 127)))
    else
      Ok (set_base s (mkbase (b_waveform (s_base s)) (b_lfo (s_base s)) value
        (b_phs_md (s_base s))))
  else if reg =? 27 then                                               (* 94-95: 0x1B *)
    match waveform_of (Z.land value 3) with
    | Some w => Ok (set_base s (mkbase w (b_lfo (s_base s)) (b_amp_md (s_base s))
        (b_phs_md (s_base s))))
    | None => Err GenericException (* ValueError of Waveform(n) *)
    end
  else if Z.land reg 248 =? 32 then                                    (* 97-101: 0x20 *)
    let! s := upd_note s channel (fun n => mknc (0 <? Z.land value 128)
      (0 <? Z.land value 64) (nc_octave n) (nc_note n) (nc_key_fraction n)) in
    upd_channel s channel (fun c => mkch (ch_operators c) (Z.land (Z.shiftr value 3) 7)
      (ch_ams c) (ch_pms c) (Z.land value 7) (ch_noise c) (ch_noise_freq c))
  else if Z.land reg 248 =? 40 then                                    (* 103-105: 0x28 *)
    upd_note s channel (fun n => mknc (nc_right n) (nc_left n)
      (Z.land (Z.shiftr value 4) 7) (Z.land value 15) (nc_key_fraction n))
  else if Z.land reg 248 =? 48 then                                    (* 107-108: 0x30 *)
    upd_note s channel (fun n => mknc (nc_right n) (nc_left n) (nc_octave n) (nc_note n)
      (Z.land (Z.shiftr value 2) 63))
  else if Z.land reg 248 =? 56 then                                    (* 109-111: 0x38 *)
    upd_channel s channel (fun c => mkch (ch_operators c) (ch_fb c) (Z.land value 3)
      (Z.land (Z.shiftr value 4) 7) (ch_connection c) (ch_noise c) (ch_noise_freq c))
  else if Z.land reg 224 =? 64 then                                    (* 113-119: 0x40 *)
    upd_operator s channel operator (fun o => mkop (total_level o) (attack_rate o)
      (first_decay_rate o) (first_decay_level o) (second_decay_rate o) (release_rate o)
      (key_scale o) (Z.land value 15) (Z.land (Z.shiftr value 4) 7) (second_detune o) (ase o))
  else if Z.land reg 224 =? 96 then                                    (* 121-124: 0x60 *)
    upd_operator s channel operator (fun o => mkop (Z.land value 127) (attack_rate o)
      (first_decay_rate o) (first_decay_level o) (second_decay_rate o) (release_rate o)
      (key_scale o) (multiply o) (first_detune o) (second_detune o) (ase o))
  else if Z.land reg 224 =? 128 then                                   (* 125-131: 0x80 *)
    upd_operator s channel operator (fun o => mkop (total_level o) (Z.land value 31)
      (first_decay_rate o) (first_decay_level o) (second_decay_rate o) (release_rate o)
      (Z.land (Z.shiftr value 6) 3) (multiply o) (first_detune o) (second_detune o) (ase o))
  else if Z.land reg 224 =? 160 then                                   (* 132-138: 0xA0 *)
    upd_operator s channel operator (fun o => mkop (total_level o) (attack_rate o)
      (Z.land value 31) (first_decay_level o) (second_decay_rate o) (release_rate o)
      (key_scale o) (multiply o) (first_detune o) (second_detune o) (0 <? Z.land value 128))
  else if Z.land reg 224 =? 192 then                                   (* 139-145: 0xC0 *)
    upd_operator s channel operator (fun o => mkop (total_level o) (attack_rate o)
      (first_decay_rate o) (first_decay_level o) (Z.land value 15) (release_rate o)
      (key_scale o) (multiply o) (first_detune o) (Z.land (Z.shiftr value 6) 3) (ase o))
  else if Z.land reg 224 =? 224 then                                   (* 146-152: 0xE0 *)
    upd_operator s channel operator (fun o => mkop (total_level o) (attack_rate o)
      (first_decay_rate o) (Z.land (Z.shiftr value 4) 15) (second_decay_rate o)
      (Z.land value 15) (key_scale o) (multiply o) (first_detune o) (second_detune o) (ase o))
  else Ok s.                                                           (* no branch *)

(** State.key_presses, state.py:154-155. *)
Definition key_presses (s : state) (ch : Z) : res (list note) := py_get (s_key_presses s) ch.
(** State.channel_config, state.py:157-158. *)
Definition channel_config (s : state) (ch : Z) : res chan_config := py_get (s_channels s) ch.
(** State.beat, state.py:160-161.  [beat(None)] raises TypeError. *)
Definition beat (samples : option Z) (s : state) : res state :=
  match samples with
  | Some n => Ok (set_samples s (s_samples s + n))
  | None => Err TypeError
  end.
(** State.ticks, state.py:163-164. *)
Definition ticks (s : state) : list Z := py_sorted Z.ltb (s_note_beats s).
(* State.__getattr__ (state.py:32-33) is in Model/Attr.v. *)
