(** What a history of register writes and waits means, from the YM2151 register
    map.  Only the result *types* of the model are used (records of
    Model/Config.v and Model/Note.v and the calls), none of its functions. *)
From Coq Require Import ZArith List Bool.
From Verif.Model Require Import Config Note History.
From Verif.Spec Require Import VgmFormat.
Import ListNotations.
Open Scope Z_scope.

(** Calls a VGM file can give rise to. *)
Definition call_ok (c : call) : Prop :=
  match c with Apply r v => byte r /\ byte v | Beat n => 0 <= n end.
Definition history_ok (h : history) : Prop := Forall call_ok h.

(** ** Registers *)

(** The last value satisfying [p] written to register [r]. *)
Definition last_such (p : Z -> bool) (h : history) (r : Z) : option Z :=
  fold_left (fun acc c => match c with
                          | Apply r' v => if (r' =? r) && p v then Some v else acc
                          | Beat _ => acc
                          end) h None.
Definition last_write (h : history) (r : Z) : option Z := last_such (fun _ => true) h r.
(** Register content; the chip starts with zeros. *)
Definition reg (h : history) (r : Z) : Z :=
  match last_write h r with Some v => v | None => 0 end.

(** Bits [hi..lo] of a value. *)
Definition bits (v hi lo : Z) : Z := (v / 2 ^ lo) mod 2 ^ (hi - lo + 1).
Definition bit (v n : Z) : bool := bits v n n =? 1.

(** Samples elapsed. *)
Definition time (h : history) : Z :=
  fold_right (fun c acc => match c with Beat n => n + acc | Apply _ _ => acc end) 0 h.

(** Operator [o] (0..3: M1, M2, C1, C2) of channel [ch] lives at slot 8*o + ch of
    the operator register blocks.  The second decay rate D2R is bits 4..0 of
    0xC0+slot on the chip; the extractor keeps bits 3..0. *)
Definition op_of (h : history) (ch o : Z) : op_config :=
  let r base := reg h (base + 8 * o + ch) in
  {| total_level := bits (r 0x60) 6 0;
     attack_rate := bits (r 0x80) 4 0;
     key_scale := bits (r 0x80) 7 6;
     first_decay_rate := bits (r 0xA0) 4 0;
     ase := bit (r 0xA0) 7;
     second_decay_rate := bits (r 0xC0) 3 0;
     second_detune := bits (r 0xC0) 7 6;
     first_decay_level := bits (r 0xE0) 7 4;
     release_rate := bits (r 0xE0) 3 0;
     multiply := bits (r 0x40) 3 0;
     first_detune := bits (r 0x40) 6 4 |}.

Definition chan_of (h : history) (ch : Z) : chan_config :=
  {| ch_operators := map (op_of h ch) [0; 1; 2; 3];
     ch_fb := bits (reg h (0x20 + ch)) 5 3;
     ch_connection := bits (reg h (0x20 + ch)) 2 0;
     ch_pms := bits (reg h (0x38 + ch)) 6 4;
     ch_ams := bits (reg h (0x38 + ch)) 1 0;
     ch_noise := if ch =? 7 then bit (reg h 0x0F) 7 else false;
     ch_noise_freq := if ch =? 7 then bits (reg h 0x0F) 4 0 else 0 |}.

Definition pitch_of (h : history) (ch : Z) : note_config :=
  {| nc_right := bit (reg h (0x20 + ch)) 7;
     nc_left := bit (reg h (0x20 + ch)) 6;
     nc_octave := bits (reg h (0x28 + ch)) 6 4;
     nc_note := bits (reg h (0x28 + ch)) 3 0;
     nc_key_fraction := bits (reg h (0x30 + ch)) 7 2 |}.

(** Register 0x19 holds two values: bit 7 selects which one a write sets. *)
Definition depth (select : bool) (h : history) : Z :=
  match last_such (fun v => Bool.eqb (bit v 7) select) h 0x19 with
  | Some v => bits v 6 0
  | None => 0
  end.
Definition waveform_no (n : Z) : waveform :=
  nth (Z.to_nat n) [SAW; SQUARE; TRIANGLE; NOISE] SAW.
Definition base_of (h : history) : base_config :=
  {| b_waveform := waveform_no (bits (reg h 0x1B) 1 0);
     b_lfo := reg h 0x18;
     b_amp_md := depth false h;
     b_phs_md := depth true h |}.

(** ** Key events *)

(** All settings that make an instrument. *)
Record settings := mksettings { st_base : base_config; st_chan : chan_config; st_ops : Z }.
(** One write to the key register 0x08: bits 2..0 select the channel, bits 6..3
    the operators switched on. *)
Record key := mkkey {
  k_time : Z; k_chan : Z; k_settings : settings; k_pitch : note_config }.
Definition k_on (k : key) : bool := negb (st_ops (k_settings k) =? 0).

Definition key_at (past : history) (v : Z) : key :=
  let ch := bits v 2 0 in
  {| k_time := time past; k_chan := ch;
     k_settings := mksettings (base_of past) (chan_of past ch) (bits v 6 3);
     k_pitch := pitch_of past ch |}.
Fixpoint keys_from (past h : history) : list key :=
  match h with
  | [] => []
  | c :: r =>
      match c with
      | Apply r v => if r =? 0x08 then [key_at past v] else []
      | Beat _ => []
      end ++ keys_from (past ++ [c]) r
  end.
(** All key events of a history, in order, each with the settings in force. *)
Definition keys (h : history) : list key := keys_from [] h.

(** ** Instruments: the different settings of the key-ons, in order of first use. *)
Definition waveform_eq_dec : forall a b : waveform, {a = b} + {a <> b}.
Proof. decide equality. Defined.
Definition base_eq_dec : forall a b : base_config, {a = b} + {a <> b}.
Proof. decide equality; auto using Z.eq_dec, waveform_eq_dec. Defined.
Definition op_eq_dec : forall a b : op_config, {a = b} + {a <> b}.
Proof. decide equality; auto using Z.eq_dec, bool_dec. Defined.
Definition chan_eq_dec : forall a b : chan_config, {a = b} + {a <> b}.
Proof. decide equality; auto using Z.eq_dec, bool_dec, (list_eq_dec op_eq_dec). Defined.
Definition settings_eq_dec : forall a b : settings, {a = b} + {a <> b}.
Proof. decide equality; auto using Z.eq_dec, base_eq_dec, chan_eq_dec. Defined.

Definition add_new (acc : list settings) (x : settings) : list settings :=
  if in_dec settings_eq_dec x acc then acc else acc ++ [x].
Definition key_ons (h : history) : list key := filter k_on (keys h).
Definition distinct (h : history) : list settings :=
  fold_left add_new (map k_settings (key_ons h)) [].
Fixpoint index_of (x : settings) (l : list settings) : Z :=
  match l with
  | [] => 0
  | y :: r => if settings_eq_dec x y then 0 else 1 + index_of x r
  end.
Fixpoint numbered (i : Z) (l : list settings) : list config :=
  match l with
  | [] => []
  | x :: r => mkconfig i (st_base x) (st_chan x) (st_ops x) :: numbered (i + 1) r
  end.
Definition instruments (h : history) : list config := numbered 0 (distinct h).

(** ** Recorded notes: all events from the first key-on at a non-zero time. *)
Fixpoint drop_until {A} (p : A -> bool) (l : list A) : list A :=
  match l with
  | [] => []
  | x :: r => if p x then l else drop_until p r
  end.
Definition starts (k : key) : bool := k_on k && negb (k_time k =? 0).
Definition recorded (h : history) : list key := drop_until starts (keys h).

Definition note_of (h : history) (k : key) : note :=
  {| n_config_id := if k_on k then index_of (k_settings k) (distinct h) else -1;
     n_right := nc_right (k_pitch k); n_left := nc_left (k_pitch k);
     n_octave := nc_octave (k_pitch k); n_note := nc_note (k_pitch k);
     n_key_fraction := nc_key_fraction (k_pitch k); n_sample := k_time k |}.
Definition notes (h : history) (ch : Z) : list note :=
  map (note_of h) (filter (fun k => k_chan k =? ch) (recorded h)).

(** ** Relations between histories *)

(** A call that leaves every sound setting alone: a wait, a pitch write, or a
    panning write that repeats the feedback and connection bits in force. *)
Definition keeps_sound (h : history) (c : call) : Prop :=
  match c with
  | Beat _ => True
  | Apply r w => 0x28 <= r < 0x38
                 \/ (0x20 <= r < 0x28 /\ bits w 5 0 = bits (reg h r) 5 0)
  end.
(** [g] may follow [h] without changing any sound setting. *)
Fixpoint all_keep (h g : history) : Prop :=
  match g with [] => True | c :: r => keeps_sound h c /\ all_keep (h ++ [c]) r end.

(** Two calls that differ at most in bits 5 and 4 of a write to the D2R/DT2 block. *)
Definition same_but_d2r (c c' : call) : Prop :=
  c = c' \/ exists r v v', c = Apply r v /\ c' = Apply r v' /\ 0xC0 <= r < 0xE0
    /\ bits v 7 6 = bits v' 7 6 /\ bits v 3 0 = bits v' 3 0.

(** The same note [k] samples later. *)
Definition delayed (k : Z) (n : note) : note :=
  mknote (n_config_id n) (n_right n) (n_left n) (n_octave n) (n_note n) (n_key_fraction n)
    (n_sample n + k).
