(** The reader's objects as a client sees them: kinds and texts of commands, and
    names of attributes. *)
From Coq Require Import ZArith List Bool String Ascii.
From Verif.Model Require Import Command Session Core Config Attr.
From Verif.Model Require Py.
From Verif.Spec Require Import Text VgmFormat Ym2151.
Import ListNotations.
Open Scope Z_scope.

(** The command_type a client sees, from the command's id byte. *)
Definition type_of_id (id : Z) : option vtype :=
  if id =? 0x54 then Some TYm2151
  else if id =? 0x66 then Some TEos
  else if ((0x61 <=? id) && (id <=? 0x63)) || ((0x70 <=? id) && (id <=? 0x7F)) then Some TWait
  else None.

(** Lower-case hexadecimal after "0x", no superfluous zeros, with a minus sign before
    negative numbers. *)
Definition hex_digits_lower : list ascii := list_ascii_of_string "0123456789abcdef".
Definition hex0x_value (s : string) : option Z :=
  match s with
  | String "0" (String "x" (String "0" EmptyString)) => Some 0
  | String "0" (String "x" (String "0" _)) => None
  | String "0" (String "x" (String c r)) => digits_value 16 hex_digits_lower (String c r) 0
  | _ => None
  end.
Definition hex_int_value (s : string) : option Z :=
  match s with
  | String "-" r => match hex0x_value r with Some (Zpos p) => Some (Zneg p) | _ => None end
  | _ => hex0x_value s
  end.
(** What str(command) looks like. *)
Inductive shown : vcmd -> string -> Prop :=
| shown_eos id : shown (Eos id) "VgmCommand(EOS)"
| shown_wait id n a : int_value a = Some n ->
    shown (Wait id (Some n)) ("VgmCommand(Wait: " ++ a ++ ")")
| shown_idle id : shown (Wait id None) "VgmCommand(Wait: None)"      (* no length given *)
| shown_ym id r v a b : hex_int_value a = Some r -> hex_int_value b = Some v ->
    shown (Ym id r v) ("YM2151Command(Reg: " ++ a ++ ", Data: " ++ b ++ ")")
| shown_other id p a : hex_int_value a = Some id ->
    shown (Plain id p) ("VgmCommand(" ++ a ++ ")").
(** What the text of a command keeps: nothing about which wait command it was, and
    no operands of other commands. *)
Definition essence (c : vcmd) : vcmd :=
  match c with
  | Eos _ => Eos 0x66
  | Wait _ n => Wait 0x61 n
  | Ym _ r v => Ym 0x54 r v
  | Plain id _ => Plain id None
  end.

(** A session on byte strings. *)
Definition opens_bytes (gunzip : list Z -> Py.res (list Z)) (l : list action) : Prop :=
  (forall d, In (Open d) l -> bytes d) /\ (forall d p, gunzip d = Py.Ok p -> bytes p).
(** The reader reported its end or an error. *)
Definition ended (o : seen) : Prop := o = NextGave (inl None) \/ exists e, o = NextGave (inr e).

(** ** Attributes *)

(** Names a client can use on an instrument (a Config), with the value for given
    settings; and on a State, for a history. *)
Definition instrument_attributes (x : settings) : list (string * attr) :=
  [ ("lfo", AInt (b_lfo (st_base x))); ("phs_md", AInt (b_phs_md (st_base x)));
    ("amp_md", AInt (b_amp_md (st_base x))); ("waveform", AWave (b_waveform (st_base x)));
    ("enabled_operators", AFlag (st_ops x)); ("operators", AOperators (ch_operators (st_chan x)));
    ("fb", AInt (ch_fb (st_chan x))); ("ams", AInt (ch_ams (st_chan x)));
    ("pms", AInt (ch_pms (st_chan x))); ("connection", AInt (ch_connection (st_chan x)));
    ("noise", ABool (ch_noise (st_chan x))); ("noise_freq", AInt (ch_noise_freq (st_chan x)));
    ("compare", AMethod "compare"); ("repr_json", AMethod "repr_json") ]%string.
Definition state_attributes (h : History.history) : list (string * attr) :=
  [ ("lfo", AInt (reg h 0x18)); ("phs_md", AInt (depth true h)); ("amp_md", AInt (depth false h));
    ("waveform", AWave (waveform_no (bits (reg h 0x1B) 1 0)));
    ("configs", AConfigs (instruments h)); ("repr_json", AMethod "repr_json");
    ("apply", AMethod "apply"); ("key_presses", AMethod "key_presses");
    ("channel_config", AMethod "channel_config"); ("beat", AMethod "beat");
    ("ticks", AMethod "ticks"); ("ticks_per_note", AMethod "ticks_per_note") ]%string.
(** A public name: not starting with an underscore. *)
Definition public (name : string) : Prop :=
  match name with String "_" _ => False | _ => True end.

(** ** Any integers as register and value *)

(** The call on bytes that has the same effect; none if the call does nothing.
    Registers count modulo 256 except the five single ones, and values too except
    in the two that are stored as given. *)
Definition single (r : Z) : bool := existsb (Z.eqb r) [0x08; 0x0F; 0x18; 0x19; 0x1B].
Definition as_bytes (c : History.call) : list History.call :=
  match c with
  | History.Beat n => [c]
  | History.Apply r v =>
      if single (r mod 256) then
        if r =? r mod 256
        then [History.Apply r (if (r =? 0x18) || (r =? 0x19) then v else v mod 256)]
        else []
      else [History.Apply (r mod 256) (v mod 256)]
  end.
