(** Attribute access obj.name on Config and State objects: the instance's own
    attributes, then the class, then __getattr__ (config.py:210-222,
    state.py:32-33).  Names that start with two underscores are not modelled. *)
From Verif.Model Require Import Py Config Note State.

(** What an attribute can be. *)
Inductive attr :=
| AInt (n : Z) | ABool (b : bool) | AWave (w : waveform) | AFlag (o : operators)
| AOperators (l : list op_config) | ABase (b : base_config) | AChannel (c : chan_config)
| AConfigs (l : list config) | ASet (l : list Z) | ANumber (n : option Z)
| AChannels (l : list chan_config) | APresses (l : list (list note)) | APitches (l : list note_config)
| AMethod (name : string).

(** Attributes of a BaseConfig: set in __init__ (config.py:41-44); its public
    method (config.py:60). *)
Definition base_getattr (b : base_config) (item : string) : res attr :=
  if String.eqb item "waveform" then Ok (AWave (b_waveform b))
  else if String.eqb item "lfo" then Ok (AInt (b_lfo b))
  else if String.eqb item "amp_md" then Ok (AInt (b_amp_md b))
  else if String.eqb item "phs_md" then Ok (AInt (b_phs_md b))
  else if String.eqb item "repr_json" then Ok (AMethod item)
  else Err AttributeError.

(** Attributes of a ChannelConfig: config.py:150-159, 182. *)
Definition chan_getattr (c : chan_config) (item : string) : res attr :=
  if String.eqb item "operators" then Ok (AOperators (ch_operators c))
  else if String.eqb item "fb" then Ok (AInt (ch_fb c))
  else if String.eqb item "ams" then Ok (AInt (ch_ams c))
  else if String.eqb item "pms" then Ok (AInt (ch_pms c))
  else if String.eqb item "connection" then Ok (AInt (ch_connection c))
  else if String.eqb item "noise" then Ok (ABool (ch_noise c))
  else if String.eqb item "noise_freq" then Ok (AInt (ch_noise_freq c))
  else if String.eqb item "repr_json" then Ok (AMethod item)
  else Err AttributeError.

(** getattr(value, item) for the values the two __getattr__ methods reach. *)
Definition value_getattr (v : attr) (item : string) : res attr :=
  match v with
  | ABase b => base_getattr b item
  | AChannel c => chan_getattr c item
  | _ => Err AttributeError
  end.

(** A Config's own attributes (config.py:205-208) and those of its class (224,
    231).  [None] is an instance whose __init__ has not run, as made by
    copy.copy, copy.deepcopy and pickle before they fill it. *)
Definition config_own (o : option config) (item : string) : option attr :=
  if String.eqb item "compare" || String.eqb item "repr_json" then Some (AMethod item)
  else
    match o with
    | None => None
    | Some c =>
        if String.eqb item "_id" then Some (AInt (c_id c))
        else if String.eqb item "_base" then Some (ABase (c_base c))
        else if String.eqb item "_operators" then Some (AFlag (c_operators c))
        else if String.eqb item "_channel" then Some (AChannel (c_channel c))
        else None
    end.

(** config.item.  [limit] is the interpreter's recursion limit: each __getattr__
    call is one more frame.  The body is config.py:210-222. *)
Fixpoint config_getattr (limit : nat) (o : option config) (item : string) : res attr :=
  match limit with
  | O => Err RecursionError
  | S k =>
      match config_own o item with
      | Some v => Ok v
      | None =>
          if String.eqb item "lfo"                                       (* 211-212 *)
          then let! b := config_getattr k o "_base" in value_getattr b "lfo"
          else if String.eqb item "phs_md"                               (* 213-214 *)
          then let! b := config_getattr k o "_base" in value_getattr b "phs_md"
          else if String.eqb item "amp_md"                               (* 215-216 *)
          then let! b := config_getattr k o "_base" in value_getattr b "amp_md"
          else if String.eqb item "waveform"                             (* 217-218 *)
          then let! b := config_getattr k o "_base" in value_getattr b "waveform"
          else if String.eqb item "enabled_operators"                    (* 219-220 *)
          then config_getattr k o "_operators"
          else let! c := config_getattr k o "_channel" in value_getattr c item   (* 222 *)
      end
  end.

(** A State's own attributes (state.py:18-25) and its class's methods. *)
Definition state_methods : list string :=
  ["apply"; "key_presses"; "channel_config"; "beat"; "ticks"; "ticks_per_note"]%string.
Definition state_own (o : option state) (item : string) : option attr :=
  if existsb (String.eqb item) state_methods then Some (AMethod item)
  else
    match o with
    | None => None
    | Some s =>
        if String.eqb item "_channel_key_presses" then Some (APresses (s_key_presses s))
        else if String.eqb item "_channel_configs" then Some (AChannels (s_channels s))
        else if String.eqb item "_note_configs" then Some (APitches (s_notes s))
        else if String.eqb item "_current_base_config" then Some (ABase (s_base s))
        else if String.eqb item "configs" then Some (AConfigs (s_configs s))
        else if String.eqb item "_samples" then Some (AInt (s_samples s))
        else if String.eqb item "_note_beats" then Some (ASet (s_note_beats s))
        else if String.eqb item "_first_beat" then Some (ANumber (s_first_beat s))
        else None
    end.
(** state.item, with state.py:32-33. *)
Fixpoint state_getattr (limit : nat) (o : option state) (item : string) : res attr :=
  match limit with
  | O => Err RecursionError
  | S k =>
      match state_own o item with
      | Some v => Ok v
      | None => let! b := state_getattr k o "_current_base_config" in value_getattr b item
      end
  end.
