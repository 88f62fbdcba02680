(** Model of the JSON side: config.py repr_json methods and ConfigEncoder, and
    json.dumps(..., indent="\t") as used by extractors.py:118. *)
From Verif.Model Require Import Py Config.

(** The Python values json.dumps is given: after ConfigEncoder.default
    (config.py:239-244) has replaced every object by its repr_json() value. *)
Inductive json :=
| JInt (n : Z) | JBool (b : bool) | JStr (s : string)
| JList (l : list json) | JObj (l : list (string * json)).

(** Waveform.repr_json, config.py:16-17: the member's name. *)
Definition waveform_json (w : waveform) : json :=
  JStr (match w with SAW => "SAW" | SQUARE => "SQUARE" | TRIANGLE => "TRIANGLE" | NOISE => "NOISE" end).

(** "|".join *)
Fixpoint join (sep : string) (l : list string) : string :=
  match l with
  | [] => ""
  | [x] => x
  | x :: r => (x ++ sep ++ join sep r)%string
  end.

(** Operators.repr_json, config.py:26-36. *)
Definition operators_json (o : operators) : json :=
  let has m := op_true (Z.land o m) in
  let l := (if has MOD1 then ["MOD1"%string] else [])
        ++ (if has CAR1 then ["CAR1"%string] else [])
        ++ (if has MOD2 then ["MOD2"%string] else [])
        ++ (if has CAR2 then ["CAR2"%string] else []) in
  JStr (join "|" l).

(** BaseConfig.repr_json, config.py:60-61: __dict__ in assignment order (41-44). *)
Definition base_json (b : base_config) : json :=
  JObj [("waveform", waveform_json (b_waveform b)); ("lfo", JInt (b_lfo b));
        ("amp_md", JInt (b_amp_md b)); ("phs_md", JInt (b_phs_md b))]%string.

(** OperatorConfig.repr_json, config.py:99-112. *)
Definition op_json (o : op_config) : json :=
  JObj [("tl", JInt (total_level o)); ("ar", JInt (attack_rate o));
        ("d1r", JInt (first_decay_rate o)); ("d1l", JInt (first_decay_level o));
        ("d2r", JInt (second_decay_rate o)); ("rr", JInt (release_rate o));
        ("ks", JInt (key_scale o)); ("mul", JInt (multiply o));
        ("dt1", JInt (first_detune o)); ("dt2", JInt (second_detune o));
        ("ase", JBool (ase o))]%string.

(** ChannelConfig.repr_json, config.py:182-194.  self.operators[i] raises
    IndexError if missing. *)
Definition chan_json (c : chan_config) : res json :=
  let! m1 := py_get (ch_operators c) 0 in
  let! c1 := py_get (ch_operators c) 2 in
  let! m2 := py_get (ch_operators c) 1 in
  let! c2 := py_get (ch_operators c) 3 in
  Ok (JObj [("feedback", JInt (ch_fb c)); ("connection", JInt (ch_connection c));
            ("ams", JInt (ch_ams c)); ("pms", JInt (ch_pms c)); ("noise", JBool (ch_noise c));
            ("noise_freq", JInt (ch_noise_freq c)); ("m1", op_json m1); ("c1", op_json c1);
            ("m2", op_json m2); ("c2", op_json c2)]%string).

(** Config.repr_json, config.py:231-237. *)
Definition config_json (c : config) : res json :=
  let! ch := chan_json (c_channel c) in
  Ok (JObj [("id", JInt (c_id c)); ("base", base_json (c_base c));
            ("operators", operators_json (c_operators c)); ("channel", ch)]%string).

(** json.dumps with indent="\t": the pure-Python encoder of the standard library
    (items separated by "," newline, keys by ": ").  Strings are emitted without
    escapes: valid for strings without quote, backslash and control characters,
    which are the only ones above. *)
Definition quote : string := String (ascii_of_nat 34) "".
Definition newline : string := String (ascii_of_nat 10) "".
Definition tab : string := String (ascii_of_nat 9) "".
Fixpoint tabs (n : nat) : string :=
  match n with O => "" | S k => (tab ++ tabs k)%string end.
Definition nl_indent (n : nat) : string := (newline ++ tabs n)%string.
Definition quoted (s : string) : string := (quote ++ s ++ quote)%string.
Fixpoint dumps (level : nat) (j : json) {struct j} : string :=
  match j with
  | JInt n => str_int n
  | JBool true => "true"
  | JBool false => "false"
  | JStr s => quoted s
  | JList l =>
      match l with
      | [] => "[]"
      | _ => ("[" ++ nl_indent (S level)
              ++ join ("," ++ nl_indent (S level)) (map (dumps (S level)) l)
              ++ nl_indent level ++ "]")%string
      end
  | JObj l =>
      match l with
      | [] => "{}"
      | _ => ("{" ++ nl_indent (S level)
              ++ join ("," ++ nl_indent (S level))
                   (map (fun kv : string * json =>
                           let (k, v) := kv in (quoted k ++ ": " ++ dumps (S level) v)%string) l)
              ++ nl_indent level ++ "}")%string
      end
  end.
