(** Configuration objects as a client sees them. *)
From Coq Require Import ZArith List Bool String.
From Verif.Model Require Import Config Json PyObjects.
From Verif.Spec Require Import JsonText.
Import ListNotations.
Open Scope Z_scope.
Open Scope list_scope.
Open Scope string_scope.

(** The settings of an operator, of the LFO, of a pitch, and of a channel (beside its
    operators). *)
Definition settings (c : cls) : list string :=
  match c with
  | CBase => ["amp_md"; "lfo"; "phs_md"; "waveform"]
  | COp => ["ase"; "attack_rate"; "first_decay_level"; "first_decay_rate"; "first_detune"; "key_scale"; "multiply";
            "release_rate"; "second_decay_rate"; "second_detune"; "total_level"]
  | CNote => ["key_fraction"; "left"; "note"; "octave"; "right"]
  | CChan => ["ams"; "connection"; "fb"; "noise"; "noise_freq"; "pms"]
  | CConfig => []
  end.

Definition class_of (h : mem) (v : val) : option cls :=
  match v with VRef r => match nth_error h r with Some (Inst c _) => Some c | _ => None end | _ => None end.
(** The object's own attribute [n]. *)
Definition own (h : mem) (v : val) (n : string) : option val :=
  match v with
  | VRef r => match nth_error h r with
              | Some (Inst _ d) => option_map snd (find (fun kv => String.eqb (fst kv) n) d)
              | _ => None
              end
  | _ => None
  end.
Definition list_at (h : mem) (v : val) (l : list val) : Prop := exists r, v = VRef r /\ nth_error h r = Some (Lst l).

(** A number, a text, a member of Waveform or Operators. *)
Definition plain (v : val) : Prop := forall r, v <> VRef r.
(** A LFO setting, operator or pitch with plain settings; a channel with plain settings
    and a list of such operators. *)
Definition record (h : mem) (c : cls) (v : val) : Prop :=
  class_of h v = Some c /\ c <> CConfig /\ forall n, In n (settings c) -> exists x, own h v n = Some x /\ plain x.
Definition tidy (h : mem) (c : cls) (v : val) : Prop :=
  record h c v
  /\ (c = CChan -> exists l os, own h v "operators" = Some l /\ list_at h l os /\ Forall (record h COp) os).

(** ** Equality *)
Definition numeric (v : val) : option Z :=
  match v with VInt n => Some n | VBool true => Some 1 | VBool false => Some 0 | _ => None end.
(** Equal values: True is 1 and False is 0. *)
Definition same (a b : val) : Prop := a = b \/ exists n, numeric a = Some n /\ numeric b = Some n.
Definition same_settings (h : mem) (c : cls) (a b : val) : Prop :=
  class_of h a = Some c /\ class_of h b = Some c
  /\ forall n, In n (settings c) -> exists x y, own h a n = Some x /\ own h b n = Some y /\ same x y.
Definition alike (h : mem) (c : cls) (a b : val) : Prop :=
  same_settings h c a b
  /\ (c = CChan -> exists l m os ps, own h a "operators" = Some l /\ own h b "operators" = Some m
        /\ list_at h l os /\ list_at h m ps /\ Forall2 (same_settings h COp) os ps).

(** ** Objects that belong to another *)
(** The object itself, its list of operators, and the operators in it. *)
Inductive owns (h : mem) (v : val) : nat -> Prop :=
| owns_self r : v = VRef r -> owns h v r
| owns_list r : class_of h v = Some CChan -> own h v "operators" = Some (VRef r) -> owns h v r
| owns_operator l os r : class_of h v = Some CChan -> own h v "operators" = Some l -> list_at h l os -> In (VRef r) os -> owns h v r.
(** A call that assigns to an attribute of, or changes, object [r]. *)
Definition changes (c : call) (r : nat) : Prop :=
  match c with
  | SetAttr v _ _ | SetItem v _ _ | Append v _ => v = VRef r
  | _ => False
  end.

(** ** JSON *)
(** Under which key which attribute is written. *)
Definition keys (c : cls) : list (string * string) :=
  match c with
  | COp => [("tl", "total_level"); ("ar", "attack_rate"); ("d1r", "first_decay_rate"); ("d1l", "first_decay_level");
            ("d2r", "second_decay_rate"); ("rr", "release_rate"); ("ks", "key_scale"); ("mul", "multiply");
            ("dt1", "first_detune"); ("dt2", "second_detune"); ("ase", "ase")]
  | CNote => [("right", "right"); ("left", "left"); ("octave", "octave"); ("note", "note"); ("key_fraction", "key_fraction")]
  | CChan => [("feedback", "fb"); ("connection", "connection"); ("ams", "ams"); ("pms", "pms"); ("noise", "noise");
              ("noise_freq", "noise_freq")]
  | CConfig => [("id", "_id"); ("base", "_base"); ("operators", "_operators"); ("channel", "_channel")]
  | CBase => []
  end.
Definition under (h : mem) (v : val) (ka : string * string) (kv : string * val) : Prop :=
  fst kv = fst ka /\ own h v (snd ka) = Some (snd kv).
(** The entries of an object's JSON: of a BaseConfig all its attributes, in the order in
    which they were first assigned; of the others the listed ones, and of a channel its
    first four operators. *)
Inductive entries (h : mem) (r : nat) : list (string * val) -> Prop :=
| entries_base d : nth_error h r = Some (Inst CBase d) -> entries h r d
| entries_keys c es : class_of h (VRef r) = Some c -> c <> CBase -> c <> CChan ->
    Forall2 (under h (VRef r)) (keys c) es -> entries h r es
| entries_channel es l m1 m2 c1 c2 rest : class_of h (VRef r) = Some CChan ->
    Forall2 (under h (VRef r)) (keys CChan) es ->
    own h (VRef r) "operators" = Some l -> list_at h l (m1 :: m2 :: c1 :: c2 :: rest) ->
    entries h r (es ++ [("m1", m1); ("c1", c1); ("m2", m2); ("c2", c2)]).
(** [written h v j]: the JSON value j shows v. *)
Inductive written (h : mem) : val -> json -> Prop :=
| written_int n : written h (VInt n) (JInt n)
| written_bool b : written h (VBool b) (JBool b)
| written_text s : written h (VStr s) (JStr s)
| written_wave w : written h (VWave w) (JStr (waveform_name w))
| written_flag o : written h (VFlag o) (JStr (operators_name o))
| written_list r l js : nth_error h r = Some (Lst l) -> Forall2 (written h) l js -> written h (VRef r) (JList js)
| written_object r es js : entries h r es ->
    Forall2 (fun e m => fst m = fst e /\ written h (snd e) (snd m)) es js -> written h (VRef r) (JObj js).
(** [shows h r q]: object r is written with object q in it. *)
Inductive shows (h : mem) (r : nat) : nat -> Prop :=
| shows_item l q : nth_error h r = Some (Lst l) -> In (VRef q) l -> shows h r q
| shows_entry es k q : entries h r es -> In (k, VRef q) es -> shows h r q.
(** r is written inside itself, at any depth. *)
Inductive below (h : mem) : nat -> nat -> Prop :=
| below_one r q : shows h r q -> below h r q
| below_more r q s : shows h r q -> below h q s -> below h r s.
Definition circular (h : mem) (r : nat) : Prop := below h r r.

(** ** New objects *)
(** Values that count as false. *)
Definition falsy (h : mem) (v : val) : Prop :=
  v = VInt 0 \/ v = VBool false \/ v = VStr "" \/ v = VFlag 0 \/ list_at h v [].
(** The setting of a new object: switches are off, everything else is 0, the LFO a saw. *)
Definition initial (n : string) : val :=
  if in_dec string_dec n ["ase"; "left"; "right"; "noise"] then VBool false
  else if string_dec n "waveform" then VWave SAW
  else VInt 0.
