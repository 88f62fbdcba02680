(** The classes of config.py:12-237 as a library: objects with a __dict__ that any
    client may assign to, their constructors, ==, copy.deepcopy, Config's
    __getattr__, and ConfigEncoder.

    Attribute values are ints, bools, strings, members of Waveform and Operators, and
    references to config objects and lists; None, floats, dicts and other classes are
    not modelled.  Attributes are data attributes (methods are not looked up by
    name), and nothing is deleted.  [limit] is the interpreter's recursion limit. *)
From Verif.Model Require Import Py Config Json.
Open Scope string_scope.
Open Scope list_scope.
Open Scope Z_scope.

Inductive cls := CBase | COp | CNote | CChan | CConfig.
Inductive val :=
| VInt (n : Z) | VBool (b : bool) | VStr (s : string) | VWave (w : waveform) | VFlag (o : operators)
| VRef (r : nat).
(** Inst: a __dict__ in order of first assignment. *)
Inductive object := Inst (c : cls) (d : list (string * val)) | Lst (l : list val).
Definition mem := list object.

Definition cls_eqb (a b : cls) : bool :=
  match a, b with
  | CBase, CBase | COp, COp | CNote, CNote | CChan, CChan | CConfig, CConfig => true
  | _, _ => false
  end.
Fixpoint look (d : list (string * val)) (k : string) : option val :=
  match d with [] => None | (n, v) :: d => if String.eqb n k then Some v else look d k end.
(** d[k] = v: an existing key keeps its place. *)
Fixpoint put (d : list (string * val)) (k : string) (v : val) : list (string * val) :=
  match d with
  | [] => [(k, v)]
  | (n, w) :: d => if String.eqb n k then (n, v) :: d else (n, w) :: put d k v
  end.
Definition new (h : mem) (o : object) : val * mem := (VRef (List.length h), h ++ [o]).

(** bool(v): numbers, strings, lists and flags by being non-zero or non-empty; members
    of an Enum and instances without __bool__ and __len__ are true. *)
Definition truth (h : mem) (v : val) : bool :=
  match v with
  | VInt n => negb (n =? 0)
  | VBool b => b
  | VStr s => negb (String.eqb s "")
  | VWave _ => true
  | VFlag o => negb (o =? 0)
  | VRef r => match nth_error h r with Some (Lst []) => false | _ => true end
  end.

(** v.name.  Config: its own attributes, then __getattr__, config.py:210-222. *)
Fixpoint getattr (limit : nat) (h : mem) (v : val) (name : string) : res val :=
  match limit with
  | O => Err RecursionError
  | S k =>
      match v with
      | VRef r =>
          match nth_error h r with
          | Some (Inst CConfig d) =>
              match look d name with
              | Some x => Ok x
              | None =>
                  if String.eqb name "lfo" || String.eqb name "phs_md"            (* 211-214 *)
                     || String.eqb name "amp_md" || String.eqb name "waveform"    (* 215-218 *)
                  then let! b := getattr k h v "_base" in getattr k h b name
                  else if String.eqb name "enabled_operators"                     (* 219-220 *)
                  then getattr k h v "_operators"
                  else let! c := getattr k h v "_channel" in getattr k h c name   (* 222 *)
              end
          | Some (Inst _ d) => match look d name with Some x => Ok x | None => Err AttributeError end
          | _ => Err AttributeError
          end
      | _ => Err AttributeError
      end
  end.

(** ** Constructors and deepcopy *)

(** The attributes that __init__ sets when called without argument, in order:
    config.py:41-44, 66-76, 117-121, 153-158 (operators, 149-151, apart). *)
Definition defaults (c : cls) : list (string * val) :=
  match c with
  | CBase => [("waveform", VWave SAW); ("lfo", VInt 0); ("amp_md", VInt 0); ("phs_md", VInt 0)]
  | COp => [("total_level", VInt 0); ("attack_rate", VInt 0); ("first_decay_rate", VInt 0);
            ("first_decay_level", VInt 0); ("second_decay_rate", VInt 0); ("release_rate", VInt 0);
            ("key_scale", VInt 0); ("multiply", VInt 0); ("first_detune", VInt 0); ("second_detune", VInt 0);
            ("ase", VBool false)]
  | CNote => [("right", VBool false); ("left", VBool false); ("octave", VInt 0); ("note", VInt 0);
              ("key_fraction", VInt 0)]
  | CChan => [("fb", VInt 0); ("ams", VInt 0); ("pms", VInt 0); ("connection", VInt 0); ("noise", VBool false);
              ("noise_freq", VInt 0)]
  | CConfig => []
  end.
(** The same attributes read from another object. *)
Fixpoint from_other (limit : nat) (h : mem) (other : val) (names : list (string * val)) : res (list (string * val)) :=
  match names with
  | [] => Ok []
  | (n, _) :: r =>
      let! x := getattr limit h other n in
      let! d := from_other limit h other r in
      Ok ((n, x) :: d)
  end.

Definition new_op (h : mem) : val * mem := new h (Inst COp (defaults COp)).
Fixpoint new_ops (n : nat) (h : mem) : list val * mem :=
  match n with
  | O => ([], h)
  | S n => let (o, h) := new_op h in let (os, h) := new_ops n h in (o :: os, h)
  end.

(** BaseConfig(), OperatorConfig(), NoteConfig(), ChannelConfig() (160-163: four
    operators are appended). *)
Definition construct_default (h : mem) (c : cls) : val * mem :=
  match c with
  | CChan =>
      let (os, h) := new_ops 4 h in
      let (l, h) := new h (Lst os) in
      new h (Inst CChan (("operators", l) :: defaults CChan))
  | _ => new h (Inst c (defaults c))
  end.

(** Copying another object: __init__ with a true [other].  [copy] is copy.deepcopy, used
    for ChannelConfig's operators (150). *)
Definition construct_from (copy : mem -> val -> res (val * mem)) (limit : nat) (h : mem) (c : cls) (other : val)
  : res (val * mem) :=
  match c with
  | CChan =>
      let! x := getattr limit h other "operators" in
      let! (y, h) := copy h x in
      let! d := from_other limit h other (defaults CChan) in
      Ok (new h (Inst CChan (("operators", y) :: d)))
  | _ =>
      let! d := from_other limit h other (defaults c) in
      Ok (new h (Inst c d))
  end.

Fixpoint memo_find (m : list (nat * val)) (r : nat) : option val :=
  match m with [] => None | (a, b) :: m => if Nat.eqb a r then Some b else memo_find m r end.

(** "for a in x: append(y, deepcopy(a, memo))" (standard library, copy.py); y is the
    list at position [y]. *)
Fixpoint copy_each (copy : mem -> list (nat * val) -> val -> res (val * mem * list (nat * val)))
  (y : nat) (h : mem) (memo : list (nat * val)) (l : list val) : res (mem * list (nat * val)) :=
  match l with
  | [] => Ok (h, memo)
  | x :: l =>
      let! (p, memo) := copy h memo x in
      let (v, h) := p : val * mem in
      match nth_error h y with
      | Some (Lst vs) => copy_each copy y (set_nth y (Lst (vs ++ [v])) h) memo l
      | _ => Err GenericException                                    (* not reached *)
      end
  end.

(** Whose method x.__deepcopy__ is: Config has none, so that __getattr__ asks its
    channel (222).  A channel that is no config object: the generic copying of
    copy.py makes an empty Config and asks it for __setstate__, which calls __getattr__
    for ever (an enum member as channel is not modelled). *)
Fixpoint copier (limit : nat) (h : mem) (r : nat) : res (cls * nat) :=
  match limit with
  | O => Err RecursionError
  | S k =>
      match nth_error h r with
      | Some (Inst CConfig d) =>
          match look d "_channel" with
          | Some (VRef q) => copier k h q
          | _ => Err RecursionError
          end
      | Some (Inst c _) => Ok (c, r)
      | _ => Err RecursionError
      end
  end.

(** copy.deepcopy(v, memo); the classes' __deepcopy__ (57-58, 96-97, 135-136,
    179-180) construct a new object from the old one and take no notice of the memo. *)
Fixpoint deepcopy (limit : nat) (h : mem) (memo : list (nat * val)) (v : val)
  : res (val * mem * list (nat * val)) :=
  match limit with
  | O => Err RecursionError
  | S k =>
      match v with
      | VRef r =>
          match memo_find memo r with
          | Some y => Ok (y, h, memo)
          | None =>
              match nth_error h r with
              | Some (Lst l) =>
                  let y := List.length h in
                  let! (h, memo) := copy_each (deepcopy k) y (h ++ [Lst []]) ((r, VRef y) :: memo) l in
                  Ok (VRef y, h, memo)
              | Some (Inst _ _) =>
                  let! (c, q) := copier k h r in
                  let! (y, h) := construct_from
                    (fun h x => let! (p, _) := deepcopy k h [] x in Ok (p : val * mem)) k h c (VRef q) in
                  Ok (y, h, (r, y) :: memo)
              | None => Err GenericException                          (* not reached *)
              end
          end
      | _ => Ok (v, h, memo)
      end
  end.
(** copy.deepcopy(v) *)
Definition copy_of (limit : nat) (h : mem) (v : val) : res (val * mem) :=
  let! (p, _) := deepcopy limit h [] v in Ok (p : val * mem).

(** BaseConfig(other) etc., config.py:39-44, 64-76, 115-121, 148-163. *)
Definition construct (limit : nat) (h : mem) (c : cls) (other : option val) : res (val * mem) :=
  match other with
  | Some v => if truth h v then construct_from (copy_of limit) limit h c v else Ok (construct_default h c)
  | None => Ok (construct_default h c)
  end.

(** Config(id, base, channel, operators), config.py:198-208.  The default arguments are
    evaluated once, when the class is defined: every Config made without them refers to
    the same two objects. *)
Definition default_base : val := fst (construct_default [] CBase).
Definition default_channel : val := fst (construct_default (snd (construct_default [] CBase)) CChan).
Definition boot : mem := snd (construct_default (snd (construct_default [] CBase)) CChan).
Definition or_default (o : option val) (v : val) : val := match o with Some x => x | None => v end.
Definition new_config (h : mem) (id : val) (base channel ops : option val) : val * mem :=
  new h (Inst CConfig [("_id", id); ("_base", or_default base default_base);
                       ("_operators", or_default ops (VInt 0));
                       ("_channel", or_default channel default_channel)]).

(** ** Comparing *)
Definition number (v : val) : option Z :=
  match v with VInt n => Some n | VBool b => Some (if b then 1 else 0) | _ => None end.
(** a is b *)
Definition same_object (a b : val) : bool :=
  match a, b with VRef r, VRef q => Nat.eqb r q | _, _ => false end.
(** The attributes compared by __eq__, in order: config.py:47-54, 79-93, 124-132,
    166-176. *)
Definition compared (c : cls) : list string :=
  match c with
  | CBase => ["lfo"; "phs_md"; "amp_md"; "waveform"]
  | COp => ["first_detune"; "second_detune"; "multiply"; "total_level"; "key_scale"; "attack_rate"; "ase";
            "first_decay_rate"; "second_decay_rate"; "first_decay_level"; "release_rate"]
  | CNote => ["right"; "left"; "octave"; "note"; "key_fraction"]
  | CChan => ["fb"; "connection"; "ams"; "pms"; "operators"; "noise"; "noise_freq"]
  | CConfig => []
  end.
(** self.x == other.x and self.y == other.y and ... *)
Fixpoint all_equal (eq : val -> val -> res bool) (d d' : list (string * val)) (names : list string) : res bool :=
  match names with
  | [] => Ok true
  | n :: names =>
      match look d n, look d' n with
      | Some x, Some y => let! b := eq x y in if b then all_equal eq d d' names else Ok false
      | _, _ => Err AttributeError
      end
  end.
(** Lists of the same length; elements are equal if identical or ==. *)
Fixpoint items_equal (eq : val -> val -> res bool) (l l' : list val) : res bool :=
  match l, l' with
  | x :: l, y :: l' =>
      let! b := if same_object x y then Ok true else eq x y in
      if b then items_equal eq l l' else Ok false
  | _, _ => Ok true
  end.
(** a == b.  __eq__ returns NotImplemented for another class, as does object's for
    Config; when both sides do, identity decides. *)
Fixpoint equal (limit : nat) (h : mem) (a b : val) : res bool :=
  match limit with
  | O => Err RecursionError
  | S k =>
      match a, b with
      | VRef r, VRef q =>
          match nth_error h r, nth_error h q with
          | Some (Lst l), Some (Lst l') =>
              if Nat.eqb (List.length l) (List.length l') then items_equal (equal k h) l l' else Ok false
          | Some (Inst c d), Some (Inst c' d') =>
              if cls_eqb c c' && negb (cls_eqb c CConfig) then all_equal (equal k h) d d' (compared c)
              else Ok (Nat.eqb r q)
          | _, _ => Ok false
          end
      | VStr s, VStr t => Ok (String.eqb s t)
      | VWave v, VWave w => Ok (waveform_eqb v w)
      | VFlag o, VFlag p => Ok (o =? p)
      | _, _ =>
          match number a, number b with
          | Some m, Some n => Ok (m =? n)
          | _, _ => Ok false
          end
      end
  end.
(** config.compare(base, channel, operators), config.py:224-229. *)
Definition compare (limit : nat) (h : mem) (config base channel ops : val) : res bool :=
  let! x := getattr limit h config "_base" in
  let! b := equal limit h x base in
  if b then
    let! x := getattr limit h config "_channel" in
    let! b := equal limit h x channel in
    if b then
      let! x := getattr limit h config "_operators" in
      equal limit h x ops
    else Ok false
  else Ok false.

(** ** JSON *)
(** OperatorConfig, NoteConfig: key and attribute, config.py:99-112, 138-145. *)
Definition op_keys : list (string * string) :=
  [("tl", "total_level"); ("ar", "attack_rate"); ("d1r", "first_decay_rate"); ("d1l", "first_decay_level");
   ("d2r", "second_decay_rate"); ("rr", "release_rate"); ("ks", "key_scale"); ("mul", "multiply");
   ("dt1", "first_detune"); ("dt2", "second_detune"); ("ase", "ase")].
Definition note_keys : list (string * string) :=
  [("right", "right"); ("left", "left"); ("octave", "octave"); ("note", "note"); ("key_fraction", "key_fraction")].
Definition chan_keys : list (string * string) :=
  [("feedback", "fb"); ("connection", "connection"); ("ams", "ams"); ("pms", "pms"); ("noise", "noise");
   ("noise_freq", "noise_freq")].
Definition config_keys : list (string * string) :=
  [("id", "_id"); ("base", "_base"); ("operators", "_operators"); ("channel", "_channel")].
Fixpoint rename (limit : nat) (h : mem) (v : val) (l : list (string * string)) : res (list (string * val)) :=
  match l with
  | [] => Ok []
  | (k, n) :: l => let! x := getattr limit h v n in let! d := rename limit h v l in Ok ((k, x) :: d)
  end.
(** x[i] with a literal i >= 0: lists only ("str" objects also allow it: not modelled;
    the others raise TypeError). *)
Definition subscript (h : mem) (v : val) (i : Z) : res val :=
  match v with
  | VRef r => match nth_error h r with Some (Lst l) => py_get l i | _ => Err TypeError end
  | _ => Err TypeError
  end.
(** self.operators[0], [2], [1], [3]: config.py:190-193. *)
Fixpoint slots (limit : nat) (h : mem) (v : val) (l : list (string * Z)) : res (list (string * val)) :=
  match l with
  | [] => Ok []
  | (k, i) :: l =>
      let! ops := getattr limit h v "operators" in
      let! x := subscript h ops i in
      let! d := slots limit h v l in
      Ok ((k, x) :: d)
  end.
(** repr_json of an instance: config.py:60-61 (the __dict__ itself), 99-112, 138-145,
    182-194, 231-237. *)
Definition repr_json (limit : nat) (h : mem) (v : val) (c : cls) (d : list (string * val)) : res (list (string * val)) :=
  match c with
  | CBase => Ok d
  | COp => rename limit h v op_keys
  | CNote => rename limit h v note_keys
  | CChan =>
      let! a := rename limit h v chan_keys in
      let! b := slots limit h v [("m1", 0); ("c1", 2); ("m2", 1); ("c2", 3)] in
      Ok (a ++ b)
  | CConfig => rename limit h v config_keys
  end.

Fixpoint each {A B} (f : A -> res B) (l : list A) : res (list B) :=
  match l with
  | [] => Ok []
  | x :: l => let! y := f x in let! ys := each f l in Ok (y :: ys)
  end.
(** What json.dumps(v, cls=ConfigEncoder) writes (as a tree), config.py:239-244: the
    encoder asks default() for everything that is no int, bool, str, list or dict.
    [open]: the lists and objects being written (json's "markers"). *)
Fixpoint encode (limit : nat) (h : mem) (open : list nat) (v : val) : res json :=
  match limit with
  | O => Err RecursionError
  | S k =>
      match v with
      | VInt n => Ok (JInt n)
      | VBool b => Ok (JBool b)
      | VStr s => Ok (JStr s)
      | VWave w => Ok (waveform_json w)
      | VFlag o => Ok (operators_json o)
      | VRef r =>
          if existsb (Nat.eqb r) open then Err ValueError           (* Circular reference detected *)
          else
            match nth_error h r with
            | Some (Lst l) => let! js := each (encode k h (r :: open)) l in Ok (JList js)
            | Some (Inst c d) =>
                let! d := repr_json k h v c d in
                let! js := each (fun kv : string * val => let! j := encode k h (r :: open) (snd kv) in Ok (fst kv, j)) d in
                Ok (JObj js)
            | None => Err GenericException                           (* not reached *)
            end
      end
  end.

(** ** What a client may do *)
Inductive call :=
| New (c : cls) (other : option val)
| NewConfig (id : val) (base channel ops : option val)
| NewList (l : list val)
| Copy (v : val)
| SetAttr (v : val) (name : string) (x : val)              (* v.name = x *)
| SetItem (v : val) (i : Z) (x : val)                      (* v[i] = x *)
| Append (v x : val).                                      (* v.append(x) *)
(** An attribute assignment goes to the object's own __dict__ (no class has
    __setattr__, properties or slots). *)
Definition step (limit : nat) (h : mem) (c : call) : res mem :=
  match c with
  | New CConfig None => Err TypeError                        (* Config(): id is missing *)
  | New CConfig (Some id) => Ok (snd (new_config h id None None None))
  | New c other => let! (_, h) := construct limit h c other in Ok h
  | NewConfig id b c o => Ok (snd (new_config h id b c o))
  | NewList l => Ok (snd (new h (Lst l)))
  | Copy v => let! (_, h) := copy_of limit h v in Ok h
  | SetAttr v n x =>
      match v with
      | VRef r => match nth_error h r with
                  | Some (Inst c d) => Ok (set_nth r (Inst c (put d n x)) h)
                  | _ => Err AttributeError
                  end
      | _ => Err AttributeError
      end
  | SetItem v i x =>
      match v with
      | VRef r => match nth_error h r with
                  | Some (Lst l) => let! l := py_set l i x in Ok (set_nth r (Lst l) h)
                  | _ => Err TypeError
                  end
      | _ => Err TypeError
      end
  | Append v x =>
      match v with
      | VRef r => match nth_error h r with Some (Lst l) => Ok (set_nth r (Lst (l ++ [x])) h) | _ => Err AttributeError end
      | _ => Err AttributeError
      end
  end.
(** A client that survives exceptions: a failed call leaves only garbage. *)
Definition run_client (limit : nat) (h : mem) (l : list call) : mem :=
  fold_left (fun h c => match step limit h c with Ok h => h | Err _ => h end) l h.
