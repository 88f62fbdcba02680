(** Python dataclasses with field metadata, and what xsdata's XmlSerializer makes
    of them (src/xrns/writer.py:17-20).  xsdata itself is a third-party library; the
    part of its behaviour used here is: elements in declaration order, None left
    out, one element per list item, attributes with their defaults, [sequential]
    neighbours interleaved, booleans as true/false, integers in decimal. *)
From Verif.Model Require Import Py.

Inductive pkind := PElement | PAttribute.
(** Python values found in the generated dataclasses; an object carries its fields
    in declaration order. *)
Inductive pyval :=
| VNone | VInt (n : Z) | VBool (b : bool) | VStr (s : string) | VList (l : list pyval)
| VObj (fields : list ((string * string * pkind * bool) * pyval)).
Notation fmeta := (string * string * pkind * bool)%type.

(** field(init=.., default=../default_factory=list, metadata={"name", "type", "sequential"}). *)
Record fdecl := mkfdecl {
  fd_meta : fmeta (* Python name, XML name, kind, sequential *);
  fd_default : pyval; fd_init : bool }.
Definition fm_attr (m : fmeta) : string := fst (fst (fst m)).
Definition fm_xml (m : fmeta) : string := snd (fst (fst m)).
Definition fm_kind (m : fmeta) : pkind := snd (fst m).
Definition fm_seq (m : fmeta) : bool := snd m.

(** The shapes of field(...) that occur in renoise_song65.py. *)
Definition el (a x : string) : fdecl := mkfdecl (a, x, PElement, false) VNone true.
Definition els (a x : string) : fdecl := mkfdecl (a, x, PElement, false) (VList []) true.
Definition els_seq (a x : string) : fdecl := mkfdecl (a, x, PElement, true) (VList []) true.
Definition att (a : string) : fdecl := mkfdecl (a, a, PAttribute, false) VNone true.
Definition fixed (a : string) (v : pyval) : fdecl := mkfdecl (a, a, PAttribute, false) v false.

(** The generated __init__: positional arguments fill the init fields in order,
    keyword arguments by name; init=False fields keep their default. *)
Fixpoint take_arg (kw : list (string * pyval)) (a : string) : option (pyval * list (string * pyval)) :=
  match kw with
  | [] => None
  | (k, v) :: r =>
      if String.eqb k a then Some (v, r)
      else match take_arg r a with Some (w, r') => Some (w, (k, v) :: r') | None => None end
  end.
Fixpoint fill_fields (fs : list fdecl) (pos : list pyval) (kw : list (string * pyval))
  : res (list (fmeta * pyval)) :=
  match fs with
  | [] => match pos, kw with [], [] => Ok [] | _, _ => Err TypeError end
  | f :: r =>
      if negb (fd_init f) then let! l := fill_fields r pos kw in Ok ((fd_meta f, fd_default f) :: l)
      else
        match pos, take_arg kw (fm_attr (fd_meta f)) with
        | _ :: _, Some _ => Err TypeError
        | v :: pos', None => let! l := fill_fields r pos' kw in Ok ((fd_meta f, v) :: l)
        | [], Some (v, kw') => let! l := fill_fields r [] kw' in Ok ((fd_meta f, v) :: l)
        | [], None => let! l := fill_fields r [] kw in Ok ((fd_meta f, fd_default f) :: l)
        end
  end.
Definition new (fs : list fdecl) (pos : list pyval) (kw : list (string * pyval)) : res pyval :=
  let! l := fill_fields fs pos kw in Ok (VObj l).

(** obj.attr = v, for a declared attribute of a dataclass instance.  (For another
    name Python would add an attribute that xsdata ignores.) *)
Definition set_field (a : string) (v : pyval) (o : pyval) : pyval :=
  match o with
  | VObj l => VObj (map (fun mv : fmeta * pyval => if String.eqb (fm_attr (fst mv)) a then (fst mv, v) else mv) l)
  | _ => o
  end.

(** ** XmlSerializer.render *)
Inductive xml := Node (tag : string) (attrs : list (string * string)) (text : string) (kids : list xml).

Definition text_of (v : pyval) : string :=
  match v with
  | VInt n => str_int n | VBool true => "true" | VBool false => "false" | VStr s => s
  | _ => ""
  end.
(** Attributes: declared order, None left out. *)
Fixpoint write_attrs (l : list (fmeta * pyval)) : list (string * string) :=
  match l with
  | [] => []
  | ((_, _, PElement, _), _) :: r => write_attrs r
  | ((_, _, PAttribute, _), VNone) :: r => write_attrs r
  | ((_, x, PAttribute, _), v) :: r => (x, text_of v) :: write_attrs r
  end.
(** Round-robin over the lists of a run of sequential fields. *)
Fixpoint robin (rounds : nat) (ls : list (list xml)) : list xml :=
  match rounds with
  | O => []
  | S k => flat_map (fun l => match l with [] => [] | x :: _ => [x] end) ls ++ robin k (map (@tl xml) ls)
  end.
Definition interleave (ls : list (list xml)) : list xml :=
  robin (fold_right Nat.max O (map (@length xml) ls)) ls.
(** The elements field by field; [run] collects the current sequential run. *)
Fixpoint arrange (l : list (bool * list xml)) (run : list (list xml)) : list xml :=
  match l with
  | [] => interleave run
  | (true, xs) :: r => arrange r (run ++ [xs])
  | (false, xs) :: r => interleave run ++ xs ++ arrange r []
  end.
Fixpoint write (tag : string) (v : pyval) {struct v} : list xml :=
  match v with
  | VNone => []
  | VList l => (fix items (l : list pyval) : list xml :=
                  match l with [] => [] | w :: r => write tag w ++ items r end) l
  | VObj fs =>
      let kids := (fix fields (fs : list (fmeta * pyval)) : list (bool * list xml) :=
        match fs with
        | [] => []
        | ((_, x, k, q), w) :: r =>
            match k with
            | PElement => (q, write x w) :: fields r
            | PAttribute => fields r
            end
        end) fs in
      [Node tag (write_attrs fs) "" (arrange kids [])]
  | _ => [Node tag [] (text_of v) []]
  end.
(** The document element is named after the class. *)
Definition document_of (class : string) (v : pyval) : option xml :=
  match v with VObj _ => hd_error (write class v) | _ => None end.
