(** A reader for XML documents without comments, CDATA and document types: first line
    ends are normalised as XML demands, then the text is cut into events, then the
    events are put together. *)
From Coq Require Import ZArith List Bool String Ascii.
From Verif.Model Require Import Dataclass.
From Verif.Spec Require Import Text.
Import ListNotations.
Open Scope string_scope.

Definition LF : ascii := "010".
Definition CR : ascii := "013".
Definition TAB : ascii := "009".
(** CR LF and CR alone become LF. *)
Fixpoint line_ends (s : string) : string :=
  match s with
  | EmptyString => ""
  | String c r =>
      if Ascii.eqb c CR then
        match r with
        | String d _ => if Ascii.eqb d LF then line_ends r else String LF (line_ends r)
        | EmptyString => String LF ""
        end
      else String c (line_ends r)
  end.

Definition is_space (c : ascii) : bool := existsb (Ascii.eqb c) [" "%char; TAB; LF; CR].
Definition between (a b : nat) (c : ascii) : bool := Nat.leb a (nat_of_ascii c) && Nat.leb (nat_of_ascii c) b.
Definition is_name (c : ascii) : bool :=
  between 65 90 c || between 97 122 c || between 48 57 c || existsb (Ascii.eqb c) ["_"%char; "-"%char; "."%char].
(** Characters a document may contain. *)
Definition is_char (c : ascii) : bool := is_space c || Nat.leb 32 (nat_of_ascii c).

(** &amp; &lt; &gt; &quot; &apos; and &#n; *)
Definition reference (name : string) : option ascii :=
  if String.eqb name "amp" then Some "&"%char
  else if String.eqb name "lt" then Some "<"%char
  else if String.eqb name "gt" then Some ">"%char
  else if String.eqb name "quot" then Some """"%char
  else if String.eqb name "apos" then Some "'"%char
  else match name with
       | String c r =>
           if Ascii.eqb c "#" then
             match nat_value r with
             | Some n => let a := ascii_of_nat (Z.to_nat n) in
                         if (n <? 256)%Z && is_char a then Some a else None
             | None => None
             end
           else None
       | EmptyString => None
       end.

Inductive event := Start (tag : string) (attrs : list (string * string)) | End (tag : string) | Chars (s : string).
Inductive place :=
| InText (sofar : string)
| InValue (tag : string) (attrs : list (string * string)) (name : string) (q : ascii) (sofar : string).
Inductive mode :=
| MText (sofar : string)
| MRef (p : place) (name : string)
| MOpen                                    (* after < *)
| MDecl | MDeclEnd                         (* in <? ... ?>, after its ? *)
| MTag (name : string)
| MBlank (tag : string) (attrs : list (string * string))          (* after a blank in a tag *)
| MName (tag : string) (attrs : list (string * string)) (name : string)
| MEquals (tag : string) (attrs : list (string * string)) (name : string)
| MValue (tag : string) (attrs : list (string * string)) (name : string) (q : ascii) (sofar : string)
| MAfter (tag : string) (attrs : list (string * string))
| MSlash (tag : string) (attrs : list (string * string))
| MEnd (name : string).
Definition snoc (s : string) (c : ascii) : string := s ++ String c "".
Fixpoint events (m : mode) (s : string) {struct s} : option (list event) :=
  match s with
  | EmptyString => match m with MText t => Some [Chars t] | _ => None end
  | String c r =>
      if negb (is_char c) then None else
      match m with
      | MText t =>
          if Ascii.eqb c "<" then option_map (cons (Chars t)) (events MOpen r)
          else if Ascii.eqb c "&" then events (MRef (InText t) "") r
          else events (MText (snoc t c)) r
      | MRef p n =>
          if Ascii.eqb c ";" then
            match reference n, p with
            | Some a, InText t => events (MText (snoc t a)) r
            | Some a, InValue tag l name q v => events (MValue tag l name q (snoc v a)) r
            | None, _ => None
            end
          else events (MRef p (snoc n c)) r
      | MOpen =>
          if Ascii.eqb c "/" then events (MEnd "") r
          else if Ascii.eqb c "?" then events MDecl r
          else if is_name c then events (MTag (String c "")) r else None
      | MDecl => if Ascii.eqb c "?" then events MDeclEnd r else events MDecl r
      | MDeclEnd => if Ascii.eqb c ">" then events (MText "") r else if Ascii.eqb c "?" then events MDeclEnd r else events MDecl r
      | MTag n =>
          if is_name c then events (MTag (snoc n c)) r
          else if is_space c then events (MBlank n []) r
          else if Ascii.eqb c "/" then events (MSlash n []) r
          else if Ascii.eqb c ">" then option_map (cons (Start n [])) (events (MText "") r) else None
      | MBlank n l =>
          if is_space c then events (MBlank n l) r
          else if Ascii.eqb c "/" then events (MSlash n l) r
          else if Ascii.eqb c ">" then option_map (cons (Start n l)) (events (MText "") r)
          else if is_name c then events (MName n l (String c "")) r else None
      | MName n l a =>
          if is_name c then events (MName n l (snoc a c)) r
          else if Ascii.eqb c "=" then events (MEquals n l a) r else None
      | MEquals n l a =>
          if Ascii.eqb c """" || Ascii.eqb c "'" then events (MValue n l a c "") r else None
      | MValue n l a q v =>
          if Ascii.eqb c q then events (MAfter n (l ++ [(a, v)])) r
          else if Ascii.eqb c "<" then None
          else if Ascii.eqb c "&" then events (MRef (InValue n l a q v) "") r
          else events (MValue n l a q (snoc v (if is_space c then " "%char else c))) r
      | MAfter n l =>
          if is_space c then events (MBlank n l) r
          else if Ascii.eqb c "/" then events (MSlash n l) r
          else if Ascii.eqb c ">" then option_map (cons (Start n l)) (events (MText "") r) else None
      | MSlash n l =>
          if Ascii.eqb c ">" then option_map (fun e => Start n l :: End n :: e) (events (MText "") r) else None
      | MEnd n =>
          if is_name c then events (MEnd (snoc n c)) r
          else if Ascii.eqb c ">" then option_map (cons (End n)) (events (MText "") r) else None
      end
  end.

Definition all_space (s : string) : bool := forallb is_space (list_ascii_of_string s).
(** An element that is still open: tag, attributes, text and children so far. *)
Definition frame := (string * list (string * string) * string * list xml)%type.
(** Blank text between the children of an element is layout; other text beside
    children is not accepted.  An element without children keeps its text. *)
Definition close (f : frame) : option xml :=
  match f with
  | (t, l, s, []) => Some (Node t l s [])
  | (t, l, s, k) => if all_space s then Some (Node t l "" k) else None
  end.
Fixpoint assemble (stack : list frame) (done : option xml) (e : list event) : option xml :=
  match e with
  | [] => match stack with [] => done | _ => None end
  | Chars s :: r =>
      match stack with
      | (t, l, x, k) :: up => assemble ((t, l, x ++ s, k) :: up) done r
      | [] => if all_space s then assemble [] done r else None
      end
  | Start t l :: r =>
      match stack, done with
      | [], Some _ => None                                  (* a second document element *)
      | _, _ => assemble ((t, l, "", []) :: stack) done r
      end
  | End n :: r =>
      match stack with
      | [] => None
      | ((t, l, s, k) as f) :: up =>
          if String.eqb t n then
            match close f with
            | None => None
            | Some x =>
                match up with
                | [] => assemble [] (Some x) r
                | (t', l', s', k') :: up' => assemble ((t', l', s', (k' ++ [x])%list) :: up') done r
                end
            end
          else None
      end
  end.
(** The document a text stands for. *)
Definition read_xml (s : string) : option xml :=
  match events (MText "") (line_ends s) with
  | Some e => assemble [] None e
  | None => None
  end.

(** Text that XML can carry unchanged between two tags. *)
Definition clean (s : string) : Prop :=
  forall c, In c (list_ascii_of_string s) -> is_char c = true /\ c <> CR.
