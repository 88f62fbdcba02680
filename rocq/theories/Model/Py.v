(** Python run-time notions shared by all model files.

    Python integers are [Z]; [bytes] objects are [list Z] whose elements lie in
    0..255; exceptions are values of [exn]; a call that may raise returns [res]. *)
From Coq Require Export String Ascii ZArith Bool List.
Export ListNotations.
#[global] Open Scope Z_scope.

(** Exception classes that the modelled code can raise (built-in classes; the
    [struct.error] of core.py:121,127 is [StructError]). *)
Inductive exn :=
| EOFError | StructError | TypeError | IndexError | KeyError | ZeroDivisionError
| OverflowError | ValueError | NameError | AttributeError | RecursionError | GenericException | OSError | GzipError
| OutOfFuel (* not a Python exception: the model's recursion bound was hit;
               every theorem about termination shows it cannot occur *).

Inductive res (A : Type) :=
| Ok (a : A)
| Err (e : exn).
Arguments Ok {A} a.
Arguments Err {A} e.

Definition bind {A B} (m : res A) (k : A -> res B) : res B :=
  match m with Ok a => k a | Err e => Err e end.
Notation "'let!' x ':=' m 'in' k" := (bind m (fun x => k))
  (at level 200, x pattern, m at level 100, k at level 200).

(** Python slicing of a byte string: the first [n] bytes / what follows them.
    [n] is a Python int, so these recurse on the list, not on [n]. *)
Fixpoint takeZ {A} (n : Z) (l : list A) : list A :=
  match l with
  | [] => []
  | x :: r => if n <=? 0 then [] else x :: takeZ (n - 1) r
  end.
Fixpoint dropZ {A} (n : Z) (l : list A) : list A :=
  match l with
  | [] => []
  | x :: r => if n <=? 0 then l else dropZ (n - 1) r
  end.

Definition len {A} (l : list A) : Z := Z.of_nat (length l).

(** Python list indexing [l[i]], [l[i] = x]: negative indices count from the
    end, anything else outside raises IndexError. *)
Definition py_slot {A} (l : list A) (i : Z) : option nat :=
  if (0 <=? i) && (i <? len l) then Some (Z.to_nat i)
  else if (- len l <=? i) && (i <? 0) then Some (Z.to_nat (len l + i))
  else None.
Definition py_get {A} (l : list A) (i : Z) : res A :=
  match py_slot l i with
  | Some k => match nth_error l k with Some a => Ok a | None => Err IndexError end
  | None => Err IndexError
  end.
Fixpoint set_nth {A} (k : nat) (x : A) (l : list A) : list A :=
  match l, k with
  | [], _ => []
  | _ :: r, O => x :: r
  | y :: r, S k' => y :: set_nth k' x r
  end.
Definition py_set {A} (l : list A) (i : Z) (x : A) : res (list A) :=
  match py_slot l i with
  | Some k => Ok (set_nth k x l)
  | None => Err IndexError
  end.

(** Python dict with insertion order (CPython >= 3.7): assignment to an
    existing key keeps its place, a new key goes to the end. *)
Section Dict.
  Context {K V : Type} (keqb : K -> K -> bool).
  Fixpoint dict_get (d : list (K * V)) (k : K) : option V :=
    match d with
    | [] => None
    | (k', v) :: r => if keqb k' k then Some v else dict_get r k
    end.
  Fixpoint dict_set (d : list (K * V)) (k : K) (v : V) : list (K * V) :=
    match d with
    | [] => [(k, v)]
    | (k', v') :: r => if keqb k' k then (k', v) :: r else (k', v') :: dict_set r k v
    end.
End Dict.

(** [sorted(l, key=...)]: stable sort, only [<] on keys is used. *)
Section Sorted.
  Context {A : Type} (ltb : A -> A -> bool).
  Fixpoint insert_sorted (x : A) (l : list A) : list A :=
    match l with
    | [] => [x]
    | y :: r => if ltb x y then x :: y :: r else y :: insert_sorted x r
    end.
  (* Elements are inserted from the left, each after its equals: stable. *)
  Definition py_sorted (l : list A) : list A :=
    fold_left (fun acc x => insert_sorted x acc) l [].
End Sorted.

(** str(n) for a Python int. *)
Definition digit_ascii (d : Z) : ascii := ascii_of_nat (Z.to_nat (48 + d)).
Fixpoint dec_digits (fuel : nat) (n : Z) (acc : string) : string :=
  match fuel with
  | O => acc
  | S k =>
      let acc' := String (digit_ascii (n mod 10)) acc in
      if n <? 10 then acc' else dec_digits k (n / 10) acc'
  end.
(* fuel: one per binary digit, plus one, is enough for the decimal digits *)
Definition str_nonneg (n : Z) : string := dec_digits (S (Z.to_nat (Z.log2 n))) n "".
Definition str_int (n : Z) : string :=
  if n <? 0 then String "-" (str_nonneg (- n)) else str_nonneg n.

(** f"{n:0>2X}" for a non-negative n: upper-case hex, left-padded with '0' to
    at least two characters (extractors.py:35). *)
Definition hex_ascii (d : Z) : ascii :=
  ascii_of_nat (Z.to_nat (if d <? 10 then 48 + d else 55 + d)).
Fixpoint hex_digits (fuel : nat) (n : Z) (acc : string) : string :=
  match fuel with
  | O => acc
  | S k =>
      let acc' := String (hex_ascii (n mod 16)) acc in
      if n <? 16 then acc' else hex_digits k (n / 16) acc'
  end.
Definition hex_upper (n : Z) : string := hex_digits (S (Z.to_nat (Z.log2 n))) n "".
Definition hex02 (n : Z) : string :=
  let h := hex_upper n in
  if (String.length h <? 2)%nat then String "0" h else h.

(** hex(n) for a Python int: "0x" and lower-case digits, a minus sign first. *)
Definition hex_ascii_lower (d : Z) : ascii :=
  ascii_of_nat (Z.to_nat (if d <? 10 then 48 + d else 87 + d)).
Fixpoint hex_digits_low (fuel : nat) (n : Z) (acc : string) : string :=
  match fuel with
  | O => acc
  | S k =>
      let acc' := String (hex_ascii_lower (n mod 16)) acc in
      if n <? 16 then acc' else hex_digits_low k (n / 16) acc'
  end.
Definition hex_nonneg (n : Z) : string := hex_digits_low (S (Z.to_nat (Z.log2 n))) n "".
Definition hex_int (n : Z) : string :=
  ((if (n <? 0)%Z then "-0x" else "0x") ++ hex_nonneg (Z.abs n))%string.
