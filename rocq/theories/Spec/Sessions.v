(** Talking about one reader inside a session that uses several. *)
From Verif.Model Require Import Py Command Core Session.

(** What the client of the k-th opened file sees: the outcome of that open and of
    every later [Next k]. [opens] counts the files opened so far. *)
Fixpoint view_of (k opens : nat) (l : list action) (seen_list : list seen) : list seen :=
  match l, seen_list with
  | Open _ :: l, o :: os =>
      (if Nat.eqb opens k then [o] else []) ++ view_of k (S opens) l os
  | Next j :: l, o :: os =>
      (if Nat.eqb j k && Nat.ltb k opens then [o] else []) ++ view_of k opens l os
  | Clock _ _ :: l, _ :: os => view_of k opens l os
  | _, _ => []
  end.

(** The same actions on that file alone. *)
Fixpoint alone (k opens : nat) (l : list action) : list action :=
  match l with
  | Open d :: l => (if Nat.eqb opens k then [Open d] else []) ++ alone k (S opens) l
  | Next j :: l => (if Nat.eqb j k && Nat.ltb k opens then [Next 0] else []) ++ alone k opens l
  | Clock _ _ :: l => alone k opens l
  | [] => []
  end.
