(** A pool of patterns as a client sees it: so many patterns, each a table of
    tracks and lines, with the entries written last. *)
From Coq Require Import ZArith List Bool.
From Verif.Model Require Import Song.
From Verif.Model Require Py.
Import ListNotations.
Open Scope Z_scope.

(** Python's meaning of index [i] in a sequence of [n]. *)
Definition position_of (n i : Z) : option Z :=
  if (0 <=? i) && (i <? n) then Some i else if (- n <=? i) && (i <? 0) then Some (n + i) else None.

(** Number of patterns, and what was written where, newest first. *)
Record book := mkbook { bk_count : Z; bk_written : list (Z * Z * Z * line) }.
Definition book_new : book := mkbook 0 [].

(** One call on a pool with [tracks] tracks: patterns are added up to the one named;
    then the entry is written, unless pattern or track do not exist. *)
Definition book_add (tracks : Z) (b : book) (a : note_args) : Py.res unit * book :=
  let n := Z.max (bk_count b) (a_pattern a + 1) in
  match position_of n (a_pattern a), position_of tracks (a_channel a) with
  | Some p, Some c =>
      (Py.Ok tt, mkbook n ((p, c, a_line a, mkline (a_note a) (a_instrument a) (a_pan a)) :: bk_written b))
  | _, _ => (Py.Err Py.IndexError, mkbook n (bk_written b))
  end.
Fixpoint book_adds (tracks : Z) (l : list note_args) (b : book) : list (Py.res unit) * book :=
  match l with
  | [] => ([], b)
  | a :: r =>
      let (o, b) := book_add tracks b a in
      let (os, b) := book_adds tracks r b in (o :: os, b)
  end.
(** The entry at line [l] of track [c] of pattern [p]. *)
Fixpoint entry (w : list (Z * Z * Z * line)) (p c l : Z) : option line :=
  match w with
  | [] => None
  | (p', c', l', x) :: r => if (p' =? p) && (c' =? c) && (l' =? l) then Some x else entry r p c l
  end.
