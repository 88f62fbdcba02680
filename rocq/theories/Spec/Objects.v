(** What a client with several State objects may do, and which calls each object
    received.  Uses only the actions of Model/Heap.v, none of its functions. *)
From Coq Require Import List Bool Arith.
From Verif.Model Require Import History Heap.
From Verif.Spec Require Import Ym2151.
Import ListNotations.

(** The calls made on the k-th State object, in order. *)
Definition calls_on (k : nat) (l : list process_action) : history :=
  flat_map (fun a => match a with On j c => if Nat.eqb j k then [c] else [] | New => [] end) l.
(** How many State objects were created. *)
Definition created (l : list process_action) : nat :=
  length (filter (fun a => match a with New => true | On _ _ => false end) l).
(** Every call is on an object that exists (there are [n] to begin with) and is one
    that a VGM file can give rise to. *)
Fixpoint well_formed (n : nat) (l : list process_action) : Prop :=
  match l with
  | [] => True
  | New :: l => well_formed (S n) l
  | On k c :: l => k < n /\ call_ok c /\ well_formed n l
  end.
