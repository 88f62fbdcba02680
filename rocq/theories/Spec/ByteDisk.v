(** Files as bytes, before, after and in the middle of a run. *)
From Coq Require Import ZArith List Bool String.
From Verif.Model Require Import Song Serializer History Main MainBytes.
From Verif.Spec Require Import Ym2151 Whole ZipReader.
Import ListNotations.
Open Scope Z_scope.

Definition storage := string -> option (list Z).
Definition store (D : storage) (n : string) (x : list Z) : storage := fun m => if string_dec m n then Some x else D m.

(** One action: an opened file is emptied (or created), written bytes replace or
    extend what is there. *)
Definition act (D : storage) (a : action) : storage :=
  match a with
  | Say _ => D
  | Truncate n => store D n []
  | Put n o b => match D n with Some c => store D n (overwrite c (Z.to_nat o) b) | None => D end
  end.
Definition disk_after (l : list action) (D : storage) : storage := fold_left act l D.

(** The process is killed between two actions, or when bytes have arrived in part. *)
Inductive stopped : list action -> storage -> storage -> Prop :=
| stopped_here l D : stopped l D D
| stopped_within n o p r l D : stopped (Put n o (p ++ r) :: l) D (act D (Put n o p))
| stopped_later a l D D' : stopped l (act D a) D' -> stopped (a :: l) D D'.

(** What arrives on standard output. *)
Definition said (l : list action) : list effect := flat_map (fun a => match a with Say e => [e] | _ => [] end) l.

(** The song of a recording.  A negative row length gives a song only when there is
    nothing to show. *)
Definition song_of (h : history) (rl : Z) (doc : x_song) : Prop :=
  (0 < rl -> song_shows h rl doc) /\ (rl < 0 -> all_notes h = [] /\ xs_patterns doc = []).
