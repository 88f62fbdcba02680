(** The tempo estimate, described on the set of early key-on positions. *)
From Coq Require Import ZArith List Bool.
Import ListNotations.
Open Scope Z_scope.

Definition mem (x : Z) (l : list Z) : bool := existsb (Z.eqb x) l.
Definition count {A} (p : A -> bool) (l : list A) : Z := Z.of_nat (length (filter p l)).

(** How badly the positions fit a shift by [d]: positions with no partner [d]
    earlier, plus shifted positions that hit nothing although the song goes on
    beyond them. *)
Definition score (T : list Z) (d : Z) : Z :=
  count (fun t => negb (mem (t - d) T)) T
  + count (fun t => negb (mem (t + d) T) && existsb (Z.ltb (t + d)) T) T.

(** Candidate lengths. *)
Definition candidate (d : Z) : Prop := 1000 <= d < 8000.
(** The smallest of the best candidates. *)
Definition best (T : list Z) (d : Z) : Prop :=
  candidate d /\ (forall e, candidate e -> score T d <= score T e)
  /\ (forall e, candidate e -> e < d -> score T d < score T e).

(** [n] positions, [p] apart, starting at [a]. *)
Definition steady (a p : Z) (n : nat) : list Z := map (fun i => a + p * Z.of_nat i) (seq 0 n).

(** The tempo of the song: 60 seconds divided by four notes of [t] samples at
    44100 Hz, rounded down - except where floating point falls just short of an
    exact quotient. *)
Definition dips : list Z := [45; 90; 105; 180; 210; 375; 420; 750; 1500].
Definition tempo (t : Z) : Z := 661500 / t - (if mem t dips then 1 else 0).
(** Largest tick length whose note length in seconds is still a float. *)
Definition float_limit : Z := 44100 * (2 ^ 1024 - 2 ^ 970).
