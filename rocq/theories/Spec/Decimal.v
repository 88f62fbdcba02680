(** Reading a decimal fraction back from text: 12, 0.05, 99.57, 1.3e-05. *)
From Coq Require Import ZArith List Bool String Ascii Reals.
From Flocq Require Import Core.Core.
From Verif.Spec Require Import Text Sheet.
Import ListNotations.
Open Scope Z_scope.

(** Decimal digits, at least one, leading zeros allowed. *)
Definition digits (s : string) : option Z :=
  match s with EmptyString => None | _ => digits_value 10 dec_digits_list s 0 end.
(** [Some (n, k)] stands for n / 10^k. *)
Definition mantissa (s : string) : option (Z * Z) :=
  match split_at "." s with
  | [a] => match digits a with Some n => Some (n, 0) | None => None end
  | [a; b] =>
      match digits a, digits b with
      | Some n, Some m => Some (n * 10 ^ Z.of_nat (String.length b) + m, Z.of_nat (String.length b))
      | _, _ => None
      end
  | _ => None
  end.
Definition decimal (s : string) : option (Z * Z) :=
  match split_at "e" s with
  | [m] => mantissa m
  | [m; String "-" x] =>
      match mantissa m, digits x with Some (n, k), Some e => Some (n, k + e) | _, _ => None end
  | _ => None
  end.

(** A real number as a double (IEEE 754 binary64, round to nearest, ties to even). *)
Definition double (x : R) : R := round radix2 (FLT_exp (-1074) 53) ZnearestE x.
(** [n] is the integer nearest to [x]; of two equally near ones, the even one. *)
Definition nearest_even (x : R) (n : Z) : Prop :=
  (Rabs (IZR n - x) <= / 2)%R /\ (Rabs (IZR n - x) = / 2 -> Z.even n = true)%R.
(** [s] shows [y] (0 < y < 1) with two significant digits, correctly rounded: y lies
    between 10^-(k+1) and 10^-k, and [s] reads as q / 10^(k+2) with q nearest. *)
Definition two_significant (y : R) (s : string) : Prop :=
  exists k q n j, 0 <= k /\ 0 <= j /\ (IZR (10 ^ k) * y < 1 <= IZR (10 ^ (k + 1)) * y)%R
    /\ nearest_even (y * IZR (10 ^ (k + 2))) q
    /\ decimal s = Some (n, j) /\ n * 10 ^ (k + 2) = q * 10 ^ j.
(** Python's x % 1 for a float x: the fractional part; for x < 0 that of the sum
    1 + fmod(x, 1), rounded. *)
Definition float_part (x : R) : R :=
  if Rle_dec 0 x then (x - IZR (Zfloor x))%R
  else if Req_EM_T (- x - IZR (Zfloor (- x))) 0 then 0%R
  else double (1 - (- x - IZR (Zfloor (- x)))).

(** [s] shows the position of time [t] within its row: 0.0 exactly on the row's
    start, else a positive number with two significant digits (an error of at most
    5 percent, and of at most 1/200), apart from the rounding of t / tpn to a float:
    the correct two-digit rounding of (t / tpn) % 1 as computed in doubles. *)
Definition fraction_shown (t tpn : Z) (s : string) : Prop :=
  exists n k, decimal s = Some (n, k) /\ 0 <= k
    /\ (n = 0 <-> t mod tpn = 0) /\ (t mod tpn = 0 -> s = "0.0"%string)
    /\ let shown := (IZR n / IZR (10 ^ k))%R in
       let exact := (IZR (t mod tpn) / IZR tpn)%R in
       let slack := (IZR t / IZR tpn / IZR (2 ^ 53))%R in
       (Rabs (shown - exact) <= / 200 + slack)%R
       /\ (Rabs (shown - exact) <= exact / 20 + 21 / 20 * slack)%R
       /\ (t mod tpn <> 0 -> two_significant (float_part (double (IZR t / IZR tpn))) s).

(** The same for a negative tick length: rows run downwards in time, and the
    fraction is still (time / length) minus the row, from 0 to 1 (a number just
    below 1 may be shown as 1.0); error at most 1/200 plus float rounding. *)
Definition fraction_down (t tpn : Z) (s : string) : Prop :=
  exists n k, decimal s = Some (n, k) /\ 0 <= k
    /\ (n = 0 <-> t mod tpn = 0) /\ (t mod tpn = 0 -> s = "0.0"%string)
    /\ let shown := (IZR n / IZR (10 ^ k))%R in
       let exact := (IZR (t mod tpn) / IZR tpn)%R in
       let slack := ((1 + Rabs (IZR t / IZR tpn)) / IZR (2 ^ 53))%R in
       (Rabs (shown - exact) <= / 200 + slack)%R
       /\ (t mod tpn <> 0 -> let y := float_part (double (IZR t / IZR tpn)) in
           two_significant y s \/ y = 1%R /\ s = "1.0"%string).
