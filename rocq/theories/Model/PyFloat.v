(** Python floats: IEEE 754 binary64 through the standard library's executable
    SpecFloat (no axioms, no native floats). *)
From Coq Require Import SpecFloat.
From Verif.Model Require Import Py.

Definition prec64 : Z := 53.
Definition emax64 : Z := 1024.
Definition pyfloat := spec_float.

(** float(n) for a Python int: nearest-even; OverflowError if too large. *)
Definition float_of_int (n : Z) : res pyfloat :=
  match binary_normalize prec64 emax64 n 0 false with
  | S754_infinity _ => Err OverflowError
  | x => Ok x
  end.

(** int / int (CPython's long_true_divide): correctly rounded quotient of the
    exact integers; ZeroDivisionError, OverflowError; 0/negative is -0.0. *)
Definition true_div (a b : Z) : res pyfloat :=
  match b with
  | Z0 => Err ZeroDivisionError
  | _ =>
    let sg := xorb (a <? 0) (b <? 0) in
    match a with
    | Z0 => Ok (S754_zero sg)
    | _ =>
      let '(q, e, l) := SFdiv_core_binary prec64 emax64 (Z.abs a) 0 (Z.abs b) 0 in
      match binary_round_aux prec64 emax64 sg q e l with
      | S754_infinity _ => Err OverflowError
      | x => Ok x
      end
    end
  end.

(** float * float (no exception on overflow: inf). *)
Definition float_mul (x y : pyfloat) : pyfloat := SFmul prec64 emax64 x y.
(** float - float. *)
Definition float_sub (x y : pyfloat) : pyfloat := SFsub prec64 emax64 x y.
(** float / float: ZeroDivisionError on a zero divisor. *)
Definition float_div (x y : pyfloat) : res pyfloat :=
  match y with
  | S754_zero _ => Err ZeroDivisionError
  | _ => Ok (SFdiv prec64 emax64 x y)
  end.
(** x < y on floats. *)
Definition float_ltb (x y : pyfloat) : bool := SFltb x y.
(** int(x): truncation towards zero; OverflowError on infinities, ValueError
    (GenericException) on nan. *)
Definition int_of_float (x : pyfloat) : res Z :=
  match x with
  | S754_zero _ => Ok 0
  | S754_infinity _ => Err OverflowError
  | S754_nan => Err GenericException
  | S754_finite s m e =>
      let a := if 0 <=? e then Z.shiftl (Zpos m) e else Z.shiftr (Zpos m) (- e) in
      Ok (if s then - a else a)
  end.
(** x % 1 on a finite float: fmod is exact; a negative remainder gets 1.0 added
    (rounded); a zero remainder becomes +0.0 (CPython float_rem). *)
Definition float_one : pyfloat := S754_finite false 4503599627370496 (-52).
Definition float_mod1 (x : pyfloat) : pyfloat :=
  match x with
  | S754_finite s m e =>
      let r := if 0 <=? e then 0 else Zpos m mod 2 ^ (- e) in
      match r with
      | Zpos p =>
          (* the remainder has at most as many bits as m: it is representable *)
          let f := binary_normalize prec64 emax64 (if s then Zneg p else Zpos p) e false in
          if s then SFadd prec64 emax64 f float_one else f
      | _ => S754_zero false
      end
  | S754_zero _ => S754_zero false
  | _ => S754_nan
  end.

(** n / d rounded to the nearest integer, halves to even. *)
Definition round_ratio (n d : Z) : Z :=
  let q := n / d in
  let r := 2 * (n mod d) in
  if r <? d then q else if d <? r then q + 1 else if Z.even q then q else q + 1.

(** "{:.2}".format(x), for a float 0 <= x <= 1: no presentation type, precision 2,
    is 'g' with two significant digits, plus ".0" if no point is shown: CPython
    format_float_short with mode 2.  The exact value n/d of x is scaled by
    10^(-decpt) into [1/10, 1) and rounded to two digits, halves to even;
    trailing zeros are dropped; exponent notation when decpt <= -4. *)
Fixpoint zeros (n : nat) : string := match n with O => "" | S k => String "0" (zeros k) end.
(* the decimal point position: 10^(1-decpt) * n >= d, for n < d; counts k = -decpt *)
Fixpoint scale10 (fuel : nat) (n d : Z) : nat :=
  match fuel with
  | O => O
  | S f => if 10 * n <? d then S (scale10 f (10 * n) d) else O
  end.
Definition two_digits (q : Z) : string :=         (* 10..99, without a trailing zero *)
  if q mod 10 =? 0 then str_int (q / 10) else str_int q.
Definition format_fraction (n d : Z) : string :=
  if n =? 0 then "0.0"
  else if d <=? n then "1.0"
  else
    let k := scale10 (Z.to_nat (Z.log2 d + 1)) n d in
    let q := round_ratio (n * 10 ^ (Z.of_nat k + 2)) d in
    if q =? 100 then
      (* carry: the value is shown as 10^-k *)
      match k with
      | O => "1.0"
      | S k' => if (4 <=? k')%nat
                then ("1e-" ++ (if (k <? 10)%nat then "0" else "") ++ str_int (Z.of_nat k))%string
                else ("0." ++ zeros k' ++ "1")%string
      end
    else if (4 <=? k)%nat then
      let ex := Z.of_nat k + 1 in
      let mant := if q mod 10 =? 0 then str_int (q / 10)
                  else (str_int (q / 10) ++ "." ++ str_int (q mod 10))%string in
      (mant ++ "e-" ++ (if (ex <? 10)%Z then "0" else "") ++ str_int ex)%string
    else ("0." ++ zeros k ++ two_digits q)%string.
Definition format_2 (x : pyfloat) : string :=
  match x with
  | S754_finite false m e =>
      if 0 <=? e then format_fraction (Zpos m * 2 ^ e) 1 else format_fraction (Zpos m) (2 ^ (- e))
  | _ => "0.0"
  end.

(** f"{x:.2f}" for a finite float: the exact value rounded to two decimals,
    halves to even. *)
Definition two_places (n : Z) : string :=
  (str_int (n / 100) ++ "." ++ (if (n mod 100 <? 10)%Z then "0" else "") ++ str_int (n mod 100))%string.
Definition format_2f (x : pyfloat) : string :=
  match x with
  | S754_finite s m e =>
      let n := if 0 <=? e then 100 * (Zpos m * 2 ^ e) else round_ratio (100 * Zpos m) (2 ^ (- e)) in
      ((if s then "-" else "") ++ two_places n)%string
  | S754_zero s => ((if s then "-" else "") ++ "0.00")%string
  | S754_infinity s => (if s then "-inf" else "inf")%string
  | S754_nan => "nan"%string
  end.
