(** Reading numbers back from text. *)
From Coq Require Import ZArith List Bool String Ascii.
Import ListNotations.
Open Scope Z_scope.

Fixpoint position (c : ascii) (l : list ascii) : option Z :=
  match l with
  | [] => None
  | x :: r => if Ascii.eqb x c then Some 0 else option_map Z.succ (position c r)
  end.
Definition hex_digits_upper : list ascii := list_ascii_of_string "0123456789ABCDEF".
Definition dec_digits_list : list ascii := list_ascii_of_string "0123456789".

(** The number written in base [base] by the digits of [s], after [acc]. *)
Fixpoint digits_value (base : Z) (digits : list ascii) (s : string) (acc : Z) : option Z :=
  match s with
  | EmptyString => Some acc
  | String c r =>
      match position c digits with
      | Some d => digits_value base digits r (base * acc + d)
      | None => None
      end
  end.
(** Upper-case hexadecimal, at least one digit. *)
Definition hex_value (s : string) : option Z :=
  match s with EmptyString => None | _ => digits_value 16 hex_digits_upper s 0 end.
(** Unsigned decimal without leading zeros. *)
Definition nat_value (s : string) : option Z :=
  match s with
  | EmptyString => None
  | String "0" EmptyString => Some 0
  | String "0" _ => None
  | _ => digits_value 10 dec_digits_list s 0
  end.
(** Decimal with an optional minus sign. *)
Definition int_value (s : string) : option Z :=
  match s with
  | String "-" r => option_map Z.opp (nat_value r)
  | _ => nat_value s
  end.
