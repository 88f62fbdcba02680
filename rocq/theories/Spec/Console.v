(** What the tick estimator prints. *)
From Coq Require Import ZArith List Bool String Ascii.
From Verif.Spec Require Import Text Sheet Decimal.
Import ListNotations.
Open Scope Z_scope.

Definition lines_of (s : string) : list string := split_at (ascii_of_nat 10) s.
(** The line "1234: 99.57%": length 1234, 9957 hundredths of a percent. *)
Definition estimate_line (l : string) (d n : Z) : Prop :=
  exists a b, l = (a ++ ": " ++ b ++ "%")%string /\ nat_value a = Some d /\ decimal b = Some (n, 2).
