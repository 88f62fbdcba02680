(** Model of State.ticks_per_note, src/vgm/ym2151/state.py:166-224. *)
From Verif.Model Require Import Py PyFloat Config Note State.

Definition off_start : Z := 1000.                           (* 169 *)
Definition off_end : Z := 8000.                             (* 170 *)
Definition multiplier : Z := 4.                             (* 172 *)
Definition top_ticks : Z := off_end * multiplier.           (* 173 *)

(** Result of a loop body that may leave through the IndexError handler. *)
Inductive loop (A : Type) :=
| Fall (a : A)                (* the loop condition became false *)
| Exit (sym_diff : Z)         (* IndexError, caught at 201 *)
| Fuel.                       (* model's bound hit *)
Arguments Fall {A} a. Arguments Exit {A} sym_diff. Arguments Fuel {A}.

Section Shift.
  Variable tks : list Z.      (* ticks *)
  Variable shift : Z.

  (** while t < s: ..., 187-190. *)
  Fixpoint while_t (fuel : nat) (t_idx t s sym_diff : Z) : loop (Z * Z * Z) :=
    match fuel with
    | O => Fuel
    | S k =>
        if t <? s then
          match py_get tks (t_idx + 1) with
          | Ok t' => while_t k (t_idx + 1) t' s (sym_diff + 1)
          | Err _ => Exit (sym_diff + 1)
          end
        else Fall (t_idx, t, sym_diff)
    end.
  (** while s < t: ..., 191-194. *)
  Fixpoint while_s (fuel : nat) (s_idx t s sym_diff : Z) : loop (Z * Z * Z) :=
    match fuel with
    | O => Fuel
    | S k =>
        if s <? t then
          match py_get tks (s_idx + 1) with
          | Ok s' => while_s k (s_idx + 1) t (s' + shift) (sym_diff + 1)
          | Err _ => Exit (sym_diff + 1)
          end
        else Fall (s_idx, s, sym_diff)
    end.
  (** while True: ..., 186-199. *)
  Fixpoint while_true (fuel : nat) (t_idx s_idx t s sym_diff : Z) : loop unit :=
    match fuel with
    | O => Fuel
    | S k =>
        match while_t (S (length tks)) t_idx t s sym_diff with
        | Fuel => Fuel
        | Exit n => Exit n
        | Fall (t_idx, t, sym_diff) =>
            match while_s (S (length tks)) s_idx t s sym_diff with
            | Fuel => Fuel
            | Exit n => Exit n
            | Fall (s_idx, s, sym_diff) =>
                if t =? s then                                      (* 195-199 *)
                  match py_get tks (t_idx + 1) with
                  | Err _ => Exit sym_diff
                  | Ok t =>
                      match py_get tks (s_idx + 1) with
                      | Err _ => Exit sym_diff
                      | Ok s => while_true k (t_idx + 1) (s_idx + 1) t (s + shift) sym_diff
                      end
                  end
                else while_true k t_idx s_idx t s sym_diff
            end
        end
    end.
  (** The body of the for loop, 179-204: the value appended to corr. *)
  Definition sym_diff_of : res Z :=
    match py_get tks 0 with                                         (* 184 *)
    | Err _ => Ok 0
    | Ok t0 =>
        match while_true (S (length tks + length tks)) 0 0 t0 (t0 + shift) 0 with
        | Exit n => Ok n
        | Fall _ => Ok 0        (* while True never falls through *)
        | Fuel => Err OutOfFuel
        end
    end.
End Shift.

(** range(a, b) *)
Definition py_range (a b : Z) : list Z := map (fun k => a + Z.of_nat k) (seq 0 (Z.to_nat (b - a))).

Fixpoint mapM {A B} (f : A -> res B) (l : list A) : res (list B) :=
  match l with
  | [] => Ok []
  | x :: r => let! y := f x in let! ys := mapM f r in Ok (y :: ys)
  end.

(** ticks, 175: the early key-on positions. *)
Definition early_ticks (s : state) : list Z :=
  filter (fun t => t <? top_ticks) (ticks s).

(** corr, 167-204. *)
Definition corr (tks : list Z) : res (list Z) :=
  mapM (fun shift => sym_diff_of tks shift) (py_range off_start off_end).

(** top, 214-220: (length, score / (2n-1)) pairs, stably sorted by the float. *)
Definition enumerate {A} (l : list A) : list (Z * A) :=
  combine (map Z.of_nat (seq 0 (length l))) l.
Definition top_list (tks : list Z) : res (list (Z * pyfloat)) :=
  let! c := corr tks in
  let! pairs := mapM (fun ic => let! q := true_div (snd ic) (len tks * 2 - 1) in
                                Ok (fst ic + off_start, q)) (enumerate c) in
  Ok (py_sorted (fun a b => float_ltb (snd a) (snd b)) pairs).

(** What line 223 prints for the first ten entries (222): the length and
    [(1-prob)*100], as a float here; the text is in [estimate_output]. *)
Definition confidence (prob : pyfloat) : res pyfloat :=
  let! one := float_of_int 1 in
  let! hundred := float_of_int 100 in
  Ok (float_mul (float_sub one prob) hundred).
Definition printed_table (s : state) : res (list (Z * pyfloat)) :=
  let! top := top_list (early_ticks s) in
  mapM (fun lp => let! c := confidence (snd lp) in Ok (fst lp, c)) (firstn 10 top).

(** The progress dots, 176 and 205-213: a dot whenever the share of shifts done,
    in percent, exceeds the mark. *)
Definition dot_step (acc : Z * string) (shift : Z) : Z * string :=
  match true_div (shift - off_start) (off_end - off_start), float_of_int 100, float_of_int (fst acc) with
  | Ok q, Ok h, Ok p =>
      if float_ltb p (float_mul q h) then (fst acc + 10, String "." (snd acc)) else acc
  | _, _, _ => acc        (* unreachable: small integers *)
  end.
Definition progress_dots : string := snd (fold_left dot_step (py_range off_start off_end) (0, ""%string)).
(** The text printed by ticks_per_note(show_progress=...): with show_progress the
    dots and a newline (205-213), then, in any case, the table, 221-223. *)
Definition nl : string := String (ascii_of_nat 10) "".
Definition estimate_output (show_progress : bool) (s : state) : res string :=
  let! table := printed_table s in
  Ok ((if show_progress then progress_dots ++ nl else "") ++ "Ticks Per Note estimates:" ++ nl
      ++ String.concat "" (map (fun lp => str_int (fst lp) ++ ": " ++ format_2f (snd lp) ++ "%" ++ nl) table))%string.

(** ticks_per_note, 166-224: the value returned; what it prints is
    [estimate_output] (the text does not influence the value). *)
Definition ticks_per_note (s : state) : res Z :=
  let! top := top_list (early_ticks s) in
  let! best := py_get top 0 in
  Ok (fst best).
