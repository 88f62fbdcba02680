(** Model of extract_tracks, src/extractors.py:53-113: the CSV export.  (main.py
    does not call it; it is part of the module's API.) *)
From Coq Require Import SpecFloat.
From Verif.Model Require Import Py PyFloat Config Note State Ticks Song Json Extract.

(** The channel iterators and the dict channel_notes (55-62) are modelled
    together by the list of remaining notes per channel: [channel_notes[ch]] is
    the head, absent when the list is empty; the iterator holds the tail.  The
    dict's order is irrelevant: only the minimum and lookups by key are used. *)

(** "{:.2}".format((current_sample / ticks_per_note) % 1), 85 and 96. *)
Definition csv_fraction (current_sample tpn : Z) : res string :=
  let! q := true_div current_sample tpn in
  Ok (format_2 (float_mod1 q)).

(** 65-67. *)
Definition csv_header : list string :=
  ["Samples"; "Row"; "Pattern"; "Total Row"; "Fraction"]%string
  ++ map (fun i => ("Channel " ++ str_int (i + 1))%string) (py_range 0 8).

(** 80-86, 91-97, given the fraction's text (both places format the same values). *)
Definition csv_row (current_sample : Z) (fraction : string) (total_row : Z)
  (note_row : list string) : list string :=
  [str_int current_sample; str_int (total_row mod line_count);
   str_int (total_row / line_count); str_int total_row; fraction] ++ note_row.

Definition blank_row : list string := repeat ""%string 8.     (* 73, 97, 101 *)

(** min(samples), 76-77; None when channel_notes is empty. *)
Definition head_samples (chs : list (list note)) : list Z :=
  flat_map (fun l => match l with [] => [] | n :: _ => [n_sample n] end) chs.
Definition min_sample (chs : list (list note)) : option Z :=
  match head_samples chs with
  | [] => None
  | x :: r => Some (fold_left Z.min r x)
  end.

(** while total_row + 1 < current_row: ..., 89-98.  [fuel] is the difference of
    the two rows, which bounds the number of turns. *)
Fixpoint blanks (fuel : nat) (current_sample : Z) (fraction : string) (total_row current_row : Z)
  : list (list string) :=
  match fuel with
  | O => []
  | S k =>
      if total_row + 1 <? current_row then
        csv_row current_sample fraction (total_row + 1) blank_row
        :: blanks k current_sample fraction (total_row + 1) current_row
      else []
  end.

(** for ch in range(channel_count): ..., 103-113: one step per channel; the two
    lists are walked in parallel (both have eight entries). *)
Fixpoint take_row (tpn current_row : Z) (chs : list (list note)) (note_row : list string)
  : res (list (list note) * list string) :=
  match chs, note_row with
  | [], _ => Ok ([], note_row)
  | _, [] => Err IndexError
  | l :: chs', c :: row' =>
      let! lc :=
        match l with
        | [] => Ok (l, c)
        | n :: rest =>
            let! r := floor_div (n_sample n) tpn in                     (* 106 *)
            if r =? current_row then
              let! t := note_str n in Ok (rest, t)                      (* 108-113 *)
            else Ok (l, c)
        end in
      let! rest := take_row tpn current_row chs' row' in
      Ok (fst lc :: fst rest, snd lc :: snd rest)
  end.

(** What has been written when the function returns or raises. *)
Definition written : Type := list (list string) * res unit.

(** while len(channel_notes): ..., 75-113. *)
Fixpoint csv_loop (tpn : Z) (fuel : nat) (chs : list (list note)) (total_row : Z)
  (note_row : list string) : written :=
  match min_sample chs with
  | None => ([], Ok tt)
  | Some current_sample =>
      match fuel with
      | O => ([], Err OutOfFuel)
      | S k =>
          match floor_div current_sample tpn with                       (* 78 *)
          | Err e => ([], Err e)
          | Ok current_row =>
              let flushed :=
                if negb (current_row =? total_row) then                 (* 79-101 *)
                  let! fr := csv_fraction current_sample tpn in
                  Ok (csv_row current_sample fr total_row note_row
                      :: blanks (Z.to_nat (current_row - total_row)) current_sample fr total_row current_row,
                      current_row, blank_row)
                else Ok ([], total_row, note_row) in
              match flushed with
              | Err e => ([], Err e)
              | Ok (out, total_row, note_row) =>
                  match take_row tpn current_row chs note_row with
                  | Err e => (out, Err e)
                  | Ok (chs, note_row) =>
                      let (rest, r) := csv_loop tpn k chs total_row note_row in
                      (out ++ rest, r)
                  end
              end
          end
      end
  end.

(** extract_tracks, 53-113: None if the file is not opened at all (key_presses
    raised), else the rows written, header first.  The loop runs at most once
    per note. *)
Definition csv_rows (s : state) (tpn : Z) : res written :=
  let! chs := mapM (key_presses s) (py_range 0 8) in                    (* 55-62 *)
  let (rows, r) := csv_loop tpn (length (concat chs)) chs 0 blank_row in (* 70-113 *)
  Ok (csv_header :: rows, r).

(** The text written: ",".join(row) + "\n" per row, 68, 87, 98. *)
Definition csv_text (rows : list (list string)) : string :=
  fold_right (fun r acc => (join "," r ++ newline ++ acc)%string) ""%string rows.
