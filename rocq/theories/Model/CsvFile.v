(** Model of extract_tracks, src/extractors.py:53-113, with its effects (the rows
    are those of Model/Csv.v). *)
From Verif.Model Require Import Py Config Note State Ticks Song Serializer Extract Csv Main.

(** 54: the message; 55-62: the notes; 64-113: rows go to the opened file as they
    are made, so that after an exception the file holds those before it; the file
    is closed either way (tools.py:16-20).  [name] None: str(None) is "None". *)
Definition do_csv (writable : string -> bool) (s : state) (name : option string) (tpn : Z) : list effect * res unit :=
  let msg := line ("Writing tracks to " ++ match name with Some n => n | None => "None" end ++ "...") in
  match csv_rows s tpn with
  | Err e => ([msg], Err e)
  | Ok (rows, r) =>
      match smart_open name "w" with
      | Err e => ([msg], Err e)
      | Ok (HFile n m) =>
          if writable n
          then (msg :: WriteText (HFile n m) (csv_text rows) :: closing (HFile n m), r)
          else ([msg], Err OSError)
      | Ok h => (msg :: WriteText h (csv_text rows) :: closing h, r)
      end
  end.
