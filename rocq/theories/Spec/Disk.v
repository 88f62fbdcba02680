(** Files before, after and in the middle of a run. *)
From Coq Require Import ZArith List Bool String.
From Verif.Model Require Import Py Serializer Main.
From Verif.Spec Require Import Cli.
Import ListNotations.
Open Scope Z_scope.

(** What a file can contain: bytes from before the run, a text, a song archive, or
    an archive that was not finished. *)
Inductive stored := Bytes (d : list Z) | Txt (t : string) | Archive (doc : x_song) | Torn.
Definition files := string -> option stored.
Definition put (D : files) (n : string) (x : stored) : files :=
  fun m => if string_dec m n then Some x else D m.

Definition effect_on (D : files) (e : effect) : files :=
  match e with
  | WriteText (HFile n _) t => put D n (Txt t)
  | WriteSong n doc => put D n (Archive doc)
  | _ => D
  end.
(** The files after a complete run. *)
Definition files_after (l : list effect) (D : files) : files := fold_left effect_on l D.

(** The process is killed: between two effects, or while a file is open for
    writing, when any part of the text, or of the archive, may have arrived. *)
Inductive killed : list effect -> files -> files -> Prop :=
| killed_here l D : killed l D D
| killed_writing n m p r l D : killed (WriteText (HFile n m) (p ++ r) :: l) D (put D n (Txt p))
| killed_zipping n doc l D : killed (WriteSong n doc :: l) D (put D n Torn)
| killed_later e l D D' : killed l (effect_on D e) D' -> killed (e :: l) D D'.

(** What a run killed at any moment can leave: nothing; a beginning of the
    instrument file; or that file complete (if it was wanted) and the song file
    begun or complete. *)
Inductive may_leave (instr track : option string) (txt : string) (doc : option x_song) (D : files) : files -> Prop :=
| left_nothing : may_leave instr track txt doc D D
| left_instruments i p r : instr = Some i -> file_name i -> txt = (p ++ r)%string ->
    may_leave instr track txt doc D (put D i (Txt p))
| left_song t x : track = Some t -> x = Torn \/ option_map Archive doc = Some x ->
    may_leave instr track txt doc D
      (put (match instr with
            | Some i => if string_dec i "" then D else if string_dec i "-" then D else put D i (Txt txt)
            | None => D
            end) t x).
