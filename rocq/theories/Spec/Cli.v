(** What an invocation of the command line is judged by: the files it touches and
    what arrives on standard output. *)
From Verif.Model Require Import Py Command Core Config Note State Ticks Song Serializer Extract Main.
From Verif.Spec Require Import VgmFormat.

(** The bytes [d] are a VGM file (possibly gzipped) that can be read to its end,
    with the commands [cs]. *)
Definition readable (gunzip : list Z -> res (list Z)) (d : list Z) (cs : list vcmd) : Prop :=
  exists p, content gunzip d (Ok p) /\ has_ident p /\ header_complete p
    /\ stream (skipn (Z.to_nat (data_offset p)) p) cs None.

(** The assumptions on the outside world: files and decompressed data consist of bytes. *)
Definition world_ok (gunzip : list Z -> res (list Z)) (contents : string -> option (list Z)) : Prop :=
  (forall n d, contents n = Some d -> bytes d) /\ (forall d p, bytes d -> gunzip d = Ok p -> bytes p).

(** A name that denotes a real file for smart_open. *)
Definition file_name (n : string) : Prop := n <> ""%string /\ n <> "-"%string.

(** What was written, where: (target, what). *)
Inductive output :=
| Text (target : handle) (text : string)
| Song (name : string) (doc : x_song).
Definition outputs (l : list effect) : list output :=
  flat_map (fun e => match e with
                     | WriteText h t => [Text h t]
                     | WriteSong n d => [Song n d]
                     | _ => []
                     end) l.

(** The characters that arrive on standard output. *)
Definition stdout_text (l : list effect) : string :=
  String.concat "" (map (fun e => match e with
                                  | Print t => t
                                  | WriteText HStdout t => t
                                  | _ => ""%string
                                  end) l).

(** Open files as a stack: opening pushes, closing must pop the same file; the
    standard streams are never opened or closed. [None]: violated. *)
Fixpoint open_after (stack : list (string * string)) (l : list effect) : option (list (string * string)) :=
  match l with
  | [] => Some stack
  | OpenRead n :: r => open_after ((n, "rb"%string) :: stack) r
  | WriteText (HFile n m) _ :: r => open_after ((n, m) :: stack) r
  | WriteText HStdin _ :: r => None
  | WriteText HStdout _ :: r => open_after stack r
  | WriteSong n _ :: r => open_after ((n, "wb"%string) :: stack) r
  | Print _ :: r => open_after stack r
  | Close (HFile n m) :: r =>
      match stack with
      | (n', m') :: s => if String.eqb n n' && String.eqb m m' then open_after s r else None
      | [] => None
      end
  | Close _ :: r => None
  end.

(** ** The two export steps *)
Definition not_asked (o : option string) : Prop := o = None \/ o = Some ""%string.
(** Writing the instruments: nothing asked, standard output, a file, or a file
    that cannot be opened. *)
Inductive instr_step (writable : string -> bool) (txt : string) : option string -> list output -> res unit -> Prop :=
| instr_none o : not_asked o -> instr_step writable txt o [] (Ok tt)
| instr_stdout : instr_step writable txt (Some "-"%string) [Text HStdout txt] (Ok tt)
| instr_file n : file_name n -> writable n = true -> instr_step writable txt (Some n) [Text (HFile n "w") txt] (Ok tt)
| instr_denied n : file_name n -> writable n = false -> instr_step writable txt (Some n) [] (Err OSError).
(** Writing the song built from [s] with tick length [t]. *)
Inductive song_step (writable : string -> bool) (s : state) (t : Z) : option string -> list output -> res unit -> Prop :=
| song_none o : not_asked o -> song_step writable s t o [] (Ok tt)
| song_fails n e : n <> ""%string -> build_song s t = Err e -> song_step writable s t (Some n) [] (Err e)
| song_denied n sg : n <> ""%string -> build_song s t = Ok sg -> writable n = false ->
    song_step writable s t (Some n) [] (Err OSError)
| song_written n sg : n <> ""%string -> build_song s t = Ok sg -> writable n = true ->
    song_step writable s t (Some n) [Song n (render sg)] (Ok tt).
(** The first step, then, if it succeeded, the second. *)
Inductive both_steps (a b : list output -> res unit -> Prop) : list output -> res unit -> Prop :=
| first_fails o e : a o (Err e) -> both_steps a b o (Err e)
| both_done o o' r : a o (Ok tt) -> b o' r -> both_steps a b (o ++ o') r.

(** The tick length used: the requested one unless it is missing or 0. *)
Inductive tick_length (s : state) : option Z -> Z -> Prop :=
| requested n : n <> 0 -> tick_length s (Some n) n
| estimated o t : o = None \/ o = Some 0 -> ticks_per_note s = Ok t -> tick_length s o t.

(** ** What is printed *)
Definition asked_for (o : option string) : option string :=
  match o with Some n => if string_dec n "" then None else Some n | None => None end.
(** The tick estimate is made, and reported, unless a non-zero length was given. *)
Inductive estimate_message (s : state) : option Z -> string -> Prop :=
| no_estimate n : n <> 0 -> estimate_message s (Some n) ""
| an_estimate o e : o = None \/ o = Some 0 -> estimate_output true s = Ok e ->
    estimate_message s o ("Calculating Ticks Per Note" ++ e).
(** Instruments sent to "-" follow their message. *)
Definition instr_message (txt : string) (o : option string) : string :=
  match asked_for o with
  | Some n => "Writing instruments to " ++ n ++ "..." ++ nl ++ (if string_dec n "-" then txt else "")
  | None => ""
  end.
Definition song_message (o : option string) : string :=
  match asked_for o with Some n => "Writing xrns " ++ n ++ "..." ++ nl | None => "" end.
(** Can the instruments be written where they are wanted? *)
Definition instr_possible (writable : string -> bool) (o : option string) : bool :=
  match asked_for o with
  | Some n => if string_dec n "-" then true else writable n
  | None => true
  end.
