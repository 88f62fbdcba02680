(** Model of src/main.py and src/tools.py. *)
From Verif.Model Require Import Py Command Core Config Note State Ticks Song Serializer Json Extract.

(** process_vgm_file, main.py:11-20, applied to a list of commands. *)
Definition process_step (st : state) (c : vcmd) : res state :=
  match c with
  | Ym _ reg value => apply reg value st          (* 15-16 *)
  | Wait _ samples => beat samples st             (* 17-18 *)
  | _ => Ok st
  end.
Definition process_cmds (cmds : list vcmd) (st : state) : res state := foldM process_step cmds st.

(** process_vgm_file, main.py:11-20, on a reader object: reading and applying
    interleave.  None is not iterable: TypeError. *)
Fixpoint process_loop (fuel : nat) (f : file) (st : state) : res state :=
  match fuel with
  | O => Err OutOfFuel
  | S k =>
      match vgm_next f with
      | NStop _ => Ok st
      | NRaise e _ => Err e
      | NYield c f => let! st := process_step st c in process_loop k f st
      end
  end.
Definition process_vgm_file (cmds : option vgm) : res state :=
  match cmds with
  | None => Err TypeError
  | Some v => process_loop (iter_fuel (vfile v)) (vfile v) state_init
  end.

(** smart_open, tools.py:6-20.  [HStdout]/[HStdin] are the process's text
    streams; [name] None or "" is falsy. *)
Inductive handle := HFile (name mode : string) | HStdout | HStdin.
Definition truthy (name : option string) : bool :=
  match name with None => false | Some s => negb (String.eqb s "") end.
Definition smart_open (name : option string) (mode : string) : res handle :=
  let nm := match name with Some s => s | None => ""%string end in
  if truthy name && negb (String.eqb nm "-") then Ok (HFile nm mode)      (* 7-8 *)
  else if prefix "w" mode then Ok HStdout                                (* 9-10 *)
  else if prefix "r" mode then Ok HStdin                                 (* 11-12 *)
  else Err GenericException.                                             (* 13-14 *)
(** The finally clause, tools.py:18-20: is the handle closed on exit? *)
Definition smart_closes (h : handle) : bool := match h with HFile _ _ => true | _ => false end.

(** What main does to the outside world, in order. *)
Inductive effect :=
| OpenRead (name : string)
| Print (text : string)                         (* print(...) to standard output *)
| WriteText (target : handle) (text : string)   (* open for writing (truncating) and write *)
| WriteSong (name : string) (doc : x_song)      (* open "wb", zip the rendered song *)
| Close (h : handle).
Definition line (s : string) : effect := Print (s ++ nl).
(** Leaving a with-block on smart_open, tools.py:16-20. *)
Definition closing (h : handle) : list effect := if smart_closes h then [Close h] else [].

Section World.
  Variable gunzip : list Z -> res (list Z).
  Variable contents : string -> option (list Z).   (* None: open(name, "rb") raises OSError *)
  Variable writable : string -> bool.              (* false: open(name, "w"/"wb") raises OSError *)
  Variable stdin_error : option exn.               (* decoding error when sys.stdin is read as text *)

  (** extract_instruments, extractors.py:116-121: text first, then open and write. *)
  Definition do_instruments (name : string) (s : state) : list effect * res unit :=
    let msg := line ("Writing instruments to " ++ name ++ "...") in      (* 117 *)
    match instruments_text s with
    | Err e => ([msg], Err e)
    | Ok txt =>
        match smart_open (Some name) "w" with
        | Err e => ([msg], Err e)
        | Ok (HFile n m) =>
            if writable n
            then (msg :: WriteText (HFile n m) txt :: closing (HFile n m), Ok tt)
            else ([msg], Err OSError)
        | Ok h => (msg :: WriteText h txt :: closing h, Ok tt)
        end
    end.

  (** extract_tracks_to_xrns, extractors.py:13-50: build the song, then open
      (plain open, not smart_open) and write (writer.py:12-23). *)
  Definition do_tracks (s : state) (name : string) (tpn : Z) : list effect * res unit :=
    let msg := line ("Writing xrns " ++ name ++ "...") in                (* 14 *)
    match build_song s tpn with
    | Err e => ([msg], Err e)
    | Ok sg =>
        if writable name
        then ([msg; WriteSong name (render sg); Close (HFile name "wb")], Ok tt)
        else ([msg], Err OSError)
    end.

  Definition seq_eff (a : list effect * res unit) (b : unit -> list effect * res unit)
    : list effect * res unit :=
    match a with
    | (ea, Ok _) => let (eb, r) := b tt in (ea ++ eb, r)
    | (ea, Err e) => (ea, Err e)
    end.

  (** main.py:35-39: the tick length and what is printed meanwhile. *)
  Definition choose_ticks (s : state) (tpn : option Z) : list effect * res Z :=
    match tpn with
    | Some (Zpos _ as n) | Some (Zneg _ as n) => ([], Ok n)              (* truthy *)
    | _ =>
        let msg := Print "Calculating Ticks Per Note" in                 (* 36 *)
        match estimate_output true s, ticks_per_note s with                   (* 37 *)
        | Ok txt, Ok t => ([msg; Print txt], Ok t)
        | Err e, _ | _, Err e => ([msg], Err e)
        end
    end.

  (** The part of main after opening, main.py:30-44; [script] tells whether the
      module runs as __main__ (the global [args] read at line 30 exists only then,
      and args.file is [vgm_filename]).  [content] None: the stream is the text
      stream sys.stdin: reading it raises, or gives a str, never equal to a bytes
      object, so reader returns None (core.py:153-165). *)
  Definition main_body (script : bool) (vgm_filename : string) (content : option (list Z))
    (instr track : option string) (tpn : option Z) : list effect * res unit :=
    if negb script then ([], Err NameError)                              (* 30 *)
    else
      let msg := line ("Opening file: " ++ vgm_filename) in              (* 30 *)
      let opened :=
        match content with
        | Some b => fst (reader gunzip clocks_empty (mkfile b 0))        (* 31 *)
        | None => match stdin_error with Some e => Err e | None => Ok None end
        end in
      match opened with
      | Err e => ([msg], Err e)
      | Ok cmds =>
          match process_vgm_file cmds with                               (* 33 *)
          | Err e => ([msg], Err e)
          | Ok s =>
              match choose_ticks s tpn with                              (* 35-37 *)
              | (eff, Err e) => (msg :: eff, Err e)
              | (eff, Ok t) =>
                  let (out, r) :=
                    seq_eff
                      (if truthy instr                                   (* 40-41 *)
                       then match instr with Some n => do_instruments n s | None => ([], Ok tt) end
                       else ([], Ok tt))
                      (fun _ =>
                         if truthy track                                 (* 43-44 *)
                         then match track with Some n => do_tracks s n t | None => ([], Ok tt) end
                         else ([], Ok tt)) in
                  (msg :: eff ++ line ("Ticks per Note: " ++ str_int t) :: out, r)  (* 39 *)
              end
          end
      end.

  (** main, main.py:23-44. *)
  Definition main (script : bool) (vgm_filename : string) (instr track : option string)
    (tpn : option Z) : list effect * res unit :=
    match smart_open (Some vgm_filename) "rb" with                       (* 29 *)
    | Err e => ([], Err e)
    | Ok HStdout => ([], Err GenericException) (* unreachable: mode starts with r *)
    | Ok HStdin =>
        let (eff, r) := main_body script vgm_filename None instr track tpn in
        (eff ++ closing HStdin, r)
    | Ok (HFile n m) =>
        match contents n with
        | None => ([], Err OSError)
        | Some b =>
            let (eff, r) := main_body script vgm_filename (Some b) instr track tpn in
            (OpenRead n :: eff ++ closing (HFile n m), r)
        end
    end.
End World.
