(** Model of src/main.py once more, down to the bytes that reach the disk: main.py
    and extractors.py as in Model/Main.v, writer.py:12-23 with the text of
    Model/XmlText.v and the archive of Model/Zip.v. *)
From Verif.Model Require Import Py Command Core Config Note State Ticks Song Serializer Dataclass Dao Document
  XmlText Zip Json Extract Main.
Open Scope string_scope.
Open Scope list_scope.
Open Scope Z_scope.

(** What the operating system is asked to do, in order.  [Say e]: e is a message, an
    opened input, or a closed file (the effects of Model/Main.v without its writes
    to files). *)
Inductive action :=
| Say (e : effect)
| Truncate (name : string)                        (* open(name, "w") or open(name, "wb") *)
| Put (name : string) (at_ : Z) (data : list Z).  (* these bytes at this position of the open file *)
(** How the process ends: normally or with an exception. *)
Inductive outcome := Fine | Failed (e : exn) | NoDate (e : zip_error).

(** "f.write(txt)" on a text file: the characters in the locale's encoding.  UTF-8 is
    assumed; json.dumps gives only ASCII characters, for which all the usual encodings
    agree. *)
Definition put_text (n txt : string) : list action := [Truncate n; Put n 0 (utf8 txt)].

Section Bytes.
  Variable gunzip : list Z -> res (list Z).
  Variable contents : string -> option (list Z).
  Variable writable : string -> bool.
  Variable stdin_error : option exn.
  Variable now : clock.                            (* time.localtime(), zipfile *)

  (** extract_instruments, extractors.py:116-121. *)
  Definition instruments_bytes (name : string) (s : state) : list action * outcome :=
    let msg := Say (line ("Writing instruments to " ++ name ++ "...")) in      (* 117 *)
    match instruments_text s with                                              (* 118 *)
    | Err e => ([msg], Failed e)
    | Ok txt =>
        match smart_open (Some name) "w" with                                  (* 120 *)
        | Err e => ([msg], Failed e)
        | Ok (HFile n m) =>
            if writable n
            then (msg :: put_text n txt ++ map Say (closing (HFile n m)), Fine)  (* 121 *)
            else ([msg], Failed OSError)
        | Ok h => (msg :: Say (WriteText h txt) :: map Say (closing h), Fine)
        end
    end.

  (** extract_tracks_to_xrns, extractors.py:13-50, with writer, writer.py:12-23: the
      file is open when the song is rendered and serialized; it is closed however the
      with-block is left. *)
  Definition tracks_bytes (s : state) (name : string) (tpn : Z) : list action * outcome :=
    let msg := Say (line ("Writing xrns " ++ name ++ "...")) in                (* 14 *)
    match build_song s tpn with                                                (* 16-47 *)
    | Err e => ([msg], Failed e)
    | Ok sg =>
        if writable name                                                       (* 49 *)
        then
          let (writes, r) :=
            match song_text sg with                                            (* writer.py:14-20 *)
            | Err e => ([], Failed e)
            | Ok txt =>
                let (ws, e) := zip_writes now (utf8 txt) in                    (* writer.py:22-23 *)
                (map (fun w => Put name (fst w) (snd w)) ws,
                 match e with None => Fine | Some e => NoDate e end)
            end in
          (msg :: Truncate name :: writes ++ [Say (Close (HFile name "wb"))], r)
        else ([msg], Failed OSError)
    end.

  Definition seq_acts (a : list action * outcome) (b : unit -> list action * outcome) : list action * outcome :=
    match a with
    | (ea, Fine) => let (eb, r) := b tt in (ea ++ eb, r)
    | (ea, r) => (ea, r)
    end.

  (** main.py:30-44, run as a script. *)
  Definition body_bytes (vgm_filename : string) (content : option (list Z)) (instr track : option string)
    (tpn : option Z) : list action * outcome :=
    let msg := Say (line ("Opening file: " ++ vgm_filename)) in                (* 30 *)
    let opened :=
      match content with
      | Some b => fst (reader gunzip clocks_empty (mkfile b 0))                (* 31 *)
      | None => match stdin_error with Some e => Err e | None => Ok None end
      end in
    match opened with
    | Err e => ([msg], Failed e)
    | Ok cmds =>
        match process_vgm_file cmds with                                       (* 33 *)
        | Err e => ([msg], Failed e)
        | Ok s =>
            match choose_ticks s tpn with                                      (* 35-37 *)
            | (eff, Err e) => (msg :: map Say eff, Failed e)
            | (eff, Ok t) =>
                let (out, r) :=
                  seq_acts
                    (if truthy instr                                           (* 40-41 *)
                     then match instr with Some n => instruments_bytes n s | None => ([], Fine) end
                     else ([], Fine))
                    (fun _ =>
                       if truthy track                                         (* 43-44 *)
                       then match track with Some n => tracks_bytes s n t | None => ([], Fine) end
                       else ([], Fine)) in
                (msg :: map Say eff ++ Say (line ("Ticks per Note: " ++ str_int t)) :: out, r)  (* 39 *)
            end
        end
    end.

  (** main, main.py:23-44, run as a script. *)
  Definition main_bytes (vgm_filename : string) (instr track : option string) (tpn : option Z)
    : list action * outcome :=
    match smart_open (Some vgm_filename) "rb" with                             (* 29 *)
    | Err e => ([], Failed e)
    | Ok HStdout => ([], Failed GenericException) (* unreachable: mode starts with r *)
    | Ok HStdin =>
        let (eff, r) := body_bytes vgm_filename None instr track tpn in
        (eff ++ map Say (closing HStdin), r)
    | Ok (HFile n m) =>
        match contents n with
        | None => ([], Failed OSError)
        | Some b =>
            let (eff, r) := body_bytes vgm_filename (Some b) instr track tpn in
            (Say (OpenRead n) :: eff ++ map Say (closing (HFile n m)), r)
        end
    end.
End Bytes.
