(** Model of src/vgm/core.py and src/main.py on a decompressing stream that may
    fail on the way (gzip.open of a cut or damaged file).

    [Core.reader] takes the decompressed bytes of a whole file or one exception;
    here the stream object is modelled as it behaves: it hands out the bytes it
    could recover and raises when more is asked for.  *)
From Verif.Model Require Import Py Command Core Config Note State Ticks Song Serializer Json Extract Main.

(** gzip.GzipFile opened for reading: the bytes that can be handed out, what
    happens when more than those are asked for (None: end of file, reads come
    back short; Some e: the exception e, e.g. EOFError for a cut file,
    BadGzipFile for a wrong check sum, zlib.error for damaged data), and the
    position.  CPython's GzipFile.read(n) goes through io.BufferedReader, which
    asks the decompressor only as long as fewer than n bytes are at hand, so the
    exception comes up exactly at the first call that needs a byte too many. *)
Record gzfile := mkgzfile { sdata : list Z; sfail : option exn; spos : Z }.

(** GzipFile.read(n). *)
Definition sread (n : Z) (s : gzfile) : res (list Z * gzfile) :=
  let chunk := takeZ n (dropZ (spos s) (sdata s)) in
  let s' := mkgzfile (sdata s) (sfail s) (spos s + len chunk) in
  match sfail s with
  | None => Ok (chunk, s')
  | Some e => if len chunk <? n then Err e else Ok (chunk, s')
  end.

(** GzipFile.seek(off, SEEK_SET): the data in between are decompressed and
    dropped (_compression.DecompressReader.seek), so it can fail as well. *)
Definition sseek (off : Z) (s : gzfile) : res gzfile :=
  let s' := mkgzfile (sdata s) (sfail s) off in
  match sfail s with
  | None => Ok s'
  | Some e => if len (sdata s) <? off then Err e else Ok s'
  end.

(** _read32, _read16, _read8: core.py:11-29. *)
Definition s_read_int (n : Z) (s : gzfile) : res (Z * gzfile) :=
  let! (b, s) := sread n s in
  if len b =? n then Ok (unpack_le b, s) else Err EOFError.

(** _read_bcd, core.py:32-42. *)
Definition s_read_bcd (s : gzfile) : res (Z * gzfile) :=
  let! (b, s) := sread 4 s in
  if len b =? 4 then Ok (fold_left bcd_step (rev b) 0, s) else Err EOFError.

(** A Vgm object over such a stream, core.py:45-64. *)
Record gz_vgm := mkgz { g_stream : gzfile; g_eof_offset : Z; g_version : Z; g_data_start : Z }.

(** Vgm.__init__, core.py:49-64.  Also gives the shared clocks dict as left. *)
Definition gz_init (ck : clocks) (s : gzfile) : res gz_vgm * clocks :=
  match s_read_int 4 s with                                 (* 51 *)
  | Err e => (Err e, ck)
  | Ok (eof, s) =>
  match s_read_bcd s with                                   (* 52 *)
  | Err e => (Err e, ck)
  | Ok (version, s) =>
  match s_read_int 4 s with                                 (* 53 *)
  | Err e => (Err e, ck)
  | Ok (_, s) =>
  match s_read_int 4 s with                                 (* 54 *)
  | Err e => (Err e, ck)
  | Ok (c2413, s) =>
  let ck := ck_set ck "ym2413" c2413 in
  match sseek 48 s with                                     (* 55 *)
  | Err e => (Err e, ck)
  | Ok s =>
  match s_read_int 4 s with                                 (* 56 *)
  | Err e => (Err e, ck)
  | Ok (c2151, s) =>
  let ck := ck_set ck "ym2151" c2151 in
  let ck := if version <? 110
            then match ck_get ck "ym2413" with              (* 57-58 *)
                 | Some c => ck_set ck "ym2151" c
                 | None => ck (* unreachable: key set at 54 *)
                 end
            else ck in
  match (if 150 <=? version then                            (* 60-61 *)
           let! (off, s) := s_read_int 4 s in Ok (52 + off, s)
         else Ok (64, s)) with                              (* 46 *)
  | Err e => (Err e, ck)
  | Ok (ds, s) =>
  match sseek ds s with                                     (* 63 *)
  | Err e => (Err e, ck)
  | Ok s => (Ok (mkgz s eof version ds), ck)
  end end end end end end end end.

(** VgmCommand(cmd_id, f.read(n)). *)
Definition s_plain (cmd_id n : Z) (s : gzfile) : res (vcmd * gzfile) :=
  let! (b, s) := sread n s in Ok (Plain cmd_id (Some b), s).

(** command, core.py:85-150, branch by branch. *)
Definition gz_command (cmd_id : Z) (s : gzfile) : res (vcmd * gzfile) :=
  if (cmd_id <? 48)                                         (* 87-94 *)
     || (cmd_id =? 96)
     || ((100 <=? cmd_id) && (cmd_id <=? 101))
     || ((105 <=? cmd_id) && (cmd_id <? 112))
     || ((128 <=? cmd_id) && (cmd_id <? 144))
     || ((150 <=? cmd_id) && (cmd_id <? 160))
  then Ok (Plain cmd_id None, s)
  else if (30 <=? cmd_id) && (cmd_id <? 64) then s_plain cmd_id 1 s   (* 96-97 *)
  else if cmd_id <? 79 then s_plain cmd_id 2 s              (* 98-99 *)
  else if cmd_id <? 81 then s_plain cmd_id 1 s              (* 100-101 *)
  else if cmd_id <? 84 then s_plain cmd_id 2 s              (* 102-103 *)
  else if cmd_id =? 84 then                                 (* 104-107 *)
    let! (reg, s) := s_read_int 1 s in
    let! (value, s) := s_read_int 1 s in
    Ok (Ym cmd_id reg value, s)
  else if cmd_id <? 96 then s_plain cmd_id 2 s              (* 108-109 *)
  else if cmd_id =? 97 then                                 (* 110-111 *)
    let! (n, s) := s_read_int 2 s in Ok (mk_wait cmd_id (Some n), s)
  else if cmd_id =? 98 then Ok (mk_wait cmd_id (Some 735), s)         (* 112-113 *)
  else if cmd_id =? 99 then Ok (mk_wait cmd_id (Some 882), s)         (* 114-115 *)
  else if cmd_id =? 102 then Ok (Eos cmd_id, s)             (* 116-117 *)
  else if cmd_id =? 103 then                                (* 118-124 *)
    let! (buffer, s) := sread 6 s in
    if len buffer =? 6 then s_plain cmd_id (unpack_le (dropZ 2 buffer)) s
    else Err StructError
  else if cmd_id =? 104 then                                (* 125-132 *)
    let! (buffer, s) := sread 11 s in
    if len buffer =? 11 then
      s_plain cmd_id (unpack_le (takeZ 2 (dropZ 9 buffer)) * 256
                      + unpack_le (takeZ 1 (dropZ 8 buffer))) s
    else Err StructError
  else if cmd_id <? 128 then Ok (mk_wait cmd_id None, s)    (* 133-134 *)
  else if cmd_id <? 146 then s_plain cmd_id 4 s             (* 135-136 *)
  else if cmd_id =? 146 then s_plain cmd_id 5 s             (* 137-138 *)
  else if cmd_id =? 147 then s_plain cmd_id 10 s            (* 139-140 *)
  else if cmd_id =? 148 then s_plain cmd_id 1 s             (* 141-142 *)
  else if cmd_id =? 149 then s_plain cmd_id 4 s             (* 143-144 *)
  else if cmd_id <? 192 then s_plain cmd_id 2 s             (* 145-146 *)
  else if cmd_id <? 224 then s_plain cmd_id 3 s             (* 147-148 *)
  else s_plain cmd_id 4 s.                                  (* 149-150 *)

(** Vgm.__next__, core.py:78-82: None is StopIteration. *)
Definition gz_next (s : gzfile) : res (option (vcmd * gzfile)) :=
  let! (b, s) := sread 1 s in
  match b with
  | [] => Ok None
  | x :: _ => let! r := gz_command x s in Ok (Some r)
  end.

(** list(vgm), core.py:75-82: the commands given and how it ended. *)
Fixpoint gz_iterate (fuel : nat) (s : gzfile) : list vcmd * res unit :=
  match fuel with
  | O => ([], Err OutOfFuel)
  | S k =>
      match gz_next s with
      | Err e => ([], Err e)
      | Ok None => ([], Ok tt)
      | Ok (Some (c, s)) => let (cs, r) := gz_iterate k s in (c :: cs, r)
      end
  end.
Definition gz_commands (v : gz_vgm) : list vcmd * res unit :=
  gz_iterate (S (length (sdata (g_stream v)))) (g_stream v).

(** The part of reader after gzip.open, core.py:161-166, on a fresh stream. *)
Definition gz_open (ck : clocks) (data : list Z) (fail : option exn) : res (option gz_vgm) * clocks :=
  match sread 4 (mkgzfile data fail 0) with                 (* 162 *)
  | Err e => (Err e, ck)
  | Ok (header, s) =>
      if bytes_eqb header magic then                        (* 164 *)
        match gz_init ck s with                             (* 166 *)
        | (Ok v, ck) => (Ok (Some v), ck)
        | (Err e, ck) => (Err e, ck)
        end
      else (Ok None, ck)                                    (* 165 *)
  end.

(** reader, core.py:153-166.  [gz] tells what the stream opened on the raw bytes
    of a file hands out, and how it fails.  An uncompressed file is read
    directly: a stream without failure. *)
Definition gz_reader (gz : list Z -> list Z * option exn) (ck : clocks) (d : list Z)
  : res (option gz_vgm) * clocks :=
  if bytes_eqb (takeZ 2 (takeZ 4 d)) [31; 139]              (* 155, 159 *)
  then let (data, fail) := gz d in gz_open ck data fail     (* 160-162 *)
  else gz_open ck d None.

(** process_vgm_file, main.py:11-20. *)
Fixpoint gz_process_loop (fuel : nat) (s : gzfile) (st : state) : res state :=
  match fuel with
  | O => Err OutOfFuel
  | S k =>
      match gz_next s with
      | Err e => Err e
      | Ok None => Ok st
      | Ok (Some (c, s)) => let! st := process_step st c in gz_process_loop k s st
      end
  end.
Definition gz_process (cmds : option gz_vgm) : res state :=
  match cmds with
  | None => Err TypeError
  | Some v => gz_process_loop (S (length (sdata (g_stream v)))) (g_stream v) state_init
  end.

(** main, main.py:23-44, on a file name (not "-"), run as a script. *)
Definition gz_main (gz : list Z -> list Z * option exn) (contents : string -> option (list Z))
  (writable : string -> bool) (name : string) (instr track : option string) (tpn : option Z)
  : list effect * res unit :=
  match contents name with                                             (* 29 *)
  | None => ([], Err OSError)
  | Some d =>
      let msg := line ("Opening file: " ++ name) in                    (* 30 *)
      let (eff, r) :=
        match fst (gz_reader gz clocks_empty d) with                   (* 31 *)
        | Err e => ([msg], Err e)
        | Ok cmds =>
            match gz_process cmds with                                 (* 33 *)
            | Err e => ([msg], Err e)
            | Ok s =>
                match choose_ticks s tpn with                          (* 35-37 *)
                | (eff, Err e) => (msg :: eff, Err e)
                | (eff, Ok t) =>
                    let (out, r) :=
                      seq_eff
                        (if truthy instr                               (* 40-41 *)
                         then match instr with Some n => do_instruments writable n s | None => ([], Ok tt) end
                         else ([], Ok tt))
                        (fun _ =>
                           if truthy track                             (* 43-44 *)
                           then match track with Some n => do_tracks writable s n t | None => ([], Ok tt) end
                           else ([], Ok tt)) in
                    (msg :: eff ++ line ("Ticks per Note: " ++ str_int t) :: out, r)  (* 39 *)
                end
            end
        end in
      (OpenRead name :: eff ++ closing (HFile name "rb"), r)
  end.
