(** Model of src/vgm/core.py. *)
From Verif.Model Require Import Py Command.

(** A seekable binary file: its whole content and the position.  Covers
    BytesIO, a file opened "rb" and a GzipFile (whose content is the
    decompressed data; reads past the end give b"" for all three). *)
Record file := mkfile { fbytes : list Z; fpos : Z }.

(** file.read(n): up to n bytes from the position; short at the end. *)
Definition fread (n : Z) (f : file) : list Z * file :=
  let chunk := takeZ n (dropZ (fpos f) (fbytes f)) in
  (chunk, mkfile (fbytes f) (fpos f + len chunk)).

(** file.seek(off, SEEK_SET). *)
Definition fseek (off : Z) (f : file) : file := mkfile (fbytes f) off.

(** struct.unpack of one unsigned integer, little-endian.  core.py:15,22 use
    native order ("I", "H"): the model fixes a little-endian host. *)
Fixpoint unpack_le (b : list Z) : Z :=
  match b with [] => 0 | x :: r => x + 256 * unpack_le r end.

(** _read32, core.py:11-15.  The new position is returned also on failure. *)
Definition read32 (f : file) : res Z * file :=
  let (b, f') := fread 4 f in
  if len b =? 4 then (Ok (unpack_le b), f') else (Err EOFError, f').

(** _read16, core.py:18-22. *)
Definition read16 (f : file) : res Z * file :=
  let (b, f') := fread 2 f in
  if len b =? 2 then (Ok (unpack_le b), f') else (Err EOFError, f').

(** _read8, core.py:25-29. *)
Definition read8 (f : file) : res Z * file :=
  let (b, f') := fread 1 f in
  if len b =? 1 then (Ok (unpack_le b), f') else (Err EOFError, f').

(** _read_bcd, core.py:32-42: the loop over i reads b[3], b[2], b[1], b[0],
    i.e. the reversed list; high nibble first. *)
Definition bcd_step (o item : Z) : Z :=
  let o := o * 10 + Z.shiftr item 4 in
  o * 10 + Z.land item 15.
Definition read_bcd (f : file) : res Z * file :=
  let (b, f') := fread 4 f in
  if len b =? 4 then (Ok (fold_left bcd_step (rev b) 0), f') else (Err EOFError, f').

(** Vgm.clocks, core.py:47: a class attribute, i.e. ONE dict shared by all
    instances.  It is threaded through the model as global state. *)
Definition clocks := list (string * Z).
Definition clocks_empty : clocks := [].
Definition ck_get (c : clocks) (k : string) : option Z := dict_get String.eqb c k.
Definition ck_set (c : clocks) (k : string) (v : Z) : clocks := dict_set String.eqb c k v.

(** Instance attributes of Vgm, core.py:50-63 ([data_start] falls back to the
    class attribute 0x40, core.py:46). *)
Record vgm := mkvgm {
  vfile : file; v_eof_offset : Z; v_version : Z; v_data_start : Z }.

(** Vgm.__init__, core.py:49-64.  Returns the object or the exception, and the
    shared clocks dict as it is left in either case. *)
Definition vgm_init (ck : clocks) (f : file) : res vgm * clocks :=
  match read32 f with                                       (* 51 *)
  | (Err e, _) => (Err e, ck)
  | (Ok eof, f) =>
  match read_bcd f with                                     (* 52 *)
  | (Err e, _) => (Err e, ck)
  | (Ok version, f) =>
  match read32 f with                                       (* 53 *)
  | (Err e, _) => (Err e, ck)
  | (Ok _, f) =>
  match read32 f with                                       (* 54 *)
  | (Err e, _) => (Err e, ck)
  | (Ok c2413, f) =>
  let ck := ck_set ck "ym2413" c2413 in
  let f := fseek 48 f in                                    (* 55: 0x30 *)
  match read32 f with                                       (* 56 *)
  | (Err e, _) => (Err e, ck)
  | (Ok c2151, f) =>
  let ck := ck_set ck "ym2151" c2151 in
  let ck := if version <? 110
            then match ck_get ck "ym2413" with              (* 57-58 *)
                 | Some c => ck_set ck "ym2151" c
                 | None => ck (* unreachable: key set at 54 *)
                 end
            else ck in
  if 150 <=? version then                                   (* 60-61 *)
    match read32 f with
    | (Err e, _) => (Err e, ck)
    | (Ok off, f) =>
        let ds := 52 + off in                               (* 0x34 + ... *)
        (Ok (mkvgm (fseek ds f) eof version ds), ck)        (* 63 *)
    end
  else (Ok (mkvgm (fseek 64 f) eof version 64), ck)         (* 46, 63 *)
  end end end end end.

(** Vgm.size, core.py:66-67. *)
Definition vgm_size (v : vgm) : Z := v_eof_offset v + 4.

(** Vgm.supports, core.py:69-70: reads the shared dict. *)
Definition vgm_supports (ck : clocks) (chip : string) : bool :=
  match ck_get ck chip with Some c => 0 <? c | None => false end.

(** Vgm.clock, core.py:72-73. *)
Definition vgm_clock (ck : clocks) (chip : string) : res Z :=
  match ck_get ck chip with Some c => Ok c | None => Err KeyError end.

(** VgmCommand(cmd_id, f.read(n)): the shape of most branches of [command]. *)
Definition plain_read (cmd_id n : Z) (f : file) : res vcmd * file :=
  let (b, f') := fread n f in (Ok (Plain cmd_id (Some b)), f').

(** command, core.py:85-150, branch by branch.  [0 <= cmd_id < 256] because it
    comes from a byte. *)
Definition command (cmd_id : Z) (f : file) : res vcmd * file :=
  if (cmd_id <? 48)                                         (* 87: < 0x30 *)
     || (cmd_id =? 96)                                      (* 88: == 0x60 *)
     || ((100 <=? cmd_id) && (cmd_id <=? 101))              (* 89: 0x64..0x65 *)
     || ((105 <=? cmd_id) && (cmd_id <? 112))               (* 90: 0x69..0x6f *)
     || ((128 <=? cmd_id) && (cmd_id <? 144))               (* 91: 0x80..0x8f *)
     || ((150 <=? cmd_id) && (cmd_id <? 160))               (* 92: 0x96..0x9f *)
  then (Ok (Plain cmd_id None), f)                          (* 94 *)
  else if (30 <=? cmd_id) && (cmd_id <? 64)                 (* 96: "30", decimal, as written *)
  then plain_read cmd_id 1 f                                (* 97 *)
  else if cmd_id <? 79 then plain_read cmd_id 2 f           (* 98-99: < 0x4f *)
  else if cmd_id <? 81 then plain_read cmd_id 1 f           (* 100-101: < 0x51 *)
  else if cmd_id <? 84 then plain_read cmd_id 2 f           (* 102-103: < 0x54 *)
  else if cmd_id =? 84 then                                 (* 104-107: 0x54 *)
    match read8 f with
    | (Err e, f) => (Err e, f)
    | (Ok reg, f) =>
        match read8 f with
        | (Err e, f) => (Err e, f)
        | (Ok value, f) => (Ok (Ym cmd_id reg value), f)
        end
    end
  else if cmd_id <? 96 then plain_read cmd_id 2 f           (* 108-109: < 0x60 *)
  else if cmd_id =? 97 then                                 (* 110-111: 0x61 *)
    match read16 f with
    | (Err e, f) => (Err e, f)
    | (Ok n, f) => (Ok (mk_wait cmd_id (Some n)), f)
    end
  else if cmd_id =? 98 then (Ok (mk_wait cmd_id (Some 735)), f)   (* 112-113 *)
  else if cmd_id =? 99 then (Ok (mk_wait cmd_id (Some 882)), f)   (* 114-115 *)
  else if cmd_id =? 102 then (Ok (Eos cmd_id), f)                 (* 116-117: 0x66 *)
  else if cmd_id =? 103 then                                (* 118-124: 0x67 *)
    let (buffer, f) := fread 6 f in
    (* struct.unpack("<xBI", buffer): 1 pad byte, 1 byte, 4 bytes *)
    if len buffer =? 6 then
      let ss := unpack_le (dropZ 2 buffer) in
      plain_read cmd_id ss f
    else (Err StructError, f)
  else if cmd_id =? 104 then                                (* 125-132: 0x68 *)
    let (buffer, f) := fread 11 f in
    (* struct.unpack("<xBBHBHBH", buffer): pad, cc, ooB, ooH, ddB, ddH, ssB, ssH;
       ssB is byte 8, ssH bytes 9-10 *)
    if len buffer =? 11 then
      let ssB := unpack_le (takeZ 1 (dropZ 8 buffer)) in
      let ssH := unpack_le (takeZ 2 (dropZ 9 buffer)) in
      plain_read cmd_id (ssH * 256 + ssB) f
    else (Err StructError, f)
  else if cmd_id <? 128 then (Ok (mk_wait cmd_id None), f)  (* 133-134: < 0x80 *)
  else if cmd_id <? 146 then plain_read cmd_id 4 f          (* 135-136: < 0x92 *)
  else if cmd_id =? 146 then plain_read cmd_id 5 f          (* 137-138: 0x92 *)
  else if cmd_id =? 147 then plain_read cmd_id 10 f         (* 139-140: 0x93 *)
  else if cmd_id =? 148 then plain_read cmd_id 1 f          (* 141-142: 0x94 *)
  else if cmd_id =? 149 then plain_read cmd_id 4 f          (* 143-144: 0x95 *)
  else if cmd_id <? 192 then plain_read cmd_id 2 f          (* 145-146: < 0xc0 *)
  else if cmd_id <? 224 then plain_read cmd_id 3 f          (* 147-148: < 0xe0 *)
  else plain_read cmd_id 4 f.                               (* 149-150 *)

(** Vgm.__next__, core.py:78-82. *)
Inductive next_result :=
| NStop (f : file)              (* StopIteration *)
| NRaise (e : exn) (f : file)
| NYield (c : vcmd) (f : file).
Definition vgm_next (f : file) : next_result :=
  let (b, f) := fread 1 f in
  match b with
  | [] => NStop f
  | x :: _ =>
      match command x f with
      | (Ok c, f) => NYield c f
      | (Err e, f) => NRaise e f
      end
  end.

(** list(vgm): iterate until StopIteration or an exception (core.py:75-82 under
    Python's iteration protocol).  [fuel] bounds the recursion; running out is
    reported as [OutOfFuel]. *)
Fixpoint iterate (fuel : nat) (f : file) : list vcmd * res file :=
  match fuel with
  | O => ([], Err OutOfFuel)
  | S k =>
      match vgm_next f with
      | NStop f => ([], Ok f)
      | NRaise e _ => ([], Err e)
      | NYield c f => let (cs, r) := iterate k f in (c :: cs, r)
      end
  end.
(** One command per byte is the most there can be. *)
Definition iter_fuel (f : file) : nat := S (length (fbytes f)).
Definition vgm_commands (v : vgm) : list vcmd * res file :=
  iterate (iter_fuel (vfile v)) (vfile v).

(** reader, core.py:153-166.  [gunzip] is what gzip.open(...).read() would give
    for the whole raw content: the decompressed bytes or an exception; it is a
    parameter (oracle).  Simplification: a decompression error is raised by the
    first read, whereas CPython may raise it at a later read; [Model/GzStream.v]
    models that, and C82 relates the two.
    [None] inside [Ok] is Python's None. *)
Definition magic : list Z := [86; 103; 109; 32].            (* b"Vgm " *)
Fixpoint bytes_eqb (a b : list Z) : bool :=
  match a, b with
  | [], [] => true
  | x :: a, y :: b => (x =? y) && bytes_eqb a b
  | _, _ => false
  end.
Definition reader (gunzip : list Z -> res (list Z)) (ck : clocks) (vgmfile : file)
  : res (option vgm) * clocks :=
  let finish (header : list Z) (temp : file) :=             (* 164-166 *)
    if bytes_eqb header magic then
      match vgm_init ck temp with
      | (Ok v, ck) => (Ok (Some v), ck)
      | (Err e, ck) => (Err e, ck)
      end
    else (Ok None, ck) in
  let (header, vgmfile) := fread 4 vgmfile in               (* 155 *)
  if bytes_eqb (takeZ 2 header) [31; 139] then              (* 159: b"\x1f\x8b" *)
    match gunzip (fbytes vgmfile) with                      (* 160-162 *)
    | Err e => (Err e, ck)
    | Ok plain => let (header, temp) := fread 4 (mkfile plain 0) in finish header temp
    end
  else finish header vgmfile.
