(** The bytes of a song file: writer.py:22-23,
    [with zipfile.ZipFile(xrnsfile, mode="w") as zf: zf.writestr("Song.xml", rendered)]
    on a file just opened with "wb" (extractors.py:49-50).  The standard library's
    zipfile (CPython 3.11) is modelled for one stored member: line numbers "zf:"
    are those of Lib/zipfile.py.  Not modelled: the ZIP64 form, which is used for
    texts from about 1.9 GiB on. *)
From Verif.Model Require Import Py.

(** str.encode("utf-8"), zf:1825, for characters below 256 (the model's strings). *)
Definition utf8_char (c : ascii) : list Z :=
  let n := Z.of_nat (nat_of_ascii c) in
  if n <? 128 then [n] else [192 + Z.shiftr n 6; 128 + Z.land n 63].
Fixpoint utf8 (s : string) : list Z :=
  match s with EmptyString => [] | String c r => utf8_char c ++ utf8 r end.

(** zlib.crc32, zf:1176: with the table of the 256 one-byte remainders. *)
Definition crc_shift (c : Z) : Z :=
  if Z.odd c then Z.lxor (Z.shiftr c 1) 0xEDB88320 else Z.shiftr c 1.
Definition crc_entry (n : Z) : Z :=
  crc_shift (crc_shift (crc_shift (crc_shift (crc_shift (crc_shift (crc_shift (crc_shift n))))))).
Definition crc_table : list Z := map (fun k => crc_entry (Z.of_nat k)) (seq 0 256).
Definition crc_update (c b : Z) : Z :=
  Z.lxor (nth (Z.to_nat (Z.land (Z.lxor c b) 255)) crc_table 0) (Z.shiftr c 8).
Definition crc32 (data : list Z) : Z :=
  Z.lxor (fold_left crc_update data 0xFFFFFFFF) 0xFFFFFFFF.

(** struct.pack of little-endian unsigned numbers: "B", "H", "L". *)
Definition pack8 (n : Z) : list Z := [n].
Definition pack16 (n : Z) : list Z := [Z.land n 255; Z.shiftr n 8].
Definition pack32 (n : Z) : list Z :=
  [Z.land n 255; Z.land (Z.shiftr n 8) 255; Z.land (Z.shiftr n 16) 255; Z.shiftr n 24].

(** time.localtime(...)[:6], zf:1828. *)
Record clock := mkclock { year : Z; month : Z; day : Z; hour : Z; minute : Z; second : Z }.
(** zf:448-449. *)
Definition dosdate (t : clock) : Z :=
  Z.lor (Z.lor (Z.shiftl (year t - 1980) 9) (Z.shiftl (month t) 5)) (day t).
Definition dostime (t : clock) : Z :=
  Z.lor (Z.lor (Z.shiftl (hour t) 11) (Z.shiftl (minute t) 5)) (second t / 2).

(** "Song.xml" *)
Definition member_name : list Z := [83; 111; 110; 103; 46; 120; 109; 108].

(** ZipInfo.FileHeader, zf:440-487: structFileHeader "<4s2B4HL2L2H", then the name. *)
Definition local_header (t : clock) (crc csize fsize : Z) : list Z :=
  [80; 75; 3; 4] ++ pack8 20 ++ pack8 0 ++ pack16 0 ++ pack16 0
  ++ pack16 (dostime t) ++ pack16 (dosdate t)
  ++ pack32 crc ++ pack32 csize ++ pack32 fsize ++ pack16 (len member_name) ++ pack16 0
  ++ member_name.
(** The central directory entry, zf:1960-1968: "<4s4B4HL2L5H2L"; create_system 3
    (anything but Windows), external_attr 0o600 << 16 (zf:1835), header_offset 0. *)
Definition central_entry (t : clock) (crc csize fsize : Z) : list Z :=
  [80; 75; 1; 2] ++ pack8 20 ++ pack8 3 ++ pack8 20 ++ pack8 0
  ++ pack16 0 ++ pack16 0 ++ pack16 (dostime t) ++ pack16 (dosdate t)
  ++ pack32 crc ++ pack32 csize ++ pack32 fsize
  ++ pack16 (len member_name) ++ pack16 0 ++ pack16 0 ++ pack16 0 ++ pack16 0
  ++ pack32 (Z.shiftl 384 16) ++ pack32 0.
(** The end record, zf:2004-2006: "<4s4H2LH". *)
Definition end_record (count size offset : Z) : list Z :=
  [80; 75; 5; 6] ++ pack16 0 ++ pack16 0 ++ pack16 count ++ pack16 count
  ++ pack32 size ++ pack32 offset ++ pack16 0.

(** The writes of the zipfile module, in order: (position, bytes). *)
Definition writes := list (Z * list Z).
Inductive zip_error := ClockTooEarly (* ValueError, zf:378 *) | ClockTooLate (* struct.error, zf:481 *).
Definition zip_writes (t : clock) (data : list Z) : writes * option zip_error :=
  if year t <? 1980 then
    (* ZipInfo(...) raises, zf:1827; leaving the with-block closes the archive,
       zf:1909-1913, which writes an end record *)
    ([(0, end_record 0 0 0)], Some ClockTooEarly)
  else if 65535 <? dosdate t then
    (* FileHeader's struct.pack raises before anything is written, zf:1669 *)
    ([(0, end_record 0 0 0)], Some ClockTooLate)
  else
    let n := len data in
    let crc := crc32 data in
    let start_dir := 38 + n in                                (* zf:1217 *)
    ([ (0, local_header t 0 0 n);                             (* zf:1644-1645, 1669 *)
       (38, data);                                            (* zf:1180 *)
       (0, local_header t crc n n);                           (* zf:1218-1219 *)
       (start_dir, central_entry t crc n n);                  (* zf:1968 *)
       (start_dir + 46, member_name);                         (* zf:1969 *)
       (start_dir + 54, end_record 1 54 start_dir) ], None).  (* zf:2007 *)

(** Writing into a file at a position not past its end. *)
Definition write_at (c : list Z) (w : Z * list Z) : list Z :=
  takeZ (fst w) c ++ snd w ++ dropZ (fst w + len (snd w)) c.
(** The content of the song file at the end. *)
Definition archive (t : clock) (text : string) : list Z * option zip_error :=
  let (ws, e) := zip_writes t (utf8 text) in (fold_left write_at ws [], e).
