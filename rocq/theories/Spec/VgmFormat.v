(** Independent description of the VGM container format, as far as the
    extractor relies on it.  Only standard-library functions and the result
    type of commands ([vcmd]) are used; none of the model's functions. *)
From Coq Require Import ZArith List Lia.
From Verif.Model Require Import Py Command.
Import ListNotations.
Open Scope Z_scope.

Definition byte (b : Z) : Prop := 0 <= b < 256.
Definition bytes (l : list Z) : Prop := Forall byte l.

(** ** Header *)

(** Byte number [i] of a file (0 beyond its end). *)
Definition byte_at (d : list Z) (i : nat) : Z := nth i d 0.

(** Little-endian 32-bit number at offset [i]. *)
Definition u32_at (d : list Z) (i : nat) : Z :=
  byte_at d i + 2 ^ 8 * byte_at d (i + 1) + 2 ^ 16 * byte_at d (i + 2)
  + 2 ^ 24 * byte_at d (i + 3).

(** Packed BCD: eight decimal digits, two per byte (high nibble first), the last
    byte being the most significant. *)
Definition hi (b : Z) : Z := b / 16.
Definition lo (b : Z) : Z := b mod 16.
Definition bcd_at (d : list Z) (i : nat) : Z :=
    10000000 * hi (byte_at d (i + 3)) + 1000000 * lo (byte_at d (i + 3))
  + 100000 * hi (byte_at d (i + 2)) + 10000 * lo (byte_at d (i + 2))
  + 1000 * hi (byte_at d (i + 1)) + 100 * lo (byte_at d (i + 1))
  + 10 * hi (byte_at d i) + lo (byte_at d i).

(** The BCD bytes (least significant first) of a number below 10^8. *)
Definition bcd_byte (n : Z) : Z := 16 * (n / 10 mod 10) + n mod 10.
Definition to_bcd (n : Z) : list Z :=
  [bcd_byte n; bcd_byte (n / 100); bcd_byte (n / 10000); bcd_byte (n / 1000000)].

(** "Vgm " *)
Definition vgm_ident : list Z := [86; 103; 109; 32].
Definition has_ident (d : list Z) : Prop := firstn 4 d = vgm_ident.
Definition gzip_ident : list Z := [31; 139].
Definition is_gzip (d : list Z) : Prop := firstn 2 d = gzip_ident.

(** What a file's bytes stand for, given a decompressor: themselves, or the
    decompressed bytes if they carry the gzip identification. *)
Inductive content (gunzip : list Z -> res (list Z)) (d : list Z) : res (list Z) -> Prop :=
| raw : ~ is_gzip d -> content gunzip d (Ok d)
| zipped : is_gzip d -> content gunzip d (gunzip d).

Definition version (d : list Z) : Z := bcd_at d 8.
(** Number of header bytes the reader needs. *)
Definition header_complete (d : list Z) : Prop :=
  (52 <= length d)%nat /\ (version d < 150 \/ (56 <= length d)%nat).
(** Offset of the command data: fixed before 1.50, relative to 0x34 afterwards. *)
Definition data_offset (d : list Z) : Z :=
  if version d <? 150 then 64 else 52 + u32_at d 52.
Definition ym2413_clock (d : list Z) : Z := u32_at d 16.
Definition ym2151_clock (d : list Z) : Z :=
  if version d <? 110 then u32_at d 16 else u32_at d 48.

(** ** Commands *)

(** Operand bytes of the fixed-size commands: (first id, last id, operands).
    0x67 and 0x68 are variable and absent. *)
Definition operand_table : list (Z * Z * nat) :=
  [ (0x00, 0x2F, 0%nat); (0x30, 0x3F, 1%nat); (0x40, 0x4E, 2%nat); (0x4F, 0x50, 1%nat);
    (0x51, 0x5F, 2%nat); (0x60, 0x60, 0%nat); (0x61, 0x61, 2%nat); (0x62, 0x66, 0%nat);
    (0x69, 0x8F, 0%nat); (0x90, 0x91, 4%nat); (0x92, 0x92, 5%nat); (0x93, 0x93, 10%nat);
    (0x94, 0x94, 1%nat); (0x95, 0x95, 4%nat); (0x96, 0x9F, 0%nat); (0xA0, 0xBF, 2%nat);
    (0xC0, 0xDF, 3%nat); (0xE0, 0xFF, 4%nat) ].
Definition operands (id : Z) : option nat :=
  match find (fun e => (fst (fst e) <=? id) && (id <=? snd (fst e))) operand_table with
  | Some e => Some (snd e)
  | None => None
  end.

(** Samples waited by a wait command with the given operand bytes. *)
Definition wait_samples (id : Z) (ops : list Z) : option Z :=
  if id =? 0x61 then Some (nth 0 ops 0 + 256 * nth 1 ops 0)
  else if id =? 0x62 then Some 735
  else if id =? 0x63 then Some 882
  else if (0x70 <=? id) && (id <=? 0x7F) then Some (id - 0x70 + 1)
  else None.

(** The command a complete fixed-size command denotes. *)
Definition denote (id : Z) (ops : list Z) : vcmd :=
  match wait_samples id ops with
  | Some n => Wait id (Some n)
  | None =>
      if id =? 0x54 then Ym id (nth 0 ops 0) (nth 1 ops 0)
      else if id =? 0x66 then Eos id
      else Plain id (match ops with [] => None | _ => Some ops end)
  end.

(** [complete id ops c]: [id] followed by exactly the bytes [ops] is one whole
    command, and it is [c].  0x67: 0x66, type, 32-bit size, data.  0x68: 0x66,
    type, two 24-bit offsets, 24-bit size, data. *)
Inductive complete : Z -> list Z -> vcmd -> Prop :=
| fixed_size id ops :
    byte id -> operands id = Some (length ops) -> complete id ops (denote id ops)
| data_block p t s0 s1 s2 s3 data :
    Z.of_nat (length data) = s0 + 2 ^ 8 * s1 + 2 ^ 16 * s2 + 2 ^ 24 * s3 ->
    complete 0x67 ([p; t; s0; s1; s2; s3] ++ data) (Plain 0x67 (Some data))
| pcm_ram_write p t r0 r1 r2 w0 w1 w2 s0 s1 s2 data :
    Z.of_nat (length data) = s0 + 2 ^ 8 * s1 + 2 ^ 16 * s2 ->
    complete 0x68 ([p; t; r0; r1; r2; w0; w1; w2; s0; s1; s2] ++ data)
      (Plain 0x68 (Some data)).

(** What happens to a last command whose bytes [cut] (after the id) are too few:
    reported as an exception, or accepted with what there is. *)
Inductive cut_short : Z -> list Z -> exn + vcmd -> Prop :=
| cut_ym cut : (length cut < 2)%nat -> cut_short 0x54 cut (inl EOFError)
| cut_wait cut : (length cut < 2)%nat -> cut_short 0x61 cut (inl EOFError)
| cut_block_head cut : (length cut < 6)%nat -> cut_short 0x67 cut (inl StructError)
| cut_pcm_head cut : (length cut < 11)%nat -> cut_short 0x68 cut (inl StructError)
| cut_block_data p t s0 s1 s2 s3 data :
    Z.of_nat (length data) < s0 + 2 ^ 8 * s1 + 2 ^ 16 * s2 + 2 ^ 24 * s3 ->
    cut_short 0x67 ([p; t; s0; s1; s2; s3] ++ data) (inr (Plain 0x67 (Some data)))
| cut_pcm_data p t r0 r1 r2 w0 w1 w2 s0 s1 s2 data :
    Z.of_nat (length data) < s0 + 2 ^ 8 * s1 + 2 ^ 16 * s2 ->
    cut_short 0x68 ([p; t; r0; r1; r2; w0; w1; w2; s0; s1; s2] ++ data)
      (inr (Plain 0x68 (Some data)))
| cut_other id cut n :
    byte id -> id <> 0x54 -> id <> 0x61 ->
    operands id = Some n -> (length cut < n)%nat ->
    cut_short id cut (inr (Plain id (Some cut))).

(** [stream bytes cs err]: reading all of [bytes] yields the commands [cs] and
    then stops ([err = None]) or raises ([Some e]). *)
Inductive stream : list Z -> list vcmd -> option exn -> Prop :=
| stream_end : stream [] [] None
| stream_cmd id ops c rest cs err :
    complete id ops c -> stream rest cs err -> stream (id :: ops ++ rest) (c :: cs) err
| stream_cut id cut c :
    cut_short id cut (inr c) -> stream (id :: cut) [c] None
| stream_err id cut e :
    cut_short id cut (inl e) -> stream (id :: cut) [] (Some e).

(** The exception that ended a run, if any. *)
Definition error_of {A} (r : res A) : option exn :=
  match r with Ok _ => None | Err e => Some e end.

(** ** Encoding *)

(** Abstract commands and their byte encoding. *)
Inductive vgm_op :=
| OpYm2151 (reg val : Z)
| OpWait (n : Z)                       (* 0x61 *)
| OpWait60 | OpWait50                  (* 0x62, 0x63 *)
| OpShortWait (n : Z)                  (* 0x7n: n + 1 samples *)
| OpEnd
| OpDataBlock (kind : Z) (data : list Z)
| OpPcmRam (kind src dst : Z) (data : list Z)
| OpOther (id : Z) (ops : list Z).     (* anything else, uninterpreted *)

Definition le16 (n : Z) := [n mod 256; n / 256].
Definition le24 (n : Z) := [n mod 256; n / 256 mod 256; n / 65536].
Definition le32 (n : Z) := [n mod 256; n / 256 mod 256; n / 65536 mod 256; n / 16777216].

Definition encode (o : vgm_op) : list Z :=
  match o with
  | OpYm2151 r v => [0x54; r; v]
  | OpWait n => 0x61 :: le16 n
  | OpWait60 => [0x62]
  | OpWait50 => [0x63]
  | OpShortWait n => [0x70 + n]
  | OpEnd => [0x66]
  | OpDataBlock k d => [0x67; 0x66; k] ++ le32 (Z.of_nat (length d)) ++ d
  | OpPcmRam k s t d => [0x68; 0x66; k] ++ le24 s ++ le24 t ++ le24 (Z.of_nat (length d)) ++ d
  | OpOther id ops => id :: ops
  end.

Definition op_valid (o : vgm_op) : Prop :=
  match o with
  | OpYm2151 r v => byte r /\ byte v
  | OpWait n => 0 <= n < 2 ^ 16
  | OpWait60 | OpWait50 | OpEnd => True
  | OpShortWait n => 0 <= n < 16
  | OpDataBlock k d => Z.of_nat (length d) < 2 ^ 32
  | OpPcmRam k s t d => 0 <= s < 2 ^ 24 /\ 0 <= t < 2 ^ 24 /\ Z.of_nat (length d) < 2 ^ 24
  | OpOther id ops =>
      byte id /\ operands id = Some (length ops) /\ id <> 0x54 /\ id <> 0x61 /\ id <> 0x62
      /\ id <> 0x63 /\ id <> 0x66 /\ ~ (0x70 <= id <= 0x7F)
  end.

(** What the reader must yield for each. *)
Definition op_command (o : vgm_op) : vcmd :=
  match o with
  | OpYm2151 r v => Ym 0x54 r v
  | OpWait n => Wait 0x61 (Some n)
  | OpWait60 => Wait 0x62 (Some 735)
  | OpWait50 => Wait 0x63 (Some 882)
  | OpShortWait n => Wait (0x70 + n) (Some (n + 1))
  | OpEnd => Eos 0x66
  | OpDataBlock _ d => Plain 0x67 (Some d)
  | OpPcmRam _ _ _ d => Plain 0x68 (Some d)
  | OpOther id [] => Plain id None
  | OpOther id ops => Plain id (Some ops)
  end.

(** ** Time: samples the VGM format says a command waits, 0x8n included. *)
Definition format_wait (c : vcmd) : Z :=
  match c with
  | Wait _ (Some n) => n
  | Plain id _ => if (0x80 <=? id) && (id <=? 0x8F) then id - 0x80 else 0
  | _ => 0
  end.
(** The same without the 0x8n sample-bank commands. *)
Definition wait_of (c : vcmd) : Z := match c with Wait _ (Some n) => n | _ => 0 end.
