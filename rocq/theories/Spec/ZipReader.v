(** A reader of zip archives (APPNOTE.TXT: end of central directory record,
    central directory, local headers; stored members only), CRC-32 and UTF-8.
    Independent of the writer: only list functions are used. *)
From Coq Require Import ZArith List Bool Ascii String.
From Verif.Spec Require Import VgmFormat.
Import ListNotations.
Open Scope Z_scope.

(** ** CRC-32: division by the reflected polynomial EDB88320, bit by bit *)
Definition crc_bit (c : Z) : Z := if c mod 2 =? 1 then Z.lxor (c / 2) 0xEDB88320 else c / 2.
Fixpoint crc_bits (n : nat) (c : Z) : Z := match n with O => c | S k => crc_bits k (crc_bit c) end.
Definition checksum (data : list Z) : Z :=
  Z.lxor (fold_left (fun c b => crc_bits 8 (Z.lxor c b)) data 0xFFFFFFFF) 0xFFFFFFFF.

(** ** Records *)
Definition u16_at (d : list Z) (i : nat) : Z := byte_at d i + 2 ^ 8 * byte_at d (i + 1).
Definition slice (d : list Z) (i n : nat) : list Z := firstn n (skipn i d).
Definition bytes_dec : forall a b : list Z, {a = b} + {a <> b} := list_eq_dec Z.eq_dec.
Definition starts (d : list Z) (i : nat) (w : list Z) : bool :=
  if bytes_dec (slice d i (List.length w)) w then true else false.
Definition end_mark : list Z := [80; 75; 5; 6].
Definition entry_mark : list Z := [80; 75; 1; 2].
Definition local_mark : list Z := [80; 75; 3; 4].

(** The end record: the last place that carries its mark and whose comment
    reaches exactly to the end of the file. *)
Definition is_end (d : list Z) (i : nat) : bool :=
  starts d i end_mark && (Z.of_nat i + 22 + u16_at d (i + 20) =? Z.of_nat (List.length d))
  && (i + 22 <=? List.length d)%nat.
Fixpoint find_end (d : list Z) (i : nat) : option nat :=
  match i with
  | O => None
  | S k => if is_end d k then Some k else find_end d k
  end.

(** The member that the central directory entry at [o] describes, and where the
    next entry begins. *)
Definition member (d : list Z) (o : nat) : option (list Z * list Z * nat) :=
  let n := u16_at d (o + 28) in
  let next := Z.of_nat o + 46 + n + u16_at d (o + 30) + u16_at d (o + 32) in
  let size := u32_at d (o + 24) in
  let at_ := u32_at d (o + 42) in
  if starts d o entry_mark && (next <=? Z.of_nat (List.length d))
     && (u16_at d (o + 8) mod 2 =? 0)          (* not encrypted *)
     && (u16_at d (o + 10) =? 0)               (* stored *)
     && (u32_at d (o + 20) =? size)
     && (at_ + 30 + size <=? Z.of_nat (List.length d))
  then
    let l := Z.to_nat at_ in
    let name := slice d (o + 46) (Z.to_nat n) in
    let data := slice d (l + 30 + Z.to_nat (u16_at d (l + 26)) + Z.to_nat (u16_at d (l + 28))) (Z.to_nat size) in
    if starts d l local_mark && starts d (l + 30) name && (u16_at d (l + 26) =? n)
       && (Z.of_nat (List.length data) =? size) && (checksum data =? u32_at d (o + 16))
    then Some (name, data, Z.to_nat next) else None
  else None.

(** The directory from [o] to [stop]. *)
Fixpoint directory (fuel : nat) (d : list Z) (o stop : nat) : option (list (list Z * list Z)) :=
  if (o =? stop)%nat then Some []
  else match fuel with
       | O => None
       | S k =>
           match member d o with
           | Some (name, data, next) =>
               if (next <=? stop)%nat
               then match directory k d next stop with Some l => Some ((name, data) :: l) | None => None end
               else None
           | None => None
           end
       end.

(** All members: (name, data). *)
Definition unzip (d : list Z) : option (list (list Z * list Z)) :=
  match find_end d (List.length d) with
  | None => None
  | Some i =>
      if (u16_at d (i + 4) =? 0) && (u16_at d (i + 6) =? 0) && (u16_at d (i + 8) =? u16_at d (i + 10))
         && (u32_at d (i + 16) + u32_at d (i + 12) =? Z.of_nat i)
      then match directory (List.length d) d (Z.to_nat (u32_at d (i + 16))) i with
           | Some l => if Z.of_nat (List.length l) =? u16_at d (i + 10) then Some l else None
           | None => None
           end
      else None
  end.

(** ** UTF-8, as far as characters below 256 are concerned *)
Definition letter (n : Z) : ascii := ascii_of_nat (Z.to_nat n).
Fixpoint decode (d : list Z) : option string :=
  match d with
  | [] => Some ""%string
  | a :: r =>
      if a <? 128 then option_map (String (letter a)) (decode r)
      else match r with
           | b :: r' =>
               if (194 <=? a) && (a <=? 195) && (128 <=? b) && (b <=? 191)
               then option_map (String (letter (64 * (a - 192) + (b - 128)))) (decode r')
               else None
           | [] => None
           end
  end.

(** ** A song file: an archive with one member named Song.xml *)
Definition song_name : list Z := [83; 111; 110; 103; 46; 120; 109; 108].
Definition song_entry (d : list Z) : option (list Z) :=
  match unzip d with
  | Some l => match filter (fun m => if bytes_dec (fst m) song_name then true else false) l with
              | [m] => Some (snd m)
              | _ => None
              end
  | None => None
  end.

(** ** Files while they are written *)
(** Bytes [w] written at [o]. *)
Definition overwrite (c : list Z) (o : nat) (w : list Z) : list Z :=
  firstn o c ++ w ++ skipn (o + List.length w) c.
(** What is in a file with content [c] when the process is killed during the writes
    [ws]: the writes arrive in order, and the last of them perhaps only in part. *)
Inductive in_file : list Z -> list (Z * list Z) -> list Z -> Prop :=
| before_writing c ws : in_file c ws c
| while_writing c o p r ws : in_file c ((o, p ++ r) :: ws) (overwrite c (Z.to_nat o) p)
| after_writing c o w ws c' : in_file (overwrite c (Z.to_nat o) w) ws c' -> in_file c ((o, w) :: ws) c'.
