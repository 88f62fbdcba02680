(** Model of src/vgm/ym2151/note.py. *)
From Coq Require Import SpecFloat.
From Verif.Model Require Import Py PyFloat Config.

(** Note.__init__, note.py:45-53: copies the note configuration's fields. *)
Record note := mknote {
  n_config_id : Z; n_right : bool; n_left : bool; n_octave : Z; n_note : Z;
  n_key_fraction : Z; n_sample : Z }.
Definition note_new (config_id : Z) (nc : note_config) (sample : Z) : note :=
  mknote config_id (nc_right nc) (nc_left nc) (nc_octave nc) (nc_note nc)
    (nc_key_fraction nc) sample.

(** _NOTE_LOOKUP, note.py:6-23 (dict with the keys 0..15 = position in the list). *)
Definition note_lookup : list string :=
  ["C#"; "D "; "D#"; "D?"; "E "; "F "; "F#"; "F?"; "G "; "G#"; "A "; "A?"; "A#";
   "B "; "C "; "C?"]%string.
(** _NOTE_LOOKUP_XRNS, note.py:25-42. *)
Definition note_lookup_xrns : list string :=
  ["C#"; "D-"; "D#"; "D#"; "E-"; "F-"; "F#"; "F#"; "G-"; "G#"; "A-"; "A#"; "A#";
   "B-"; "C-"; "C#"]%string.
(** d[k] for those dicts: KeyError outside 0..15 (a negative key is a KeyError,
    not an index from the end). *)
Definition lookup (d : list string) (k : Z) : res string :=
  if k <? 0 then Err KeyError
  else match nth_error d (Z.to_nat k) with Some s => Ok s | None => Err KeyError end.

(** kf * 1.6 as a binary64 product (1.6 = 7205759403792794 * 2^-52), note.py:61. *)
Definition float_1_6 : pyfloat := S754_finite false 7205759403792794 (-52).
(** "{:02.0f}".format(x), note.py:61, for a finite x >= 0: the exact value of x
    rounded to an integer, halves to even; at least two characters. *)
Definition round_half_even (x : pyfloat) : Z :=
  match x with
  | S754_finite false m e =>
      if 0 <=? e then Z.shiftl (Zpos m) e
      else
        let d := Z.shiftl 1 (- e) in
        let q := Zpos m / d in
        let r := 2 * (Zpos m mod d) in
        if r <? d then q else if d <? r then q + 1
        else if Z.even q then q else q + 1
  | _ => 0
  end.
Definition format_02_0f (x : pyfloat) : string :=
  let s := str_int (round_half_even x) in
  if (String.length s <? 2)%nat then String "0" s else s.
(** kf = "-{:02.0f}".format(self.key_fraction * 1.6), note.py:61. *)
Definition kf_text (kf : Z) : res string :=
  let! x := float_of_int kf in
  Ok (String "-" (format_02_0f (float_mul x float_1_6))).

(** Note.__str__, note.py:55-65. *)
Definition note_str (n : note) : res string :=
  if n_config_id n <? 0 then Ok "Key Off"%string
  else
    let! nm := lookup note_lookup (n_note n) in
    let! kf := if 1 <? n_key_fraction n then kf_text (n_key_fraction n) else Ok ""%string in
    let pan := if negb (n_right n) || negb (n_left n)
               then ("Pan " ++ (if n_right n then "R" else "L"))%string else ""%string in
    Ok (nm ++ "-" ++ str_int (n_octave n) ++ kf ++ " [" ++ str_int (n_config_id n)
        ++ "] " ++ pan)%string.

(** Note.xrns_note, note.py:67-75. *)
Definition xrns_note (n : note) : res string :=
  if n_config_id n <? 0 then Ok "Off"%string
  else
    let! nm := lookup note_lookup_xrns (n_note n) in
    let octave := if n_note n =? 14 then n_octave n + 1 else n_octave n in
    Ok (nm ++ str_int octave)%string.
