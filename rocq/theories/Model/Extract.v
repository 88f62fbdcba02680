(** Model of src/extractors.py. *)
From Coq Require Import SpecFloat.
From Verif.Model Require Import Py PyFloat Config Note State Ticks Song Json.

(** bpm computation, extractors.py:18-26. *)
Definition sample_freq : Z := 44100.
Definition notes_per_beat : Z := 4.
Definition line_count : Z := 64.
Definition channel_count : Z := 8.
Definition bpm_of (ticks_per_note : Z) : res Z :=
  let! note_length := true_div ticks_per_note sample_freq in        (* 23 *)
  let! four := float_of_int notes_per_beat in
  let beat_length := float_mul note_length four in                  (* 24 *)
  let! sixty := float_of_int 60 in
  let! bpm := float_div sixty beat_length in                        (* 25 *)
  int_of_float bpm.                                                 (* 26 *)

(** n // d and n % d: floor division, ZeroDivisionError. *)
Definition floor_div (n d : Z) : res Z := if d =? 0 then Err ZeroDivisionError else Ok (n / d).

(** The body of the note loop, extractors.py:30-44. *)
Definition instr_text (n : note) : option string :=                 (* 33-35 *)
  if 0 <=? n_config_id n then Some (hex02 (n_config_id n)) else None.
Definition pan_text (n : note) : option string :=                   (* 37-42 *)
  if negb (n_right n) || negb (n_left n)
  then (if n_right n then Some "00" else Some "F0")%string
  else None.
Definition place_note (tpn ch : Z) (p : pool) (n : note) : res pool :=
  let! total_row := floor_div (n_sample n) tpn in
  let row := total_row mod line_count in
  let pattern := total_row / line_count in
  let! nm := xrns_note n in
  add_note p pattern ch row nm (instr_text n) (pan_text n).

Fixpoint foldM {A B} (f : A -> B -> res A) (l : list B) (a : A) : res A :=
  match l with [] => Ok a | x :: r => let! a := f a x in foldM f r a end.

(** The two nested for loops, extractors.py:28-44. *)
Definition place_channel (s : state) (tpn : Z) (p : pool) (ch : Z) : res pool :=
  let! kp := key_presses s ch in
  foldM (place_note tpn ch) kp p.

(** extract_tracks_to_xrns, extractors.py:13-47: the song handed to the writer
    (49-50 are in Main.v). *)
Definition build_song (s : state) (tpn : Z) : res song :=
  let sg := song_new 8 (len (s_configs s)) 64 in                    (* 16; lines default song.py:12 *)
  let! bpm := bpm_of tpn in
  let g := set_bpm (sg_globals sg) bpm in
  let! p := foldM (place_channel s tpn) (py_range 0 channel_count) (sg_pool sg) in
  let sq := fold_left add_pattern (py_range 0 (len (pp_patterns p))) (sg_sequence sg) in  (* 46-47 *)
  Ok (mksong g (sg_instruments sg) (sg_tracks sg) p sq).

(** extract_instruments, extractors.py:116-121: the text written. *)
Definition instruments_text (s : state) : res string :=
  let! js := mapM config_json (s_configs s) in
  Ok (dumps 0 (JList js) ++ newline)%string.
