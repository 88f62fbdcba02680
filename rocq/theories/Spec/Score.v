(** Scores: what a music driver plays, which register writes it makes for that, and
    the file it logs.  From the register map of the chip and the VGM format. *)
From Coq Require Import ZArith List Bool String Sorted.
From Verif.Model Require Import Config Note Song Serializer History.
From Verif.Spec Require Import VgmFormat Ym2151 Tracker Rhythm.
Import ListNotations.
Open Scope Z_scope.
Open Scope list_scope.

(** A step of a score: a rest in samples, a note on a channel with its sound, the
    operators switched on and its pitch and panning, the end of a channel's note,
    another pitch while nothing is keyed, or another setting of the LFO. *)
Inductive step :=
| Rest (n : Z)
| Play (ch : Z) (c : chan_config) (ops : Z) (p : note_config)
| Stop (ch : Z)
| Bend (ch o n k : Z)
| Lfo (b : base_config).

(** ** The register writes *)
Definition one_bit (b : bool) : Z := if b then 1 else 0.
Definition wave_no (w : waveform) : Z := match w with SAW => 0 | SQUARE => 1 | TRIANGLE => 2 | NOISE => 3 end.
(** The six registers of one operator, at slot 8 * operator + channel. *)
Definition load_op (slot : Z) (o : op_config) : history :=
  [Apply (0x40 + slot) (16 * first_detune o + multiply o);
   Apply (0x60 + slot) (total_level o);
   Apply (0x80 + slot) (64 * key_scale o + attack_rate o);
   Apply (0xA0 + slot) (128 * one_bit (ase o) + first_decay_rate o);
   Apply (0xC0 + slot) (64 * second_detune o + second_decay_rate o);
   Apply (0xE0 + slot) (16 * first_decay_level o + release_rate o)].
Definition load (ch : Z) (c : chan_config) (p : note_config) : history :=
  [Apply (0x20 + ch) (128 * one_bit (nc_right p) + 64 * one_bit (nc_left p) + 8 * ch_fb c + ch_connection c);
   Apply (0x28 + ch) (16 * nc_octave p + nc_note p);
   Apply (0x30 + ch) (4 * nc_key_fraction p);
   Apply (0x38 + ch) (16 * ch_pms c + ch_ams c)]
  ++ flat_map (fun i => load_op (8 * Z.of_nat i + ch) (nth i (ch_operators c) op_init)) [0; 1; 2; 3]%nat
  ++ (if ch =? 7 then [Apply 0x0F (128 * one_bit (ch_noise c) + ch_noise_freq c)] else []).
Definition load_lfo (b : base_config) : history :=
  [Apply 0x18 (b_lfo b); Apply 0x19 (b_amp_md b); Apply 0x19 (128 + b_phs_md b); Apply 0x1B (wave_no (b_waveform b))].
Definition bend (ch o n k : Z) : history := [Apply (0x28 + ch) (16 * o + n); Apply (0x30 + ch) (4 * k)].
Definition play_step (x : step) : history :=
  match x with
  | Rest n => [Beat n]
  | Play ch c ops p => load ch c p ++ [Apply 0x08 (8 * ops + ch)]
  | Stop ch => [Apply 0x08 ch]
  | Bend ch o n k => bend ch o n k
  | Lfo b => load_lfo b
  end.
(** The LFO is set up in front. *)
Definition performance (b : base_config) (sc : list step) : history := load_lfo b ++ flat_map play_step sc.

(** ** Which scores can be played *)
Definition op_fits (o : op_config) : Prop :=
  0 <= total_level o < 128 /\ 0 <= attack_rate o < 32 /\ 0 <= first_decay_rate o < 32 /\ 0 <= first_decay_level o < 16
  /\ 0 <= second_decay_rate o < 16 /\ 0 <= release_rate o < 16 /\ 0 <= key_scale o < 4 /\ 0 <= multiply o < 16
  /\ 0 <= first_detune o < 8 /\ 0 <= second_detune o < 4.
Definition chan_fits (ch : Z) (c : chan_config) : Prop :=
  List.length (ch_operators c) = 4%nat /\ Forall op_fits (ch_operators c) /\ 0 <= ch_fb c < 8 /\ 0 <= ch_ams c < 4
  /\ 0 <= ch_pms c < 8 /\ 0 <= ch_connection c < 8 /\ 0 <= ch_noise_freq c < 32
  /\ (ch <> 7 -> ch_noise c = false /\ ch_noise_freq c = 0).
Definition pitch_fits (p : note_config) : Prop :=
  0 <= nc_octave p < 8 /\ 0 <= nc_note p < 16 /\ 0 <= nc_key_fraction p < 64.
Definition lfo_fits (b : base_config) : Prop :=
  0 <= b_lfo b < 256 /\ 0 <= b_amp_md b < 128 /\ 0 <= b_phs_md b < 128.
Definition step_fits (x : step) : Prop :=
  match x with
  | Rest n => 0 <= n < 65536
  | Play ch c ops p => 0 <= ch < 8 /\ chan_fits ch c /\ 0 < ops < 16 /\ pitch_fits p
  | Stop ch => 0 <= ch < 8
  | Bend ch o n k => 0 <= ch < 8 /\ 0 <= o < 8 /\ 0 <= n < 16 /\ 0 <= k < 64
  | Lfo b => lfo_fits b
  end.
(** A score begins with a rest (see C23 about key-ons at the very beginning). *)
Definition score_fits (sc : list step) : Prop :=
  Forall step_fits sc /\ exists n r, sc = Rest n :: r /\ 0 < n.

(** ** What is heard *)
(** An event: when, on which channel, the sound (None for the end of a note), and the
    pitch and panning the channel has. *)
Record event := mkevent { ev_time : Z; ev_chan : Z; ev_sound : option settings; ev_pitch : note_config }.
(** The pitch is another one, the panning stays. *)
Definition bent (p : note_config) (o n k : Z) : note_config := mknc (nc_right p) (nc_left p) o n k.
Fixpoint events (b : base_config) (t : Z) (has : Z -> note_config) (sc : list step) : list event :=
  match sc with
  | [] => []
  | Rest n :: r => events b (t + n) has r
  | Play ch c ops p :: r =>
      mkevent t ch (Some (mksettings b c ops)) p :: events b t (fun x => if x =? ch then p else has x) r
  | Stop ch :: r => mkevent t ch None (has ch) :: events b t has r
  | Bend ch o n k :: r => events b t (fun x => if x =? ch then bent (has ch) o n k else has x) r
  | Lfo b' :: r => events b' t has r
  end.
Definition score_events (b : base_config) (sc : list step) : list event := events b 0 (fun _ => nc_init) sc.
(** The different sounds in order of first use. *)
Definition sounds (b : base_config) (sc : list step) : list settings :=
  fold_left add_new (flat_map (fun e => match ev_sound e with Some x => [x] | None => [] end) (score_events b sc)) [].
(** The notes of a channel: all its events from the first note of the score on. *)
Definition score_notes (b : base_config) (sc : list step) (ch : Z) : list note :=
  map (fun e => mknote (match ev_sound e with Some x => index_of x (sounds b sc) | None => -1 end)
         (nc_right (ev_pitch e)) (nc_left (ev_pitch e)) (nc_octave (ev_pitch e)) (nc_note (ev_pitch e))
         (nc_key_fraction (ev_pitch e)) (ev_time e))
    (filter (fun e => ev_chan e =? ch)
       (drop_until (fun e => match ev_sound e with Some _ => true | None => false end) (score_events b sc))).
(** The document shows the score with rows of [t] samples. *)
Definition score_shown (b : base_config) (sc : list step) (t : Z) (doc : x_song) : Prop :=
  g_beats_per_min (xs_globals doc) = tempo t
  /\ List.length (xs_instruments doc) = List.length (sounds b sc)
  /\ forall ch p l, 0 <= ch < 8 -> 0 <= p -> 0 <= l < 64 ->
     match last_event t (score_notes b sc ch) (64 * p + l) with
     | None => cell doc p ch l = None
     | Some n => exists c, cell doc p ch l = Some c /\ displays n c
     end.

(** How long a part of a score lasts, the LFO setting after it, and whether a step is a
    key event of a channel. *)
Definition lasts (sc : list step) : Z := fold_right (fun x a => match x with Rest n => n + a | _ => a end) 0 sc.
Definition lfo_after (b : base_config) (sc : list step) : base_config :=
  fold_left (fun b x => match x with Lfo b' => b' | _ => b end) sc b.
Definition concerns (ch : Z) (x : step) : Prop := match x with Play c _ _ _ => c = ch | Stop c => c = ch | _ => False end.
(** After [t] samples, no key event of [ch] in [sc] is in the row it begins in. *)
Definition row_kept (rl t ch : Z) (sc : list step) : Prop :=
  forall r1 x r2, sc = r1 ++ x :: r2 -> concerns ch x -> (t + lasts r1) / rl <> t / rl.

(** The row length: the one asked for, or the best guess for the times of the notes
    that begin before sample 32000. *)
Inductive score_row (b : base_config) (sc : list step) : option Z -> Z -> Prop :=
| score_given n : n <> 0 -> score_row b sc (Some n) n
| score_guessed o T t : o = None \/ o = Some 0 -> StronglySorted Z.lt T ->
    (forall x, In x T <-> x < 32000 /\ exists e, In e (score_events b sc) /\ ev_sound e <> None /\ ev_time e = x) ->
    best T t -> score_row b sc o t.

(** ** The file *)
Definition op_of_call (c : call) : vgm_op := match c with Apply r v => OpYm2151 r v | Beat n => OpWait n end.
(** Any header that says the commands follow it. *)
Definition header_fits (head : list Z) : Prop :=
  bytes head /\ (64 <= List.length head)%nat /\ has_ident head /\ data_offset head = Z.of_nat (List.length head).
(** The header, the commands, the end mark. *)
Definition score_file (head : list Z) (b : base_config) (sc : list step) : list Z :=
  head ++ flat_map encode (map op_of_call (performance b sc) ++ [OpEnd]).
