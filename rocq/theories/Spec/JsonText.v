(** A JSON reader (the subset without escapes, floats and null) and what the
    instrument file should say. *)
From Coq Require Import ZArith List Bool String Ascii.
From Verif.Model Require Import Config Json.
From Verif.Spec Require Import Text.
Import ListNotations.
Open Scope Z_scope.

Definition is_space (c : ascii) : bool :=
  existsb (Ascii.eqb c) (map ascii_of_nat [32; 9; 10; 13]%nat).
Fixpoint skip (s : string) : string :=
  match s with String c r => if is_space c then skip r else s | EmptyString => s end.
Definition dquote : ascii := ascii_of_nat 34.
(** The characters up to the closing quote; no escapes, no control characters. *)
Fixpoint string_body (s : string) : option (string * string) :=
  match s with
  | EmptyString => None
  | String c r =>
      if Ascii.eqb c dquote then Some (""%string, r)
      else if (nat_of_ascii c <? 32)%nat || Ascii.eqb c "\" then None
      else match string_body r with
           | Some (b, t) => Some (String c b, t)
           | None => None
           end
  end.
Definition number_char (c : ascii) : bool := existsb (Ascii.eqb c) (list_ascii_of_string "-0123456789").
Fixpoint number_body (s : string) : string * string :=
  match s with
  | String c r => if number_char c then let (b, t) := number_body r in (String c b, t) else (""%string, s)
  | EmptyString => (""%string, s)
  end.
Fixpoint expect (w s : string) : option string :=
  match w, s with
  | EmptyString, _ => Some s
  | String a w, String b s => if Ascii.eqb a b then expect w s else None
  | _, EmptyString => None
  end.

(** Recursive descent; [fuel] bounds the nesting and the number of elements. *)
Fixpoint value (fuel : nat) (s : string) : option (json * string) :=
  match fuel with
  | O => None
  | S f =>
      match skip s with
      | EmptyString => None
      | String c r =>
          if Ascii.eqb c dquote then option_map (fun p : string * string => (JStr (fst p), snd p)) (string_body r)
          else if Ascii.eqb c "[" then
            match skip r with
            | String d r' => if Ascii.eqb d "]" then Some (JList [], r')
                             else option_map (fun p : list json * string => (JList (fst p), snd p)) (elements f r)
            | EmptyString => None
            end
          else if Ascii.eqb c "{" then
            match skip r with
            | String d r' => if Ascii.eqb d "}" then Some (JObj [], r')
                             else option_map (fun p : list (string * json) * string => (JObj (fst p), snd p)) (members f r)
            | EmptyString => None
            end
          else if Ascii.eqb c "t" then option_map (fun r => (JBool true, r)) (expect "rue" r)
          else if Ascii.eqb c "f" then option_map (fun r => (JBool false, r)) (expect "alse" r)
          else
            let (b, t) := number_body (String c r) in
            match int_value b with Some n => Some (JInt n, t) | None => None end
      end
  end
with elements (fuel : nat) (s : string) : option (list json * string) :=
  match fuel with
  | O => None
  | S f =>
      match value f s with
      | None => None
      | Some (j, r) =>
          match skip r with
          | String c r' =>
              if Ascii.eqb c "," then
                match elements f r' with Some (l, t) => Some (j :: l, t) | None => None end
              else if Ascii.eqb c "]" then Some ([j], r')
              else None
          | EmptyString => None
          end
      end
  end
with members (fuel : nat) (s : string) : option (list (string * json) * string) :=
  match fuel with
  | O => None
  | S f =>
      match skip s with
      | String q r =>
          if Ascii.eqb q dquote then
            match string_body r with
            | None => None
            | Some (k, r1) =>
                match skip r1 with
                | String ":" r2 =>
                    match value f r2 with
                    | None => None
                    | Some (j, r3) =>
                        match skip r3 with
                        | String c r' =>
                            if Ascii.eqb c "," then
                              match members f r' with Some (l, t) => Some ((k, j) :: l, t) | None => None end
                            else if Ascii.eqb c "}" then Some ([(k, j)], r')
                            else None
                        | EmptyString => None
                        end
                    end
                | _ => None
                end
            end
          else None
      | EmptyString => None
      end
  end.
(** The value a whole text denotes: nothing but spaces may follow it. *)
Definition json_of_text (s : string) : option json :=
  match value (String.length s) s with
  | Some (j, r) => match skip r with EmptyString => Some j | _ => None end
  | None => None
  end.

(** ** Instruments *)
Definition member (k : string) (j : json) : option json :=
  match j with
  | JObj l => option_map snd (find (fun kv => String.eqb (fst kv) k) l)
  | _ => None
  end.
(** [j] has the integer / flag / text [x] under [k]. *)
Definition has_int (j : json) (k : string) (x : Z) : Prop := member k j = Some (JInt x).
Definition has_flag (j : json) (k : string) (x : bool) : Prop := member k j = Some (JBool x).
Definition has_text (j : json) (k : string) (x : string) : Prop := member k j = Some (JStr x).

Definition waveform_name (w : waveform) : string :=
  match w with SAW => "SAW" | SQUARE => "SQUARE" | TRIANGLE => "TRIANGLE" | NOISE => "NOISE" end%string.
(** The names of the set bits, separated by bars. *)
Definition operators_name (o : Z) : string :=
  String.concat "|"
    (map snd (filter (fun p => Z.testbit o (fst p))
                [(0, "MOD1"); (1, "CAR1"); (2, "MOD2"); (3, "CAR2")]%string)).

Definition shows_operator (j : json) (o : op_config) : Prop :=
  has_int j "tl" (total_level o) /\ has_int j "ar" (attack_rate o) /\ has_int j "d1r" (first_decay_rate o)
  /\ has_int j "d1l" (first_decay_level o) /\ has_int j "d2r" (second_decay_rate o)
  /\ has_int j "rr" (release_rate o) /\ has_int j "ks" (key_scale o) /\ has_int j "mul" (multiply o)
  /\ has_int j "dt1" (first_detune o) /\ has_int j "dt2" (second_detune o) /\ has_flag j "ase" (ase o).
Definition shows_base (j : json) (b : base_config) : Prop :=
  has_text j "waveform" (waveform_name (b_waveform b)) /\ has_int j "lfo" (b_lfo b)
  /\ has_int j "amp_md" (b_amp_md b) /\ has_int j "phs_md" (b_phs_md b).
(** The slots 0..3 of a channel are M1, M2, C1, C2. *)
Definition shows_channel (j : json) (c : chan_config) : Prop :=
  has_int j "feedback" (ch_fb c) /\ has_int j "connection" (ch_connection c) /\ has_int j "ams" (ch_ams c)
  /\ has_int j "pms" (ch_pms c) /\ has_flag j "noise" (ch_noise c) /\ has_int j "noise_freq" (ch_noise_freq c)
  /\ (exists m1 m2 c1 c2, ch_operators c = [m1; m2; c1; c2]
      /\ (exists x, member "m1" j = Some x /\ shows_operator x m1)
      /\ (exists x, member "m2" j = Some x /\ shows_operator x m2)
      /\ (exists x, member "c1" j = Some x /\ shows_operator x c1)
      /\ (exists x, member "c2" j = Some x /\ shows_operator x c2)).
Definition shows_config (j : json) (c : config) : Prop :=
  has_int j "id" (c_id c) /\ has_text j "operators" (operators_name (c_operators c))
  /\ (exists x, member "base" j = Some x /\ shows_base x (c_base c))
  /\ (exists x, member "channel" j = Some x /\ shows_channel x (c_channel c)).
