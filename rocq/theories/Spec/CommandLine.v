(** The command lines that are accepted, and what they mean; written without
    reference to how argparse finds out. *)
From Coq Require Import ZArith List Bool String Ascii.
From Verif.Spec Require Import Text.
Import ListNotations.
Open Scope Z_scope.

Inductive key := Help | Instrument | Track | Ticks.
Definition short_name (k : key) : string :=
  match k with Help => "-h" | Instrument => "-i" | Track => "-t" | Ticks => "-tn" end.
Definition long_name (k : key) : string :=
  match k with Help => "--help" | Instrument => "--instrument" | Track => "--track"
             | Ticks => "--ticks-per-note" end.
Definition begins (a s : string) : Prop := exists r, s = (a ++ r)%string.
(** [n] names the option: its short name, its long name, or a beginning of the long
    name that is no beginning of another one. *)
Definition names (n : string) (k : key) : Prop :=
  n = short_name k \/ (begins n (long_name k) /\ forall k', begins n (long_name k') -> k' = k).
(** Option and value in one word: --track=song, -t=song, -tsong.  (-tn5 is the last
    form, with the song file n5.) *)
Inductive joined : string -> key -> string -> Prop :=
| joined_eq n k v : names n k -> joined (n ++ "=" ++ v) k v
| joined_instrument v : v <> ""%string -> ~ begins "=" v -> joined ("-i" ++ v) Instrument v
| joined_track v : v <> ""%string -> ~ begins "=" v -> v <> "n"%string -> ~ begins "n=" v ->
    joined ("-t" ++ v) Track v.

(** Text like -5, -5.5 or -.5 (a final newline does not matter). *)
Definition all_digits (s : string) : Prop :=
  forall c, In c (list_ascii_of_string s) -> (48 <= nat_of_ascii c <= 57)%nat.
Definition negative_text (w : string) : Prop :=
  exists a e, (e = ""%string \/ e = String (ascii_of_nat 10) "") /\
    ((w = "-" ++ a ++ e /\ a <> "" /\ all_digits a)%string
     \/ exists b, (w = "-" ++ a ++ "." ++ b ++ e /\ b <> "" /\ all_digits a /\ all_digits b)%string).
(** Words that look like options: -h..., -i..., -t..., and --x where x, up to a "=",
    is a beginning of a long name. *)
Definition looks_like_option (w : string) : Prop :=
  begins "-h" w \/ begins "-i" w \/ begins "-t" w
  \/ exists n k, begins n (long_name k) /\ begins "--" n /\ (w = n \/ begins (n ++ "=") w).
(** A word that is an argument: the file, or the value after an option. *)
Definition argument (w : string) : Prop :=
  ~ begins "-" w \/ w = "-"%string
  \/ (~ looks_like_option w /\ (negative_text w \/ exists a b, w = (a ++ " " ++ b)%string)).

(** What int() accepts: 12, +12, -12, 1_000, with blanks around. *)
Definition blank (s : string) : Prop :=
  forall c, In c (list_ascii_of_string s) -> (nat_of_ascii c = 32 \/ 9 <= nat_of_ascii c <= 13)%nat.
Inductive digit_groups : string -> string -> Prop :=
| one_group d : d <> ""%string -> all_digits d -> digit_groups d d
| more_groups d s ds : d <> ""%string -> all_digits d -> digit_groups s ds ->
    digit_groups (d ++ "_" ++ s) (d ++ ds).
Fixpoint decimal_value (s : string) (acc : Z) : Z :=
  match s with EmptyString => acc | String c r => decimal_value r (10 * acc + (Z.of_nat (nat_of_ascii c) - 48)) end.
Inductive int_text : string -> Z -> Prop :=
| int_text_of a sign body ds b : blank a -> blank b -> digit_groups body ds -> (String.length ds <= 4300)%nat ->
    sign = ""%string \/ sign = "+"%string \/ sign = "-"%string ->
    int_text (a ++ sign ++ body ++ b)
      (if string_dec sign "-" then - decimal_value ds 0 else decimal_value ds 0).

(** The items of a command line. *)
Inductive item := IFile (f : string) | IInstrument (f : string) | ITrack (f : string) | ITicks (n : Z).
Inductive value : key -> string -> item -> Prop :=
| value_instrument v : value Instrument v (IInstrument v)
| value_track v : value Track v (ITrack v)
| value_ticks v n : int_text v n -> value Ticks v (ITicks n).
Inductive line : list string -> list item -> Prop :=
| line_nil : line [] []
| line_file w r its : argument w -> line r its -> line (w :: r) (IFile w :: its)
| line_joined w k v it r its : joined w k v -> value k v it -> line r its -> line (w :: r) (it :: its)
| line_follow w k v it r its : names w k -> argument v -> value k v it -> line r its -> line (w :: v :: r) (it :: its)
| line_dashes w r : line ("--"%string :: w :: r) (map IFile (w :: r))      (* after --, everything is an argument *)
| line_end w : argument w -> line [w; "--"%string] [IFile w].              (* an idle -- after the file *)

Fixpoint files (its : list item) : list string :=
  match its with [] => [] | IFile f :: r => f :: files r | _ :: r => files r end.
(** The last one counts. *)
Fixpoint last_given {A} (pick : item -> option A) (its : list item) (sofar : option A) : option A :=
  match its with
  | [] => sofar
  | it :: r => last_given pick r (match pick it with Some x => Some x | None => sofar end)
  end.
Definition accepted (ws : list string) (f : string) (instr track : option string) (ticks : option Z) : Prop :=
  exists its, line ws its /\ files its = [f]
    /\ instr = last_given (fun it => match it with IInstrument x => Some x | _ => None end) its None
    /\ track = last_given (fun it => match it with ITrack x => Some x | _ => None end) its None
    /\ ticks = last_given (fun it => match it with ITicks x => Some x | _ => None end) its None.

(** A word that asks for help: -h..., --h, --help... *)
Definition help_word (w : string) : Prop := begins "-h" w \/ names w Help.
(** A word with several readings: --, --t or these with a value. *)
Definition ambiguous (w : string) : Prop :=
  exists n, begins "--" n /\ (w = n \/ begins (n ++ "=") w)
    /\ exists k k', k <> k' /\ begins n (long_name k) /\ begins n (long_name k').
