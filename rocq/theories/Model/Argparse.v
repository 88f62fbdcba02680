(** The command line: main.py:47-64, i.e. argparse's parse_args (standard library,
    CPython 3.11; "ap" below) for the parser that main.py declares, then the call
    of main.  Simplifications: words are ASCII (non-ASCII digits and blanks, which
    int() and the regular expression \d also accept, are not treated as such);
    the wording of usage, help and error messages is not modelled, only that the
    process ends there: status 0 after help (standard output), status 2 after an
    error (standard error). *)
From Verif.Model Require Import Py Main.

(** The four actions with option strings and the positional: main.py:48-60; -h is
    added by ArgumentParser itself. *)
Inductive action := AHelp | AInstrument | ATrack | ATicks.
(** parser._option_string_actions, in order of declaration. *)
Definition option_strings : list (string * action) :=
  [("-h", AHelp); ("--help", AHelp); ("-i", AInstrument); ("--instrument", AInstrument);
   ("-t", ATrack); ("--track", ATrack); ("-tn", ATicks); ("--ticks-per-note", ATicks)]%string.
(** Does the action take an argument?  nargs=None, and nargs=0 for help. *)
Definition takes_argument (a : action) : bool := match a with AHelp => false | _ => true end.

Definition find_option (s : string) : option action := dict_get String.eqb option_strings s.

(** str.partition("="): the part before, and the part after if there is one. *)
Fixpoint partition_eq (s : string) : string * option string :=
  match s with
  | EmptyString => (EmptyString, None)
  | String c r =>
      if Ascii.eqb c "=" then (EmptyString, Some r)
      else let (a, b) := partition_eq r in (String c a, b)
  end.

(** One interpretation of a word as an option: the action (None: no such option),
    the option string, the separator and the explicit argument. *)
Record opt := mkopt { o_action : option action; o_string : string; o_sep : option string; o_arg : option string }.

(** _get_option_tuples, ap 2300-2340. *)
Definition option_tuples (w : string) : list opt :=
  match w with
  | String c0 (String c1 rest) =>
      if Ascii.eqb c1 "-" then
        let (name, arg) := partition_eq w in
        let sep := match arg with Some _ => Some "="%string | None => None end in
        map (fun oa => mkopt (Some (snd oa)) (fst oa) sep arg)
          (filter (fun oa => prefix name (fst oa)) option_strings)
      else
        flat_map (fun oa =>
          if String.eqb (fst oa) (String c0 (String c1 "")) then [mkopt (Some (snd oa)) (fst oa) (Some ""%string) (Some rest)]
          else if prefix w (fst oa) then [mkopt (Some (snd oa)) (fst oa) None None]
          else []) option_strings
  | _ => []                                  (* not reached: the word has two characters *)
  end.

(** ^-\d+$|^-\d*\.\d+$, ap 1386; $ also matches before a final newline. *)
Definition is_digit (c : ascii) : bool :=
  let n := nat_of_ascii c in (48 <=? n)%nat && (n <=? 57)%nat.
Definition at_end (s : string) : bool :=
  match s with
  | EmptyString => true
  | String c EmptyString => (nat_of_ascii c =? 10)%nat
  | _ => false
  end.
(* \d+$ *)
Fixpoint digits_to_end (s : string) : bool :=
  match s with
  | String c r => is_digit c && (at_end r || digits_to_end r)
  | EmptyString => false
  end.
(* \d*\.\d+$ *)
Fixpoint point_digits (s : string) : bool :=
  match s with
  | String c r => if Ascii.eqb c "." then digits_to_end r else is_digit c && point_digits r
  | EmptyString => false
  end.
Definition negative_number (w : string) : bool :=
  match w with
  | String c r => Ascii.eqb c "-" && (digits_to_end r || point_digits r)
  | EmptyString => false
  end.
Fixpoint has_space (s : string) : bool :=
  match s with EmptyString => false | String c r => Ascii.eqb c " " || has_space r end.

(** _parse_optional, ap 2243-2298. *)
Inductive word_class := WArgument | WOption (o : opt) | WAmbiguous.
Definition parse_optional (w : string) : word_class :=
  match w with
  | EmptyString => WArgument                                             (* 2245 *)
  | String c r =>
      if negb (Ascii.eqb c "-") then WArgument                           (* 2249 *)
      else
        match find_option w with                                         (* 2253 *)
        | Some a => WOption (mkopt (Some a) w None None)
        | None =>
            match r with
            | EmptyString => WArgument                                   (* 2258 *)
            | _ =>
                let by_tuples :=
                  match option_tuples w with                             (* 2269 *)
                  | _ :: _ :: _ => WAmbiguous                            (* 2272-2277 *)
                  | [o] => WOption o                                     (* 2281 *)
                  | [] =>
                      if negative_number w then WArgument                (* 2288 *)
                      else if has_space w then WArgument                 (* 2293 *)
                      else WOption (mkopt None w None None)              (* 2298 *)
                  end in
                match partition_eq w with                                (* 2262 *)
                | (name, Some arg) =>
                    match find_option name with
                    | Some a => WOption (mkopt (Some a) name (Some "="%string) (Some arg))
                    | None => by_tuples
                    end
                | (_, None) => by_tuples
                end
            end
        end
  end.

(** The pattern of the words: 'A', 'O' and '-', ap 1935-1960.  None: an ambiguous
    option, an error before anything is done. *)
Inductive token := TArg (w : string) | TOpt (w : string) (o : opt) | TDash.
Fixpoint tokens (ws : list string) : option (list token) :=
  match ws with
  | [] => Some []
  | w :: r =>
      if String.eqb w "--" then Some (TDash :: map TArg r)
      else
        match parse_optional w with
        | WAmbiguous => None
        | WArgument => option_map (cons (TArg w)) (tokens r)
        | WOption o => option_map (cons (TOpt w o)) (tokens r)
        end
  end.

(** int(text): blanks, a sign, decimal digits with single underscores between them,
    blanks; at most 4300 digits. *)
Definition is_blank (c : ascii) : bool :=
  let n := nat_of_ascii c in (n =? 32)%nat || ((9 <=? n)%nat && (n <=? 13)%nat).
Fixpoint skip_blanks (s : string) : string :=
  match s with String c r => if is_blank c then skip_blanks r else s | EmptyString => s end.
(* digits read so far: value and number; [after_digit]: the last character was a digit *)
Fixpoint int_digits (s : string) (after_digit : bool) (value : Z) (count : Z) : option Z :=
  match s with
  | EmptyString => if after_digit && (count <=? 4300) then Some value else None
  | String c r =>
      if is_digit c then int_digits r true (10 * value + (Z.of_nat (nat_of_ascii c) - 48)) (count + 1)
      else if Ascii.eqb c "_" then if after_digit then int_digits r false value count else None
      else match skip_blanks s with
           | EmptyString => if after_digit && (count <=? 4300) then Some value else None
           | _ => None
           end
  end.
Definition int_of_text (s : string) : option Z :=
  match skip_blanks s with
  | String c r =>
      if Ascii.eqb c "+" then int_digits r false 0 0
      else if Ascii.eqb c "-" then option_map Z.opp (int_digits r false 0 0)
      else int_digits (String c r) false 0 0
  | EmptyString => None
  end.

(** The Namespace: file, instrument, track, ticks_per_note. *)
Record arguments := mkargs {
  a_file : option string; a_instrument : option string; a_track : option string; a_ticks : option Z }.
Definition no_arguments : arguments := mkargs None None None None.

(** What parse_args ends with. *)
Inductive parsed := Parsed (a : arguments) | Exit (status : Z).

(** take_action for an option, ap 1966-1985 and the Store action / the help action
    (which prints and exits). *)
Inductive taken := Taken (a : arguments) | Leaves (status : Z).
Definition take_option (a : action) (v : option string) (ns : arguments) : taken :=
  match a, v with
  | AHelp, _ => Leaves 0
  | AInstrument, Some s => Taken (mkargs (a_file ns) (Some s) (a_track ns) (a_ticks ns))
  | ATrack, Some s => Taken (mkargs (a_file ns) (a_instrument ns) (Some s) (a_ticks ns))
  | ATicks, Some s =>
      match int_of_text s with
      | Some n => Taken (mkargs (a_file ns) (a_instrument ns) (a_track ns) (Some n))
      | None => Leaves 2                                                 (* invalid int value *)
      end
  | _, None => Leaves 2                                                  (* not reached *)
  end.

(** consume_optional, ap 1988-2061, once the explicit argument is known: which
    actions are taken, or an error.  [helps]: help actions collected so far (from
    -hi, say).  The result: the final action with its argument ([CFollow]: the
    argument is the next word; [CNone]: none needed). *)
Inductive consumed :=
| CError                                   (* ArgumentError *)
| CHelp                                    (* help is (the first) among the actions taken *)
| CValue (a : action) (v : string)
| CFollow (helped : bool) (a : action).
Fixpoint consume_explicit (helped : bool) (a : action) (double_dash : bool) (sep : bool) (e : string) : consumed :=
  if takes_argument a then (if helped then CHelp else CValue a e)        (* 2036-2040 *)
  else
    match e with
    | String c r =>
        if double_dash then CError                                       (* 2044-2046 *)
        else if sep || Ascii.eqb c "-" then CError                       (* 2014-2016 *)
        else
          match find_option (String "-" (String c "")) with              (* 2018-2021 *)
          | Some a' =>
              match r with
              | EmptyString => CFollow true a'                           (* 2023-2024 *)
              | String "=" r' => 
                  (* the while loop again, with sep = "=" (2025-2027) *)
                  if takes_argument a' then CHelp else CError
              | _ => consume_explicit true a' false false r              (* 2028-2029 *)
              end
          | None => CHelp                                                (* 2030-2033: taken, then break *)
          end
    | EmptyString => CError                                              (* -h= : 2044-2046 *)
    end.
Definition second_dash (s : string) : bool :=
  match s with String _ (String c _) => Ascii.eqb c "-" | _ => false end.
Definition consume_optional (o : opt) (a : action) : consumed :=
  match o_arg o with
  | Some e => consume_explicit false a (second_dash (o_string o))
                (match o_sep o with Some s => negb (String.eqb s "") | None => false end) e
  | None => CFollow false a
  end.

(** consume_positionals, ap 2067-2085: the pattern -*A-* for the one positional
    [file], if it is still to be filled. *)
Fixpoint skip_dashes (ts : list token) : list token :=
  match ts with TDash :: r => skip_dashes r | _ => ts end.
Definition take_positional (ns : arguments) (ts : list token) : option (arguments * list token) :=
  match a_file ns with
  | Some _ => None
  | None =>
      match skip_dashes ts with
      | TArg w :: r => Some (mkargs (Some w) (a_instrument ns) (a_track ns) (a_ticks ns), skip_dashes r)
      | _ => None
      end
  end.
Definition has_option (ts : list token) : bool :=
  existsb (fun t => match t with TOpt _ _ => true | _ => false end) ts.
Fixpoint skip_to_option (ts : list token) : list token :=
  match ts with TOpt _ _ :: _ => ts | _ :: r => skip_to_option r | [] => [] end.

(** The loop, ap 2089-2125, and the end, 2127-2161.  [extras]: were there any? *)
Fixpoint parse_loop (fuel : nat) (ts : list token) (ns : arguments) (extras : bool) : parsed :=
  match fuel with
  | O => Exit (-1)                                                       (* never: proved *)
  | S k =>
      if has_option ts then                                              (* 2096 *)
        let at_option (ts : list token) (extras : bool) :=
          match ts with
          | TOpt w o :: r =>
              match o_action o with
              | None => parse_loop k r ns true                           (* 2002-2004 *)
              | Some a =>
                  match consume_optional o a with
                  | CError => Exit 2
                  | CHelp => Exit 0
                  | CValue a v =>
                      match take_option a (Some v) ns with
                      | Taken ns => parse_loop k r ns extras
                      | Leaves n => Exit n
                      end
                  | CFollow helped a =>
                      if takes_argument a then                           (* 2051-2056 *)
                        match r with
                        | TArg v :: r' =>
                            if helped then Exit 0
                            else match take_option a (Some v) ns with
                                 | Taken ns => parse_loop k r' ns extras
                                 | Leaves n => Exit n
                                 end
                        | _ => Exit 2                                    (* expected one argument *)
                        end
                      else Exit 0                                        (* help *)
                  end
              end
          | _ => Exit (-1)                                               (* never: proved *)
          end in
        match ts with
        | TOpt _ _ :: _ => at_option ts extras                           (* 2104, 2125 *)
        | _ =>
            match take_positional ns ts with                             (* 2105-2112 *)
            | Some (ns, ts) => parse_loop k ts ns extras
            | None => at_option (skip_to_option ts) true                 (* 2118-2122 *)
            end
        end
      else
        let '(ns, ts) := match take_positional ns ts with                (* 2128 *)
                         | Some x => x
                         | None => (ns, ts)
                         end in
        match a_file ns with
        | None => Exit 2                                                 (* 2154: file is required *)
        | Some _ => match ts with                                        (* 2131; parse_args 1873-1876 *)
                    | [] => if extras then Exit 2 else Parsed ns
                    | _ => Exit 2
                    end
        end
  end.

(** parser.parse_args(argv[1:]), main.py:62. *)
Definition parse_args (ws : list string) : parsed :=
  match tokens ws with
  | None => Exit 2
  | Some ts => parse_loop (S (length ts)) ts no_arguments false
  end.

(** python main.py ws: the effects, and the exit status: 1 if an exception leaves
    main (traceback on standard error). *)
Definition run_script (gunzip : list Z -> res (list Z)) (contents : string -> option (list Z))
  (writable : string -> bool) (stdin_error : option exn) (ws : list string) : list effect * Z :=
  match parse_args ws with
  | Exit n => ([], n)
  | Parsed a =>
      match a_file a with
      | None => ([], 2)                                                  (* not reached *)
      | Some f =>
          match main gunzip contents writable stdin_error true f (a_instrument a) (a_track a) (a_ticks a) with
          | (eff, Ok _) => (eff, 0)
          | (eff, Err _) => (eff, 1)
          end
      end
  end.
