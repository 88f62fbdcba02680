(** How a run of "main" ends: every way, and the condition for it. *)
From Coq Require Import ZArith List Bool String.
From Verif.Model Require Import Py Command Core Config Note Zip History Main MainBytes.
From Verif.Spec Require Import VgmFormat Ym2151 Rhythm Cli Whole.
Import ListNotations.
Open Scope list_scope.
Open Scope Z_scope.

Section Ends.
  Variable gunzip : list Z -> res (list Z).
  Variable contents : string -> option (list Z).
  Variable writable : string -> bool.
  Variable stdin_error : option exn.
  Variable now : clock.
  Variable name : string.
  Variable instr track : option string.
  Variable tpn : option Z.

  (** The commands of the recording in the input file, in the original or unpacked. *)
  Definition recording (p : list Z) : list Z := skipn (Z.to_nat (data_offset p)) p.
  (** The input, unpacked, is [r]: bytes, or the decompressor's exception. *)
  Definition input (r : res (list Z)) : Prop :=
    file_name name /\ exists d, contents name = Some d /\ content gunzip d r.
  (** The input is a recording with the commands [cs]. *)
  Definition input_read (cs : list vcmd) : Prop :=
    file_name name /\ exists d, contents name = Some d /\ readable gunzip d cs.
  (** ... and writing the instruments succeeds, or was not asked for. *)
  Definition instruments_done (cs : list vcmd) : Prop :=
    input_read cs /\ forall i, instr = Some i -> file_name i -> writable i = true.
  (** ... and a song is to be written to [f], with rows of [rl] samples. *)
  Definition song_wanted (cs : list vcmd) (f : string) (rl : Z) : Prop :=
    instruments_done cs /\ track = Some f /\ f <> ""%string /\ row_length (calls_of cs) tpn rl.
  (** ... which is possible with rows of that length. *)
  Definition song_possible (cs : list vcmd) (rl : Z) : Prop :=
    Z.abs rl < float_limit /\ (rl < 0 -> all_notes (calls_of cs) = []).

  Inductive ends : outcome -> Prop :=
  (* reading *)
  | no_input : file_name name -> contents name = None -> ends (Failed OSError)
  | stdin_undecodable e : ~ file_name name -> stdin_error = Some e -> ends (Failed e)
  | stdin_text : ~ file_name name -> stdin_error = None -> ends (Failed TypeError)
  | damaged_gzip e : input (Err e) -> ends (Failed e)
  | no_vgm p : input (Ok p) -> ~ has_ident p -> ends (Failed TypeError)
  | short_header p : input (Ok p) -> has_ident p -> ~ header_complete p -> ends (Failed EOFError)
  | cut_command p cs e : input (Ok p) -> has_ident p -> header_complete p -> stream (recording p) cs (Some e) ->
      ends (Failed e)
  (* instruments *)
  | instruments_denied cs i : input_read cs -> instr = Some i -> file_name i -> writable i = false ->
      ends (Failed OSError)
  (* the song *)
  | rows_too_long cs f rl : song_wanted cs f rl -> float_limit <= Z.abs rl -> ends (Failed OverflowError)
  | rows_negative cs f rl : song_wanted cs f rl -> Z.abs rl < float_limit -> rl < 0 -> all_notes (calls_of cs) <> [] ->
      ends (Failed IndexError)
  | song_denied cs f rl : song_wanted cs f rl -> song_possible cs rl -> writable f = false -> ends (Failed OSError)
  | too_early cs f rl : song_wanted cs f rl -> song_possible cs rl -> writable f = true -> year now < 1980 ->
      ends (NoDate ClockTooEarly)
  | too_late cs f rl : song_wanted cs f rl -> song_possible cs rl -> writable f = true -> 2107 < year now ->
      ends (NoDate ClockTooLate)
  (* success *)
  | no_song cs : instruments_done cs -> not_asked track -> ends Fine
  | song_done cs f rl : song_wanted cs f rl -> song_possible cs rl -> writable f = true -> 1980 <= year now <= 2107 ->
      ends Fine.
End Ends.
