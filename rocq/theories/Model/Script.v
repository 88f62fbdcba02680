(** "python main.py words...": main.py:47-65, from the words of the command line to
    the bytes on disk. *)
From Verif.Model Require Import Py Command Core Config Note State Ticks Song Serializer Zip Json Extract Main MainBytes Argparse.
Open Scope string_scope.
Open Scope list_scope.
Open Scope Z_scope.

(** The actions and the exit status: an exception that leaves main gives a traceback
    (on standard error, not modelled) and status 1; parse_args ends the process itself
    with 2, or with 0 after the help text (whose text is not modelled). *)
Definition script_bytes (gunzip : list Z -> res (list Z)) (contents : string -> option (list Z))
  (writable : string -> bool) (stdin_error : option exn) (now : clock) (ws : list string) : list MainBytes.action * Z :=
  match parse_args ws with                                               (* 48-63 *)
  | Exit n => ([], n)
  | Parsed a =>
      match a_file a with
      | None => ([], 2)                                                  (* not reached *)
      | Some f =>
          match main_bytes gunzip contents writable stdin_error now f (a_instrument a) (a_track a) (a_ticks a) with  (* 65 *)
          | (acts, Fine) => (acts, 0)
          | (acts, _) => (acts, 1)
          end
      end
  end.
