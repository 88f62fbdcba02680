(** A client's sequence of calls on one State object: apply(create(reg, value))
    (state.py:35, config.py:260) and beat(samples) (state.py:160). *)
From Verif.Model Require Import Py Command Config Note State Extract.

Inductive call := Apply (reg value : Z) | Beat (samples : Z).
Definition history := list call.   (* oldest first *)

Definition do_call (s : state) (c : call) : res state :=
  match c with
  | Apply r v => apply r v s
  | Beat n => beat (Some n) s
  end.
Definition run_calls (h : history) (s : state) : res state := foldM do_call h s.

(** The calls main.py:14-18 makes for a list of commands: isinstance tests on
    YM2151Command and WaitCommand, everything else is skipped. *)
Definition calls_of (cmds : list vcmd) : history :=
  flat_map (fun c => match c with
                     | Ym _ r v => [Apply r v]
                     | Wait _ (Some n) => [Beat n]
                     | _ => []
                     end) cmds.
