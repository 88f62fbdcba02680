(** Model of src/vgm/command.py (and the command class of
    src/vgm/ym2151/config.py:247-261). *)
From Verif.Model Require Import Py.

(** command.py:11-40, config.py:247-257.  One constructor per Python class; the
    class tells [isinstance] and [command_type] apart.
    - [Plain id payload]  : VgmCommand(cmd_id, payload)   command.py:11-20
    - [Eos id]            : EOSCommand(cmd_id)            command.py:23-27
    - [Wait id samples]   : WaitCommand                   command.py:30-40
    - [Ym id reg value]   : YM2151Command                 config.py:247-257
    [payload] is [None] when the constructor's default is used. *)
Inductive vcmd :=
| Plain (id : Z) (payload : option (list Z))
| Eos (id : Z)
| Wait (id : Z) (samples : option Z)
| Ym (id reg value : Z).

(** VgmCommand.command_id, command.py:13-16. *)
Definition command_id (c : vcmd) : Z :=
  match c with Plain i _ | Eos i | Wait i _ | Ym i _ _ => i end.

(** VgmCommandType and the class attribute command_type, command.py:5-8,12,24,31
    and config.py:248. *)
Inductive vtype := TWait | TEos | TYm2151.
Definition command_type (c : vcmd) : option vtype :=
  match c with
  | Plain _ _ => None | Eos _ => Some TEos | Wait _ _ => Some TWait
  | Ym _ _ _ => Some TYm2151
  end.

(** WaitCommand.__init__, command.py:33-37. *)
Definition mk_wait (cmd_id : Z) (samples : option Z) : vcmd :=
  if cmd_id / 16 =? 7 then Wait cmd_id (Some (cmd_id mod 16 + 1))
  else Wait cmd_id samples.

(** config.create, config.py:260-261. *)
Definition create (reg value : Z) : vcmd := Ym 84 (* 0x54 *) reg value.

(** VgmCommand.__str__ and its overrides: command.py:19-20, 26-27, 39-40 and
    config.py:256-257.  f"{None}" is None. *)
Definition command_str (c : vcmd) : string :=
  (match c with
  | Plain id _ => "VgmCommand(" ++ hex_int id ++ ")"
  | Eos _ => "VgmCommand(EOS)"
  | Wait _ n => "VgmCommand(Wait: " ++ match n with Some n => str_int n | None => "None" end ++ ")"
  | Ym _ reg value =>
      "YM2151Command(Reg: " ++ hex_int reg ++ ", Data: " ++ hex_int value ++ ")"
  end)%string.
