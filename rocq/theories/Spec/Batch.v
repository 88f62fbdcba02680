(** Several runs of the script: after each other, again after a kill, at the same time. *)
From Coq Require Import ZArith List Bool String.
From Verif.Model Require Import Py Main MainBytes Zip Script.
From Verif.Spec Require Import Cli CommandLine ByteDisk.
Import ListNotations.
Open Scope list_scope.
Open Scope Z_scope.

(** A run: the words of the command line and the time of day. *)
Definition command : Type := list string * clock.
(** The file it reads, the files it may write.  ("-" as the input or as the instrument
    file means a standard stream; as the song file it is a file of that name.) *)
Definition reads (c : command) (f : string) : Prop :=
  file_name f /\ exists i t n, accepted (fst c) f i t n.
Definition writes (c : command) (m : string) : Prop :=
  exists f i t n, accepted (fst c) f i t n
    /\ ((i = Some m /\ file_name m) \/ (t = Some m /\ m <> ""%string)).

Section Runs.
  Variable gunzip : list Z -> res (list Z).
  Variable writable : string -> bool.
  Variable stdin_error : option exn.

  (** What a run started on disk [D] does and how it ends; the disk it leaves. *)
  Definition actions (D : storage) (c : command) : list action * Z :=
    script_bytes gunzip D writable stdin_error (snd c) (fst c).
  Definition alone (D : storage) (c : command) : storage := disk_after (fst (actions D c)) D.

  (** Attempts of one command, at any times, each of them killed at any moment. *)
  Inductive attempts (ws : list string) : storage -> storage -> Prop :=
  | no_attempt D : attempts ws D D
  | attempt D now D' D'' : stopped (fst (actions D (ws, now))) D D' -> attempts ws D' D'' -> attempts ws D D''.

  (** One run after the other. *)
  Definition in_turn (l : list command) (D : storage) : storage := fold_left alone l D.

  (** Runs at the same time.  A run finds its input when it starts; then its actions
      happen one by one, while the others go on; it may be killed, also within a write. *)
  Inductive status := Waiting | Running (rest : list action) | Killed.
  Definition processes : Type := list (command * status).
  Inductive moves : processes -> storage -> processes -> storage -> Prop :=
  | starts p c q D : moves (p ++ (c, Waiting) :: q) D (p ++ (c, Running (fst (actions D c))) :: q) D
  | acts p c a r q D : moves (p ++ (c, Running (a :: r)) :: q) D (p ++ (c, Running r) :: q) (act D a)
  | dies p c r q D : moves (p ++ (c, Running r) :: q) D (p ++ (c, Killed) :: q) D
  | dies_writing p c n o b b' r q D :
      moves (p ++ (c, Running (Put n o (b ++ b') :: r)) :: q) D (p ++ (c, Killed) :: q) (act D (Put n o b)).
  Inductive schedule : processes -> storage -> processes -> storage -> Prop :=
  | idle p D : schedule p D p D
  | move p D p' D' p'' D'' : moves p D p' D' -> schedule p' D' p'' D'' -> schedule p D p'' D''.
End Runs.
(** The runs do not get in each other's way: no run's input is an output, and no file
    is an output of two of them. *)
Definition apart (l : list command) : Prop :=
  (forall c c' f, In c l -> In c' l -> reads c f -> ~ writes c' f)
  /\ ForallOrdPairs (fun c c' => forall m, writes c m -> ~ writes c' m) l.
