(** Object-level model of src/vgm/ym2151/state.py and config.py: the same code as
    State.v, but on a heap of mutable Python objects that refer to each other.
    Every attribute assignment, list append and deepcopy is a separate heap
    operation, in the order of the source.  Several State objects may live in the
    same heap.

    References are positions in the heap; objects are never freed.  A reference
    to a missing or different kind of object ([GenericException]) cannot occur in
    Python; the theorems show that it does not occur here.  Enum members, ints,
    bools and Flag values are immutable in Python and appear as values. *)
From Verif.Model Require Import Py Config Note State History.

Definition ref := nat.
(** ChannelConfig.__dict__, config.py:148-158. *)
Record chan_obj := mkco {
  co_operators : ref (* a list *); co_fb : Z; co_ams : Z; co_pms : Z; co_connection : Z;
  co_noise : bool; co_noise_freq : Z }.
(** Config.__dict__, config.py:197-208. *)
Record config_obj := mkgo { go_id : Z; go_base : ref; go_channel : ref; go_operators : operators }.
(** State.__dict__, state.py:17-25. *)
Record state_obj := mkso {
  so_presses : ref; so_channels : ref; so_notes : ref; so_base : ref; so_configs : ref;
  so_samples : Z; so_beats : ref; so_first : option Z }.
(** BaseConfig, OperatorConfig, NoteConfig and Note objects hold only immutable
    values, so their __dict__ is the record of Config.v / Note.v. *)
Inductive obj :=
| OBase (b : base_config) | OOp (o : op_config) | ONc (n : note_config) | OChan (c : chan_obj)
| OConfig (g : config_obj) | ONote (n : note) | OList (l : list ref) | OSet (l : list Z)
| OState (s : state_obj).
Definition heap := list obj.

(** Computations on the heap; an exception ends the run. *)
Definition H (A : Type) := heap -> res (A * heap).
Definition ret {A} (a : A) : H A := fun h => Ok (a, h).
Definition hbind {A B} (m : H A) (k : A -> H B) : H B :=
  fun h => match m h with Ok (a, h) => k a h | Err e => Err e end.
Notation "'do!' x <- m ; k" := (hbind m (fun x => k))
  (at level 200, x pattern, m at level 100, k at level 200).
Definition lift {A} (m : res A) : H A := fun h => match m with Ok a => Ok (a, h) | Err e => Err e end.

(** Creating, reading and overwriting an object. *)
Definition alloc (o : obj) : H ref := fun h => Ok (List.length h, h ++ [o]).
Definition fetch (r : ref) : H obj :=
  fun h => match nth_error h r with Some o => Ok (o, h) | None => Err GenericException end.
Definition store (r : ref) (o : obj) : H unit := fun h => Ok (tt, set_nth r o h).
Definition bad {A} : H A := fun _ => Err GenericException.
Definition fetch_base (r : ref) : H base_config := do! o <- fetch r; match o with OBase b => ret b | _ => bad end.
Definition fetch_op (r : ref) : H op_config := do! o <- fetch r; match o with OOp b => ret b | _ => bad end.
Definition fetch_nc (r : ref) : H note_config := do! o <- fetch r; match o with ONc b => ret b | _ => bad end.
Definition fetch_chan (r : ref) : H chan_obj := do! o <- fetch r; match o with OChan b => ret b | _ => bad end.
Definition fetch_config (r : ref) : H config_obj := do! o <- fetch r; match o with OConfig b => ret b | _ => bad end.
Definition fetch_note (r : ref) : H note := do! o <- fetch r; match o with ONote b => ret b | _ => bad end.
Definition fetch_list (r : ref) : H (list ref) := do! o <- fetch r; match o with OList b => ret b | _ => bad end.
Definition fetch_set (r : ref) : H (list Z) := do! o <- fetch r; match o with OSet b => ret b | _ => bad end.
Definition fetch_state (r : ref) : H state_obj := do! o <- fetch r; match o with OState b => ret b | _ => bad end.

(** list.append(x); l[i]. *)
Definition append (l x : ref) : H unit := do! xs <- fetch_list l; store l (OList (xs ++ [x])).
Definition item (l : ref) (i : Z) : H ref := do! xs <- fetch_list l; lift (py_get xs i).

Fixpoint hmap {A B} (f : A -> H B) (l : list A) : H (list B) :=
  match l with
  | [] => ret []
  | x :: r => do! y <- f x; do! ys <- hmap f r; ret (y :: ys)
  end.
Fixpoint repeat_do (n : nat) (m : H unit) : H unit :=
  match n with O => ret tt | S k => do! _ <- m; repeat_do k m end.

(** ** Constructors and deepcopy *)

(** BaseConfig(), OperatorConfig(), NoteConfig(): config.py:39-44, 64-76, 115-121. *)
Definition new_base : H ref := alloc (OBase base_init).
Definition new_op : H ref := alloc (OOp op_init).
Definition new_nc : H ref := alloc (ONc nc_init).
(** copy.deepcopy of a BaseConfig / OperatorConfig: the class's __deepcopy__ calls
    the constructor with the object, which copies every attribute
    (config.py:40-44, 57-58 and 65-76, 96-97). *)
Definition copy_base (r : ref) : H ref := do! b <- fetch_base r; alloc (OBase b).
Definition copy_op (r : ref) : H ref := do! o <- fetch_op r; alloc (OOp o).
(** copy.deepcopy of a list (standard library copy.py, _deepcopy_list): a new list,
    filled with the copies one by one; the memo makes an element that occurs twice
    be copied once. *)
Fixpoint memo_get (m : list (ref * ref)) (r : ref) : option ref :=
  match m with [] => None | (a, b) :: m => if Nat.eqb a r then Some b else memo_get m r end.
Fixpoint copy_items (memo : list (ref * ref)) (new : ref) (l : list ref) : H unit :=
  match l with
  | [] => ret tt
  | r :: l =>
      match memo_get memo r with
      | Some c => do! _ <- append new c; copy_items memo new l
      | None => do! c <- copy_op r; do! _ <- append new c; copy_items ((r, c) :: memo) new l
      end
  end.
Definition copy_op_list (l : ref) : H ref :=
  do! xs <- fetch_list l;
  do! new <- alloc (OList []);
  do! _ <- copy_items [] new xs;
  ret new.
(** ChannelConfig(), config.py:148-163. *)
Definition new_chan : H ref :=
  do! l <- alloc (OList []);                                          (* 149-151 *)
  do! r <- alloc (OChan (mkco l 0 0 0 0 false 0));                     (* 153-158 *)
  do! _ <- repeat_do 4 (do! o <- new_op; append l o);                  (* 160-162 *)
  ret r.
(** copy.deepcopy of a ChannelConfig: ChannelConfig(self), config.py:148-158, 179-180. *)
Definition copy_chan (r : ref) : H ref :=
  do! c <- fetch_chan r;
  do! l <- copy_op_list (co_operators c);
  alloc (OChan (mkco l (co_fb c) (co_ams c) (co_pms c) (co_connection c) (co_noise c) (co_noise_freq c))).

(** State(), state.py:17-30. *)
Definition new_state : H ref :=
  do! presses <- alloc (OList []);                                    (* 18 *)
  do! chans <- alloc (OList []);                                      (* 19 *)
  do! notes <- alloc (OList []);                                      (* 20 *)
  do! base <- new_base;                                               (* 21 *)
  do! configs <- alloc (OList []);                                    (* 22 *)
  do! beats <- alloc (OSet []);                                       (* 24 *)
  do! r <- alloc (OState (mkso presses chans notes base configs 0 beats None));  (* 23, 25 *)
  do! _ <- repeat_do 8                                                (* 27-30 *)
    (do! p <- alloc (OList []); do! _ <- append presses p;
     do! c <- new_chan; do! _ <- append chans c;
     do! n <- new_nc; append notes n);
  ret r.

(** ** Deep reads: the value an object denotes *)
Definition read_chan (r : ref) : H chan_config :=
  do! c <- fetch_chan r;
  do! l <- fetch_list (co_operators c);
  do! os <- hmap fetch_op l;
  ret (mkch os (co_fb c) (co_ams c) (co_pms c) (co_connection c) (co_noise c) (co_noise_freq c)).
Definition read_config (r : ref) : H config :=
  do! g <- fetch_config r;
  do! b <- fetch_base (go_base g);
  do! c <- read_chan (go_channel g);
  ret (mkconfig (go_id g) b c (go_operators g)).
Definition read_press (r : ref) : H (list note) := do! l <- fetch_list r; hmap fetch_note l.
Definition read_state (r : ref) : H state :=
  do! s <- fetch_state r;
  do! ps <- fetch_list (so_presses s); do! ps <- hmap read_press ps;
  do! cs <- fetch_list (so_channels s); do! cs <- hmap read_chan cs;
  do! ns <- fetch_list (so_notes s); do! ns <- hmap fetch_nc ns;
  do! b <- fetch_base (so_base s);
  do! gs <- fetch_list (so_configs s); do! gs <- hmap read_config gs;
  do! bs <- fetch_set (so_beats s);
  ret (mkstate ps cs ns b gs (so_samples s) bs (so_first s)).

(** ** Attribute assignments *)
Definition assign_state (r : ref) (g : state_obj -> state_obj) : H unit :=
  do! s <- fetch_state r; store r (OState (g s)).
Definition assign_base (r : ref) (g : base_config -> base_config) : H unit :=
  do! b <- fetch_base r; store r (OBase (g b)).
Definition assign_nc (r : ref) (g : note_config -> note_config) : H unit :=
  do! n <- fetch_nc r; store r (ONc (g n)).
Definition assign_chan (r : ref) (g : chan_obj -> chan_obj) : H unit :=
  do! c <- fetch_chan r; store r (OChan (g c)).
Definition assign_op (r : ref) (g : op_config -> op_config) : H unit :=
  do! o <- fetch_op r; store r (OOp (g o)).
(** self._current_base_config.x = ..., self._note_configs[ch].x = ...,
    self._channel_configs[ch].x = ..., self._channel_configs[ch].operators[op].x = ... *)
Definition on_base (self : ref) (g : base_config -> base_config) : H unit :=
  do! s <- fetch_state self; assign_base (so_base s) g.
Definition on_nc (self : ref) (ch : Z) (g : note_config -> note_config) : H unit :=
  do! s <- fetch_state self; do! n <- item (so_notes s) ch; assign_nc n g.
Definition on_chan (self : ref) (ch : Z) (g : chan_obj -> chan_obj) : H unit :=
  do! s <- fetch_state self; do! c <- item (so_channels s) ch; assign_chan c g.
Definition on_op (self : ref) (ch op : Z) (g : op_config -> op_config) : H unit :=
  do! s <- fetch_state self; do! c <- item (so_channels s) ch; do! c <- fetch_chan c;
  do! o <- item (co_operators c) op; assign_op o g.

(* obj.field = v *)
Definition set_base_ref (b : ref) (s : state_obj) := mkso (so_presses s) (so_channels s) (so_notes s) b
  (so_configs s) (so_samples s) (so_beats s) (so_first s).
Definition set_first (v : option Z) (s : state_obj) := mkso (so_presses s) (so_channels s) (so_notes s) (so_base s)
  (so_configs s) (so_samples s) (so_beats s) v.
Definition set_so_samples (v : Z) (s : state_obj) := mkso (so_presses s) (so_channels s) (so_notes s) (so_base s)
  (so_configs s) v (so_beats s) (so_first s).
Definition set_noise v (c : chan_obj) := mkco (co_operators c) (co_fb c) (co_ams c) (co_pms c) (co_connection c) v (co_noise_freq c).
Definition set_noise_freq v (c : chan_obj) := mkco (co_operators c) (co_fb c) (co_ams c) (co_pms c) (co_connection c) (co_noise c) v.
Definition set_fb v (c : chan_obj) := mkco (co_operators c) v (co_ams c) (co_pms c) (co_connection c) (co_noise c) (co_noise_freq c).
Definition set_ams v (c : chan_obj) := mkco (co_operators c) (co_fb c) v (co_pms c) (co_connection c) (co_noise c) (co_noise_freq c).
Definition set_pms v (c : chan_obj) := mkco (co_operators c) (co_fb c) (co_ams c) v (co_connection c) (co_noise c) (co_noise_freq c).
Definition set_connection v (c : chan_obj) := mkco (co_operators c) (co_fb c) (co_ams c) (co_pms c) v (co_noise c) (co_noise_freq c).
Definition set_waveform v (b : base_config) := mkbase v (b_lfo b) (b_amp_md b) (b_phs_md b).
Definition set_lfo v (b : base_config) := mkbase (b_waveform b) v (b_amp_md b) (b_phs_md b).
Definition set_amp_md v (b : base_config) := mkbase (b_waveform b) (b_lfo b) v (b_phs_md b).
Definition set_phs_md v (b : base_config) := mkbase (b_waveform b) (b_lfo b) (b_amp_md b) v.
Definition set_right v (n : note_config) := mknc v (nc_left n) (nc_octave n) (nc_note n) (nc_key_fraction n).
Definition set_left v (n : note_config) := mknc (nc_right n) v (nc_octave n) (nc_note n) (nc_key_fraction n).
Definition set_octave v (n : note_config) := mknc (nc_right n) (nc_left n) v (nc_note n) (nc_key_fraction n).
Definition set_note v (n : note_config) := mknc (nc_right n) (nc_left n) (nc_octave n) v (nc_key_fraction n).
Definition set_key_fraction v (n : note_config) := mknc (nc_right n) (nc_left n) (nc_octave n) (nc_note n) v.
Definition set_tl v o := mkop v (attack_rate o) (first_decay_rate o) (first_decay_level o) (second_decay_rate o) (release_rate o) (key_scale o) (multiply o) (first_detune o) (second_detune o) (ase o).
Definition set_ar v o := mkop (total_level o) v (first_decay_rate o) (first_decay_level o) (second_decay_rate o) (release_rate o) (key_scale o) (multiply o) (first_detune o) (second_detune o) (ase o).
Definition set_d1r v o := mkop (total_level o) (attack_rate o) v (first_decay_level o) (second_decay_rate o) (release_rate o) (key_scale o) (multiply o) (first_detune o) (second_detune o) (ase o).
Definition set_d1l v o := mkop (total_level o) (attack_rate o) (first_decay_rate o) v (second_decay_rate o) (release_rate o) (key_scale o) (multiply o) (first_detune o) (second_detune o) (ase o).
Definition set_d2r v o := mkop (total_level o) (attack_rate o) (first_decay_rate o) (first_decay_level o) v (release_rate o) (key_scale o) (multiply o) (first_detune o) (second_detune o) (ase o).
Definition set_rr v o := mkop (total_level o) (attack_rate o) (first_decay_rate o) (first_decay_level o) (second_decay_rate o) v (key_scale o) (multiply o) (first_detune o) (second_detune o) (ase o).
Definition set_ks v o := mkop (total_level o) (attack_rate o) (first_decay_rate o) (first_decay_level o) (second_decay_rate o) (release_rate o) v (multiply o) (first_detune o) (second_detune o) (ase o).
Definition set_mul v o := mkop (total_level o) (attack_rate o) (first_decay_rate o) (first_decay_level o) (second_decay_rate o) (release_rate o) (key_scale o) v (first_detune o) (second_detune o) (ase o).
Definition set_dt1 v o := mkop (total_level o) (attack_rate o) (first_decay_rate o) (first_decay_level o) (second_decay_rate o) (release_rate o) (key_scale o) (multiply o) v (second_detune o) (ase o).
Definition set_dt2 v o := mkop (total_level o) (attack_rate o) (first_decay_rate o) (first_decay_level o) (second_decay_rate o) (release_rate o) (key_scale o) (multiply o) (first_detune o) v (ase o).
Definition set_ase v o := mkop (total_level o) (attack_rate o) (first_decay_rate o) (first_decay_level o) (second_decay_rate o) (release_rate o) (key_scale o) (multiply o) (first_detune o) (second_detune o) v.

(** ** The methods *)

(** next((i for (i, c) in enumerate(self.configs) if c.compare(...)), len(self.configs)),
    state.py:43-52, with Config.compare, config.py:224-229 (comparison is by value:
    __eq__ of the classes, config.py:46-54, 78-93, 165-176). *)
Fixpoint hfind (self : ref) (ch : Z) (op : operators) (l : list ref) (i : Z) : H Z :=
  match l with
  | [] => ret i
  | g :: l =>
      do! s <- fetch_state self;
      do! b <- fetch_base (so_base s);
      do! c <- item (so_channels s) ch; do! c <- read_chan c;
      do! g <- read_config g;
      if config_compare g b c op then ret i else hfind self ch op l (i + 1)
  end.

(** Key On/Off branch, state.py:40-75. *)
Definition hkey_event (self : ref) (value : Z) : H unit :=
  let op := Z.land (Z.shiftr value 3) 15 in                            (* 41 *)
  let ch := Z.land value 7 in                                          (* 42 *)
  do! s <- fetch_state self;
  do! cfgs <- fetch_list (so_configs s);
  do! found <- hfind self ch op cfgs 0;                                (* 43-52 *)
  do! config_id <-
    (if len cfgs =? found then                                         (* 54 *)
       if op_true op then                                              (* 55 *)
         do! b <- copy_base (so_base s);                               (* 59 *)
         do! c <- item (so_channels s) ch; do! c <- copy_chan c;       (* 60 *)
         do! g <- alloc (OConfig (mkgo found b c op));                 (* 57-62 *)
         do! _ <- append (so_configs s) g;                             (* 56 *)
         do! nb <- copy_base (so_base s);                              (* 64 *)
         do! _ <- assign_state self (set_base_ref nb);
         ret found
       else ret (-1)                                                   (* 65-66 *)
     else ret found);
  do! s <- fetch_state self;
  do! _ <- (if op_true op && negb (first_beat_true (so_first s))       (* 68-69 *)
            then assign_state self (set_first (Some (so_samples s))) else ret tt);
  do! s <- fetch_state self;
  do! _ <- (if first_beat_true (so_first s) then                       (* 71-73 *)
              do! n <- item (so_notes s) ch; do! nc <- fetch_nc n;
              do! note <- alloc (ONote (note_new config_id nc (so_samples s)));
              do! p <- item (so_presses s) ch; append p note
            else ret tt);
  if 0 <=? config_id then                                              (* 74-75 *)
    do! bs <- fetch_set (so_beats s); store (so_beats s) (OSet (set_add (so_samples s) bs))
  else ret tt.

(** State.apply, state.py:35-152. *)
Definition happly (self : ref) (reg value : Z) : H unit :=
  let channel := Z.land reg 7 in
  let operator := Z.land (Z.shiftr reg 3) 3 in
  if reg =? 8 then hkey_event self value
  else if reg =? 15 then                                               (* 78-80 *)
    do! _ <- on_chan self 7 (set_noise (0 <? Z.land value 128));
    on_chan self 7 (set_noise_freq (Z.land value 31))
  else if reg =? 24 then on_base self (set_lfo value)                  (* 83-84 *)
  else if reg =? 25 then                                               (* 87-91 *)
    if 0 <? Z.land value 128 then on_base self (set_phs_md (Z.land value 127))
    else on_base self (set_amp_md value)
  else if reg =? 27 then                                               (* 94-95 *)
    match waveform_of (Z.land value 3) with
    | Some w => on_base self (set_waveform w)
    | None => bad
    end
  else if Z.land reg 248 =? 32 then                                    (* 97-101 *)
    do! _ <- on_nc self channel (set_right (0 <? Z.land value 128));
    do! _ <- on_nc self channel (set_left (0 <? Z.land value 64));
    do! _ <- on_chan self channel (set_fb (Z.land (Z.shiftr value 3) 7));
    on_chan self channel (set_connection (Z.land value 7))
  else if Z.land reg 248 =? 40 then                                    (* 103-105 *)
    do! _ <- on_nc self channel (set_octave (Z.land (Z.shiftr value 4) 7));
    on_nc self channel (set_note (Z.land value 15))
  else if Z.land reg 248 =? 48 then                                    (* 107-108 *)
    on_nc self channel (set_key_fraction (Z.land (Z.shiftr value 2) 63))
  else if Z.land reg 248 =? 56 then                                    (* 109-111 *)
    do! _ <- on_chan self channel (set_pms (Z.land (Z.shiftr value 4) 7));
    on_chan self channel (set_ams (Z.land value 3))
  else if Z.land reg 224 =? 64 then                                    (* 113-119 *)
    do! _ <- on_op self channel operator (set_dt1 (Z.land (Z.shiftr value 4) 7));
    on_op self channel operator (set_mul (Z.land value 15))
  else if Z.land reg 224 =? 96 then                                    (* 121-124 *)
    on_op self channel operator (set_tl (Z.land value 127))
  else if Z.land reg 224 =? 128 then                                   (* 125-131 *)
    do! _ <- on_op self channel operator (set_ks (Z.land (Z.shiftr value 6) 3));
    on_op self channel operator (set_ar (Z.land value 31))
  else if Z.land reg 224 =? 160 then                                   (* 132-138 *)
    do! _ <- on_op self channel operator (set_ase (0 <? Z.land value 128));
    on_op self channel operator (set_d1r (Z.land value 31))
  else if Z.land reg 224 =? 192 then                                   (* 139-145 *)
    do! _ <- on_op self channel operator (set_dt2 (Z.land (Z.shiftr value 6) 3));
    on_op self channel operator (set_d2r (Z.land value 15))
  else if Z.land reg 224 =? 224 then                                   (* 146-152 *)
    do! _ <- on_op self channel operator (set_d1l (Z.land (Z.shiftr value 4) 15));
    on_op self channel operator (set_rr (Z.land value 15))
  else ret tt.

(** State.beat, state.py:160-161. *)
Definition hbeat (self : ref) (samples : Z) : H unit :=
  do! s <- fetch_state self; assign_state self (set_so_samples (so_samples s + samples)).

Definition hcall (self : ref) (c : call) : H unit :=
  match c with Apply r v => happly self r v | Beat n => hbeat self n end.

(** A process that creates State objects and calls them in any order; [On k c] is
    a call on the k-th one created. *)
Inductive process_action := New | On (k : nat) (c : call).
Record process := mkprocess { p_heap : heap; p_states : list ref }.
Definition process_act (p : process) (a : process_action) : res process :=
  match a with
  | New => match new_state (p_heap p) with
           | Ok (r, h) => Ok (mkprocess h (p_states p ++ [r]))
           | Err e => Err e
           end
  | On k c => match nth_error (p_states p) k with
              | None => Ok p      (* the client has no such object *)
              | Some r => match hcall r c (p_heap p) with
                          | Ok (_, h) => Ok (mkprocess h (p_states p))
                          | Err e => Err e
                          end
              end
  end.
Fixpoint run_process (l : list process_action) (p : process) : res process :=
  match l with [] => Ok p | a :: l => let! p := process_act p a in run_process l p end.

(** Expressions by which a client gets hold of objects of a State:
    state.configs[i] (state.py:22), state.channel_config(ch) (state.py:157-158),
    state.key_presses(ch)[i] (state.py:154-155). *)
Definition get_config (self : ref) (i : Z) : H ref := do! s <- fetch_state self; item (so_configs s) i.
Definition get_channel (self : ref) (ch : Z) : H ref := do! s <- fetch_state self; item (so_channels s) ch.
Definition get_note (self : ref) (ch i : Z) : H ref :=
  do! s <- fetch_state self; do! p <- item (so_presses s) ch; item p i.
