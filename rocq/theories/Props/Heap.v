(** Object-level properties: aliasing and several State objects (C45, C53). *)
From Coq Require Import Lia.
From Verif.Model Require Import Py Config Note State History Heap.
From Verif.Spec Require Import Ym2151 Objects.
From Verif.Proofs Require Import HeapProofs3.
Open Scope Z_scope.

(** C45.  Whatever objects exist already ([h0]) and however calls on the State
    objects of a process interleave, every call succeeds, no foreign object is
    written, and the full value of each State object (notes, instruments, channel
    settings, clock, beats), read through its references, is what the
    immutable-value program computes from the calls on that object alone. *)
Theorem C45_objects_behave_as_values : forall l h0, well_formed 0 l ->
  exists p, run_process l (mkprocess h0 []) = Ok p /\ length (p_states p) = created l
    /\ (forall i, (i < length h0)%nat -> nth_error (p_heap p) i = nth_error h0 i)
    /\ forall k r, nth_error (p_states p) k = Some r ->
       exists s, run_calls (calls_on k l) state_init = Ok s /\ read_state r (p_heap p) = Ok (s, p_heap p).
Proof. exact values_proof. Qed.
Print Assumptions C45_objects_behave_as_values.

(** C45.  An instrument object a client obtained as state.configs[i] stays
    state.configs[i], and everything reachable from it keeps its value, whatever
    calls follow on whatever State object. *)
Theorem C45_instruments_frozen : forall l1 l2 h0 p1 p2 k r i g, well_formed 0 (l1 ++ l2) ->
  run_process l1 (mkprocess h0 []) = Ok p1 -> run_process l2 p1 = Ok p2 ->
  nth_error (p_states p1) k = Some r -> 0 <= i ->
  get_config r i (p_heap p1) = Ok (g, p_heap p1) ->
  get_config r i (p_heap p2) = Ok (g, p_heap p2)
  /\ exists c, read_config g (p_heap p1) = Ok (c, p_heap p1) /\ read_config g (p_heap p2) = Ok (c, p_heap p2).
Proof. exact instruments_proof. Qed.
Print Assumptions C45_instruments_frozen.

(** C45.  So does a Note object. *)
Theorem C45_notes_frozen : forall l1 l2 h0 p1 p2 k r ch i x, well_formed 0 (l1 ++ l2) ->
  run_process l1 (mkprocess h0 []) = Ok p1 -> run_process l2 p1 = Ok p2 ->
  nth_error (p_states p1) k = Some r -> get_note r ch i (p_heap p1) = Ok (x, p_heap p1) ->
  exists n, fetch_note x (p_heap p1) = Ok (n, p_heap p1) /\ fetch_note x (p_heap p2) = Ok (n, p_heap p2).
Proof. exact note_proof. Qed.
Print Assumptions C45_notes_frozen.

(** C45.  In contrast, state.channel_config(ch) hands out the live object: a client
    that keeps it sees the current settings after any later calls. *)
Theorem C45_channel_view_is_live : forall l1 l2 h0 p1 p2 k r ch c, well_formed 0 (l1 ++ l2) ->
  run_process l1 (mkprocess h0 []) = Ok p1 -> run_process l2 p1 = Ok p2 ->
  nth_error (p_states p1) k = Some r -> get_channel r ch (p_heap p1) = Ok (c, p_heap p1) ->
  get_channel r ch (p_heap p2) = Ok (c, p_heap p2)
  /\ exists s v, read_state r (p_heap p2) = Ok (s, p_heap p2) /\ channel_config s ch = Ok v
     /\ read_chan c (p_heap p2) = Ok (v, p_heap p2).
Proof. exact channel_proof. Qed.
Print Assumptions C45_channel_view_is_live.

(** C53.  State objects are independent: two processes that make the same calls on
    their k-th State object end with the same value in it, whatever else they do,
    in whatever order, and whatever was in memory before. *)
Theorem C53_states_independent : forall l l' h0 h0' p p' k k' r r' v v',
  well_formed 0 l -> well_formed 0 l' -> calls_on k l = calls_on k' l' ->
  run_process l (mkprocess h0 []) = Ok p -> run_process l' (mkprocess h0' []) = Ok p' ->
  nth_error (p_states p) k = Some r -> nth_error (p_states p') k' = Some r' ->
  read_state r (p_heap p) = Ok v -> read_state r' (p_heap p') = Ok v' -> fst v = fst v'.
Proof.
  intros l l' h0 h0' p p' k k' r r' v v' W W' C M M' E E' V V'.
  destruct (values_proof l h0 W) as (q & Mq & _ & _ & H). rewrite M in Mq. injection Mq as <-.
  destruct (values_proof l' h0' W') as (q & Mq & _ & _ & H'). rewrite M' in Mq. injection Mq as <-.
  destruct (H k r E) as (s & S & RS). destruct (H' k' r' E') as (s' & S' & RS').
  rewrite C in S. rewrite V in RS. rewrite V' in RS'. injection RS as ->. injection RS' as ->.
  rewrite S in S'. injection S' as ->. reflexivity.
Qed.
Print Assumptions C53_states_independent.

(** A process with two State objects whose calls interleave: the first stores an
    instrument, then the same channel, operator and LFO are rewritten on both, and
    the key goes down again. *)
Definition example1 : list process_action :=
  [New; New; On 0 (Beat 100); On 0 (Apply 0x18 5); On 1 (Apply 0x60 9); On 0 (Apply 0x60 7); On 0 (Apply 0x08 0x78)].
Definition example2 : list process_action :=
  [On 0 (Apply 0x60 8); On 1 (Beat 3); On 0 (Apply 0x18 6); On 1 (Apply 0x08 0x78); On 0 (Apply 0x20 0xC7); On 0 (Apply 0x08 0x78)].
(* The instrument object obtained after [example1], read after [example2], and the
   State's own value then. *)
Definition example_outcome : option (config * state) :=
  match run_process example1 (mkprocess [OSet [7]] []) with
  | Err _ => None
  | Ok p1 =>
      match run_process example2 p1, nth_error (p_states p1) 0 with
      | Ok p2, Some r =>
          match get_config r 0 (p_heap p1) with
          | Ok (g, _) => match read_config g (p_heap p2), read_state r (p_heap p2) with
                         | Ok (c, _), Ok (s, _) => Some (c, s)
                         | _, _ => None
                         end
          | Err _ => None
          end
      | _, _ => None
      end
  end.
Example C45_example : well_formed 0 (example1 ++ example2)
  /\ match example_outcome with
     | Some (c, s) =>
         (b_lfo (c_base c), map total_level (ch_operators (c_channel c)), ch_connection (c_channel c)) = (5, [7; 0; 0; 0], 0)
         /\ (len (s_configs s), b_lfo (s_base s)) = (2, 6)
         /\ match channel_config s 0 with
            | Ok v => (map total_level (ch_operators v), ch_connection v) = ([8; 0; 0; 0], 7)
            | Err _ => False
            end
     | None => False
     end.
Proof.
  split; [cbn; unfold call_ok, VgmFormat.byte; repeat (split; try lia)|].
  vm_compute. split; [reflexivity|]. split; reflexivity.
Qed.
(** Hypotheses of C53: the same calls on the first State of one process and the
    second of another. *)
Example C53_example : calls_on 0 (example1 ++ example2) =
    calls_on 1 (New :: On 0 (Apply 0x08 0x7F) :: New :: map (fun c => On 1 c) (calls_on 0 (example1 ++ example2)))
  /\ length (calls_on 0 (example1 ++ example2)) = 8%nat
  /\ well_formed 0 (New :: On 0 (Apply 0x08 0x7F) :: New :: map (fun c => On 1 c) (calls_on 0 (example1 ++ example2))).
Proof. split; [reflexivity|]. split; [reflexivity|]. cbn. unfold call_ok, VgmFormat.byte. repeat (split; try lia). Qed.
