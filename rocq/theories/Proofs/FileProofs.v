(** From files to histories: process_vgm_file on an opened reader performs the
    calls of the file's commands, in order. *)
From Coq Require Import Lia ZifyBool.
From Verif.Model Require Import Py Command Core Config Note State Extract History Main.
From Verif.Spec Require Import VgmFormat Ym2151.
From Verif.Proofs Require Import PyLemmas CoreProofs ReaderProofs StateProofs KeyProofs.

Lemma process_loop_iterate : forall fuel f st,
  process_loop fuel f st =
  (let! st' := process_cmds (fst (iterate fuel f)) st in
   match snd (iterate fuel f) with Ok _ => Ok st' | Err e => Err e end).
Proof.
  induction fuel as [|k IH]; intros f st; cbn [process_loop iterate]; [reflexivity|].
  destruct (vgm_next f) as [f'|e f'|c f']; [reflexivity|reflexivity|].
  specialize (IH f'). destruct (iterate k f') as [cs r]. cbn [fst snd] in *.
  unfold process_cmds. cbn [foldM]. destruct (process_step st c) as [st'|e]; cbn [bind]; [|reflexivity].
  apply IH.
Qed.

(** Commands as they come out of a file. *)
Definition cmd_ok (c : vcmd) : Prop :=
  match c with
  | Ym _ r v => byte r /\ byte v
  | Wait _ (Some n) => 0 <= n
  | Wait _ None => False
  | _ => True
  end.

Lemma process_calls : forall cs st, Forall cmd_ok cs ->
  process_cmds cs st = run_calls (calls_of cs) st.
Proof.
  unfold process_cmds, run_calls.
  induction cs as [|c cs IH]; intros st H; [reflexivity|].
  inversion H as [|? ? Hc Hcs]; subst.
  unfold calls_of. cbn [flat_map]. fold (calls_of cs). rewrite foldM_app. cbn [foldM].
  destruct c as [id p|id|id [n|]|id r v]; cbn [process_step foldM bind do_call].
  - now apply IH.
  - now apply IH.
  - destruct (beat (Some n) st); cbn [bind]; [now apply IH|reflexivity].
  - destruct Hc.
  - destruct (apply r v st); cbn [bind]; [now apply IH|reflexivity].
Qed.
Lemma calls_ok cs : Forall cmd_ok cs -> history_ok (calls_of cs).
Proof.
  induction 1 as [|c cs Hc H IH]; [constructor|].
  unfold calls_of. cbn [flat_map]. apply Forall_app. split; [|exact IH].
  destruct c as [id p|id|id [n|]|id r v]; repeat constructor; apply Hc.
Qed.

Lemma denote_ok id ops : byte id -> bytes ops -> operands id = Some (length ops) ->
  cmd_ok (denote id ops).
Proof.
  intros Hid Hb Ho. unfold denote, wait_samples.
  assert (Hn : forall i, (i < length ops)%nat -> byte (nth i ops 0)).
  { intros i Hi. apply (proj1 (Forall_forall _ _) Hb). now apply nth_In. }
  assert (H0 : forall i, 0 <= nth i ops 0).
  { intros i. destruct (Nat.lt_ge_cases i (length ops)) as [Hi|Hi].
    - apply Hn in Hi. unfold byte in Hi. lia.
    - rewrite nth_overflow by assumption. lia. }
  destruct (Z.eqb_spec id 0x61).
  { cbn. pose proof (H0 0%nat). pose proof (H0 1%nat). lia. }
  destruct (Z.eqb_spec id 0x62); [cbn; lia|].
  destruct (Z.eqb_spec id 0x63); [cbn; lia|].
  destruct ((0x70 <=? id) && (id <=? 0x7F)) eqn:E7; [cbn; lia|].
  destruct (Z.eqb_spec id 0x54).
  { subst id. cbn. change (operands 0x54) with (Some 2%nat) in Ho. injection Ho as Ho.
    split; apply Hn; lia. }
  destruct (Z.eqb_spec id 0x66); exact I.
Qed.
Lemma stream_cmds_ok : forall r cs e, stream r cs e -> bytes r -> Forall cmd_ok cs.
Proof.
  induction 1 as [|id ops c rest cs err Hc Hs IH|id cut c Hc|id cut e Hc]; intros Hb.
  - constructor.
  - inversion Hb as [|? ? Hid Hor]; subst. apply Forall_app in Hor as [Ho Hrest].
    constructor; [|now apply IH]. inversion Hc; subst; try exact I.
    now apply denote_ok.
  - constructor; [|constructor]. inversion Hc; exact I.
  - constructor.
Qed.

Lemma process_file g ck ck' d p v cs e : content g d (Ok p) -> bytes p ->
  reader g ck (mkfile d 0) = (Ok (Some v), ck') ->
  stream (skipn (Z.to_nat (data_offset p)) p) cs e ->
  history_ok (calls_of cs) /\
  exists s, run_calls (calls_of cs) state_init = Ok s /\
    process_vgm_file (Some v) = match e with None => Ok s | Some x => Err x end.
Proof.
  intros H Hb Ho Hs.
  pose proof (stream_cmds_ok _ _ _ Hs (bytes_skipn _ _ Hb)) as Hok.
  split; [now apply calls_ok|].
  destruct (refines_run _ (calls_ok _ Hok)) as (s & E & _).
  exists s. split; [assumption|].
  destruct (proj1 (C04_proof _ _ _ _ _ _ cs e H Hb Ho) Hs) as [E1 E2].
  unfold process_vgm_file. rewrite process_loop_iterate.
  unfold vgm_commands in E1, E2. rewrite E1, process_calls, E by assumption. cbn [bind].
  destruct (snd (iterate _ _)) as [f|x]; cbn [error_of] in E2; subst e; reflexivity.
Qed.
