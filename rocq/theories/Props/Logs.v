(** C106: real logs. *)
From Coq Require Import Lia ZifyBool Sorted.
From Verif.Model Require Import Py Command Core Config PyFloat Note State Ticks Song Serializer Json Extract History Main MainBytes.
From Verif.Spec Require Import VgmFormat Ym2151 Ranges Rhythm Text JsonText Tracker View Cli Whole SongText
  SongArchive ByteDisk ZipReader Score Logging.
From Verif.Proofs Require Import PyLemmas CoreProofs StateProofs KeyProofs ChipProofs SongProofs ViewProofs ScoreProofs LoggingProofs.
From Verif.Props Require Import Reader Chip Song Rewriting Cli Whole SongText Archive Bytes Scores.
Open Scope string_scope.
Open Scope list_scope.
Open Scope Z_scope.

(** However a performance is logged, the recorder ends up with the same instruments,
    logs and exports. *)
Theorem C106_logged : forall h l s s', history_ok h -> history_ok l -> logged [] h l ->
  run_calls h state_init = Ok s -> run_calls l state_init = Ok s' ->
  (forall ch, key_presses s ch = key_presses s' ch) /\ s_configs s = s_configs s' /\ same_exports s s'.
Proof.
  intros h l s s' H L G E E'. destruct (C57_only_key_events h l s s' H L E E' (logged_same h l G)) as (A & B & _ & C).
  split; [exact A|]. split; [exact B|exact C].
Qed.
Print Assumptions C106_logged.

(** A file with whatever commands of other chips, data blocks and kinds of waits,
    whose YM2151 writes and waits log the performance of a score: the run's output
    shows the score. *)
Theorem C106_file : forall g D writable ierr now name instr track tpn d head ops b sc rl,
  world_ok g D -> file_name name -> D name = Some d -> content g d (Ok (head ++ flat_map encode ops)) ->
  header_fits head -> Forall op_valid ops -> lfo_fits b -> score_fits sc ->
  logged [] (performance b sc) (calls_of (map op_command ops)) ->
  score_row b sc tpn rl -> 0 < rl < float_limit -> zip_clock now ->
  (forall f, track = Some f -> writable f = true) -> (forall i, instr = Some i -> writable i = true) ->
  let run := main_bytes g D writable ierr now name instr track tpn in
  let D' := disk_after (fst run) D in
  snd run = Fine
  /\ (forall f, track = Some f -> f <> "" -> exists x, D' f = Some x
      /\ (len x < 2 ^ 30 -> exists doc, song_in x = Some doc /\ score_shown b sc rl doc))
  /\ (forall i, instr = Some i -> file_name i -> track <> Some i -> exists x txt l, D' i = Some x
      /\ decode x = Some txt /\ json_of_text txt = Some (JList l)
      /\ Forall2 shows_config l (numbered 0 (sounds b sc))).
Proof.
  intros g D w ierr now name instr track tpn d head ops b sc rl W Fn E C Hd V Lb Fs G Row Pos Ck Wf Wi run D'.
  pose proof (proj1 Fs) as F. pose proof (ops_readable g d head ops Hd V C) as R.
  pose proof (logged_same _ _ G) as K. set (l := calls_of (map op_command ops)) in *.
  assert (RL : row_length l tpn rl) by (apply (k_row _ _ K); now apply (score_row_length b sc tpn rl Lb F)).
  assert (Fi : snd run = Fine).
  { apply (C85_succeeds g D w ierr now name instr track tpn d _ rl W Fn E R RL Ck). split; [intros i Hi _; now apply Wi|].
    intros f Hf _. split; [now apply Wf|]. split; [rewrite Z.abs_eq by lia; lia|lia]. }
  pose proof (C85_run g D w ierr now name instr track tpn d _ rl W Fn E R RL Ck) as P. cbv zeta in P. specialize (P Fi).
  fold l in P. destruct P as (P1 & P2 & _). split; [exact Fi|]. split.
  - intros f Hf Nf. destruct (P1 f Hf Nf) as (x & X & Y). exists x. split; [exact X|]. intro Sm.
    destruct (Y Sm) as (_ & doc & Sg & Sh & _). exists doc. split; [exact Sg|].
    exact (shown_score b sc rl doc Lb Fs (k_shows _ _ (eq_sym K) _ _ (Sh ltac:(lia)))).
  - intros i Hi Ni Nt. destruct (P2 i Hi Ni Nt) as (x & txt & X & _ & Dx & Sh). apply (k_instruments _ _ (eq_sym K)) in Sh.
    destruct Sh as (js & J & Sh). exists x, txt, js.
    split; [exact X|]. split; [exact Dx|]. split; [exact J|]. unfold instruments in Sh.
    now rewrite (distinct_sounds b sc Lb F) in Sh.
Qed.
Print Assumptions C106_file.

(** A driver with a copy of the registers, that omits what the chip already holds, logs. *)
Theorem C106_thrifty : forall h q, logged q h (thrifty q h).
Proof.
  induction h as [|c h IH]; intro q; [constructor|]. cbn [thrifty]. destruct c as [r v|n].
  - destruct (Z.eqb_spec r 8) as [->|N]; cbn [negb andb].
    + apply log_same; [apply same_alike|apply IH].
    + destruct (already q r v) eqn:B.
      * apply log_omitted; [exact N| |apply IH]. unfold already, holds in *. destruct (r =? 25); lia.
      * apply log_same; [apply same_alike|apply IH].
  - apply log_same; [apply same_alike|apply IH].
Qed.
Print Assumptions C106_thrifty.

(** The score of C105 by such a driver: timer writes, CT1/CT2 bits, a data block, a
    PSG write and waits of other kinds in the file. *)
Definition log_ops : list vgm_op :=
  [OpDataBlock 0 [1; 2; 3]; OpYm2151 0x14 0x15; OpYm2151 0x1B 0x82; OpOther 0x50 [0x9F]; OpYm2151 0x18 200; OpYm2151 0x19 100; OpYm2151 0x19 205;
   OpWait60]
  ++ map op_of_call (skipn 5 (thrifty [] (performance some_lfo some_score))) ++ [OpEnd].
Example C106_log_ops : Forall op_valid log_ops /\ logged [] (performance some_lfo some_score) (calls_of (map op_command log_ops))
  /\ (List.length (performance some_lfo some_score) = 103)%nat /\ (List.length (calls_of (map op_command log_ops)) = 78)%nat.
Proof.
  destruct C105_score_fits as (A & B & _). split; [|split; [|split; reflexivity]].
  - apply Forall_app. split.
    + repeat (apply Forall_cons; [cbn; unfold byte; try lia|]); try apply Forall_nil.
      split; [lia|]. split; [reflexivity|]. lia.
    + apply Forall_app. split; [|repeat constructor]. rewrite Forall_map. apply Forall_forall. intros c Hc.
      assert (V : forallb (fun c => match c with Apply r v => (0 <=? r) && (r <? 256) && (0 <=? v) && (v <? 256) | Beat n => (0 <=? n) && (n <? 65536) end)
        (skipn 5 (thrifty [] (performance some_lfo some_score))) = true) by (vm_compute; reflexivity).
      rewrite forallb_forall in V. specialize (V c Hc). destruct c; cbn; unfold byte; lia.
  - set (rest := skipn 5 (performance some_lfo some_score)).
    change (performance some_lfo some_score) with (Apply 0x18 200 :: Apply 0x19 100 :: Apply 0x19 205 :: Apply 0x1B 2 :: Beat 735 :: rest).
    set (q := [Apply 0x14 0x15; Apply 0x1B 0x82; Apply 0x18 200; Apply 0x19 100; Apply 0x19 205; Beat 735]).
    replace (calls_of (map op_command log_ops)) with (q ++ thrifty q rest) by (vm_compute; reflexivity).
    cbn [app q]. apply log_unheard; [split; [lia|cbn; lia]|].
    apply (log_exchanged _ [Apply 0x18 200; Apply 0x19 100]); [discriminate|discriminate|left; discriminate|].
    apply (log_exchanged _ [Apply 0x18 200]); [discriminate|discriminate|left; discriminate|].
    apply (log_exchanged _ []); [discriminate|discriminate|left; discriminate|]. cbn [app].
    apply log_same; [split; [reflexivity|vm_compute; reflexivity]|].
    do 4 (apply log_same; [apply same_alike|]). apply C106_thrifty.
Qed.
