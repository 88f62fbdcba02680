(** C41: the instrument file. *)
From Coq Require Import Lia ZifyBool.
From Verif.Model Require Import Py Config Note State Ticks Json Extract History.
From Verif.Spec Require Import VgmFormat Ym2151 Ranges Text JsonText.
From Verif.Proofs Require Import PyLemmas StateProofs ChipProofs ChipProofs2 TextProofs TempoProofs JsonProofs.
From Verif.Props Require Import Chip.

(** The name lists agree. *)
Lemma operators_json_name o : 0 <= o < 16 -> operators_json o = JStr (operators_name o).
Proof.
  intro H. assert (C : match operators_json o with JStr t => String.eqb t (operators_name o) | _ => false end = true).
  { apply (sweep 16 (fun o => match operators_json o with JStr t => String.eqb t (operators_name o) | _ => false end));
    [vm_compute; reflexivity|lia]. }
  destruct (operators_json o); try discriminate. apply String.eqb_eq in C. now subst.
Qed.
Lemma config_json_ok c : config_in_range c -> exists j, config_json c = Ok j /\ safe_json j = true /\ shows_config j c.
Proof.
  intros (_ & _ & (L & _) & O). unfold config_json, chan_json.
  destruct (c_channel c) as [ops fb ams pms con noi nf] eqn:EC. cbn [ch_operators] in *.
  destruct ops as [|m1 [|m2 [|c1 [|c2 [|]]]]]; try discriminate. cbn [py_get py_slot len List.length bind Z.of_nat].
  eexists. split; [reflexivity|]. rewrite operators_json_name by (cbn in O; lia). split.
  - cbn [safe_json forallb]. 
    assert (safe (operators_name (c_operators c)) = true) as ->.
    { apply (sweep 16 (fun o => safe (operators_name o))); [vm_compute; reflexivity|cbn in O; lia]. }
    destruct (b_waveform (c_base c)) eqn:W; unfold base_json; rewrite W; reflexivity.
  - repeat split. 
    + eexists. split; [reflexivity|]. repeat split.
    + eexists. split; [reflexivity|]. rewrite EC. repeat split. cbn [ch_operators]. exists m1, m2, c1, c2.
      split; [reflexivity|]. repeat split; eexists; (split; [reflexivity|]); repeat split.
Qed.

(** The file parses as a JSON array with one object per instrument, in order,
    showing every parameter. *)
Theorem C41_file : forall h s, history_ok h -> run_calls h state_init = Ok s ->
  exists txt l, instruments_text s = Ok txt /\ json_of_text txt = Some (JList l)
    /\ Forall2 shows_config l (s_configs s)
    /\ forall i c, nth_error (s_configs s) i = Some c -> c_id c = Z.of_nat i.
Proof.
  intros h s H E. destruct (C18_ranges h s H E) as (_ & _ & _ & R & _).
  assert (G : exists l, mapM config_json (s_configs s) = Ok l /\ forallb safe_json l = true /\ Forall2 shows_config l (s_configs s)).
  { clear -R. induction (s_configs s) as [|c cs IH]; [exists []; repeat split; constructor|].
    inversion R as [|? ? Rc R']; subst. destruct (IH R') as (l & M & S & F).
    destruct (config_json_ok c Rc) as (j & Ej & Sj & Hj). exists (j :: l). cbn [mapM]. rewrite Ej. cbn [bind]. rewrite M.
    split; [reflexivity|]. split; [cbn [forallb]; now rewrite Sj, S|]. constructor; assumption. }
  destruct G as (l & M & S & F). unfold instruments_text. rewrite M. cbn [bind].
  eexists _, l. split; [reflexivity|]. split; [now apply json_text_ok|]. split; [assumption|].
  now apply (C19_instruments_distinct h).
Qed.
Print Assumptions C41_file.

(** Nothing is lost: an object shows at most one instrument. *)
Theorem C41_lossless : forall j c c', 0 <= c_operators c < 16 -> 0 <= c_operators c' < 16 ->
  shows_config j c -> shows_config j c' -> c = c'.
Proof.
  assert (OP : forall j o o', shows_operator j o -> shows_operator j o' -> o = o').
  { intros j [] [] A B. unfold shows_operator, has_int, has_flag in *. cbn in *.
    decompose [and] A. decompose [and] B. f_equal; congruence. }
  intros j [id b c o] [id' b' c' o'] Ho Ho' (A1 & A2 & (jb & A3 & A4) & (jc & A5 & A6)) (B1 & B2 & (jb' & B3 & B4) & (jc' & B5 & B6)).
  cbn [c_id c_base c_channel c_operators] in *. unfold has_int, has_text in *.
  assert (jb' = jb) by congruence. assert (jc' = jc) by congruence. subst jb' jc'. f_equal.
  - congruence.
  - destruct b, b'. unfold shows_base, has_int, has_text in *. cbn in *. decompose [and] A4. decompose [and] B4.
    f_equal; try congruence.
    assert (N : waveform_name b_waveform = waveform_name b_waveform0) by congruence.
    destruct b_waveform, b_waveform0; try reflexivity; discriminate.
  - destruct c as [ops fb ams pms con noi nf], c' as [ops' fb' ams' pms' con' noi' nf'].
    unfold shows_channel, has_int, has_flag in *. cbn [ch_operators ch_fb ch_ams ch_pms ch_connection ch_noise ch_noise_freq] in *.
    destruct A6 as (P1 & P2 & P3 & P4 & P5 & P6 & (m1 & m2 & c1 & c2 & -> & (x1 & X1 & Y1) & (x2 & X2 & Y2) & (x3 & X3 & Y3) & (x4 & X4 & Y4))).
    destruct B6 as (Q1 & Q2 & Q3 & Q4 & Q5 & Q6 & (n1 & n2 & d1 & d2 & -> & (z1 & Z1 & W1) & (z2 & Z2 & W2) & (z3 & Z3 & W3) & (z4 & Z4 & W4))).
    assert (z1 = x1) by congruence. assert (z2 = x2) by congruence. assert (z3 = x3) by congruence. assert (z4 = x4) by congruence. subst.
    rewrite (OP _ _ _ Y1 W1), (OP _ _ _ Y2 W2), (OP _ _ _ Y3 W3), (OP _ _ _ Y4 W4). f_equal; congruence.
  - assert (N : operators_name o = operators_name o') by congruence.
    assert (C : forallb (fun a => forallb (fun b => (a =? b) || negb (String.eqb (operators_name a) (operators_name b)))
        (map Z.of_nat (seq 0 16))) (map Z.of_nat (seq 0 16)) = true) by (vm_compute; reflexivity).
    apply (sweep 16) with (b := o) in C; [|lia]. cbv beta in C.
    apply (sweep 16) with (b := o') in C; [|lia]. cbv beta in C.
    apply orb_true_iff in C as [C|C]; [lia|]. apply negb_true_iff, String.eqb_neq in C. contradiction.
Qed.
Print Assumptions C41_lossless.

(** Different instrument lists give different files. *)
Theorem C41_injective : forall h h' s s' txt, history_ok h -> history_ok h' ->
  run_calls h state_init = Ok s -> run_calls h' state_init = Ok s' ->
  instruments_text s = Ok txt -> instruments_text s' = Ok txt -> s_configs s = s_configs s'.
Proof.
  intros h h' s s' txt H H' E E' T T'.
  destruct (C41_file h s H E) as (t & l & A & B & F & _). destruct (C41_file h' s' H' E') as (t' & l' & A' & B' & F' & _).
  assert (l' = l) by congruence. subst l'.
  destruct (C18_ranges h s H E) as (_ & _ & _ & R & _). destruct (C18_ranges h' s' H' E') as (_ & _ & _ & R' & _).
  revert F F' R R'. generalize (s_configs s) as a, (s_configs s') as b. clear.
  intros a b F. revert b. induction F as [|j c l a J F IH]; intros b F' R R'; inversion F'; subst; [reflexivity|].
  inversion R as [|? ? (_ & _ & _ & O) R1]; subst. inversion R' as [|? ? (_ & _ & _ & O') R1']; subst.
  f_equal; [|now apply IH]. eapply C41_lossless; [| |eassumption|eassumption]; cbn in *; lia.
Qed.
Print Assumptions C41_injective.

Example C41_tune : match instruments_text tune_state with
  | Ok txt => String.length txt = 1902%nat /\ match json_of_text txt with
       | Some (JList [a; b]) => member "id" b = Some (JInt 1) /\ member "operators" a = Some (JStr "MOD1|CAR1|MOD2|CAR2")
       | _ => False end
  | Err _ => False end.
Proof. vm_compute. auto. Qed.
