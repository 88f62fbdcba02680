(** C39, C40: the CSV sheet. *)
From Coq Require Import Lia ZifyBool Sorted.
From Verif.Model Require Import Py PyFloat Config Note State Ticks Song Extract Csv History.
From Verif.Spec Require Import VgmFormat Ym2151 Ranges Text Tracker Sheet Decimal.
From Verif.Proofs Require Import PyLemmas StateProofs KeyProofs ChipProofs TextProofs TempoProofs
  GridProofs SongProofs CsvProofs CsvProofs2 FractionProofs.
From Verif.Props Require Import Chip.

Ltac Zify.zify_post_hook ::= Z.div_mod_to_equations.

(** The logs of the eight channels. *)
Definition logs_of (s : state) (logs : list (list note)) : Prop :=
  List.length logs = 8%nat /\ forall ch, 0 <= ch < 8 -> key_presses s ch = Ok (nth (Z.to_nat ch) logs []).

Lemma logs_notes h s logs : history_ok h -> run_calls h state_init = Ok s -> logs_of s logs ->
  logs = map (notes h) chans.
Proof.
  intros H E (L & K). pose proof (run_logs h s H E) as Q.
  apply nth_ext with (d := @nil note) (d' := notes h 0); [now rewrite map_length|].
  intros k Hk. rewrite L in Hk. rewrite map_nth.
  pose proof (K (Z.of_nat k) ltac:(lia)) as A. destruct (Q (Z.of_nat k) ltac:(lia)) as (B & _).
  rewrite A in B. injection B as B. rewrite Nat2Z.id in B. rewrite B. f_equal.
  do 8 (destruct k as [|k]; [reflexivity|]). lia.
Qed.
Lemma logs_in h logs n : logs = map (notes h) chans -> In n (concat logs) -> exists ch, 0 <= ch < 8 /\ In n (notes h ch).
Proof.
  intros -> H. apply in_concat in H as (l & Hl & Hn). apply in_map_iff in Hl as (c & <- & Hc).
  apply chans_in in Hc. eauto.
Qed.

(** The sample column of row [i] shows the time of the first event after that row. *)
Definition first_after (tpn : Z) (logs : list (list note)) (i t : Z) : Prop :=
  (exists n, In n (concat logs) /\ n_sample n = t /\ i < n_sample n / tpn)
  /\ forall n, In n (concat logs) -> i < n_sample n / tpn -> t <= n_sample n.

Lemma sheet_full : forall h s tpn logs,
  history_ok h -> run_calls h state_init = Ok s -> 0 < tpn -> logs_of s logs ->
  (forall n, In n (concat logs) -> n_sample n < tpn * (2 ^ 1024 - 2 ^ 970)) ->
  exists data, csv_rows s tpn = Ok (csv_header :: data, Ok tt)
    /\ Z.of_nat (List.length data) = last_row tpn logs
    /\ forall k row, nth_error data k = Some row ->
       let i := Z.of_nat k in
       exists t fr, first_after tpn logs i t /\ csv_fraction t tpn = Ok fr
         /\ row = [str_int t; str_int (i mod 64); str_int (i / 64); str_int i; fr]
                  ++ map (fun log => cell_text (last_event tpn log i)) logs.
Proof.
  intros h s tpn logs H E Ht LG SM. pose proof (logs_notes h s logs H E LG) as EL.
  pose proof (run_logs h s H E) as Q. destruct LG as (L8 & K).
  assert (RNG : forall l, In l logs -> Forall note_in_range l /\ sorted_log l /\ Forall (fun n => 0 < n_sample n) l).
  { intros l Hl. rewrite EL in Hl. apply in_map_iff in Hl as (c & <- & Hc). apply chans_in in Hc.
    destruct (Q c Hc) as (_ & A & B & C). auto. }
  assert (M : mapM (key_presses s) (py_range 0 8) = Ok logs).
  { rewrite EL. change (py_range 0 8) with chans. apply mapM_ok. intros c Hc. apply chans_in in Hc. apply (Q c Hc). }
  unfold csv_rows. rewrite M. cbn [bind].
  destruct (csv_loop_ok tpn Ht (List.length (concat logs)) logs 0 blank_row) as (rows & ER & LR & G).
  - assumption.
  - now rewrite L8.
  - apply Forall_forall. intros l Hl. now apply RNG.
  - apply Forall_forall. intros l Hl. now apply RNG.
  - intros n Hn. apply in_concat in Hn as (l & Hl & Hn). destruct (RNG l Hl) as (_ & _ & P).
    rewrite Forall_forall in P. specialize (P n Hn). split; [apply Z.div_pos; lia|].
    apply fraction_ok; [assumption|]. split; [lia|]. apply SM. apply in_concat. eauto.
  - lia.
  - rewrite ER. exists rows. split; [reflexivity|]. split.
    + rewrite LR. unfold top, last_row. lia.
    + intros k row Hk. cbv zeta. set (i := Z.of_nat k). destruct (G k row Hk) as (t & fr & ((n & Hn & En & Ln) & MIN) & F & ->). exists t, fr.
      replace (0 + Z.of_nat k) with i in * by (unfold i; lia).
      split; [split; [exists n; rewrite En; auto|exact MIN]|]. split; [assumption|].
      unfold csv_row. f_equal. unfold cells_at.
      assert (LB : List.length blank_row = List.length logs) by now rewrite L8.
      destruct (Z.eqb_spec i 0) as [Z0|NZ].
      * change blank_row with (repeat ""%string 8). rewrite <- L8. clear. induction logs as [|l logs IH]; [reflexivity|].
        cbn [List.length repeat zipw map]. now rewrite IH.
      * revert LB. generalize blank_row as b. clear. induction logs as [|l logs IH]; intros [|c b] Lb;
        cbn [List.length zipw map] in *; try discriminate; [reflexivity|]. rewrite IH by lia. reflexivity.
Qed.

(** The sheet: consecutive rows, each with the time of the first event after the
    row, that time's position within its own row, and per channel the text of the
    last event in the row. *)
Theorem C39_sheet : forall h s tpn logs,
  history_ok h -> run_calls h state_init = Ok s -> 0 < tpn -> logs_of s logs ->
  (forall n, In n (concat logs) -> n_sample n < tpn * (2 ^ 1024 - 2 ^ 970)) ->
  exists data, csv_rows s tpn = Ok (csv_header :: data, Ok tt)
    /\ Z.of_nat (List.length data) = last_row tpn logs
    /\ forall k row, nth_error data k = Some row ->
       let i := Z.of_nat k in
       exists t fr, first_after tpn logs i t /\ (t < 2 ^ 53 -> fraction_shown t tpn fr)
         /\ row = [str_int t; str_int (i mod 64); str_int (i / 64); str_int i; fr]
                  ++ map (fun log => cell_text (last_event tpn log i)) logs.
Proof.
  intros h s tpn logs H E Ht LG SM. destruct (sheet_full h s tpn logs H E Ht LG SM) as (data & C & L & G).
  exists data. split; [exact C|]. split; [exact L|]. intros k row Hk i.
  destruct (G k row Hk) as (t & fr & F & CF & R). exists t, fr. split; [exact F|]. split; [|exact R].
  intro T. destruct F as [(n & Hn & En & Ln) _].
  assert (0 < tpn <= t).
  { split; [assumption|]. rewrite En in Ln. assert (1 <= t / tpn) by lia. clear - Ht H0. pose proof (Z.div_mod t tpn). nia. }
  destruct (fraction_column t tpn H0 T) as (s' & CF' & FS). assert (s' = fr) by congruence. now subst s'.
Qed.
Print Assumptions C39_sheet.

Theorem C39_header : csv_header = ["Samples"; "Row"; "Pattern"; "Total Row"; "Fraction"; "Channel 1"; "Channel 2";
  "Channel 3"; "Channel 4"; "Channel 5"; "Channel 6"; "Channel 7"; "Channel 8"]%string.
Proof. reflexivity. Qed.
Print Assumptions C39_header.

(** The text of the file, split at newlines and commas, is the sheet again. *)
Theorem C39_text_splits : forall h s tpn rows r,
  history_ok h -> run_calls h state_init = Ok s -> 0 < tpn ->
  (forall ch l n, 0 <= ch < 8 -> key_presses s ch = Ok l -> In n l -> n_sample n < tpn * (2 ^ 1024 - 2 ^ 970)) ->
  csv_rows s tpn = Ok (rows, r) -> sheet_of_text (csv_text rows) = rows.
Proof.
  intros h s tpn rows r H E Ht SM C. pose proof (run_logs h s H E) as Q.
  assert (LG : logs_of s (map (notes h) chans)).
  { split; [reflexivity|]. intros ch Hc. destruct (Q ch Hc) as (A & _). rewrite A. f_equal.
    assert (ch = 0 \/ ch = 1 \/ ch = 2 \/ ch = 3 \/ ch = 4 \/ ch = 5 \/ ch = 6 \/ ch = 7) as D by lia.
    decompose [or] D; subst; reflexivity. }
  destruct (sheet_full h s tpn _ H E Ht LG) as (data & CR & _ & G).
  { intros n Hn. destruct (logs_in h _ n eq_refl Hn) as (c & Hc & Hn'). destruct (Q c Hc) as (A & _).
    exact (SM c _ n Hc A Hn'). }
  rewrite CR in C. injection C as <- <-. apply sheet_text. constructor.
  - split; [discriminate|reflexivity].
  - apply Forall_forall. intros row Hr. apply In_nth_error in Hr as (k & Hk).
    destruct (G k row Hk) as (t & fr & _ & F & ->). split; [discriminate|].
    rewrite forallb_app. cbn [forallb]. rewrite !clean_int, (clean_csv_fraction _ _ _ F). cbn [andb].
    apply forallb_forall. intros x Hx. apply in_map_iff in Hx as (l & <- & Hl). apply in_map_iff in Hl as (c & <- & Hc).
    apply chans_in in Hc. destruct (Q c Hc) as (_ & R & _).
    destruct (last_event tpn (notes h c) (Z.of_nat k)) as [n|] eqn:EL; [|reflexivity].
    apply last_event_in in EL as [I _]. rewrite Forall_forall in R. apply clean_event. now apply R.
Qed.
Print Assumptions C39_text_splits.

Example C39_tune : match csv_rows tune_state 200 with
  | Ok (rows, Ok _) => List.length rows = 8%nat
      /\ nth_error rows 6 = Some ["1300"; "5"; "0"; "5"; "0.5"; "C -3-101 [0] "; ""; ""; ""; ""; ""; ""; ""]%string
      /\ nth_error rows 7 = Some ["1500"; "6"; "0"; "6"; "0.5"; "F -4-101 [0] Pan L"; ""; ""; ""; ""; ""; ""; ""]%string
  | _ => False end.
Proof. vm_compute. auto. Qed.
Example C39_tune_hypotheses : logs_of tune_state (map (notes tune) chans)
  /\ forall n, In n (concat (map (notes tune) chans)) -> n_sample n < 200 * (2 ^ 1024 - 2 ^ 970).
Proof.
  split.
  - split; [reflexivity|]. intros ch Hc.
    assert (ch = 0 \/ ch = 1 \/ ch = 2 \/ ch = 3 \/ ch = 4 \/ ch = 5 \/ ch = 6 \/ ch = 7) as D by lia.
    decompose [or] D; subst; reflexivity.
  - assert (B : forallb (fun n => n_sample n <? 2000) (concat (map (notes tune) chans)) = true) by (vm_compute; reflexivity).
    rewrite forallb_forall in B. intros n Hn. specialize (B n Hn). apply Z.ltb_lt in B.
    apply Z.lt_le_trans with 2000; [assumption|]. vm_compute. discriminate.
Qed.

(** Whatever the tick length, the export ends: it never loops. *)
Theorem C39_terminates : forall s tpn w, csv_rows s tpn = Ok w -> snd w <> Err OutOfFuel.
Proof.
  intros s tpn w H. unfold csv_rows in H. destruct (mapM (key_presses s) (py_range 0 8)) as [chs|e] eqn:M; [|discriminate].
  cbn [bind] in H. destruct (csv_loop tpn _ chs 0 blank_row) as [rows r] eqn:E. injection H as <-. cbn [snd].
  replace r with (snd (csv_loop tpn (List.length (concat chs)) chs 0 blank_row)) by now rewrite E.
  apply mapM_length in M. apply csv_loop_ends; [now rewrite M|lia|now rewrite M].
Qed.
Print Assumptions C39_terminates.

(** C40: the rows up to the last event's row are there, that row is not. *)
Theorem C40_missing_row : forall h s tpn logs data r,
  history_ok h -> run_calls h state_init = Ok s -> 0 < tpn -> logs_of s logs ->
  (forall n, In n (concat logs) -> n_sample n < tpn * (2 ^ 1024 - 2 ^ 970)) ->
  csv_rows s tpn = Ok (csv_header :: data, r) ->
  (forall n, In n (concat logs) -> n_sample n / tpn < last_row tpn logs ->
     exists row, nth_error data (Z.to_nat (n_sample n / tpn)) = Some row
       /\ nth_error row 3 = Some (str_int (n_sample n / tpn)))
  /\ (forall row, In row data -> nth_error row 3 <> Some (str_int (last_row tpn logs)))
  /\ (concat logs <> [] -> exists n, In n (concat logs) /\ n_sample n / tpn = last_row tpn logs).
Proof.
  intros h s tpn logs data r H E Ht LG SM C.
  destruct (sheet_full h s tpn logs H E Ht LG SM) as (data' & C' & L & G). rewrite C in C'. injection C' as <- ->.
  pose proof (logs_notes h s logs H E LG) as EL. pose proof (run_logs h s H E) as Q.
  assert (POS : forall n, In n (concat logs) -> 0 <= n_sample n / tpn).
  { intros n Hn. destruct (logs_in h _ n EL Hn) as (c & Hc & Hn'). destruct (Q c Hc) as (_ & _ & _ & P).
    rewrite Forall_forall in P. specialize (P n Hn'). apply Z.div_pos; lia. }
  split; [|split].
  - intros n Hn Hl. specialize (POS n Hn).
    destruct (nth_error data (Z.to_nat (n_sample n / tpn))) as [row|] eqn:N.
    + exists row. split; [reflexivity|]. destruct (G _ _ N) as (t & fr & _ & _ & ->). cbn. do 2 f_equal. lia.
    + apply nth_error_None in N. lia.
  - intros row Hr. apply In_nth_error in Hr as (k & Hk). destruct (G _ _ Hk) as (t & fr & _ & _ & ->). cbn.
    intro X. injection X as X. apply str_int_inj in X.
    assert (k < List.length data)%nat by (apply nth_error_Some; congruence). lia.
  - intro NE. unfold last_row. clear -NE POS. induction (concat logs) as [|n l IH]; [contradiction|].
    cbn [map fold_right].
    destruct (Z.max_spec (n_sample n / tpn) (fold_right Z.max 0 (map (fun n => n_sample n / tpn) l))) as [[M ->]|[M ->]].
    + destruct l as [|m l].
      * cbn in M. specialize (POS n (or_introl eq_refl)). cbn. lia.
      * destruct IH as (x & Hx & Ex); [intros; apply POS; now right|discriminate|]. exists x. split; [now right|assumption].
    + exists n. split; [now left|reflexivity].
Qed.
Print Assumptions C40_missing_row.
(** Events in row 0 only: nothing but the header is written. *)
Theorem C40_all_rows_refuted : exists h s, history_ok h /\ run_calls h state_init = Ok s
  /\ notes h 0 <> [] /\ csv_rows s 1000 = Ok ([csv_header], Ok tt).
Proof.
  exists [Beat 10; Apply 0x08 0x78]. eexists.
  split; [repeat constructor; cbn; unfold byte; lia|]. split; [vm_compute; reflexivity|].
  split; [intro X; vm_compute in X; discriminate|reflexivity].
Qed.
Print Assumptions C40_all_rows_refuted.
