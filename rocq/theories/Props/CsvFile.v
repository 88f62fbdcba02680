(** C76, C77: the CSV export as a whole, and its agreement with the song. *)
From Coq Require Import Lia ZifyBool Sorted.
From Verif.Model Require Import Py PyFloat Config Note State Ticks Song Serializer Extract Csv History Main CsvFile.
From Verif.Spec Require Import VgmFormat Ym2151 Ranges Text Tracker Sheet Decimal Cli Whole.
From Verif.Proofs Require Import PyLemmas StateProofs KeyProofs ChipProofs TextProofs TempoProofs
  GridProofs SongProofs CsvProofs CsvProofs2 CsvProofs3 FractionProofs FractionProofs2.
From Verif.Props Require Import Chip Song Csv Cli.
Local Open Scope Z_scope.

(** Where the sheet goes: a file, or standard output for no name, "" and "-". *)
Definition target_of (name : option string) : handle :=
  match name with
  | Some n => if string_dec n "" then HStdout else if string_dec n "-" then HStdout else HFile n "w"
  | None => HStdout
  end.
Definition can_write (writable : string -> bool) (name : option string) : bool :=
  match target_of name with HFile n _ => writable n | _ => true end.
(** The sheet as the bytes of the CSV file: a header, and a line for each row
    before the last event's, with the events of the row per channel. *)
Definition sheet_shows (h : history) (tpn : Z) (rows : list (list string)) : Prop :=
  exists data, rows = ["Samples"; "Row"; "Pattern"; "Total Row"; "Fraction"; "Channel 1"; "Channel 2"; "Channel 3";
                       "Channel 4"; "Channel 5"; "Channel 6"; "Channel 7"; "Channel 8"]%string :: data
  /\ (forall k, (k < List.length data)%nat <-> exists n, In n (all_notes h) /\ Z.of_nat k < n_sample n / tpn)
  /\ forall k row, nth_error data k = Some row ->
     exists t fr, (forall u, u = t <-> (exists n, In n (all_notes h) /\ n_sample n = u /\ Z.of_nat k < u / tpn)
                                      /\ forall n, In n (all_notes h) -> Z.of_nat k < n_sample n / tpn -> u <= n_sample n)
       /\ (t < 2 ^ 53 -> fraction_shown t tpn fr)
       /\ row = [str_int t; str_int (Z.of_nat k mod 64); str_int (Z.of_nat k / 64); str_int (Z.of_nat k); fr]
                ++ map (fun ch => cell_text (last_event tpn (notes h ch) (Z.of_nat k))) [0; 1; 2; 3; 4; 5; 6; 7].

Lemma notes_logs h s : history_ok h -> run_calls h state_init = Ok s -> logs_of s (map (notes h) chans).
Proof.
  intros H E. pose proof (run_logs h s H E) as Q. split; [reflexivity|]. intros ch Hc. destruct (Q ch Hc) as (A & _). rewrite A. f_equal.
  assert (ch = 0 \/ ch = 1 \/ ch = 2 \/ ch = 3 \/ ch = 4 \/ ch = 5 \/ ch = 6 \/ ch = 7) as D by lia.
  decompose [or] D; subst; reflexivity.
Qed.
Lemma all_concat h : all_notes h = concat (map (notes h) chans).
Proof. unfold all_notes. now rewrite flat_map_concat_map. Qed.
Lemma last_row_le tpn l : 0 < tpn -> forall n, In n (concat l) -> n_sample n / tpn <= last_row tpn l.
Proof.
  intros T n I. unfold last_row. induction (concat l) as [|x r IH]; [destruct I|]. cbn. destruct I as [->|I]; [lia|]. specialize (IH I). lia.
Qed.
Lemma last_row_hit tpn l : last_row tpn l = 0 \/ exists n, In n (concat l) /\ n_sample n / tpn = last_row tpn l.
Proof.
  unfold last_row. induction (concat l) as [|x r IH]; [now left|]. cbn. destruct (Z.max_spec (n_sample x / tpn) (fold_right Z.max 0 (map (fun n => n_sample n / tpn) r))) as [[_ ->]|[_ ->]].
  - destruct IH as [IH|(n & I & IH)]; [now left|]. right. exists n. split; [now right|assumption].
  - right. exists x. split; [now left|reflexivity].
Qed.

(** C76: positive tick lengths: the message, then the sheet; and everything opened is closed. *)
Theorem C76_sheet_file : forall h s tpn writable name,
  history_ok h -> run_calls h state_init = Ok s -> 0 < tpn ->
  (forall n, In n (all_notes h) -> n_sample n < tpn * (2 ^ 1024 - 2 ^ 970)) ->
  let run := do_csv writable s name tpn in
  if can_write writable name
  then snd run = Ok tt /\ open_after [] (fst run) = Some []
       /\ exists txt, outputs (fst run) = [Text (target_of name) txt] /\ sheet_shows h tpn (sheet_of_text txt)
  else snd run = Err OSError /\ outputs (fst run) = [].
Proof.
  intros h s tpn w name H E Ht SM run. pose proof (notes_logs h s H E) as LG.
  assert (SM' : forall n, In n (concat (map (notes h) chans)) -> n_sample n < tpn * (2 ^ 1024 - 2 ^ 970))
    by (rewrite <- all_concat; exact SM).
  destruct (C39_sheet h s tpn _ H E Ht LG SM') as (data & C & L & G).
  assert (TS : sheet_of_text (csv_text (csv_header :: data)) = csv_header :: data).
  { eapply C39_text_splits; [exact H|exact E|exact Ht| |exact C]. intros ch l n Hc K I. apply SM. unfold all_notes. apply in_flat_map.
    exists ch. split; [now apply chans_in|]. destruct (run_logs h s H E ch Hc) as (K' & _). rewrite K in K'. now injection K' as <-. }
  assert (SH : sheet_shows h tpn (csv_header :: data)).
  { exists data. split; [reflexivity|]. split.
    - intro k. split.
      + intro Lk. destruct (last_row_hit tpn (map (notes h) chans)) as [Z|(n & I & Q)]; [lia|].
        exists n. rewrite all_concat. split; [assumption|lia].
      + intros (n & I & Q). rewrite all_concat in I. pose proof (last_row_le tpn _ Ht n I). lia.
    - intros k row Hk. destruct (G k row Hk) as (t & fr & ((n & I & Q & Lk) & M) & F & R). exists t, fr.
      rewrite !all_concat in *. split; [|split; [exact F|]].
      + intro u. split.
        * intros ->. split; [exists n; rewrite <- Q; auto|exact M].
        * intros ((n' & I' & Q' & Lk') & M'). specialize (M n' I'). specialize (M' n I). subst u t. specialize (M Lk'). specialize (M' Lk). lia.
      + exact R. }
  assert (A : do_csv w s name tpn = match target_of name with
     | HFile n m => if w n then ([line ("Writing tracks to " ++ match name with Some n => n | None => "None" end ++ "..."); WriteText (HFile n "w") (csv_text (csv_header :: data)); Close (HFile n "w")], Ok tt)
                    else ([line ("Writing tracks to " ++ match name with Some n => n | None => "None" end ++ "...")], Err OSError)
     | _ => ([line ("Writing tracks to " ++ match name with Some n => n | None => "None" end ++ "..."); WriteText HStdout (csv_text (csv_header :: data))], Ok tt) end%string).
  { unfold do_csv, target_of. rewrite C. destruct name as [n|]; [|reflexivity].
    destruct (string_dec n "") as [->|N1]; [reflexivity|]. destruct (string_dec n "-") as [->|N2]; [reflexivity|].
    rewrite smart_open_file by now split. reflexivity. }
  unfold run. rewrite A. unfold can_write, target_of. clear A.
  assert (FIN : forall t, exists txt, [Text t (csv_text (csv_header :: data))] = [Text t txt] /\ sheet_shows h tpn (sheet_of_text txt)).
  { intro t. eexists. split; [reflexivity|]. rewrite TS. exact SH. }
  destruct name as [n|]; [destruct (string_dec n ""); [|destruct (string_dec n "-")]|]; cbn match;
    try (split; [reflexivity|]; split; [reflexivity|]; apply FIN).
  destruct (w n); [|split; reflexivity]. split; [reflexivity|]. split; [|apply FIN].
  cbn [fst open_after]. unfold line. cbn [open_after]. now rewrite !String.eqb_refl.
Qed.
Print Assumptions C76_sheet_file.
(** Tick length 0: the file is opened, gets its header, and is closed; then the
    export fails if there is any event at all. *)
Theorem C76_zero : forall h s writable name, history_ok h -> run_calls h state_init = Ok s -> can_write writable name = true ->
  let run := do_csv writable s name 0 in
  snd run = (if is_nil (all_notes h) then Ok tt else Err ZeroDivisionError)
  /\ open_after [] (fst run) = Some []
  /\ exists txt, outputs (fst run) = [Text (target_of name) txt] /\ sheet_of_text txt = [csv_header].
Proof.
  intros h s w name H E CW run. destruct (notes_logs h s H E) as (L8 & K).
  assert (M : mapM (key_presses s) (py_range 0 8) = Ok (map (notes h) chans)).
  { change (py_range 0 8) with chans. apply mapM_ok. intros c Hc. apply chans_in in Hc. apply (run_logs h s H E c Hc). }
  assert (C : csv_rows s 0 = Ok ([csv_header], if is_nil (all_notes h) then Ok tt else Err ZeroDivisionError)).
  { unfold csv_rows. rewrite M. cbn [bind]. rewrite all_concat. set (logs := map (notes h) chans).
    destruct (min_sample logs) as [m|] eqn:X.
    - destruct (concat logs) as [|n l] eqn:Y.
      + exfalso. unfold min_sample in X. assert (Z : head_samples logs = []).
        { clear -Y. unfold head_samples. induction logs as [|l logs IH]; [reflexivity|]. cbn in *. apply app_eq_nil in Y as [-> Y]. cbn. now apply IH. }
        now rewrite Z in X.
      + cbn [List.length csv_loop]. rewrite X. reflexivity.
    - rewrite (min_sample_none _ X). cbn [List.length csv_loop is_nil]. now rewrite X. }
  assert (TS : sheet_of_text (csv_text [csv_header]) = [csv_header]) by reflexivity.
  unfold run, do_csv. rewrite C. unfold can_write, target_of in *.
  destruct name as [n|]; [destruct (string_dec n "") as [->|]; [|destruct (string_dec n "-") as [->|]]|].
  1,2,4: cbn [smart_open truthy negb andb String.eqb]; split; [reflexivity|]; split; [reflexivity|]; eexists; split; [reflexivity|exact TS].
  rewrite smart_open_file by now split. rewrite CW. split; [reflexivity|]. split.
  - cbn [fst open_after closing smart_closes]. unfold line. cbn [open_after]. now rewrite !String.eqb_refl.
  - eexists. split; [reflexivity|exact TS].
Qed.
Print Assumptions C76_zero.
Example C76_tune : let w := fun n => String.eqb n "t.csv" in
  can_write w (Some "t.csv"%string) = true /\ can_write w (Some "-"%string) = true /\ can_write w (Some "u.csv"%string) = false
  /\ snd (do_csv w tune_state (Some "t.csv"%string) 0) = Err ZeroDivisionError
  /\ match outputs (fst (do_csv w tune_state (Some "t.csv"%string) 20)) with
     | [Text (HFile "t.csv" "w") txt] => List.length (sheet_of_text txt) = 76%nat | _ => False end%string.
Proof. vm_compute. auto 6. Qed.

(** C77: row by row, the sheet and the song show the same events. *)
Theorem C77_sheet_and_song : forall h s tpn sg rows r k row ch,
  history_ok h -> run_calls h state_init = Ok s -> 0 < tpn ->
  (forall n, In n (all_notes h) -> n_sample n < tpn * (2 ^ 1024 - 2 ^ 970)) ->
  build_song s tpn = Ok sg -> csv_rows s tpn = Ok (rows, r) -> nth_error (tl rows) k = Some row -> (ch < 8)%nat ->
  match cell (render sg) (Z.of_nat k / 64) (Z.of_nat ch) (Z.of_nat k mod 64) with
  | None => nth_error row (5 + ch) = Some ""%string
  | Some c => exists n, In n (notes h (Z.of_nat ch)) /\ displays n c /\ nth_error row (5 + ch) = Some (event_text n)
  end.
Proof.
  intros h s tpn sg rows r k row ch H E Ht SM B C Hk Hc. pose proof (notes_logs h s H E) as LG.
  rewrite all_concat in SM.
  destruct (C39_sheet h s tpn _ H E Ht LG SM) as (data & C' & L & G). rewrite C in C'. injection C' as -> ->. cbn [tl] in Hk.
  destruct (G k row Hk) as (t & fr & _ & _ & ->). set (i := Z.of_nat k) in *. assert (0 <= i) by (unfold i; lia).
  destruct (run_logs h s H E (Z.of_nat ch)) as (K & _); [lia|].
  pose proof (C31_cells h s tpn sg (Z.of_nat ch) _ (i / 64) (i mod 64) H E Ht B ltac:(lia) K ltac:(apply Z.div_pos; lia) ltac:(apply Z.mod_pos_bound; lia)) as X.
  replace (64 * (i / 64) + i mod 64) with i in X by (pose proof (Z.div_mod i 64); lia).
  assert (N : nth_error ([str_int t; str_int (i mod 64); str_int (i / 64); str_int i; fr] ++ map (fun log => cell_text (last_event tpn log i)) (map (notes h) chans)) (5 + ch)
     = Some (cell_text (last_event tpn (notes h (Z.of_nat ch)) i))).
  { rewrite map_map. clear -Hc. do 8 (destruct ch as [|ch]; [reflexivity|]). lia. }
  rewrite N. destruct (last_event tpn (notes h (Z.of_nat ch)) i) as [n|] eqn:LE.
  - destruct X as (c & -> & D). exists n. split; [|split; [exact D|reflexivity]].
    unfold last_event in LE. destruct (rev _) as [|m l] eqn:RV in LE; [discriminate|]. injection LE as ->.
    assert (I : In n (filter (fun n0 => n_sample n0 / tpn =? i) (notes h (Z.of_nat ch)))) by (apply in_rev; rewrite RV; now left).
    now apply filter_In in I.
  - rewrite X. reflexivity.
Qed.
Print Assumptions C77_sheet_and_song.
Example C77_tune : match csv_rows tune_state 20 with
  | Ok (_ :: data, _) => match nth_error data 50 with Some row => nth_error row 5 = Some "C -3-101 [0] "%string | None => False end
  | _ => False end /\ cell (render tune_song) 0 0 50 = Some (mkxnc "C-4" (Some "00") None)%string.
Proof. vm_compute. repeat split. Qed.

(** C78: a negative tick length counts rows downwards.  The sheet has row 0
    first and then, in the order of time, the rows that hold events (no blank
    rows in between), except the lowest; otherwise as in C76. *)
Definition sheet_runs_down (h : history) (tpn : Z) (rows : list (list string)) : Prop :=
  exists rs data, rows = ["Samples"; "Row"; "Pattern"; "Total Row"; "Fraction"; "Channel 1"; "Channel 2"; "Channel 3";
                       "Channel 4"; "Channel 5"; "Channel 6"; "Channel 7"; "Channel 8"]%string :: data
  /\ StronglySorted Z.gt rs
  /\ (forall r, In r rs <-> (r = 0 \/ exists n, In n (all_notes h) /\ n_sample n / tpn = r)
                            /\ exists n, In n (all_notes h) /\ n_sample n / tpn < r)
  /\ Forall2 (fun r row => exists t fr,
       (forall u, u = t <-> (exists n, In n (all_notes h) /\ n_sample n = u /\ u / tpn < r)
                            /\ forall n, In n (all_notes h) -> n_sample n / tpn < r -> u <= n_sample n)
       /\ fraction_down t tpn fr
       /\ row = [str_int t; str_int (r mod 64); str_int (r / 64); str_int r; fr]
                ++ map (fun ch => cell_text (last_event tpn (notes h ch) r)) [0; 1; 2; 3; 4; 5; 6; 7]) rs data.

Lemma rows_down h s tpn : history_ok h -> run_calls h state_init = Ok s -> - 2 ^ 53 < tpn < 0 ->
  (forall n, In n (all_notes h) -> n_sample n < 2 ^ 53) ->
  exists rows, csv_rows s tpn = Ok (rows, Ok tt) /\ sheet_runs_down h tpn rows
    /\ sheet_of_text (csv_text rows) = rows.
Proof.
  intros H E Ht SM. pose proof (run_logs h s H E) as Q. set (logs := map (notes h) chans).
  assert (M : mapM (key_presses s) (py_range 0 8) = Ok logs).
  { change (py_range 0 8) with chans. apply mapM_ok. intros c Hc. apply chans_in in Hc. apply (Q c Hc). }
  assert (RNG : forall l, In l logs -> Forall note_in_range l /\ sorted_log l /\ Forall (fun n => 0 < n_sample n) l).
  { intros l Hl. apply in_map_iff in Hl as (c & <- & Hc). apply chans_in in Hc. destruct (Q c Hc) as (_ & A & B & C). auto. }
  assert (POS : forall n, In n (concat logs) -> 0 < n_sample n < 2 ^ 53).
  { intros n Hn. split; [|apply SM; rewrite all_concat; exact Hn].
    apply in_concat in Hn as (l & Hl & Hn). destruct (RNG l Hl) as (_ & _ & P). rewrite Forall_forall in P. now apply P. }
  assert (NEG : forall n, In n (concat logs) -> n_sample n / tpn < 0).
  { intros n Hn. specialize (POS n Hn). rewrite <- Z.div_opp_opp by lia.
    apply Z.div_lt_upper_bound; lia. }
  unfold csv_rows. rewrite M. cbn [bind].
  destruct (csv_loop_down tpn (proj2 Ht) (List.length (concat logs)) logs 0 blank_row) as (rs & data & EL & SR & IR & G);
    [reflexivity|reflexivity| | | |lia|].
  { apply Forall_forall. intros l Hl. now apply RNG. }
  { apply Forall_forall. intros l Hl. now apply RNG. }
  { intros n Hn. specialize (NEG n Hn). split; [lia|].
    destruct (fraction_column_neg (n_sample n) tpn Ht (POS n Hn)) as (x & X & _). eauto. }
  rewrite EL. eexists. split; [reflexivity|].
  assert (ROW : Forall2 (fun r row => exists t fr, time_below tpn logs r t /\ fraction_down t tpn fr /\ clean fr = true
       /\ row = [str_int t; str_int (r mod 64); str_int (r / 64); str_int r; fr]
                ++ map (fun ch => cell_text (last_event tpn (notes h ch) r)) [0; 1; 2; 3; 4; 5; 6; 7]) rs data).
  { refine (Forall2_imp _ _ (fun _ => True) _ _ _ (fun _ _ => I) G). intros r row _ (t & fr & TB & CF & ->).
    exists t, fr. split; [exact TB|]. destruct TB as ((n & Hn & En & _) & _).
    destruct (fraction_column_neg t tpn Ht) as (fr' & CF' & FD); [rewrite <- En; now apply POS|].
    rewrite CF in CF'. injection CF' as <-. split; [exact FD|]. split; [exact (clean_csv_fraction _ _ _ CF)|].
    unfold csv_row. f_equal. unfold cells_at. destruct (r =? 0); reflexivity. }
  split.
  - exists rs, data. split; [reflexivity|]. split; [exact SR|]. rewrite all_concat. fold logs. split; [exact IR|].
    refine (Forall2_imp _ _ (fun _ => True) _ _ _ (fun _ _ => I) ROW). intros r row _ (t & fr & ((n & I & Q' & Lk) & MM) & FD & _ & R).
    exists t, fr. split; [|split; [exact FD|exact R]]. intro u. split.
    + intros ->. split; [exists n; rewrite <- Q'; auto|exact MM].
    + intros ((n' & I' & Q'' & Lk') & M'). specialize (MM n' I'). specialize (M' n I). subst u t. specialize (MM Lk'). specialize (M' Lk). lia.
  - apply sheet_text. constructor; [split; [discriminate|reflexivity]|].
    clear -ROW Q. induction ROW as [|r row rs data R1 R2 IH]; constructor; [|exact IH].
    destruct R1 as (t & fr & _ & _ & CL & ->). split; [discriminate|].
    rewrite forallb_app. cbn [forallb]. rewrite !clean_int, CL. cbn [andb].
    apply forallb_forall. intros x Hx. apply in_map_iff in Hx as (c & <- & Hc). change [0; 1; 2; 3; 4; 5; 6; 7] with chans in Hc.
    apply chans_in in Hc. destruct (Q c Hc) as (_ & R & _).
    destruct (last_event tpn (notes h c) r) as [n|] eqn:L; [|reflexivity].
    apply last_event_in in L as [I _]. rewrite Forall_forall in R. apply clean_event. now apply R.
Qed.

Theorem C78_negative_length : forall h s tpn writable name,
  history_ok h -> run_calls h state_init = Ok s -> - 2 ^ 53 < tpn < 0 ->
  (forall n, In n (all_notes h) -> n_sample n < 2 ^ 53) -> can_write writable name = true ->
  let run := do_csv writable s name tpn in
  snd run = Ok tt /\ open_after [] (fst run) = Some []
  /\ exists txt, outputs (fst run) = [Text (target_of name) txt] /\ sheet_runs_down h tpn (sheet_of_text txt).
Proof.
  intros h s tpn w name H E Ht SM CW run. destruct (rows_down h s tpn H E Ht SM) as (rows & C & SH & TS).
  unfold run, do_csv. rewrite C. unfold can_write, target_of in *.
  assert (FIN : forall t, exists txt, [Text t (csv_text rows)] = [Text t txt] /\ sheet_runs_down h tpn (sheet_of_text txt)).
  { intro t. eexists. split; [reflexivity|]. rewrite TS. exact SH. }
  destruct name as [n|]; [destruct (string_dec n "") as [->|]; [|destruct (string_dec n "-") as [->|]]|].
  1,2,4: cbn [smart_open truthy negb andb String.eqb]; split; [reflexivity|]; split; [reflexivity|]; apply FIN.
  rewrite smart_open_file by now split. rewrite CW. split; [reflexivity|]. split; [|apply FIN].
  cbn [fst open_after closing smart_closes]. unfold line. cbn [open_after]. now rewrite !String.eqb_refl.
Qed.
Print Assumptions C78_negative_length.
Example C78_tune : match outputs (fst (do_csv (fun _ => true) tune_state (Some "t.csv") (-300))) with
  | [Text (HFile "t.csv" "w") txt] => match sheet_of_text txt with
     | [_; r0; r1] => r0 = ["1000"; "0"; "0"; "0"; "0.67"; ""; ""; ""; ""; ""; ""; ""; ""]
         /\ r1 = ["1300"; "60"; "-1"; "-4"; "0.67"; "C -3-101 [0] "; ""; ""; ""; ""; ""; ""; ""]
     | _ => False end
  | _ => False end%string.
Proof. vm_compute. repeat split. Qed.
