(** C63-C65: what is printed, and the fraction column of the CSV sheet. *)
From Coq Require Import Lia Lra ZifyBool Reals SpecFloat Sorted Permutation.
From Flocq Require Import Core.Core.
From Verif.Model Require Import Py PyFloat Command Core Config Note State Ticks Song Serializer Json Extract Csv Main History.
From Verif.Spec Require Import VgmFormat Ym2151 Rhythm Text Tracker Sheet Decimal Console Cli.
From Verif.Proofs Require Import PyLemmas CoreProofs StateProofs KeyProofs ChipProofs GridProofs SongProofs TextProofs FloatProofs TempoProofs TempoProofs2
  CsvProofs DecimalProofs FractionProofs OutputProofs.
From Verif.Props Require Import Reader Chip Tempo Csv Cli.
Open Scope Z_scope.

(** ** C63 *)
Lemma lacks_dec c n : 0 <= n -> digit_char c = false -> lacks c (str_int n) = true.
Proof. intros H D. apply all_digits_lacks; [assumption|]. rewrite str_int_nonneg by assumption. apply all_digits_nonneg. Qed.
Lemma split_head c a b : lacks c a = true -> split_at c (a ++ String c b) = a :: split_at c b.
Proof.
  induction a as [|x a IH]; cbn [append lacks]; intro H.
  - cbn [split_at]. now rewrite Ascii.eqb_refl.
  - apply andb_prop in H as [H1 H2]. cbn [split_at]. rewrite IH by assumption.
    destruct (Ascii.eqb x c); [discriminate|reflexivity].
Qed.
Lemma F2_length {A B} (R : A -> B -> Prop) l m : Forall2 R l m -> Datatypes.length l = Datatypes.length m.
Proof. induction 1; cbn; congruence. Qed.
Definition table_line (d n : Z) : string := (str_int d ++ ": " ++ two_places n ++ "%")%string.
Lemma table_line_clean d n : 0 <= d -> 0 <= n -> lacks (ascii_of_nat 10) (table_line d n) = true.
Proof.
  intros D N. unfold table_line, two_places. rewrite !lacks_app.
  pose proof (Z.div_pos n 100 N ltac:(lia)). pose proof (Z.mod_pos_bound n 100 ltac:(lia)).
  rewrite !lacks_dec by (lia || reflexivity). now destruct (n mod 100 <? 10).
Qed.
Lemma table_line_reads d n : 0 <= d -> 0 <= n -> estimate_line (table_line d n) d n.
Proof.
  intros D N. exists (str_int d), (two_places n). split; [reflexivity|]. split; [|now apply two_places_reads].
  rewrite str_int_nonneg by assumption. now apply nat_value_str.
Qed.
Lemma concat_cons x l : String.concat "" (x :: l) = (x ++ String.concat "" l)%string.
Proof. destruct l; cbn; [now rewrite str_app_nil|reflexivity]. Qed.

(** The text: with show_progress a line of ten dots, then in any case a heading and
    ten lines "length: confidence%".  The lengths are the ten best candidates, best
    first; the confidence has two decimals and is 100 * (1 - score / (2n - 1))
    rounded (1/200, plus 1e-12 for the floating-point arithmetic): the correct
    rounding, halves to even, of that expression computed in doubles. *)
Theorem C63_printed_table : forall h s show_progress, history_ok h -> run_calls h state_init = Ok s ->
  let T := filter (fun t => t <? 32000) (ticks s) in
  exists txt table best others, estimate_output show_progress s = Ok txt
    /\ lines_of txt = (if show_progress then [".........."%string] else [])
                      ++ ["Ticks Per Note estimates:"%string] ++ table ++ [""%string]
    /\ Datatypes.length table = 10%nat
    /\ Forall2 (fun l d => exists n, estimate_line l d n /\ 0 <= n <= 10000
         /\ (Rabs (IZR n / 100 - 100 * (1 - IZR (score T d) / IZR (2 * Z.of_nat (Datatypes.length T) - 1)))
             <= / 200 + / 1000000000000)%R
         /\ nearest_even (100 * double (double (1 - double (IZR (score T d) / IZR (2 * Z.of_nat (Datatypes.length T) - 1))) * 100)) n)
       table best
    /\ (forall d, candidate d <-> In d (best ++ others))
    /\ StronglySorted (goes_before T) (best ++ others).
Proof.
  intros h s show H E T. destruct (early_facts _ _ H E) as [S L].
  destruct (table_ok s S L) as (ds & rest & Et & Len & P & S').
  change (early_ticks s) with T in *.
  assert (D : forall d, In d ds -> 0 < d).
  { intros d Hd. assert (In d (py_range 1000 8000)) as I by (apply (Permutation_in _ (Permutation_sym P)), in_app_iff; now left).
    apply py_range_in in I. lia. }
  assert (G : exists ns, Forall2 (fun d n => format_2f (shown T d) = two_places n /\ 0 <= n
      /\ (Rabs (IZR n / 100 - percent (rnd (IZR (score T d) / IZR (den T)))) <= / 200)%R
      /\ nearest_even (100 * percent (rnd (IZR (score T d) / IZR (den T)))) n) ds ns).
  { clear -D L. induction ds as [|d ds IH]; [exists []; constructor|].
    destruct IH as [ns IH]; [intros; apply D; now right|].
    destruct (shown_reads T d (D d (or_introl eq_refl)) L) as (n & A). exists (n :: ns). constructor; assumption. }
  destruct G as (ns & G).
  unfold estimate_output. rewrite Et. cbn [bind].
  exists ((if show then progress_dots ++ nl else "") ++ "Ticks Per Note estimates:" ++ nl
      ++ String.concat "" (map (fun lp => str_int (fst lp) ++ ": " ++ format_2f (snd lp) ++ "%" ++ nl)
           (map (fun d => (d, shown T d)) ds)))%string,
    (map (fun dn => table_line (fst dn) (snd dn)) (combine ds ns)), ds, rest.
  split; [reflexivity|].
  assert (TL : split_at (ascii_of_nat 10) (String.concat "" (map (fun lp => str_int (fst lp) ++ ": " ++ format_2f (snd lp) ++ "%" ++ nl)%string
           (map (fun d => (d, shown T d)) ds))) = map (fun dn => table_line (fst dn) (snd dn)) (combine ds ns) ++ [""%string]).
  { clear -D G. induction G as [|d n ds ns (A & B & _) G IH]; [reflexivity|].
    cbn [map combine fst snd app]. rewrite concat_cons, A.
    assert (0 < d) by (apply D; now left).
    replace (str_int d ++ ": " ++ two_places n ++ "%" ++ nl)%string with (table_line d n ++ nl)%string
      by (unfold table_line; now rewrite !str_app_assoc).
    rewrite str_app_assoc. change (nl ++ ?x)%string with (String (ascii_of_nat 10) x).
    rewrite split_head by (apply table_line_clean; lia). f_equal. apply IH. intros; apply D; now right. }
  split; [|split; [|split; [|split]]].
  - unfold lines_of. rewrite ten_dots.
    assert (R : split_at (ascii_of_nat 10) ("Ticks Per Note estimates:" ++ nl ++ String.concat "" (map (fun lp => str_int (fst lp) ++ ": " ++ format_2f (snd lp) ++ "%" ++ nl)%string
           (map (fun d => (d, shown T d)) ds))) = "Ticks Per Note estimates:"%string :: map (fun dn => table_line (fst dn) (snd dn)) (combine ds ns) ++ [""%string]).
    { change (nl ++ ?x)%string with (String (ascii_of_nat 10) x). rewrite split_head by reflexivity. now rewrite TL. }
    destruct show.
    + rewrite str_app_assoc. change (nl ++ ("Ticks" ++ ?x))%string with (String (ascii_of_nat 10) ("Ticks" ++ x)).
      change (nl ++ "Ticks Per Note estimates:" ++ ?x)%string with (String (ascii_of_nat 10) ("Ticks Per Note estimates:" ++ x)).
      rewrite split_head by reflexivity. rewrite R. reflexivity.
    + cbn [append app] in *. exact R.
  - rewrite map_length, combine_length. apply F2_length in G. lia.
  - clear -D G L. induction G as [|d n ds ns (A & B & C & NEV) G IH]; [constructor|].
    cbn [combine map fst snd]. assert (0 < d) by (apply D; now left).
    constructor; [|apply IH; intros; apply D; now right].
    exists n. split; [apply table_line_reads; lia|].
    assert (Q : (0 <= IZR (score T d) / IZR (den T) <= 1)%R).
    { clearbody T. destruct T as [|t T'].
      - change (score [] d) with 0. change (den []) with (-1). lra.
      - assert (t :: T' <> []) as NE by discriminate.
        pose proof (score_bounds (t :: T') d H NE). apply unit_quot; unfold den, len; cbn [Datatypes.length] in *; lia. }
    pose proof (percent_range _ (quo_unit T d H)) as PR. pose proof (percent_close _ Q) as PC.
    set (p := percent _) in *. split; [|split].
    + split; [assumption|]. apply Rabs_le_inv in C.
      assert (n < 10001); [|lia]. apply lt_IZR. lra.
    + replace (2 * Z.of_nat (Datatypes.length T) - 1) with (den T) by (unfold den, len; lia).
      apply Rabs_le_inv in C, PC. apply Rabs_le. lra.
    + replace (2 * Z.of_nat (Datatypes.length T) - 1) with (den T) by (unfold den, len; lia). exact NEV.
  - intro d. unfold candidate. rewrite <- py_range_in. split; apply Permutation_in; [assumption|now symmetry].
  - exact S'.
Qed.
Print Assumptions C63_printed_table.
Example C63_march : exists txt table, estimate_output false march_state = Ok txt
  /\ lines_of txt = ["Ticks Per Note estimates:"%string] ++ table ++ [""%string] /\ Datatypes.length table = 10%nat.
Proof.
  destruct march_meets as (H & E & _). destruct (C63_printed_table _ _ false H E) as (txt & tab & _ & _ & A & B & C & _).
  exists txt, tab. auto.
Qed.
Example C63_line : estimate_line "2000: 99.57%" 2000 9957.
Proof. exists "2000"%string, "99.57"%string. repeat split. Qed.

(** ** C64: in every data row of the sheet, the fifth field tells where the time in
    the first field lies within its own row. *)
Theorem C64_fraction : forall h s tpn rows r,
  history_ok h -> run_calls h state_init = Ok s -> 0 < tpn ->
  (forall ch l n, 0 <= ch < 8 -> key_presses s ch = Ok l -> In n l -> n_sample n < 2 ^ 53) ->
  csv_rows s tpn = Ok (rows, r) ->
  forall row, In row (tl rows) -> exists samples t fr,
    nth_error row 0 = Some samples /\ int_value samples = Some t
    /\ nth_error row 4 = Some fr /\ tpn <= t < 2 ^ 53 /\ fraction_shown t tpn fr.
Proof.
  intros h s tpn rows r H E Ht SM C row Hr. pose proof (run_logs h s H E) as Q.
  assert (LG : logs_of s (map (notes h) chans)).
  { split; [reflexivity|]. intros ch Hc. destruct (Q ch Hc) as (A & _). rewrite A. f_equal.
    assert (ch = 0 \/ ch = 1 \/ ch = 2 \/ ch = 3 \/ ch = 4 \/ ch = 5 \/ ch = 6 \/ ch = 7) as D by lia.
    decompose [or] D; subst; reflexivity. }
  assert (SM' : forall n, In n (concat (map (notes h) chans)) -> n_sample n < 2 ^ 53).
  { intros n Hn. destruct (logs_in h _ n eq_refl Hn) as (c & Hc & Hn'). destruct (Q c Hc) as (A & _).
    exact (SM c _ n Hc A Hn'). }
  assert (BIG : 2 ^ 53 <= 2 ^ 1024 - 2 ^ 970) by (vm_compute; discriminate).
  destruct (C39_sheet h s tpn _ H E Ht LG) as (data & CR & _ & G).
  { intros n Hn. specialize (SM' n Hn). clear -BIG SM' Ht.
    assert (0 < 2 ^ 53) by reflexivity.
    set (big := 2 ^ 1024 - 2 ^ 970) in *. set (p := 2 ^ 53) in *. clearbody big p. nia. }
  rewrite CR in C. injection C as <- <-. cbn [tl] in Hr. apply In_nth_error in Hr as (k & Hk).
  destruct (G k row Hk) as (t & fr & ((n & Hn & En & Ln) & _) & FS & ->).
  exists (str_int t), t, fr. split; [reflexivity|]. split; [apply int_value_str|]. split; [reflexivity|].
  assert (T : t < 2 ^ 53) by (rewrite <- En; now apply SM').
  split; [split; [|assumption]|now apply FS].
  rewrite En in Ln. assert (1 <= t / tpn) by lia. clear - Ht H0. pose proof (Z.div_mod t tpn ltac:(lia)).
  pose proof (Z.mod_pos_bound t tpn Ht). nia.
Qed.
Print Assumptions C64_fraction.
Example C64_values : csv_fraction 1300 200 = Ok "0.5"%string /\ csv_fraction 1400 200 = Ok "0.0"%string
  /\ csv_fraction 100001 100000 = Ok "1e-05"%string /\ csv_fraction 1999999 1000000 = Ok "1.0"%string
  /\ csv_fraction 2013 2000 = Ok "0.0065"%string /\ decimal "1e-05" = Some (1, 5) /\ decimal "0.0065" = Some (65, 4).
Proof. vm_compute. auto 10. Qed.
(** The tune of C39 meets the hypotheses, with seven data rows. *)
Example C64_tune : history_ok tune /\ run_calls tune state_init = Ok tune_state
  /\ (forall ch l n, 0 <= ch < 8 -> key_presses tune_state ch = Ok l -> In n l -> n_sample n < 2 ^ 53)
  /\ match csv_rows tune_state 200 with Ok (rows, _) => Datatypes.length (tl rows) = 7%nat | _ => False end.
Proof.
  assert (H : history_ok tune) by (repeat constructor; cbn; unfold byte; lia).
  assert (E : run_calls tune state_init = Ok tune_state) by (vm_compute; reflexivity).
  split; [exact H|]. split; [exact E|]. split; [|vm_compute; reflexivity].
  intros ch l n Hc K I. destruct (run_logs tune _ H E ch Hc) as (A & _). rewrite K in A. injection A as ->.
  assert (B : forallb (fun n => n_sample n <? 2000) (concat (map (notes tune) chans)) = true) by (vm_compute; reflexivity).
  rewrite forallb_forall in B. specialize (B n). rewrite Z.ltb_lt in B.
  assert (n_sample n < 2000); [|lia]. apply B. apply in_concat. exists (notes tune ch). split; [|assumption].
  apply in_map. apply chans_in. lia.
Qed.

(** ** C65: the transcript. *)
Lemma asked_truthy o : (truthy o = true /\ exists n, o = Some n /\ asked_for o = Some n) \/ (truthy o = false /\ asked_for o = None).
Proof.
  unfold truthy, asked_for. destruct o as [n|]; [|auto]. destruct (string_dec n "") as [->|N]; [auto|].
  left. apply String.eqb_neq in N. rewrite N. eauto.
Qed.
Lemma song_said w s n t : stdout_text (fst (do_tracks w s n t)) = ("Writing xrns " ++ n ++ "..." ++ nl)%string.
Proof.
  assert (X : (("Writing xrns " ++ n ++ "...") ++ nl)%string = ("Writing xrns " ++ n ++ "..." ++ nl)%string)
    by now rewrite !str_app_assoc.
  unfold do_tracks. destruct (build_song s t); [destruct (w n)|]; cbn [fst]; rewrite !stdout_cons; cbn [piece line stdout_text map String.concat];
  rewrite ?str_app_nil; exact X.
Qed.
Lemma instr_said w n s txt : n <> ""%string -> instruments_text s = Ok txt ->
  stdout_text (fst (do_instruments w n s)) = ("Writing instruments to " ++ n ++ "..." ++ nl ++ (if string_dec n "-" then txt else ""))%string
  /\ (snd (do_instruments w n s) = Ok tt <-> (if string_dec n "-" then true else w n) = true).
Proof.
  intros N T. unfold do_instruments. rewrite T. destruct (string_dec n "-") as [->|D].
  - cbn [smart_open truthy]. cbn [fst snd String.eqb negb andb]. split; [|split; reflexivity].
    change (smart_open (Some "-"%string) "w") with (Ok HStdout). cbn [fst]. rewrite !stdout_cons. cbn [piece line].
    cbn [stdout_text map String.concat]. now rewrite str_app_nil, !str_app_assoc.
  - rewrite smart_open_file by now split. destruct (w n) eqn:Wn; cbn [fst snd].
    + split; [|split; reflexivity]. rewrite !stdout_cons. cbn [piece line stdout_text map String.concat].
      now rewrite ?str_app_nil, ?str_app_assoc.
    + split; [|split; discriminate]. rewrite !stdout_cons. cbn [piece line stdout_text map String.concat].
      now rewrite ?str_app_nil, ?str_app_assoc.
Qed.
Lemma ticks_said h s o : history_ok h -> run_calls h state_init = Ok s ->
  exists eff t, choose_ticks s o = (eff, Ok t) /\ tick_length s o t /\ estimate_message s o (stdout_text eff).
Proof.
  intros H E. destruct (estimate_prints h s H E) as (txt & t & P & T & _).
  assert (D : o = None \/ o = Some 0 -> exists eff t, choose_ticks s o = (eff, Ok t) /\ tick_length s o t /\ estimate_message s o (stdout_text eff)).
  { intro X. exists [Print "Calculating Ticks Per Note"; Print txt], t.
    split; [destruct X as [-> | ->]; unfold choose_ticks; now rewrite P, T|]. split; [now apply estimated|].
    rewrite !stdout_cons. cbn [piece stdout_text map String.concat]. rewrite str_app_nil. now apply an_estimate. }
  destruct o as [[|n|n]|]; [apply D; auto| | |apply D; auto].
  - exists [], (Zpos n). split; [reflexivity|]. split; [now apply requested|]. now apply no_estimate.
  - exists [], (Zneg n). split; [reflexivity|]. split; [now apply requested|]. now apply no_estimate.
Qed.

(** A readable input. *)
Theorem C65_transcript : forall g contents writable ierr name instr track tpn d cs,
  world_ok g contents -> file_name name -> contents name = Some d -> readable g d cs ->
  exists s t txt est, run_calls (calls_of cs) state_init = Ok s /\ tick_length s tpn t
    /\ instruments_text s = Ok txt /\ estimate_message s tpn est
    /\ stdout_text (fst (main g contents writable ierr true name instr track tpn))
       = ("Opening file: " ++ name ++ nl ++ est ++ "Ticks per Note: " ++ str_int t ++ nl
          ++ instr_message txt instr ++ (if instr_possible writable instr then song_message track else ""))%string.
Proof.
  intros g c w ierr name instr track tpn d cs W F E R.
  destruct (read_cases g c name d W E) as [(cs' & s & v & R' & V & P & H & Er)|(N & _)]; [|now destruct (N cs)].
  rewrite (readable_unique _ _ _ _ _ _ W E R R') in *. clear R.
  destruct (ticks_said _ s tpn H Er) as (pre & t & C & TL & EM). destruct (instruments_ok _ s H Er) as [txt T].
  exists s, t, txt, (stdout_text pre). split; [assumption|]. split; [assumption|]. split; [assumption|]. split; [assumption|].
  unfold main. rewrite smart_open_file by assumption. rewrite E. unfold main_body. cbn [negb]. rewrite V, P, C.
  destruct (seq_eff _ _) as [out r] eqn:X.
  assert (O : stdout_text out = (instr_message txt instr ++ (if instr_possible w instr then song_message track else ""))%string).
  { unfold seq_eff in X. unfold instr_message, instr_possible, song_message.
    destruct (asked_truthy instr) as [(-> & n & -> & A1)|(-> & A1)] in X |- *; rewrite A1.
    - assert (NE : n <> ""%string). { intros ->. discriminate. }
      destruct (instr_said w n s txt NE T) as [I1 I2]. destruct (do_instruments w n s) as [ea ra]. cbn [fst snd] in I1, I2.
      destruct ra as [[]|e].
      + rewrite (proj1 I2 eq_refl).
        destruct (asked_truthy track) as [(B0 & m & -> & B1)|(B0 & B1)]; rewrite B0 in X; rewrite B1.
        * destruct (do_tracks w s m t) as [eb rb] eqn:DT. injection X as <- <-. rewrite stdout_app, I1.
          f_equal. pose proof (song_said w s m t) as S. rewrite DT in S. exact S.
        * injection X as <- <-. rewrite app_nil_r, I1. now rewrite str_app_nil.
      + injection X as <- <-. rewrite I1.
        destruct ((if string_dec n "-" then true else w n)) eqn:Y; [|now rewrite str_app_nil].
        specialize (proj2 I2 eq_refl). discriminate.
    - destruct (asked_truthy track) as [(B0 & m & -> & B1)|(B0 & B1)]; rewrite B0 in X; rewrite B1.
      + destruct (do_tracks w s m t) as [eb rb] eqn:DT. injection X as <- <-. cbn [app].
        pose proof (song_said w s m t) as S. rewrite DT in S. exact S.
      + injection X as <- <-. reflexivity. }
  cbn [fst]. rewrite stdout_cons. rewrite stdout_app, stdout_cons, stdout_app, stdout_cons. rewrite O.
  unfold line. cbn [piece stdout_text map String.concat]. rewrite str_app_nil.
  change ("" ++ ?x)%string with x. now rewrite !str_app_assoc.
Qed.
Print Assumptions C65_transcript.
(** Any other input: at most the first message. *)
Theorem C65_unreadable : forall g contents writable ierr name instr track tpn,
  world_ok g contents ->
  (forall d cs, file_name name -> contents name = Some d -> ~ readable g d cs) ->
  stdout_text (fst (main g contents writable ierr true name instr track tpn))
  = (if file_name_dec name then match contents name with Some _ => "Opening file: " ++ name ++ nl | None => "" end
     else "Opening file: " ++ name ++ nl)%string.
Proof.
  intros g c w ierr name instr track tpn W N. unfold main.
  destruct (file_name_dec name) as [F|F].
  - rewrite smart_open_file by assumption. destruct (c name) as [d|] eqn:E; [|reflexivity].
    destruct (read_cases g c name d W E) as [(cs & s & v & R & _)|(_ & e & P)]; [now destruct (N d cs F eq_refl)|].
    unfold main_body. cbn [negb]. destruct (fst (reader g clocks_empty (mkfile d 0))) as [v|x]; [rewrite P|];
    cbn [fst app]; rewrite !stdout_cons; unfold line; cbn [piece stdout_text map String.concat append];
    now rewrite ?str_app_nil, ?str_app_assoc.
  - rewrite (proj1 (smart_open_std _ F)). unfold main_body. cbn [negb].
    destruct ierr as [x|]; cbn [process_vgm_file fst app closing smart_closes]; rewrite !stdout_cons; unfold line;
    cbn [piece stdout_text map String.concat append]; now rewrite ?str_app_nil, ?str_app_assoc.
Qed.
Print Assumptions C65_unreadable.
Example C65_sample : stdout_text (fst (run_sample (Some 200)))
  = ("Opening file: a.vgm" ++ nl ++ "Ticks per Note: 200" ++ nl ++ "Writing instruments to i.json..." ++ nl
     ++ "Writing xrns s.xrns..." ++ nl)%string.
Proof. vm_compute. reflexivity. Qed.
(* the transcript theorem's hypotheses are those of C42_sample_meets *)
Example C65_missing : (forall d cs, file_name "b.vgm" -> disk "b.vgm" = Some d -> ~ readable no_gzip d cs) /\ file_name "b.vgm".
Proof. split; [discriminate|]. split; discriminate. Qed.
