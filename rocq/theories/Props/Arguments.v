(** C79: the words of the command line. *)
From Coq Require Import Lia.
From Verif.Model Require Import Py Command Core Config PyFloat Note State Ticks Song Serializer Json Extract History Main Argparse.
From Verif.Spec Require Import VgmFormat Ym2151 Text Cli CommandLine.
From Verif.Proofs Require Import TextProofs ArgProofs ArgProofs2.
From Verif.Props Require Import Chip Cli.
Open Scope string_scope.

(** ** Exactly the command lines of the specification are accepted, with the meaning given there *)
Theorem C79_command_line : forall ws f instr track ticks,
  parse_args ws = Parsed (mkargs (Some f) instr track ticks) <-> accepted ws f instr track ticks.
Proof.
  intros ws f i t n. unfold parse_args, accepted.
  destruct (tokens ws) as [ts|] eqn:T.
  - rewrite (loop_parsed _ ts no_arguments false _ (tokens_shape ws ts T)) by lia. split.
    + intros (_ & its & TL & F). apply fill_ok in F as (g & G & E). cbn [no_arguments a_file a_instrument a_track a_ticks] in *.
      injection E as -> -> -> ->. exists its. split; [now apply tline_line with ts|]. auto.
    + intros (its & L & F & -> & -> & ->). split; [reflexivity|]. destruct (line_tline _ _ L) as (ts' & T' & TL).
      assert (ts' = ts) as -> by congruence. exists its. split; [assumption|]. apply fill_ok. exists f. split; [exact F|reflexivity].
  - split; [discriminate|]. intros (its & L & _). destruct (line_tline _ _ L) as (ts' & T' & _). congruence.
Qed.
Print Assumptions C79_command_line.

Lemma parsed_file ws a : parse_args ws = Parsed a -> exists f i t n, a = mkargs (Some f) i t n.
Proof.
  unfold parse_args. destruct (tokens ws) as [ts|] eqn:T; [|discriminate].
  intro H. apply loop_parsed in H; [|exact (tokens_shape ws ts T)|lia]. destruct H as (_ & its & _ & F).
  apply fill_ok in F as (g & _ & ->). eauto 6.
Qed.
Lemma parse_cases ws : (exists f i t n, accepted ws f i t n /\ parse_args ws = Parsed (mkargs (Some f) i t n))
  \/ exists n, parse_args ws = Exit n /\ (n = 2%Z \/ (n = 0%Z /\ exists pre w post, ws = (pre ++ w :: post)%list
       /\ ~ In "--" pre /\ help_word w)).
Proof.
  destruct (parse_args ws) as [a|n] eqn:P.
  - left. destruct (parsed_file _ _ P) as (f & i & t & n & ->). exists f, i, t, n. split; [now apply C79_command_line|reflexivity].
  - right. exists n. split; [reflexivity|]. unfold parse_args in P. destruct (tokens ws) as [ts|] eqn:T; [|left; congruence].
    destruct (loop_exit (S (length ts)) ts no_arguments false n ltac:(lia) P) as [->|[-> (w & o & I & H)]]; [now left|]. right. split; [reflexivity|].
    destruct (token_word _ _ _ _ T I) as (pre & post & E & B & N & Q). exists pre, w, post. split; [exact E|].
    split; [exact B|]. exact (helping_word _ _ N Q H).
Qed.

(** The specification leaves no choice. *)
Theorem C79_one_reading : forall ws f i t n f' i' t' n',
  accepted ws f i t n -> accepted ws f' i' t' n' -> f = f' /\ i = i' /\ t = t' /\ n = n'.
Proof.
  intros * A B. apply C79_command_line in A, B. rewrite A in B. injection B as -> -> -> ->. auto.
Qed.
Print Assumptions C79_one_reading.

(** ** Anything else ends the process with nothing read and nothing written *)
Theorem C79_rejected : forall ws, (forall f i t n, ~ accepted ws f i t n) ->
  forall g contents writable ierr, exists status,
    run_script g contents writable ierr ws = ([], status)
    /\ (status = 2%Z \/ (status = 0%Z /\ exists pre w post, ws = (pre ++ w :: post)%list /\ ~ In "--" pre /\ help_word w)).
Proof.
  intros ws N g c w ierr. destruct (parse_cases ws) as [(f & i & t & n & A & _)|(n & P & H)]; [exfalso; exact (N _ _ _ _ A)|].
  exists n. unfold run_script. rewrite P. auto.
Qed.
Print Assumptions C79_rejected.

(** Help, before anything that is wrong, prints and ends with status 0. *)
Theorem C79_help : forall pre its h post g contents writable ierr,
  line pre its -> ~ In "--" pre -> names h Help -> (forall w, In w post -> ambiguous w -> w = "--") ->
  run_script g contents writable ierr (pre ++ h :: post)%list = ([], 0%Z).
Proof.
  intros pre its h post g c wr ierr L N H A. destruct (tokens_total post A) as [ts T].
  destruct (line_helped _ _ L N h post ts H T) as (tl & E & HE).
  unfold run_script, parse_args. rewrite E, (loop_helped _ _ _ _ HE) by lia. reflexivity.
Qed.
Print Assumptions C79_help.

(** ** An accepted command line does what main does with these arguments; the exit
    status tells whether an exception left it *)
Theorem C79_runs : forall ws f i t n g contents writable ierr,
  accepted ws f i t n ->
  let run := main g contents writable ierr true f i t n in
  let (effects, status) := run_script g contents writable ierr ws in
  effects = fst run /\ (status = 0%Z <-> snd run = Ok tt) /\ (status = 0%Z \/ status = 1%Z).
Proof.
  intros ws f i t n g c w ierr A run. apply C79_command_line in A. unfold run_script. rewrite A. cbn [a_file a_instrument a_track a_ticks].
  fold run. destruct run as [eff [[]|e]]; cbn [fst snd]; split; auto; split; auto; split; congruence.
Qed.
Print Assumptions C79_runs.

(** From the words to the files: a readable input is exported as asked. *)
Theorem C79_end_to_end : forall ws f i t n g contents writable ierr d cs,
  accepted ws f i t n -> world_ok g contents -> file_name f -> contents f = Some d -> readable g d cs ->
  exists s ticks txt, run_calls (calls_of cs) state_init = Ok s
    /\ tick_length s n ticks /\ instruments_text s = Ok txt
    /\ exists r, both_steps (instr_step writable txt i) (song_step writable s ticks t)
                   (outputs (fst (run_script g contents writable ierr ws))) r
       /\ (snd (run_script g contents writable ierr ws) = 0%Z <-> r = Ok tt).
Proof.
  intros ws f i t n g c w ierr d cs A W F E R.
  destruct (C42_written g c w ierr f i t n d cs W F E R) as (s & ticks & txt & H1 & H2 & H3 & H4).
  exists s, ticks, txt. split; [assumption|]. split; [assumption|]. split; [assumption|].
  pose proof (C79_runs ws f i t n g c w ierr A) as H. cbv zeta in H.
  destruct (run_script g c w ierr ws) as [eff st]. cbn [fst snd]. destruct H as (-> & H & _).
  eexists. split; [exact H4|exact H].
Qed.
Print Assumptions C79_end_to_end.

(** ** Any request can be written down *)
Lemma position_digit c d : position c dec_digits_list = Some d -> is_digit c = true /\ d = (Z.of_nat (nat_of_ascii c) - 48)%Z.
Proof.
  destruct c as [[] [] [] [] [] [] [] []]; cbn; try discriminate; intro H; injection H as <-; split; reflexivity.
Qed.
Lemma digits_value_all s : forall acc n, digits_value 10 dec_digits_list s acc = Some n -> all_digits s /\ n = decimal_value s acc.
Proof.
  induction s as [|c s IH]; intros acc n H; cbn [digits_value decimal_value] in *.
  - injection H as <-. split; [apply digits_nil|reflexivity].
  - destruct (position c dec_digits_list) as [d|] eqn:P; [|discriminate]. apply position_digit in P as [D ->].
    destruct (IH _ _ H) as [A ->]. split; [now apply digits_cons|reflexivity].
Qed.
Lemma nat_value_all s n : nat_value s = Some n -> s <> "" /\ all_digits s /\ n = decimal_value s 0.
Proof.
  intro H. assert (G : s <> "" /\ (digits_value 10 dec_digits_list s 0 = Some n)).
  { split; [intros ->; discriminate|]. destruct s as [|c s]; [discriminate|]. unfold nat_value in H.
    destruct c as [[] [] [] [] [] [] [] []]; try exact H. destruct s; [exact H|discriminate]. }
  destruct G as [N G]. split; [assumption|]. exact (digits_value_all _ _ _ G).
Qed.
Lemma number_text s n : int_value s = Some n -> (String.length s <= 4300)%nat -> int_text s n.
Proof.
  intros H L. assert (S : (exists r m, s = "-" ++ r /\ nat_value r = Some m /\ n = (- m)%Z) \/ nat_value s = Some n).
  { unfold int_value in H. destruct s as [|c r]; [now right|]. destruct c as [[] [] [] [] [] [] [] []]; try (right; exact H).
    left. destruct (nat_value r) as [m|] eqn:E; [|discriminate]. injection H as <-. exists r, m. auto. }
  destruct S as [(r & m & -> & E & ->)|E].
  - apply nat_value_all in E as (N & A & ->). rewrite <- (app_nil_s r) at 1.
    refine (int_text_of "" "-" r r "" blank_nil blank_nil (one_group r N A) _ _); [|auto]. cbn [append String.length] in L. lia.
  - apply nat_value_all in E as (N & A & ->). rewrite <- (app_nil_s s) at 1.
    refine (int_text_of "" "" s s "" blank_nil blank_nil (one_group s N A) _ _); [lia|auto].
Qed.
(** Whatever the names are (blanks, dashes, = and all) and whatever the number. *)
Theorem C79_expressible : forall file instrument track number n,
  int_value number = Some n -> (String.length number <= 4300)%nat ->
  accepted ["--instrument=" ++ instrument; "--track=" ++ track; "--ticks-per-note=" ++ number; "--"; file]
    file (Some instrument) (Some track) (Some n).
Proof.
  intros f i t d n D L. exists [IInstrument i; ITrack t; ITicks n; IFile f]. split; [|repeat split].
  assert (NM : forall k, names (long_name k) k).
  { intro k. right. split; [exists ""; now rewrite app_nil_s|]. intros k' H.
    destruct k, k'; try reflexivity; exfalso; destruct H as [r H]; discriminate. }
  apply line_joined with Instrument i; [exact (joined_eq "--instrument" Instrument i (NM Instrument))|constructor|].
  apply line_joined with Track t; [exact (joined_eq "--track" Track t (NM Track))|constructor|].
  apply line_joined with Ticks d; [exact (joined_eq "--ticks-per-note" Ticks d (NM Ticks))|constructor; now apply number_text|].
  apply (line_dashes f []).
Qed.
Print Assumptions C79_expressible.

(** ** Concrete command lines *)
Example C79_usual : accepted ["-i"; "out.json"; "song.vgm"; "-t"; "out.xrns"; "-tn"; "735"] "song.vgm"
  (Some "out.json") (Some "out.xrns") (Some 735%Z).
Proof. apply C79_command_line. vm_compute. reflexivity. Qed.
Example C79_last_counts : accepted ["--tr=a"; "f"; "-tb"; "-tn=1_0"] "f" None (Some "b") (Some 10%Z).
Proof. apply C79_command_line. vm_compute. reflexivity. Qed.
(** -tn5 is no tick length: it is -t with the song file "n5". *)
Example C79_tn_joined : accepted ["-tn5"; "f"] "f" None (Some "n5") None.
Proof. apply C79_command_line. vm_compute. reflexivity. Qed.
Example C79_negative : accepted ["-5"; "-tn"; "-5"] "-5" None None (Some (-5)%Z).
Proof. apply C79_command_line. vm_compute. reflexivity. Qed.
Example C79_not : forall f i t n, ~ accepted ["a"; "b"] f i t n.
Proof. intros f i t n H. apply C79_command_line in H. vm_compute in H. discriminate. Qed.
(** An idle -- after later options is refused, though it is accepted right after the file. *)
Example C79_idle_dashes : (forall f i t n, ~ accepted ["f"; "-i"; "x"; "--"] f i t n)
  /\ accepted ["-i"; "x"; "f"; "--"] "f" (Some "x") None None.
Proof.
  split; [intros f i t n H; apply C79_command_line in H; vm_compute in H; discriminate|].
  apply C79_command_line. vm_compute. reflexivity.
Qed.
Example C79_help_sample : forall g contents writable ierr,
  run_script g contents writable ierr ["a"; "b"; "--he"; "-x"] = ([], 0%Z).
Proof.
  intros. apply (C79_help ["a"; "b"] [IFile "a"; IFile "b"] "--he" ["-x"]).
  - constructor; [left; intros [r E]; discriminate|]. constructor; [left; intros [r E]; discriminate|]. constructor.
  - intros [E|[E|[]]]; discriminate.
  - right. split; [now exists "lp"|]. intros [] [r E]; try discriminate; reflexivity.
  - intros w [<-|[]] (n & (r & ->) & H & _). exfalso. destruct H as [H|[s H]]; discriminate.
Qed.
Example C79_expressible_sample : accepted ["--instrument="; "--track=-i x"; "--ticks-per-note=-12"; "--"; "--help"]
  "--help" (Some "") (Some "-i x") (Some (-12)%Z).
Proof. exact (C79_expressible "--help" "" "-i x" "-12" (-12) eq_refl ltac:(cbn; lia)). Qed.
