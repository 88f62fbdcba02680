(** C42-C44: the command line. *)
From Coq Require Import Lia ZifyBool Sorted.
From Verif.Model Require Import Py Command Core Config PyFloat Note State Ticks Song Serializer Json Extract History Main.
From Verif.Spec Require Import VgmFormat Ym2151 Ranges Rhythm Text JsonText Tracker Cli.
From Verif.Proofs Require Import PyLemmas CoreProofs ReaderProofs StateProofs KeyProofs FileProofs ChipProofs
  TickProofs TempoProofs BpmProofs SongProofs.
From Verif.Props Require Import Reader Chip Tempo Song Instruments.

Lemma content_exists g d : exists r, content g d r.
Proof. destruct (is_gzip_dec d); eexists; [now apply zipped|now apply raw]. Qed.
Lemma content_bytes g c n d p : world_ok g c -> c n = Some d -> content g d (Ok p) -> bytes p.
Proof.
  intros [A B] E H. specialize (A _ _ E). remember (Ok p) as r. destruct H as [N|Z]; [now injection Heqr as <-|].
  now apply (B d).
Qed.

(** Reading either succeeds completely, or fails. *)
Lemma read_cases g c n d : world_ok g c -> c n = Some d ->
  (exists cs s v, readable g d cs /\ fst (reader g clocks_empty (mkfile d 0)) = Ok (Some v)
     /\ process_vgm_file (Some v) = Ok s /\ history_ok (calls_of cs) /\ run_calls (calls_of cs) state_init = Ok s)
  \/ ((forall cs, ~ readable g d cs) /\
      exists e, match fst (reader g clocks_empty (mkfile d 0)) with
                | Err x => x = e | Ok v => process_vgm_file v = Err e end).
Proof.
  intros W E. destruct (content_exists g d) as [r C]. destruct r as [p|e].
  - pose proof (content_bytes _ _ _ _ _ W E C) as Hb.
    assert (U : forall q, content g d (Ok q) -> q = p).
    { intros q Q. inversion C; inversion Q; subst; try contradiction; congruence. }
    destruct (C01_proof g clocks_empty d p C) as (O1 & O2 & O3 & O4). cbv zeta in *.
    destruct O4 as [R|[R|[v R]]].
    + right. split.
      * intros cs (q & Q & I & _). rewrite (U q Q) in I. now apply O1 in R.
      * rewrite R. exists TypeError. reflexivity.
    + right. split.
      * intros cs (q & Q & I & HH & _). rewrite (U q Q) in HH. now apply O2 in R.
      * rewrite R. now exists EOFError.
    + assert (exists ck', reader g clocks_empty (mkfile d 0) = (Ok (Some v), ck')) as [ck' RR].
      { destruct (reader _ _ _) as [x ck']. cbn [fst] in R. subst x. now exists ck'. }
      pose proof (proj2 (C04_proof _ _ _ _ _ _ _ _ C Hb RR) (conj eq_refl eq_refl)) as S.
      destruct (process_file _ _ _ _ _ _ _ _ C Hb RR S) as (H & s & Er & P).
      destruct (snd (vgm_commands v)) as [f|x] eqn:SV; cbn [error_of] in *.
      * left. exists (fst (vgm_commands v)), s, v. repeat split; [|assumption..].
        exists p. destruct (proj1 O3 (ex_intro _ v R)) as [I HH]. auto.
      * right. split.
        -- intros cs (q & Q & _ & _ & S'). rewrite (U q Q) in S'.
           apply (proj1 (C04_proof _ _ _ _ _ _ _ _ C Hb RR)) in S'. destruct S' as [_ S']. rewrite SV in S'. discriminate.
        -- rewrite R. now exists x.
  - right. rewrite (content_reader _ _ _ _ C). split; [|now exists e].
    intros cs (q & Q & _). inversion C; inversion Q; subst; try contradiction; congruence.
Qed.
Lemma readable_unique g c n d cs cs' : world_ok g c -> c n = Some d -> readable g d cs -> readable g d cs' -> cs = cs'.
Proof.
  intros W E (p & C & I & H & S) (p' & C' & _ & _ & S').
  assert (p' = p) by (inversion C; inversion C'; subst; try contradiction; congruence). subst p'.
  pose proof (content_bytes _ _ _ _ _ W E C) as Hb.
  destruct (proj2 (proj1 (proj2 (proj2 (C01_proof g clocks_empty d p C)))) (conj I H)) as [v R].
  destruct (reader g clocks_empty (mkfile d 0)) as [x ck'] eqn:RR. cbn [fst] in R. subst x.
  apply (proj1 (C04_proof _ _ _ _ _ _ _ _ C Hb RR)) in S, S'. destruct S, S'. congruence.
Qed.

(** ** C42 *)

Lemma outputs_app a b : outputs (a ++ b) = outputs a ++ outputs b.
Proof. unfold outputs. apply flat_map_app. Qed.
Lemma smart_open_file n m : file_name n -> smart_open (Some n) m = Ok (HFile n m).
Proof.
  intros [A B]. apply String.eqb_neq in A, B. unfold smart_open, truthy. now rewrite A, B.
Qed.
Lemma smart_open_std n : ~ file_name n -> smart_open (Some n) "rb" = Ok HStdin /\ smart_open (Some n) "w" = Ok HStdout.
Proof.
  intros N. unfold smart_open, truthy.
  destruct (String.eqb n "") eqn:A; [split; reflexivity|]. destruct (String.eqb n "-") eqn:B; [split; reflexivity|].
  destruct N. apply String.eqb_neq in A, B. now split.
Qed.
Lemma file_name_dec n : {file_name n} + {~ file_name n}.
Proof.
  destruct (string_dec n "") as [A|A]; [right; intros [X _]; now apply X|].
  destruct (string_dec n "-") as [B|B]; [right; intros [_ X]; now apply X|]. left. now split.
Qed.

(** An input that cannot be read to its end: an error, and nothing is written. *)
Theorem C42_unreadable : forall g contents writable ierr name instr track tpn,
  world_ok g contents ->
  (forall d cs, file_name name -> contents name = Some d -> ~ readable g d cs) ->
  let run := main g contents writable ierr true name instr track tpn in
  (exists e, snd run = Err e) /\ outputs (fst run) = [].
Proof.
  intros g c w ierr name instr track tpn W N run. unfold run, main.
  destruct (file_name_dec name) as [F|F].
  - rewrite smart_open_file by assumption. destruct (c name) as [d|] eqn:E; [|split; [now exists OSError|reflexivity]].
    destruct (read_cases g c name d W E) as [(cs & s & v & R & _)|(_ & e & P)]; [now destruct (N d cs F eq_refl)|].
    unfold main_body. cbn [negb]. destruct (fst (reader g clocks_empty (mkfile d 0))) as [v|x].
    + rewrite P. split; [now exists e|reflexivity].
    + split; [now exists x|reflexivity].
  - rewrite (proj1 (smart_open_std _ F)). unfold main_body. cbn [negb].
    destruct ierr as [x|]; (split; [eexists; reflexivity|reflexivity]).
Qed.
Print Assumptions C42_unreadable.

(** The readable case, step by step. *)
Lemma estimate_prints h s : history_ok h -> run_calls h state_init = Ok s ->
  exists txt t, estimate_output true s = Ok txt /\ ticks_per_note s = Ok t /\ 1000 <= t < 8000.
Proof.
  intros H E. destruct (C28_estimate h s H E) as (t & Et & C & _). destruct (C30_confidence h s H E) as (tab & _ & P & _).
  unfold estimate_output. rewrite P. cbn [bind]. eexists _, t. split; [reflexivity|]. split; [assumption|exact C].
Qed.
Lemma choose_ok h s o : history_ok h -> run_calls h state_init = Ok s ->
  exists eff t, choose_ticks s o = (eff, Ok t) /\ tick_length s o t
    /\ outputs eff = [] /\ (forall st r, open_after st (eff ++ r) = open_after st r)
    /\ (o <> None -> o <> Some 0 -> eff = []).
Proof.
  intros H E. destruct (estimate_prints h s H E) as (txt & t & P & T & _).
  assert (D : o = None \/ o = Some 0 -> choose_ticks s o = ([Print "Calculating Ticks Per Note"; Print txt], Ok t)).
  { intros [->| ->]; unfold choose_ticks; now rewrite P, T. }
  destruct o as [[|n|n]|].
  - eexists _, t. split; [apply D; auto|]. split; [apply estimated; auto|]. repeat split. congruence.
  - exists [], (Zpos n). split; [reflexivity|]. split; [now apply requested|]. repeat split.
  - exists [], (Zneg n). split; [reflexivity|]. split; [now apply requested|]. repeat split.
  - eexists _, t. split; [apply D; auto|]. split; [apply estimated; auto|]. repeat split. congruence.
Qed.
Lemma instruments_ok h s : history_ok h -> run_calls h state_init = Ok s -> exists txt, instruments_text s = Ok txt.
Proof. intros H E. destruct (C41_file h s H E) as (txt & _ & T & _). eauto. Qed.
Lemma truthy_false o : truthy o = false <-> not_asked o.
Proof.
  unfold truthy, not_asked. destruct o as [n|]; [|intuition].
  destruct (String.eqb_spec n "") as [->|N]; cbn; split; auto; try discriminate.
  intros [X|X]; [discriminate|]. injection X as ->. contradiction.
Qed.
Definition silent_open (eff : list effect) : Prop := forall st r, open_after st (eff ++ r) = open_after st r.
Lemma do_instruments_ok w n s txt : n <> ""%string -> instruments_text s = Ok txt ->
  let run := do_instruments w n s in
  instr_step w txt (Some n) (outputs (fst run)) (snd run) /\ silent_open (fst run).
Proof.
  intros N T run. unfold run, do_instruments. rewrite T.
  destruct (string_dec n "-") as [->|D].
  - cbn. split; [apply instr_stdout|intros st r; reflexivity].
  - rewrite smart_open_file by now split. destruct (w n) eqn:Wn.
    + split; [now apply instr_file|]. intros st r. cbn [app fst open_after closing smart_closes]. unfold line. cbn [open_after].
      now rewrite !String.eqb_refl.
    + split; [now apply instr_denied|]. intros st r. reflexivity.
Qed.
Lemma do_tracks_ok w n s t : n <> ""%string ->
  let run := do_tracks w s n t in
  song_step w s t (Some n) (outputs (fst run)) (snd run) /\ silent_open (fst run).
Proof.
  intros N run. unfold run, do_tracks. destruct (build_song s t) as [sg|e] eqn:B.
  - destruct (w n) eqn:Wn.
    + split; [now apply song_written|]. intros st r. cbn [app fst]. unfold line. cbn [open_after].
      now rewrite !String.eqb_refl.
    + split; [now apply (song_denied _ _ _ _ sg)|]. intros st r. reflexivity.
  - split; [now apply song_fails|]. intros st r. reflexivity.
Qed.
Lemma exports_ok w s t txt instr track : instruments_text s = Ok txt ->
  let run := seq_eff
    (if truthy instr then match instr with Some n => do_instruments w n s | None => ([], Ok tt) end else ([], Ok tt))
    (fun _ => if truthy track then match track with Some n => do_tracks w s n t | None => ([], Ok tt) end else ([], Ok tt)) in
  both_steps (instr_step w txt instr) (song_step w s t track) (outputs (fst run)) (snd run) /\ silent_open (fst run).
Proof.
  intros T.
  assert (A : exists ea ra, (if truthy instr then match instr with Some n => do_instruments w n s | None => ([], Ok tt) end else ([], Ok tt)) = (ea, ra)
     /\ instr_step w txt instr (outputs ea) ra /\ silent_open ea).
  { destruct (truthy instr) eqn:TI.
    - destruct instr as [n|]; [|discriminate]. destruct (do_instruments_ok w n s txt) as [X Y]; [|assumption|].
      + intros ->. discriminate.
      + destruct (do_instruments w n s) as [ea ra]. exists ea, ra. auto.
    - apply truthy_false in TI. exists [], (Ok tt). split; [reflexivity|]. split; [now apply instr_none|]. intros st r. reflexivity. }
  assert (B : exists eb rb, (if truthy track then match track with Some n => do_tracks w s n t | None => ([], Ok tt) end else ([], Ok tt)) = (eb, rb)
     /\ song_step w s t track (outputs eb) rb /\ silent_open eb).
  { destruct (truthy track) eqn:TI.
    - destruct track as [n|]; [|discriminate]. destruct (do_tracks_ok w n s t) as [X Y].
      + intros ->. discriminate.
      + destruct (do_tracks w s n t) as [eb rb]. exists eb, rb. auto.
    - apply truthy_false in TI. exists [], (Ok tt). split; [reflexivity|]. split; [now apply song_none|]. intros st r. reflexivity. }
  destruct A as (ea & ra & -> & A1 & A2), B as (eb & rb & B0 & B1 & B2). cbv zeta. unfold seq_eff.
  destruct ra as [[]|e].
  - rewrite B0. cbn [fst snd]. split; [rewrite outputs_app; now apply both_done|].
    intros st r. rewrite <- app_assoc. now rewrite A2, B2.
  - split; [now apply first_fails|assumption].
Qed.

(** Everything about a run on a readable file. *)
Lemma main_readable g c w ierr name instr track tpn d cs : world_ok g c -> file_name name -> c name = Some d ->
  readable g d cs ->
  exists s t txt pre out r, history_ok (calls_of cs) /\ run_calls (calls_of cs) state_init = Ok s
    /\ tick_length s tpn t /\ instruments_text s = Ok txt
    /\ main g c w ierr true name instr track tpn =
       ((OpenRead name :: line ("Opening file: " ++ name) :: pre ++ line ("Ticks per Note: " ++ str_int t) :: out)
         ++ [Close (HFile name "rb")], r)
    /\ outputs pre = [] /\ silent_open pre
    /\ both_steps (instr_step w txt instr) (song_step w s t track) (outputs out) r /\ silent_open out.
Proof.
  intros W F E R. destruct (read_cases g c name d W E) as [(cs' & s & v & R' & V & P & H & Er)|(N & _)]; [|now destruct (N cs)].
  rewrite (readable_unique _ _ _ _ _ _ W E R R') in *. clear R.
  destruct (choose_ok _ s tpn H Er) as (pre & t & C & TL & P1 & P2 & _).
  destruct (instruments_ok _ s H Er) as [txt T].
  pose proof (exports_ok w s t txt instr track T) as X. cbv zeta in X.
  unfold main. rewrite smart_open_file by assumption. rewrite E. unfold main_body. cbn [negb]. rewrite V, P, C.
  destruct (seq_eff _ _) as [out r]. cbn [fst snd] in X. destruct X as [X1 X2].
  exists s, t, txt, pre, out, r. repeat split; try assumption. 
Qed.

(** A readable input: what is written, exactly. *)
Theorem C42_written : forall g contents writable ierr name instr track tpn d cs,
  world_ok g contents -> file_name name -> contents name = Some d -> readable g d cs ->
  let run := main g contents writable ierr true name instr track tpn in
  exists s t txt, run_calls (calls_of cs) state_init = Ok s
    /\ tick_length s tpn t /\ instruments_text s = Ok txt
    /\ both_steps (instr_step writable txt instr) (song_step writable s t track) (outputs (fst run)) (snd run).
Proof.
  intros g c w ierr name instr track tpn d cs W F E R run.
  destruct (main_readable g c w ierr name instr track tpn d cs W F E R)
    as (s & t & txt & pre & out & r & H & Er & TL & T & M & P1 & _ & B & _).
  exists s, t, txt. repeat split; try assumption. unfold run. rewrite M. cbn [fst snd].
  rewrite outputs_app. cbn [outputs flat_map app]. rewrite app_nil_r.
  replace (outputs _) with (outputs pre ++ outputs out) by (rewrite <- outputs_app; now rewrite !outputs_app).
  now rewrite P1.
Qed.
Print Assumptions C42_written.

(** Nothing at all is written unless the whole input was read. *)
Theorem C42_read_first : forall g contents writable ierr name instr track tpn,
  world_ok g contents ->
  outputs (fst (main g contents writable ierr true name instr track tpn)) <> [] ->
  exists d cs, file_name name /\ contents name = Some d /\ readable g d cs.
Proof.
  intros g c w ierr name instr track tpn W O.
  destruct (file_name_dec name) as [F|F].
  - destruct (c name) as [d|] eqn:E.
    + destruct (read_cases g c name d W E) as [(cs & s & v & R & _)|(N & _)]; [exists d, cs; auto|].
      exfalso. apply O, C42_unreadable; [assumption|]. intros d' cs _ E'. assert (d' = d) by congruence. subst d'. apply N.
    + exfalso. apply O, C42_unreadable; [assumption|]. congruence.
  - exfalso. apply O, C42_unreadable; [assumption|]. intros; contradiction.
Qed.
Print Assumptions C42_read_first.
Lemma tick_length_unique s o t t' : tick_length s o t -> tick_length s o t' -> t = t'.
Proof.
  intros A B. destruct A as [n N|o t D T].
  - inversion B as [|? ? [X|X]]; subst; [reflexivity|discriminate|]. injection X as ->. contradiction.
  - inversion B as [n N|? ? D' T']; subst; [|congruence]. destruct D as [X|X]; [discriminate|].
    injection X as ->. contradiction.
Qed.
Lemma song_output w txt s t instr track o r f doc :
  both_steps (instr_step w txt instr) (song_step w s t track) o r -> In (Song f doc) o ->
  exists sg, track = Some f /\ build_song s t = Ok sg /\ doc = render sg.
Proof.
  assert (A : forall o r, instr_step w txt instr o r -> ~ In (Song f doc) o).
  { intros o' r' A X. inversion A; subst; cbn in X; intuition discriminate. }
  intros B I. destruct B as [o e A1|o o' r A1 B1].
  - now destruct (A _ _ A1).
  - apply in_app_iff in I as [I|I]; [now destruct (A _ _ A1)|].
    destruct B1; cbn in I; try contradiction. destruct I as [I|[]]. injection I as <- <-. eauto.
Qed.
(** The song file is not touched if the song cannot be built. *)
Theorem C42_song_untouched : forall g contents writable ierr name instr track tpn d cs s t,
  world_ok g contents -> file_name name -> contents name = Some d -> readable g d cs ->
  run_calls (calls_of cs) state_init = Ok s -> tick_length s tpn t ->
  (forall sg, build_song s t <> Ok sg) ->
  forall n doc, ~ In (Song n doc) (outputs (fst (main g contents writable ierr true name instr track tpn))).
Proof.
  intros g c w ierr name instr track tpn d cs s t W F E R Er TL N n doc I.
  destruct (C42_written g c w ierr name instr track tpn d cs W F E R) as (s' & t' & txt & Er' & TL' & _ & B).
  assert (s' = s) by congruence. subst s'.
  assert (t' = t).
  { now apply (tick_length_unique s tpn). }
  subst t'. cbv zeta in B.
  destruct (song_output _ _ _ _ _ _ _ _ _ _ B I) as (sg & _ & X & _). now apply (N sg).
Qed.
Print Assumptions C42_song_untouched.

(** The sample file on disk. *)
Definition disk (n : string) : option (list Z) := if String.eqb n "a.vgm" then Some sample_file else None.
Lemma disk_ok : world_ok no_gzip disk.
Proof.
  split; [|discriminate]. intros n d H. unfold disk in H. destruct (String.eqb n "a.vgm"); [|discriminate].
  injection H as <-. apply C04_sample_hyps.
Qed.
Lemma sample_readable : readable no_gzip sample_file (map op_command sample_ops).
Proof.
  destruct C01_accepted as (C & I & H). destruct C04_sample_hyps as (B & _ & D).
  destruct (C01_proof _ clocks_empty _ _ C) as (_ & _ & O & _).
  destruct (proj2 O (conj I H)) as [v R]. destruct (reader _ _ _) as [x ck] eqn:RR in R. cbn [fst] in R. subst x.
  destruct (C08_round_trip _ _ _ _ _ _ _ C B RR D C08_sample_valid) as [f V].
  exists sample_file. split; [exact C|]. split; [exact I|]. split; [exact H|].
  apply (proj2 (C04_proof _ _ _ _ _ _ _ _ C B RR)). rewrite V. cbn [fst snd error_of]. split; exact eq_refl.
Qed.
Definition run_sample := main no_gzip disk (fun _ => true) None true "a.vgm" (Some "i.json"%string) (Some "s.xrns"%string).
Example C42_sample_meets : world_ok no_gzip disk /\ file_name "a.vgm" /\ disk "a.vgm" = Some sample_file
  /\ readable no_gzip sample_file (map op_command sample_ops)
  /\ calls_of (map op_command sample_ops) = [Apply 0x20 0xC7; Beat 1000; Apply 0x08 0x78; Beat 4; Beat 735; Beat 882].
Proof. split; [apply disk_ok|]. split; [now split|]. split; [reflexivity|]. split; [apply sample_readable|reflexivity]. Qed.
(** The two files are not written all-or-nothing: the instrument file is there
    although the song export fails. *)
Theorem C42_all_or_nothing_refuted : ~ (forall g contents writable ierr name instr track tpn,
  world_ok g contents ->
  (exists e, snd (main g contents writable ierr true name instr track tpn) = Err e) ->
  outputs (fst (main g contents writable ierr true name instr track tpn)) = []).
Proof.
  intro X.
  specialize (X no_gzip disk (fun _ => true) None "a.vgm"%string (Some "i.json"%string) (Some "s.xrns"%string) (Some (-5)) disk_ok).
  fold (run_sample (Some (-5))) in X.
  assert (R : snd (run_sample (Some (-5))) = Err IndexError) by (vm_compute; reflexivity).
  assert (L : List.length (outputs (fst (run_sample (Some (-5))))) = 1%nat) by (vm_compute; reflexivity).
  rewrite X in L; [discriminate|]. now exists IndexError.
Qed.
Print Assumptions C42_all_or_nothing_refuted.

(** ** C43 *)
Lemma str_app_assoc a b c : ((a ++ b) ++ c = a ++ (b ++ c))%string.
Proof. induction a as [|x a IH]; [reflexivity|]. cbn. now rewrite IH. Qed.
(** A requested non-zero length is the one announced and used. *)
Theorem C43_requested : forall g contents writable ierr name instr track n d cs s,
  world_ok g contents -> file_name name -> contents name = Some d -> readable g d cs ->
  run_calls (calls_of cs) state_init = Ok s -> n <> 0 ->
  let run := main g contents writable ierr true name instr track (Some n) in
  In (Print ("Ticks per Note: " ++ str_int n ++ nl)) (fst run)
  /\ forall f doc, In (Song f doc) (outputs (fst run)) -> exists sg, build_song s n = Ok sg /\ doc = render sg.
Proof.
  intros g c w ierr name instr track n d cs s W F E R Er N run.
  destruct (main_readable g c w ierr name instr track (Some n) d cs W F E R)
    as (s' & t & txt & pre & out & r & H & Er' & TL & T & M & P1 & _ & B & _).
  assert (s' = s) by congruence. subst s'.
  assert (t = n) by (apply (tick_length_unique s (Some n)); [assumption|now apply requested]). subst t.
  split.
  - unfold run. rewrite M. cbn [fst]. apply in_app_iff. left. right. right. apply in_app_iff. right. left.
    unfold line. now rewrite str_app_assoc.
  - intros f doc I. destruct (C42_written g c w ierr name instr track (Some n) d cs W F E R)
      as (s' & t' & txt' & Er'' & TL' & _ & B'). assert (s' = s) by congruence. subst s'.
    assert (t' = n) by now apply (tick_length_unique s (Some n)). subst t'. fold run in B'. 
    destruct (song_output _ _ _ _ _ _ _ _ _ _ B' I) as (sg & _ & X & Y). eauto.
Qed.
Print Assumptions C43_requested.
(** Without a request, or with 0, the estimate is used and nothing can go wrong
    except that an output file cannot be opened. *)
Theorem C43_estimated : forall g contents writable ierr name instr track tpn d cs s,
  world_ok g contents -> file_name name -> contents name = Some d -> readable g d cs ->
  run_calls (calls_of cs) state_init = Ok s -> tpn = None \/ tpn = Some 0 ->
  (forall n, instr = Some n \/ track = Some n -> writable n = true) ->
  let run := main g contents writable ierr true name instr track tpn in
  exists t sg, ticks_per_note s = Ok t /\ build_song s t = Ok sg /\ snd run = Ok tt
    /\ (forall f, track = Some f -> f <> ""%string -> In (Song f (render sg)) (outputs (fst run)))
    /\ 82 <= g_beats_per_min (xs_globals (render sg)) <= 661.
Proof.
  intros g c w ierr name instr track tpn d cs s W F E R Er TP Wr run.
  destruct (main_readable g c w ierr name instr track tpn d cs W F E R)
    as (s' & t & txt & pre & out & r & H & Er' & TL & T & M & P1 & _ & _ & _).
  assert (s' = s) by congruence. subst s'.
  destruct (C28_estimate _ s H Er) as (t' & Et & (C & _)).
  assert (t = t') by (apply (tick_length_unique s tpn); [assumption|now apply estimated]). subst t'.
  assert (FL : 8000 < float_limit).
  { unfold float_limit. assert (2 ^ 970 * 2 <= 2 ^ 1024) by (change (2 ^ 970 * 2) with (2 ^ 970 * 2 ^ 1); rewrite <- Z.pow_add_r by lia; apply Z.pow_le_mono_r; lia).
    assert (1 <= 2 ^ 970) by (apply (Z.pow_le_mono_r 2 0 970); lia). lia. }
  unfold candidate in C.
  destruct (song_exists s _ t (run_logs _ s H Er)) as (sg & Bs & Fs); [lia|].
  destruct (C42_written g c w ierr name instr track tpn d cs W F E R) as (s' & t' & txt' & Er'' & TL' & _ & B).
  assert (s' = s) by congruence. subst s'.
  assert (t' = t) by (now apply (tick_length_unique s tpn)). subst t'. cbv zeta in B. fold run in B.
  exists t, sg. split; [assumption|]. split; [assumption|].
  assert (A : forall o r, instr_step w txt' instr o r -> r = Ok tt).
  { intros o r0 A. destruct A as [| |n|n Fn Wn]; try reflexivity. rewrite Wr in Wn by now left. discriminate. }
  assert (A' : forall o r, song_step w s t track o r -> r = Ok tt
     /\ (forall f, track = Some f -> f <> ""%string -> In (Song f (render sg)) o)).
  { intros o r0 A'. destruct A' as [o N|n e N X|n sg' N X Wn|n sg' N X Wn].
    - split; [reflexivity|]. intros f -> Nf. destruct N as [N|N]; [discriminate|]. now injection N as ->.
    - congruence.
    - rewrite Wr in Wn by now right. discriminate.
    - split; [reflexivity|]. intros f Ef _. injection Ef as ->. left. congruence. }
  split; [|split].
  - revert B. generalize (outputs (fst run)), (snd run). intros o r' B. destruct B as [o e B|o o' r' B B'].
    + apply A in B. discriminate.
    + now apply A' in B'.
  - intros f Ef Nf. revert B. generalize (outputs (fst run)), (snd run). intros o r' B. destruct B as [o e B|o o' r' B B'].
    + apply A in B. discriminate.
    + apply in_app_iff. right. apply A' in B' as [_ B']. now apply B'.
  - unfold render, render_globals. cbn [xs_globals g_beats_per_min]. rewrite (sf_globals _ _ _ _ Fs). unfold set_bpm. cbn [g_beats_per_min].
    unfold tempo. assert (82 <= 661500 / t <= 661) by (split; [apply Z.div_le_lower_bound; lia|apply Z.lt_succ_r, Z.div_lt_upper_bound; lia]).
    destruct (mem t dips) eqn:D; [|lia].
    apply mem_in in D. unfold dips in D. cbn [In] in D.
    repeat destruct D as [<-|D]; try lia; try contradiction; vm_compute; split; discriminate.
Qed.
Print Assumptions C43_estimated.
Example C43_sample : exists t sg s, run_calls (calls_of (map op_command sample_ops)) state_init = Ok s
  /\ ticks_per_note s = Ok t /\ build_song s t = Ok sg /\ snd (run_sample None) = Ok tt
  /\ In (Song "s.xrns" (render sg)) (outputs (fst (run_sample None))).
Proof.
  destruct C42_sample_meets as (W & F & E & R & _).
  destruct (main_readable no_gzip disk (fun _ => true) None _ (Some "i.json"%string) (Some "s.xrns"%string) None _ _ W F E R)
    as (s & _ & _ & _ & _ & _ & _ & Er & _).
  destruct (C43_estimated no_gzip disk (fun _ => true) None _ (Some "i.json"%string) (Some "s.xrns"%string) None _ _ s W F E R Er)
    as (t & sg & A & B & C & D & _); [now left|reflexivity|].
  exists t, sg, s. split; [exact Er|]. split; [exact A|]. split; [exact B|]. split; [exact C|].
  apply D; [reflexivity|discriminate].
Qed.

(** ** C44 *)
Theorem C44_smart_open : forall name mode,
  (forall n, name = Some n -> file_name n -> smart_open name mode = Ok (HFile n mode))
  /\ (not_asked name \/ name = Some "-"%string ->
      (prefix "w" mode = true -> smart_open name mode = Ok HStdout)
      /\ (prefix "r" mode = true -> smart_open name mode = Ok HStdin)
      /\ (prefix "w" mode = false -> prefix "r" mode = false -> smart_open name mode = Err GenericException)).
Proof.
  intros name mode. split.
  - intros n -> F. now apply smart_open_file.
  - intros H. assert (E : smart_open name mode = if prefix "w" mode then Ok HStdout else if prefix "r" mode then Ok HStdin else Err GenericException).
    { destruct H as [[->| ->]| ->]; reflexivity. }
    rewrite E. split; [now intros ->|]. split; [|now intros -> ->]. intros P.
    destruct mode as [|c mode]; [discriminate|]. cbn [prefix] in *. destruct (ascii_dec "r" c) as [<-|]; [|discriminate].
    destruct mode; reflexivity.
Qed.
Print Assumptions C44_smart_open.

(** Every file opened is closed again, the latest first, whatever happens; the
    standard streams are never closed. *)
Theorem C44_closed : forall g contents writable ierr script name instr track tpn,
  world_ok g contents ->
  open_after [] (fst (main g contents writable ierr script name instr track tpn)) = Some [].
Proof.
  intros g c w ierr script name instr track tpn W. unfold main.
  destruct (file_name_dec name) as [F|F].
  - rewrite smart_open_file by assumption. destruct (c name) as [d|] eqn:E; [|reflexivity].
    destruct script; [|cbn; now rewrite String.eqb_refl].
    destruct (read_cases g c name d W E) as [(cs & s & v & R & V & P & H & Er)|(_ & e & P)].
    + pose proof (main_readable g c w ierr name instr track tpn d cs W F E R)
        as (s' & t & txt & pre & out & r & _ & _ & _ & _ & M & _ & S1 & _ & S2).
      unfold main in M. rewrite smart_open_file, E in M by assumption. rewrite M. cbn [fst].
      cbn [app open_after]. unfold line. cbn [open_after]. rewrite <- app_assoc. rewrite S1. cbn [app open_after]. rewrite S2.
      cbn [open_after]. now rewrite !String.eqb_refl.
    + unfold main_body. cbn [negb]. destruct (fst (reader g clocks_empty (mkfile d 0))) as [v|x]; [rewrite P|];
        cbn; now rewrite String.eqb_refl.
  - rewrite (proj1 (smart_open_std _ F)). unfold main_body. destruct script; [|reflexivity]. cbn [negb].
    destruct ierr; reflexivity.
Qed.
Print Assumptions C44_closed.

(** Reading the VGM data from standard input never works. *)
Theorem C44_stdin_never_works : forall g contents writable ierr name instr track tpn,
  ~ file_name name ->
  main g contents writable ierr true name instr track tpn
  = ([Print ("Opening file: " ++ name ++ nl)], Err (match ierr with Some e => e | None => TypeError end)).
Proof.
  intros g c w ierr name instr track tpn F. unfold main. rewrite (proj1 (smart_open_std _ F)).
  unfold main_body, line. cbn [negb]. rewrite str_app_assoc. destruct ierr; reflexivity.
Qed.
Print Assumptions C44_stdin_never_works.
Theorem C44_stdin_refuted : ~ (exists g contents writable ierr instr track tpn,
  snd (main g contents writable ierr true "-" instr track tpn) = Ok tt).
Proof.
  intros (g & c & w & ierr & instr & track & tpn & H). rewrite C44_stdin_never_works in H; [|now intros [_ X]].
  discriminate.
Qed.
Print Assumptions C44_stdin_refuted.

Lemma str_app_nil a : (a ++ "" = a)%string.
Proof. induction a as [|x a IH]; [reflexivity|]. cbn. now rewrite IH. Qed.
Lemma concat_nil l : String.concat "" l = fold_right append ""%string l.
Proof. induction l as [|a [|b l] IH]; [reflexivity| |]; cbn [String.concat fold_right] in *.
  - now rewrite str_app_nil.
  - now rewrite IH.
Qed.

Definition piece (e : effect) : string :=
  match e with Print t => t | WriteText HStdout t => t | _ => ""%string end.
Lemma stdout_cons e l : stdout_text (e :: l) = (piece e ++ stdout_text l)%string.
Proof. unfold stdout_text. now rewrite !concat_nil. Qed.
Lemma stdout_app a b : stdout_text (a ++ b) = (stdout_text a ++ stdout_text b)%string.
Proof. induction a as [|e a IH]; [reflexivity|]. cbn [app]. now rewrite !stdout_cons, IH, str_app_assoc. Qed.

(** Instruments sent to standard output are there, in one piece, but between the
    progress messages: the output as a whole is not JSON. *)
Theorem C44_stdout_mixed : forall g contents writable ierr name track tpn d cs s txt,
  world_ok g contents -> file_name name -> contents name = Some d -> readable g d cs ->
  run_calls (calls_of cs) state_init = Ok s -> instruments_text s = Ok txt ->
  let out := stdout_text (fst (main g contents writable ierr true name (Some "-"%string) track tpn)) in
  (exists a b, out = ("Opening file: " ++ name ++ nl ++ a ++ txt ++ b)%string) /\ json_of_text out = None.
Proof.
  intros g c w ierr name track tpn d cs s txt W F E R Er T out.
  destruct (main_readable g c w ierr name (Some "-"%string) track tpn d cs W F E R)
    as (s' & t & txt' & pre & eff & r & H & Er' & TL & T' & M & P1 & _ & B & _).
  assert (s' = s) by congruence. subst s'. assert (txt' = txt) by congruence. subst txt'.
  assert (I : In (Text HStdout txt) (outputs eff)).
  { destruct B as [o e B|o o' r B _].
    - inversion B as [| |? X|? X]; destruct X; congruence.
    - apply in_app_iff. left. inversion B as [? X| |? X|? X]; [|now left|destruct X; congruence].
      destruct X as [X|X]; discriminate. }
  assert (Q : exists e1 e2, eff = e1 ++ WriteText HStdout txt :: e2).
  { clear -I. unfold outputs in I. apply in_flat_map in I as (e & He & I). apply in_split in He as (e1 & e2 & ->).
    destruct e; cbn in I; try contradiction; destruct I as [I|[]]; try discriminate. injection I as <- <-. eauto. }
  destruct Q as (e1 & e2 & ->).
  assert (X : exists a b, out = ("Opening file: " ++ name ++ nl ++ a ++ txt ++ b)%string).
  { unfold out. rewrite M. cbn [fst]. cbn [app]. rewrite !stdout_cons. cbn [piece line].
    rewrite <- app_assoc, stdout_app. cbn [app]. rewrite stdout_cons, <- app_assoc, stdout_app. cbn [app]. rewrite stdout_cons.
    cbn [piece line append]. rewrite str_app_assoc. 
    eexists (stdout_text pre ++ (("Ticks per Note: " ++ str_int t) ++ nl) ++ stdout_text e1)%string, _.
    rewrite !str_app_assoc. reflexivity. }
  split; [exact X|]. destruct X as (a & b & ->). reflexivity.
Qed.
Print Assumptions C44_stdout_mixed.
(** "-" as the name of the song file is an ordinary file name. *)
Theorem C44_dash_song : forall g contents writable ierr name instr tpn d cs f doc,
  world_ok g contents -> file_name name -> contents name = Some d -> readable g d cs ->
  In (Song f doc) (outputs (fst (main g contents writable ierr true name instr (Some "-"%string) tpn))) ->
  f = "-"%string.
Proof.
  intros g c w ierr name instr tpn d cs f doc W F E R I.
  destruct (C42_written g c w ierr name instr (Some "-"%string) tpn d cs W F E R) as (s & t & txt & _ & _ & _ & B).
  destruct (song_output _ _ _ _ _ _ _ _ _ _ B I) as (sg & X & _). congruence.
Qed.
Print Assumptions C44_dash_song.

(** ** C52 *)
(** Imported as a module, main() always fails and writes nothing. *)
Theorem C52_import_fails : forall g contents writable ierr name instr track tpn,
  let run := main g contents writable ierr false name instr track tpn in
  outputs (fst run) = []
  /\ snd run = Err (if string_dec name "" then NameError else if string_dec name "-" then NameError
                    else match contents name with None => OSError | Some _ => NameError end).
Proof.
  intros g c w ierr name instr track tpn run. unfold run, main.
  destruct (string_dec name "") as [->|N]; [now split|]. destruct (string_dec name "-") as [->|M]; [now split|].
  rewrite smart_open_file by now split. destruct (c name); now split.
Qed.
Print Assumptions C52_import_fails.
Example C52_sample :
  snd (main no_gzip disk (fun _ => true) None false "a.vgm" None None None) = Err NameError.
Proof. vm_compute. reflexivity. Qed.
