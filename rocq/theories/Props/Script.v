(** C86: from the words of the command line to the bytes on disk. *)
From Coq Require Import Lia.
From Verif.Model Require Import Py Command Core Config PyFloat Note State Ticks Song Serializer Zip Json Extract History
  Main MainBytes Argparse Script.
From Verif.Spec Require Import VgmFormat Ym2151 Rhythm Cli Whole ZipReader SongArchive ByteDisk CommandLine.
From Verif.Proofs Require Import PyLemmas.
From Verif.Props Require Import Reader Chip Cli Arguments Archive Bytes.
Open Scope string_scope.
Open Scope list_scope.
Open Scope Z_scope.

Lemma script_accepted g D w ierr now ws f i t n : accepted ws f i t n ->
  fst (script_bytes g D w ierr now ws) = fst (main_bytes g D w ierr now f i t n)
  /\ (snd (script_bytes g D w ierr now ws) = 0 <-> snd (main_bytes g D w ierr now f i t n) = Fine)
  /\ (snd (script_bytes g D w ierr now ws) = 0 \/ snd (script_bytes g D w ierr now ws) = 1).
Proof.
  intros A. apply C79_command_line in A. unfold script_bytes. rewrite A. cbn [a_file a_instrument a_track a_ticks].
  destruct (main_bytes g D w ierr now f i t n) as [acts [|e|e]]; cbn [fst snd]; (split; [reflexivity|]); (split; [split; congruence|auto]).
Qed.

(** A command line that the usage allows, on a readable file: the exit status is 0
    exactly if the outputs can be opened and the song exists, and then the files are
    what was asked for. *)
Theorem C86_exports : forall ws f instr track tpn g D writable ierr now d cs rl,
  accepted ws f instr track tpn ->
  world_ok g D -> file_name f -> D f = Some d -> readable g d cs -> row_length (calls_of cs) tpn rl -> zip_clock now ->
  let run := script_bytes g D writable ierr now ws in
  let D' := disk_after (fst run) D in
  (snd run = 0 \/ snd run = 1)
  /\ (snd run = 0 <->
       (forall i, instr = Some i -> file_name i -> writable i = true)
       /\ (forall o, track = Some o -> o <> "" ->
             writable o = true /\ Z.abs rl < float_limit /\ (rl < 0 -> all_notes (calls_of cs) = [])))
  /\ (snd run = 0 ->
       (forall o, track = Some o -> o <> "" -> exists x, D' o = Some x
          /\ (len x < 2 ^ 30 -> bytes x /\ exists doc, song_in x = Some doc /\ song_of (calls_of cs) rl doc))
       /\ (forall i, instr = Some i -> file_name i -> track <> Some i -> exists x txt, D' i = Some x
             /\ bytes x /\ decode x = Some txt /\ instruments_shown (calls_of cs) txt))
  /\ (forall m, instr <> Some m -> track <> Some m -> D' m = D m).
Proof.
  intros ws f i t n g D w ierr now d cs rl A W F E R RL K run D'.
  destruct (script_accepted g D w ierr now ws f i t n A) as (S1 & S2 & S3). fold run in S1, S2, S3.
  split; [exact S3|]. split; [rewrite S2; now apply (C85_succeeds g D w ierr now f i t n d cs rl)|]. split.
  - intros Z. apply S2 in Z. unfold D'. rewrite S1.
    destruct (C85_run g D w ierr now f i t n d cs rl W F E R RL K Z) as (X & Y & _). split; [exact X|exact Y].
  - unfold D'. rewrite S1.
    exact (proj2 (proj2 (C85_killed g D w ierr now f i t n d cs rl _ W F E R RL K (stopped_end _ D)))).
Qed.
Print Assumptions C86_exports.

(** Killed at any moment. *)
Theorem C86_killed : forall ws f instr track tpn g D writable ierr now d cs rl D',
  accepted ws f instr track tpn ->
  world_ok g D -> file_name f -> D f = Some d -> readable g d cs -> row_length (calls_of cs) tpn rl -> zip_clock now ->
  let run := script_bytes g D writable ierr now ws in
  stopped (fst run) D D' ->
  (forall o, track = Some o -> o <> "" ->
     (forall y, disk_after (fst run) D o = Some y -> len y < 2 ^ 30) ->
     D' o = D o
     \/ exists x, D' o = Some x
        /\ (song_in x = None \/ exists doc, song_in x = Some doc /\ song_of (calls_of cs) rl doc))
  /\ (forall i, instr = Some i -> file_name i -> track <> Some i ->
        D' i = D i \/ exists p r txt, D' i = Some p /\ decode (p ++ r) = Some txt /\ instruments_shown (calls_of cs) txt)
  /\ (forall m, instr <> Some m -> track <> Some m -> D' m = D m).
Proof.
  intros ws f i t n g D w ierr now d cs rl D' A W F E R RL K run. unfold run.
  destruct (script_accepted g D w ierr now ws f i t n A) as (-> & _). exact (C85_killed g D w ierr now f i t n d cs rl D' W F E R RL K).
Qed.
Print Assumptions C86_killed.

(** Every other command line, and every file that cannot be read to its end, leaves the
    disk as it was at every moment; the status is 2 (usage), 0 (only after a word
    asking for help) or 1 (a traceback). *)
Theorem C86_refused : forall ws g D writable ierr now,
  (forall f i t n, ~ accepted ws f i t n) ->
  let run := script_bytes g D writable ierr now ws in
  fst run = []
  /\ (snd run = 2 \/ (snd run = 0 /\ exists pre w post, ws = pre ++ w :: post /\ ~ In "--" pre /\ help_word w)).
Proof.
  intros ws g D w ierr now N run.
  destruct (C79_rejected ws N g D w ierr) as (st & S & H). unfold run, script_bytes. unfold run_script in S.
  destruct (parse_args ws) as [a|k] eqn:P.
  - exfalso. destruct (parsed_file ws a P) as (f & i & t & n & ->). apply (N f i t n). now apply C79_command_line.
  - injection S as ->. split; [reflexivity|exact H].
Qed.
Print Assumptions C86_refused.
Theorem C86_unreadable : forall ws f instr track tpn g D writable ierr now D',
  accepted ws f instr track tpn -> world_ok g D ->
  (forall d cs, file_name f -> D f = Some d -> ~ readable g d cs) ->
  let run := script_bytes g D writable ierr now ws in
  snd run = 1 /\ (stopped (fst run) D D' -> D' = D).
Proof.
  intros ws f i t n g D w ierr now D' A W N run. unfold run.
  destruct (script_accepted g D w ierr now ws f i t n A) as (S1 & S2 & S3).
  destruct (C85_unreadable g D w ierr now f i t n D' W N) as [[e X] Y]. split.
  - destruct S3 as [S3|S3]; [|exact S3]. apply S2 in S3. congruence.
  - rewrite S1. exact Y.
Qed.
Print Assumptions C86_unreadable.

(** ** The hypotheses are met *)
Example C86_sample : let ws := ["-i"; "i.json"; "a.vgm"; "-t"; "s.xrns"; "-tn"; "20"] in
  accepted ws "a.vgm" (Some "i.json") (Some "s.xrns") (Some 20)
  /\ snd (script_bytes no_gzip disk (fun _ => true) None noon ws) = 0.
Proof.
  intros ws. assert (A : accepted ws "a.vgm" (Some "i.json") (Some "s.xrns") (Some 20)) by (apply C79_command_line; vm_compute; reflexivity).
  split; [exact A|]. apply (script_accepted no_gzip disk (fun _ => true) None noon ws _ _ _ _ A). exact sample_fine.
Qed.
(** The song cannot be opened: status 1, the instrument file is there. *)
Example C86_denied : let ws := ["-ii.json"; "a.vgm"; "--tr=s.xrns"; "-tn=20"] in
  let run := script_bytes no_gzip disk (fun n => negb (String.eqb n "s.xrns")) None noon ws in
  snd run = 1 /\ disk_after (fst run) disk "s.xrns" = None /\ disk_after (fst run) disk "i.json" <> None.
Proof. split; [vm_compute; reflexivity|]. split; [vm_compute; reflexivity|vm_compute; discriminate]. Qed.
Example C86_usage : snd (script_bytes no_gzip disk (fun _ => true) None noon ["-t"; "s.xrns"]) = 2.
Proof. vm_compute. reflexivity. Qed.
