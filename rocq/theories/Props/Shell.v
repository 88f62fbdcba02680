(** C109: a score from the shell. *)
From Coq Require Import Lia.
From Verif.Model Require Import Py Command Core Config PyFloat Note State Song Serializer Json Extract History Main MainBytes Argparse Script.
From Verif.Spec Require Import VgmFormat Ym2151 Ranges Rhythm Text JsonText Tracker View Cli Whole SongText
  SongArchive ByteDisk ZipReader CommandLine Score Tune Logging.
From Verif.Props Require Import Reader Cli Arguments Archive Bytes Script Scores Tunes Logs.
Open Scope string_scope.
Open Scope list_scope.
Open Scope Z_scope.

(** The command, given words the usage allows, on a log of a score: status 0, and the
    named files show the score and its sounds. *)
Theorem C109_score : forall ws f instr track ticks g D writable ierr now d head b sc rl,
  accepted ws f instr track ticks ->
  world_ok g D -> file_name f -> D f = Some d -> content g d (Ok (score_file head b sc)) ->
  header_fits head -> lfo_fits b -> score_fits sc ->
  score_row b sc ticks rl -> 0 < rl < float_limit -> zip_clock now -> (forall n, writable n = true) ->
  let run := script_bytes g D writable ierr now ws in
  let D' := disk_after (fst run) D in
  snd run = 0
  /\ (forall o, track = Some o -> o <> "" -> exists x, D' o = Some x
      /\ (len x < 2 ^ 30 -> exists doc, song_in x = Some doc /\ score_shown b sc rl doc))
  /\ (forall i, instr = Some i -> file_name i -> track <> Some i -> exists x txt l, D' i = Some x
      /\ decode x = Some txt /\ json_of_text txt = Some (JList l)
      /\ Forall2 shows_config l (numbered 0 (sounds b sc))).
Proof.
  intros ws f i t n g D w ierr now d head b sc rl A W F E C Hd Lb Fs Row Pos Ck Wr. cbv zeta.
  destruct (script_accepted g D w ierr now ws f i t n A) as (S1 & S2 & _). rewrite S1, S2.
  apply (C105_file g D w ierr now f i t n d head b sc rl W F E C Hd Lb Fs Row Pos Ck); intros; apply Wr.
Qed.
Print Assumptions C109_score.
(** The same for a tune: no tick option is needed. *)
Theorem C109_tune : forall ws f instr track g D writable ierr now d head b a p beats,
  accepted ws f instr track None ->
  world_ok g D -> file_name f -> D f = Some d -> content g d (Ok (score_file head b (in_time a p beats))) ->
  header_fits head -> lfo_fits b -> tune_fits a p beats -> zip_clock now -> (forall n, writable n = true) ->
  let run := script_bytes g D writable ierr now ws in
  let D' := disk_after (fst run) D in
  snd run = 0
  /\ (forall o, track = Some o -> o <> "" -> exists x, D' o = Some x
      /\ (len x < 2 ^ 30 -> exists doc, song_in x = Some doc /\ tune_shown b a p beats doc)).
Proof.
  intros ws f i t g D w ierr now d head b a p beats A W F E C Hd Lb Fit Ck Wr. cbv zeta.
  destruct (script_accepted g D w ierr now ws f i t None A) as (S1 & S2 & _). rewrite S1, S2.
  apply (C107_file g D w ierr now f i t None d head b a p beats W F E C Hd Lb Fit (or_introl eq_refl) Ck); intros; apply Wr.
Qed.
Print Assumptions C109_tune.

(** However the tune was logged (C106), among commands of other chips, data blocks and
    waits of all kinds. *)
Theorem C109_logged : forall ws f instr track g D writable ierr now d head ops b a p beats,
  accepted ws f instr track None ->
  world_ok g D -> file_name f -> D f = Some d -> content g d (Ok (head ++ flat_map encode ops)) ->
  header_fits head -> Forall op_valid ops -> lfo_fits b -> tune_fits a p beats ->
  logged [] (performance b (in_time a p beats)) (calls_of (map op_command ops)) ->
  zip_clock now -> (forall n, writable n = true) ->
  let run := script_bytes g D writable ierr now ws in
  let D' := disk_after (fst run) D in
  snd run = 0
  /\ (forall o, track = Some o -> o <> "" -> exists x, D' o = Some x
      /\ (len x < 2 ^ 30 -> exists doc, song_in x = Some doc /\ tune_shown b a p beats doc))
  /\ (forall i, instr = Some i -> file_name i -> track <> Some i -> exists x txt l, D' i = Some x
      /\ decode x = Some txt /\ json_of_text txt = Some (JList l)
      /\ Forall2 shows_config l (numbered 0 (tune_sounds b beats))).
Proof.
  intros ws f i t g D w ierr now d head ops b a p beats A W F E C Hd V Lb Fit G Ck Wr. cbv zeta.
  destruct (script_accepted g D w ierr now ws f i t None A) as (S1 & S2 & _). rewrite S1, S2.
  pose proof Fit as (Gr & P & _).
  destruct (C106_file g D w ierr now f i t None d head ops b (in_time a p beats) p W F E C Hd V Lb (tune_score a p beats Gr) G
    (tune_row b a p beats Fit None (or_introl eq_refl))) as (P1 & P2 & P3); try assumption.
  { unfold float_limit. split; [lia|]. apply Z.lt_trans with (44100 * 8000); [lia|]. apply Zmult_lt_compat_l; [lia|]. reflexivity. }
  1,2: intros; apply Wr.
  split; [exact P1|]. rewrite tune_sounds_eq in P3. split; [|exact P3].
  intros o Ho No. destruct (P2 o Ho No) as (x & X & Y). exists x. split; [exact X|]. intro Sm. destruct (Y Sm) as (doc & Sg & Sh).
  exists doc. split; [exact Sg|]. now apply C107_document.
Qed.
Print Assumptions C109_logged.
(** By a driver that writes only what changes. *)
Example C109_thrifty : logged [] (performance some_lfo (in_time 700 2205 some_tune)) (thrifty [] (performance some_lfo (in_time 700 2205 some_tune)))
  /\ (List.length (thrifty [] (performance some_lfo (in_time 700 2205 some_tune))) < List.length (performance some_lfo (in_time 700 2205 some_tune)))%nat.
Proof. split; [apply C106_thrifty|vm_compute; lia]. Qed.

Example C109_words : accepted ["p.vgm"; "-i"; "i.json"; "--track"; "s.xrns"] "p.vgm" (Some "i.json") (Some "s.xrns") None.
Proof. apply C79_command_line. vm_compute. reflexivity. Qed.
Example C109_run : let run := script_bytes no_gzip tune_disk (fun _ => true) None noon ["p.vgm"; "-i"; "i.json"; "--track"; "s.xrns"] in
  snd run = 0
  /\ exists x, disk_after (fst run) tune_disk "s.xrns" = Some x
     /\ (len x < 2 ^ 30 -> exists doc, song_in x = Some doc /\ tune_shown some_lfo 700 2205 some_tune doc).
Proof.
  destruct C105_score_fits as (A & _ & C).
  assert (W : world_ok no_gzip tune_disk).
  { split.
    - intros n d. unfold tune_disk. destruct (String.eqb n "p.vgm"); [|discriminate]. intro X. injection X as <-.
      assert (V : forallb (fun z => (0 <=? z) && (z <? 256)) (score_file some_header some_lfo (in_time 700 2205 some_tune)) = true) by (vm_compute; reflexivity).
      rewrite forallb_forall in V. apply Forall_forall. intros z Hz. specialize (V z Hz). unfold byte.
      apply andb_prop in V. lia.
    - intros d p _ X. discriminate. }
  assert (Cn : content no_gzip (score_file some_header some_lfo (in_time 700 2205 some_tune)) (Ok (score_file some_header some_lfo (in_time 700 2205 some_tune)))).
  { apply raw. intro X. unfold is_gzip in X. vm_compute in X. discriminate. }
  destruct (C109_tune _ _ _ _ no_gzip tune_disk (fun _ => true) None noon _ some_header some_lfo 700 2205 some_tune C109_words W
    ltac:(split; discriminate) eq_refl Cn C A some_tune_fits C83_noon ltac:(reflexivity)) as (P1 & P2).
  split; [exact P1|]. apply P2; [reflexivity|discriminate].
Qed.
