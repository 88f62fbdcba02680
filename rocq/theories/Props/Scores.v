(** C105: what is played is what is exported. *)
From Coq Require Import Lia ZifyBool Sorted.
From Verif.Model Require Import Py Command Core Config PyFloat Note State Ticks Song Serializer Json Extract History Main MainBytes.
From Verif.Spec Require Import VgmFormat Ym2151 Ranges Rhythm Text JsonText Tracker View Cli Whole SongText
  SongArchive ByteDisk ZipReader Score.
From Verif.Proofs Require Import PyLemmas CoreProofs StateProofs KeyProofs ChipProofs SongProofs ViewProofs ScoreProofs.
From Verif.Props Require Import Reader Chip Song Cli Whole SongText Archive Bytes.
Open Scope string_scope.
Open Scope list_scope.
Open Scope Z_scope.

(** The registers decode to the score: the instruments are its different sounds, and
    the log of each channel is what was played there. *)
Theorem C105_log : forall b sc, lfo_fits b -> score_fits sc ->
  exists s, run_calls (performance b sc) state_init = Ok s
  /\ s_configs s = numbered 0 (sounds b sc)
  /\ forall ch, 0 <= ch < 8 -> key_presses s ch = Ok (score_notes b sc ch).
Proof.
  intros b sc Lb Fs. pose proof (proj1 Fs) as F. pose proof (performance_ok b sc Lb F) as H.
  destruct (run_total _ H) as (s & E). pose proof (refines_of_run _ _ H E) as R. exists s. split; [exact E|]. split.
  - rewrite (rf_configs _ _ R). unfold instruments. now rewrite distinct_sounds.
  - intros ch Hc. rewrite (q_presses _ _ _ R Hc). now rewrite performed_notes.
Qed.
Print Assumptions C105_log.

Lemma shown_score b sc t doc : lfo_fits b -> score_fits sc -> song_shows (performance b sc) t doc -> score_shown b sc t doc.
Proof.
  intros Lb Fs [T L I Tr Pt Pn Sq Ce]. split; [exact T|]. split; [now rewrite I, (distinct_sounds b sc Lb (proj1 Fs))|].
  intros ch p l Hc Hp Hl. rewrite <- (performed_notes b sc ch Lb Fs). now apply Ce.
Qed.

(** A log of the performance, read from disk and exported: the song file shows the
    score, the instrument file its sounds. *)
Theorem C105_file : forall g D writable ierr now name instr track tpn d head b sc rl,
  world_ok g D -> file_name name -> D name = Some d -> content g d (Ok (score_file head b sc)) ->
  header_fits head -> lfo_fits b -> score_fits sc ->
  score_row b sc tpn rl -> 0 < rl < float_limit -> zip_clock now ->
  (forall f, track = Some f -> writable f = true) -> (forall i, instr = Some i -> writable i = true) ->
  let run := main_bytes g D writable ierr now name instr track tpn in
  let D' := disk_after (fst run) D in
  snd run = Fine
  /\ (forall f, track = Some f -> f <> "" -> exists x, D' f = Some x
      /\ (len x < 2 ^ 30 -> exists doc, song_in x = Some doc /\ score_shown b sc rl doc))
  /\ (forall i, instr = Some i -> file_name i -> track <> Some i -> exists x txt l, D' i = Some x
      /\ decode x = Some txt /\ json_of_text txt = Some (JList l)
      /\ Forall2 shows_config l (numbered 0 (sounds b sc))).
Proof.
  intros g D w ierr now name instr track tpn d head b sc rl W Fn E C Hd Lb Fs Row Pos Ck Wf Wi run D'.
  pose proof (proj1 Fs) as F. pose proof (score_readable g d head b sc Hd Lb F C) as R.
  pose proof (calls_back (performance b sc)) as CB.
  assert (RL : row_length (calls_of (map op_command (map op_of_call (performance b sc) ++ [OpEnd]))) tpn rl).
  { rewrite CB. now apply (score_row_length b sc tpn rl Lb F). }
  assert (Fi : snd run = Fine).
  { apply (C85_succeeds g D w ierr now name instr track tpn d _ rl W Fn E R RL Ck). split; [intros i Hi _; now apply Wi|].
    intros f Hf _. split; [now apply Wf|]. split; [rewrite Z.abs_eq by lia; lia|lia]. }
  pose proof (C85_run g D w ierr now name instr track tpn d _ rl W Fn E R RL Ck) as P. cbv zeta in P. specialize (P Fi).
  destruct P as (P1 & P2 & _). split; [exact Fi|]. split.
  - intros f Hf Nf. destruct (P1 f Hf Nf) as (x & X & Y). exists x. split; [exact X|]. intro Sm.
    destruct (Y Sm) as (_ & doc & Sg & Sh & _). exists doc. split; [exact Sg|]. rewrite CB in Sh.
    exact (shown_score b sc rl doc Lb Fs (Sh ltac:(lia))).
  - intros i Hi Ni Nt. destruct (P2 i Hi Ni Nt) as (x & txt & X & _ & Dx & (l & J & Sh)). exists x, txt, l.
    split; [exact X|]. split; [exact Dx|]. split; [exact J|]. rewrite CB in Sh. unfold instruments in Sh.
    now rewrite (distinct_sounds b sc Lb F) in Sh.
Qed.
Print Assumptions C105_file.

(** Every note that is not followed by another event of its channel in its row is
    seen there: its pitch, its sound's number, its panning. *)
Theorem C105_note : forall b s1 ch c ops p s2 rl doc,
  let sc := s1 ++ Play ch c ops p :: s2 in let row := lasts s1 / rl in
  score_fits sc -> 0 < rl -> score_shown b sc rl doc -> row_kept rl (lasts s1) ch s2 ->
  exists cl k txt, cell doc (row / 64) ch (row mod 64) = Some cl
    /\ xn_note cl = pitch_name (shown_pitch (nc_octave p) (nc_note p))
    /\ xn_instrument cl = Some txt /\ hex_text (Z.of_nat k) txt
    /\ nth_error (sounds b sc) k = Some (mksettings (lfo_after b s1) c ops)
    /\ xn_panning cl = pan_shown (nc_right p) (nc_left p).
Proof.
  intros b s1 ch c ops p s2 rl doc sc row (F & Fr) Pos (_ & _ & Sh) K.
  assert (Fx : step_fits (Play ch c ops p)) by (rewrite Forall_forall in F; apply F; apply in_app_iff; right; now left).
  destruct Fx as (Hc & _).
  assert (L0 : 0 <= lasts s1).
  { apply Forall_app in F as [F _]. clear -F. induction F as [|x s H _ IH]; [reflexivity|]. destruct x; cbn [lasts fold_right]; fold (lasts s); cbn in H; lia. }
  assert (R0 : 0 <= row) by (apply Z.div_pos; lia).
  pose proof (Sh ch (row / 64) (row mod 64) Hc ltac:(apply Z.div_pos; lia) ltac:(apply Z.mod_pos_bound; lia)) as Q.
  rewrite <- Z.div_mod in Q by lia. unfold row, sc in Q. rewrite (play_shown b s1 ch c ops p s2 rl Pos K) in Q.
  destruct Q as (cl & Ce & Dn & Di & Dp). cbn [n_octave n_note n_right n_left n_config_id] in *. unfold is_off in *. cbn [n_config_id] in *.
  assert (In0 : In (mksettings (lfo_after b s1) c ops) (sounds b sc)).
  { unfold sounds. apply distinct_gen. right. destruct (events_split s1 b 0 (fun _ => nc_init)) as (h & Sp). unfold score_events, sc. rewrite Sp.
    cbn [events]. rewrite flat_map_app. apply in_app_iff. right. cbn [flat_map ev_sound app]. now left. }
  pose proof (index_in _ _ In0) as Ix. pose proof (index_nth _ _ In0) as In1. fold sc in Dn, Di.
  destruct (Z.ltb_spec (index_of (mksettings (lfo_after b s1) c ops) (sounds b sc)) 0); [lia|].
  exists cl, (Z.to_nat (index_of (mksettings (lfo_after b s1) c ops) (sounds b sc))). destruct (xn_instrument cl) as [txt|]; [|discriminate].
  exists txt. split; [exact Ce|]. split; [exact Dn|]. split; [reflexivity|]. rewrite Z2Nat.id by lia. split; [apply Di|]. split; [exact In1|exact Dp].
Qed.
Print Assumptions C105_note.

(** The same for the end of a note: "Off", without an instrument. *)
Theorem C105_stop : forall b s0 ch c ops p m s2 rl doc,
  let s1 := s0 ++ Play ch c ops p :: m in let sc := s1 ++ Stop ch :: s2 in let row := lasts s1 / rl in
  score_fits sc -> 0 < rl -> score_shown b sc rl doc ->
  (forall x, In x m -> ~ concerns ch x) -> row_kept rl (lasts s1) ch s2 ->
  exists cl, cell doc (row / 64) ch (row mod 64) = Some cl
    /\ xn_note cl = "Off" /\ xn_instrument cl = None /\ xn_panning cl = pan_shown (nc_right p) (nc_left p).
Proof.
  intros b s0 ch c ops p m s2 rl doc s1 sc row (F & Fr) Pos (_ & _ & Sh) M K.
  assert (Fx : step_fits (Stop ch)) by (rewrite Forall_forall in F; apply F; apply in_app_iff; right; now left).
  assert (Hc : 0 <= ch < 8) by exact Fx.
  assert (L0 : 0 <= lasts s1).
  { apply Forall_app in F as [F _]. clear -F. induction F as [|x s H _ IH]; [reflexivity|]. destruct x; cbn [lasts fold_right]; fold (lasts s); cbn in H; lia. }
  assert (R0 : 0 <= row) by (apply Z.div_pos; lia).
  pose proof (Sh ch (row / 64) (row mod 64) Hc ltac:(apply Z.div_pos; lia) ltac:(apply Z.mod_pos_bound; lia)) as Q.
  rewrite <- Z.div_mod in Q by lia. unfold row, sc, s1 in Q. destruct (stop_shown b s0 ch c ops p m s2 rl Pos M K) as (o & n & k & SS). rewrite SS in Q.
  destruct Q as (cl & Ce & Dn & Di & Dp). cbn in Dn. exists cl. split; [exact Ce|]. split; [exact Dn|]. split; [|exact Dp].
  destruct (xn_instrument cl); [|reflexivity]. destruct Di as [Di _]. discriminate.
Qed.
Print Assumptions C105_stop.

(** ** A score *)
Definition some_op (tl : Z) : op_config :=
  {| total_level := tl; attack_rate := 31; key_scale := 1; first_decay_rate := 7; ase := true; second_decay_rate := 5;
     second_detune := 2; first_decay_level := 3; release_rate := 9; multiply := 12; first_detune := 6 |}.
Definition some_sound (fb : Z) (noise : bool) : chan_config :=
  {| ch_operators := [some_op 10; some_op 20; some_op 30; some_op 127]; ch_fb := fb; ch_ams := 2; ch_pms := 5; ch_connection := 4;
     ch_noise := noise; ch_noise_freq := if noise then 21 else 0 |}.
Definition some_lfo : base_config := mkbase TRIANGLE 200 100 77.
Definition some_score : list step :=
  [Rest 735; Play 0 (some_sound 3 false) 15 (mknc true true 4 14 9); Play 7 (some_sound 1 true) 6 (mknc true false 2 5 63);
   Rest 735; Bend 7 3 4 11; Stop 7; Lfo (mkbase SAW 17 0 3); Play 0 (some_sound 3 false) 15 (mknc true true 5 1 0); Rest 65535; Stop 0].
Definition some_header : list Z := [86; 103; 109; 32; 0; 0; 0; 0; 16; 1; 0; 0] ++ repeat 0 52.
Lemma some_sound_fits ch fb noise : 0 <= fb < 8 -> (noise = true -> ch = 7) -> chan_fits ch (some_sound fb noise).
Proof.
  intros H N. split; [reflexivity|]. split; [repeat (apply Forall_cons; [unfold op_fits; cbn; lia|]); apply Forall_nil|].
  cbn. do 4 (split; [lia|]). split; [destruct noise; lia|]. intro X. destruct noise; [now specialize (N eq_refl)|split; reflexivity].
Qed.
Example C105_score_fits : lfo_fits some_lfo /\ score_fits some_score /\ header_fits some_header.
Proof.
  split; [unfold lfo_fits; cbn; lia|]. split.
  - split; [|exists 735; eexists; split; [reflexivity|lia]]. unfold some_score.
    assert (P : forall ch fb noise ops p, 0 <= ch < 8 -> 0 <= fb < 8 -> (noise = true -> ch = 7) -> 0 < ops < 16 -> pitch_fits p ->
      step_fits (Play ch (some_sound fb noise) ops p)).
    { intros ch fb noise ops p H1 H2 H3 H4 H5. split; [exact H1|]. split; [now apply some_sound_fits|]. split; assumption. }
    repeat (apply Forall_cons;
      [first [apply P; [lia|lia|discriminate || reflexivity|lia|unfold pitch_fits; cbn; lia] | unfold step_fits, lfo_fits; cbn; lia]|]); apply Forall_nil.
  - split; [|split; [cbn; lia|split; reflexivity]]. unfold some_header. cbn [repeat app].
    repeat (apply Forall_cons; [unfold byte; lia|]); apply Forall_nil.
Qed.
Example C105_score_heard : List.length (sounds some_lfo some_score) = 3%nat
  /\ score_notes some_lfo some_score 0 = [mknote 0 true true 4 14 9 735; mknote 2 true true 5 1 0 1470; mknote (-1) true true 5 1 0 67005]
  /\ score_notes some_lfo some_score 7 = [mknote 1 true false 2 5 63 735; mknote (-1) true false 3 4 11 1470]
  /\ score_row some_lfo some_score (Some 735) 735.
Proof. split; [vm_compute; reflexivity|]. split; [vm_compute; reflexivity|]. split; [vm_compute; reflexivity|]. constructor. lia. Qed.
Example C105_row_kept : row_kept 735 735 0 (skipn 2 some_score).
Proof.
  intros r1 x r2 E C. cbn [skipn some_score] in E.
  repeat (destruct r1 as [|a r1];
    [injection E as <- _; first [discriminate | destruct C | vm_compute; discriminate] | injection E as <- E]).
  destruct r1; discriminate.
Qed.
(** The score as a file on disk: all of C105_file's hypotheses. *)
Definition score_disk (n : string) : option (list Z) :=
  if String.eqb n "p.vgm" then Some (score_file some_header some_lfo some_score) else None.
Example C105_exported :
  let run := main_bytes no_gzip score_disk (fun _ => true) None noon "p.vgm" (Some "i.json") (Some "s.xrns") (Some 735) in
  snd run = Fine
  /\ (exists x, disk_after (fst run) score_disk "s.xrns" = Some x
      /\ (len x < 2 ^ 30 -> exists doc, song_in x = Some doc /\ score_shown some_lfo some_score 735 doc)).
Proof.
  destruct C105_score_fits as (A & B & C). destruct C105_score_heard as (_ & _ & _ & R).
  assert (W : world_ok no_gzip score_disk).
  { split.
    - intros n d. unfold score_disk. destruct (String.eqb n "p.vgm"); [|discriminate]. intro X. injection X as <-.
      assert (V : forallb (fun z => (0 <=? z) && (z <? 256)) (score_file some_header some_lfo some_score) = true) by (vm_compute; reflexivity).
      rewrite forallb_forall in V. apply Forall_forall. intros z Hz. specialize (V z Hz). unfold byte. lia.
    - intros d p _ X. discriminate. }
  assert (Cn : content no_gzip (score_file some_header some_lfo some_score) (Ok (score_file some_header some_lfo some_score))).
  { apply raw. intro X. unfold is_gzip in X. vm_compute in X. discriminate. }
  pose proof (C105_file no_gzip score_disk (fun _ => true) None noon "p.vgm" (Some "i.json") (Some "s.xrns") (Some 735)
    _ some_header some_lfo some_score 735 W ltac:(split; discriminate) eq_refl Cn C A B R ltac:(unfold float_limit; lia) C83_noon
    ltac:(reflexivity) ltac:(reflexivity)) as P.
  cbv zeta in P. destruct P as (P1 & P2 & _). split; [exact P1|]. apply P2; [reflexivity|discriminate].
Qed.
