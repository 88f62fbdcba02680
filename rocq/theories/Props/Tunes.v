(** C107: a tune in time is found in time. *)
From Coq Require Import Lia ZifyBool Sorted.
From Verif.Model Require Import Py Command Core Config PyFloat Note State Ticks Song Serializer Json Extract History Main MainBytes.
From Verif.Spec Require Import VgmFormat Ym2151 Ranges Rhythm Text JsonText Tracker View Cli Whole SongText
  SongArchive ByteDisk ZipReader Score Tune.
From Verif.Proofs Require Import PyLemmas CoreProofs StateProofs KeyProofs TempoProofs2 RhythmProofs ScoreProofs.
From Verif.Props Require Import Reader Cli Archive Bytes Scores.
Open Scope string_scope.
Open Scope list_scope.
Open Scope Z_scope.

(** The score of a tune. *)
Lemma voice_step v : voice_fits v -> step_fits (strike v).
Proof. intro H. exact H. Qed.
Lemma tune_score a p beats : grid_fits a p beats -> score_fits (in_time a p beats).
Proof.
  intros (A & P & F). split; [|exists a; eexists; split; [reflexivity|apply A]].
  apply Forall_cons; [cbn; lia|]. apply Forall_flat_map. eapply Forall_impl; [|exact F]. intros c (V & _).
  apply Forall_app. split; [|apply Forall_cons; [cbn; lia|apply Forall_nil]].
  apply Forall_map. eapply Forall_impl; [|exact V]. exact voice_step.
Qed.
Lemma chord_events b t : forall (c : list voice) has r, exists has',
  events b t has (map strike c ++ r)
  = map (fun v => mkevent t (v_chan v) (Some (mksettings b (v_sound v) (v_ops v))) (v_pitch v)) c ++ events b t has' r.
Proof.
  induction c as [|v c IH]; intros has r; [now exists has|].
  cbn [map app]. unfold strike at 1. cbn [events]. destruct (IH (fun x => if x =? v_chan v then v_pitch v else has x) r) as (h & E).
  exists h. now rewrite E.
Qed.
Definition beat_event b (t : Z) (v : voice) := mkevent t (v_chan v) (Some (mksettings b (v_sound v) (v_ops v))) (v_pitch v).
Fixpoint beat_events b (t p : Z) (beats : list (list voice)) : list event :=
  match beats with [] => [] | c :: r => map (beat_event b t) c ++ beat_events b (t + p) p r end.
Lemma tune_events b p : forall beats t has, events b t has (flat_map (beat_steps p) beats) = beat_events b t p beats.
Proof.
  induction beats as [|c beats IH]; intros t has; [reflexivity|].
  cbn [flat_map beat_events]. unfold beat_steps at 1. rewrite <- app_assoc.
  destruct (chord_events b t c has ([Rest p] ++ flat_map (beat_steps p) beats)) as (h & ->). cbn [app events]. now rewrite IH.
Qed.
Lemma tune_score_events b a p beats : score_events b (in_time a p beats) = beat_events b a p beats.
Proof. unfold score_events, in_time. cbn [events]. now rewrite tune_events, Z.add_0_l. Qed.
Lemma in_beat_events b p e : forall beats t, In e (beat_events b t p beats)
  <-> exists i c v, nth_error beats i = Some c /\ In v c /\ e = beat_event b (t + p * Z.of_nat i) v.
Proof.
  induction beats as [|c beats IH]; intro t; cbn [beat_events].
  - split; [intros []|intros ([|i] & c & v & N & _); discriminate].
  - rewrite in_app_iff, in_map_iff, IH. split.
    + intros [(v & <- & V)|(i & c' & v & N & V & ->)].
      * exists 0%nat, c, v. split; [reflexivity|]. split; [exact V|]. f_equal. lia.
      * exists (S i), c', v. split; [exact N|]. split; [exact V|]. f_equal. lia.
    + intros ([|i] & c' & v & N & V & ->).
      * left. exists v. injection N as <-. split; [f_equal; lia|exact V].
      * right. exists i, c', v. split; [exact N|]. split; [exact V|]. f_equal. lia.
Qed.
Lemma tune_sounds_eq b a p beats : sounds b (in_time a p beats) = tune_sounds b beats.
Proof.
  unfold sounds, tune_sounds. rewrite tune_score_events. f_equal. revert a.
  induction beats as [|c beats IH]; intro t; [reflexivity|]. cbn [beat_events List.concat]. rewrite flat_map_app, map_app, IH. f_equal.
  induction c as [|v c IHc]; [reflexivity|]. cbn. now rewrite IHc.
Qed.

(** Its row length: without -t it depends on the distance of the chords. *)
Lemma any_tune_row b a p beats : grid_fits a p beats -> Forall (fun c => c <> []) beats -> forall o, o = None \/ o = Some 0 ->
  score_row b (in_time a p beats) o (rows_of a p (Z.of_nat (List.length beats))).
Proof.
  intros (A & P & _) F o O. set (m := Z.to_nat (early_chords a p (Z.of_nat (List.length beats)))).
  apply (score_guessed b _ o (steady a p m)); [exact O| | |].
  - clear -P. unfold steady. generalize 0%nat as s. induction m as [|m IH]; intro s; cbn; constructor; [apply IH|].
    apply Forall_map, Forall_forall. intros x X. apply in_seq in X. nia.
  - intro x. rewrite steady_in, tune_score_events. split.
    + intros (i & Hi & ->). assert (Hi' : (i < List.length beats)%nat) by (unfold m, early_chords in Hi; lia).
      assert (Hd : Z.of_nat i <= (31999 - a) / p) by (unfold m, early_chords in Hi; lia).
      pose proof (Z.mul_div_le (31999 - a) p ltac:(lia)). split; [nia|].
      destruct (nth_error beats i) as [c|] eqn:N; [|apply nth_error_None in N; lia].
      rewrite Forall_forall in F. pose proof (F c (nth_error_In _ _ N)) as C. destruct c as [|v c]; [now destruct C|].
      exists (beat_event b (a + p * Z.of_nat i) v). split; [apply in_beat_events; exists i, (v :: c), v; split; [exact N|]; split; [now left|reflexivity]|].
      split; [discriminate|reflexivity].
    + intros (X & e & J & _ & <-). apply in_beat_events in J as (i & c & v & N & V & ->). cbn in X |- *. exists i. split; [|reflexivity].
      assert (Hi : (i < List.length beats)%nat) by (apply nth_error_Some; congruence).
      assert (Z.of_nat i <= (31999 - a) / p) by (apply Z.div_le_lower_bound; nia). unfold m, early_chords. lia.
  - pose proof (any_steady_best a p m ltac:(lia)) as B. unfold m in B at 2. rewrite Z2Nat.id in B by (unfold early_chords; lia). exact B.
Qed.
Lemma tune_row b a p beats : tune_fits a p beats -> forall o, o = None \/ o = Some 0 \/ o = Some p ->
  score_row b (in_time a p beats) o p.
Proof.
  intros (G & P & F & L & AP) o O. assert (Q : o = None \/ o = Some 0 \/ o = Some p) by exact O.
  assert (R : rows_of a p (Z.of_nat (List.length beats)) = p).
  { unfold rows_of. assert (1 <= (31999 - a) / p) by (apply Z.div_le_lower_bound; lia).
    destruct (Z.leb_spec 8000 p); [lia|]. destruct (Z.ltb_spec (p * (early_chords a p (Z.of_nat (List.length beats)) - 1)) 1000).
    { unfold early_chords in *. nia. }
    cbn [orb]. assert (E : (999 + p) / p = 1) by (symmetry; apply Z.div_unique with 999; lia). rewrite E. lia. }
  destruct O as [O|[O| ->]]; [| |constructor; lia]; rewrite <- R at 2; apply any_tune_row; tauto.
Qed.

(** A score's document is the tune's. *)
Lemma lasts_strikes c : lasts (map strike c) = 0.
Proof. induction c as [|v c IH]; [reflexivity|exact IH]. Qed.
Lemma lasts_beats p : forall l, lasts (flat_map (beat_steps p) l) = p * Z.of_nat (List.length l).
Proof.
  induction l as [|c l IH]; [cbn; lia|]. cbn [flat_map List.length]. unfold beat_steps at 1. rewrite !lasts_app, IH, lasts_strikes.
  cbn [lasts fold_right]. lia.
Qed.
Lemma lasts_pos sc : Forall step_fits sc -> 0 <= lasts sc.
Proof. induction 1 as [|x s H _ IH]; [reflexivity|]. destruct x; cbn [lasts fold_right]; fold (lasts s); cbn in H; lia. Qed.
Lemma lfo_none b : forall sc, (forall x, In x sc -> match x with Lfo _ => False | _ => True end) -> lfo_after b sc = b.
Proof.
  induction sc as [|x sc IH] using rev_ind; intro H; [reflexivity|]. unfold lfo_after. rewrite fold_left_app. cbn.
  specialize (IH (fun y I => H y (in_or_app _ _ _ (or_introl I)))). unfold lfo_after in IH.
  rewrite IH. specialize (H x). destruct x; [reflexivity..|]. destruct H. apply in_app_iff. right. now left.
Qed.

Lemma app_mid {A} (l1 : list A) : forall l2 r1 x r2, l1 ++ l2 = r1 ++ x :: r2 ->
  (exists t, l1 = r1 ++ x :: t) \/ exists t, r1 = l1 ++ t /\ l2 = t ++ x :: r2.
Proof.
  induction l1 as [|y l1 IH]; intros l2 r1 x r2 E; [right; now exists r1|]. destruct r1 as [|z r1]; cbn [app] in E.
  - injection E as -> _. left. now exists l1.
  - injection E as -> E. destruct (IH _ _ _ _ E) as [(t & ->)|(t & -> & ->)]; [left; now exists t|right; now exists t].
Qed.
Lemma strikes_mid c r1 x t : map strike c = r1 ++ x :: t -> exists w, In w c /\ x = strike w /\ lasts r1 = 0.
Proof.
  intro E. apply map_eq_app in E as (c1 & c2 & -> & <- & E). destruct c2 as [|w c2]; [discriminate|]. injection E as <- _.
  exists w. split; [apply in_app_iff; right; now left|]. split; [reflexivity|apply lasts_strikes].
Qed.
Lemma beats_mid p ch : forall l r1 x r2, flat_map (beat_steps p) l = r1 ++ x :: r2 -> concerns ch x ->
  exists j c w, nth_error l j = Some c /\ In w c /\ v_chan w = ch /\ lasts r1 = p * Z.of_nat j.
Proof.
  induction l as [|c l IH]; intros r1 x r2 E C; [destruct r1; discriminate|]. cbn [flat_map] in E. unfold beat_steps at 1 in E. rewrite <- app_assoc in E.
  apply app_mid in E as [(t & E)|(t & -> & E)].
  - destruct (strikes_mid c r1 x t E) as (w & W & -> & L). exists 0%nat, c, w. cbn in C. split; [reflexivity|]. split; [exact W|]. split; [exact C|lia].
  - cbn [app] in E. destruct t as [|y t]; [injection E as <- _; destruct C|]. injection E as <- E.
    destruct (IH t x r2 E C) as (j & c' & w & N & W & Q & L). exists (S j), c', w. split; [exact N|]. split; [exact W|]. split; [exact Q|].
    rewrite lasts_app, lasts_strikes. change (lasts (Rest p :: t)) with (p + lasts t). lia.
Qed.
(** A voice in its tune, and the notes of its channel that follow. *)
Lemma tune_split b a p beats i chord v : grid_fits a p beats -> nth_error beats i = Some chord -> In v chord ->
  exists s1 s2, in_time a p beats = s1 ++ strike v :: s2 /\ lasts s1 = a + p * Z.of_nat i /\ lfo_after b s1 = b
  /\ forall r1 x r2, s2 = r1 ++ x :: r2 -> concerns (v_chan v) x ->
     exists j c w, nth_error beats j = Some c /\ In w c /\ v_chan w = v_chan v /\ (i < j)%nat
       /\ lasts s1 + lasts r1 = a + p * Z.of_nat j.
Proof.
  intros (A & P & F) N V. pose proof (nth_error_In _ _ N) as Nin. apply nth_error_split in N as (b1 & b2 & E & Len). apply in_split in V as (c1 & c2 & EC).
  set (s1 := Rest a :: flat_map (beat_steps p) b1 ++ map strike c1).
  set (s2 := map strike c2 ++ Rest p :: flat_map (beat_steps p) b2).
  assert (Ls : lasts s1 = a + p * Z.of_nat i).
  { unfold s1. change (lasts (Rest a :: ?l)) with (a + lasts l). rewrite lasts_app, lasts_beats, lasts_strikes, Len. lia. }
  exists s1, s2. split; [|split; [exact Ls|split]].
  - unfold in_time, s1, s2. rewrite E, EC, flat_map_app. cbn [flat_map]. unfold beat_steps at 2. rewrite map_app. cbn [map app].
    rewrite <- !app_assoc. cbn [app]. reflexivity.
  - apply lfo_none. intros x [<-|X]; [exact Logic.I|]. apply in_app_iff in X as [X|X].
    + apply in_flat_map in X as (c & _ & X). apply in_app_iff in X as [X|[<-|[]]]; [|exact Logic.I]. apply in_map_iff in X as (w & <- & _). exact Logic.I.
    + apply in_map_iff in X as (w & <- & _). exact Logic.I.
  - intros r1 x r2 E2 C. rewrite Forall_forall in F. destruct (F chord Nin) as (_ & ND). unfold s2 in E2.
    apply app_mid in E2 as [(t & E2)|(t & -> & E2)].
    + exfalso. destruct (strikes_mid c2 r1 x t E2) as (w & W & -> & _). cbn in C. rewrite EC, map_app in ND. cbn [map] in ND.
      apply NoDup_remove_2 in ND. apply ND, in_app_iff. right. rewrite <- C. now apply in_map.
    + destruct t as [|y t]; [injection E2 as <- _; destruct C|]. injection E2 as <- E2.
      destruct (beats_mid p (v_chan v) b2 t x r2 E2 C) as (j & c & w & N & W & Q & L).
      exists (i + S j)%nat, c, w. split.
      { rewrite E, nth_error_app2 by lia. replace (i + S j - List.length b1)%nat with (S j) by lia. exact N. }
      split; [exact W|]. split; [exact Q|]. split; [lia|]. rewrite Ls, lasts_app, lasts_strikes.
      change (lasts (Rest p :: t)) with (p + lasts t). lia.
Qed.
(** With rows of the chords' distance nothing follows in the row. *)
Lemma kept b a p beats i chord v : grid_fits a p beats -> nth_error beats i = Some chord -> In v chord ->
  exists s1 s2, in_time a p beats = s1 ++ strike v :: s2 /\ lasts s1 = a + p * Z.of_nat i /\ lfo_after b s1 = b
  /\ row_kept p (lasts s1) (v_chan v) s2.
Proof.
  intros G N V. destruct (tune_split b a p beats i chord v G N V) as (s1 & s2 & Sp & Ls & Lf & K). exists s1, s2.
  split; [exact Sp|]. split; [exact Ls|]. split; [exact Lf|]. intros r1 x r2 E C. destruct (K r1 x r2 E C) as (j & c & w & _ & _ & _ & Lt & ->).
  assert (P : 0 < p) by apply G. rewrite Ls, !(Z.mul_comm p), !Z_div_plus by lia. lia.
Qed.
Lemma tune_play b a p beats i chord v : grid_fits a p beats -> nth_error beats i = Some chord -> In v chord ->
  last_event p (score_notes b (in_time a p beats) (v_chan v)) (a / p + Z.of_nat i)
  = Some (mknote (index_of (mksettings b (v_sound v) (v_ops v)) (tune_sounds b beats)) (nc_right (v_pitch v)) (nc_left (v_pitch v))
            (nc_octave (v_pitch v)) (nc_note (v_pitch v)) (nc_key_fraction (v_pitch v)) (a + p * Z.of_nat i)).
Proof.
  intros G N V. destruct (kept b a p beats i chord v G N V) as (s1 & s2 & Sp & Ls & Lf & K).
  assert (P : 0 < p) by apply G. pose proof (play_shown b s1 (v_chan v) (v_sound v) (v_ops v) (v_pitch v) s2 p P K) as Q.
  change (Play (v_chan v) (v_sound v) (v_ops v) (v_pitch v)) with (strike v) in Q. rewrite <- Sp, tune_sounds_eq, Ls, Lf in Q.
  replace ((a + p * Z.of_nat i) / p) with (a / p + Z.of_nat i) in Q by (rewrite (Z.mul_comm p), Z_div_plus by lia; reflexivity). exact Q.
Qed.
(** The notes of a tune are its voices. *)
Lemma tune_note b a p beats ch n : In n (score_notes b (in_time a p beats) ch) ->
  exists i chord v, nth_error beats i = Some chord /\ In v chord /\ v_chan v = ch /\ n_sample n = a + p * Z.of_nat i.
Proof.
  intro J. unfold score_notes in J. apply in_map_iff in J as (e & <- & J). apply filter_In in J as [J J3].
  assert (Je : In e (score_events b (in_time a p beats))).
  { revert J. generalize (score_events b (in_time a p beats)). intro l. induction l as [|y l IH]; [intros []|].
    cbn [drop_until]. destruct (ev_sound y); [exact (fun x => x)|]. intro X. right. now apply IH. }
  rewrite tune_score_events in Je. apply in_beat_events in Je as (i & c & v & N & V & ->). cbn in J3. apply Z.eqb_eq in J3.
  exists i, c, v. split; [exact N|]. split; [exact V|]. split; [exact J3|reflexivity].
Qed.
Lemma tune_rest b a p beats r ch : 0 < p ->
  (forall i chord v, nth_error beats i = Some chord -> In v chord -> r = a / p + Z.of_nat i -> v_chan v <> ch) ->
  last_event p (score_notes b (in_time a p beats) ch) r = None.
Proof.
  intros P No. unfold last_event. destruct (rev (filter (fun n => n_sample n / p =? r) (score_notes b (in_time a p beats) ch))) as [|n rest] eqn:Rv; [reflexivity|].
  exfalso. assert (J : In n (rev (filter (fun n => n_sample n / p =? r) (score_notes b (in_time a p beats) ch)))) by (rewrite Rv; now left).
  apply in_rev, filter_In in J as [J J2]. destruct (tune_note b a p beats ch n J) as (i & c & v & N & V & C & S).
  apply Z.eqb_eq in J2. rewrite S, (Z.mul_comm p), Z_div_plus in J2 by lia. exact (No i c v N V (eq_sym J2) C).
Qed.

Theorem C107_document : forall b a p beats doc, grid_fits a p beats -> score_shown b (in_time a p beats) p doc -> tune_shown b a p beats doc.
Proof.
  intros b a p beats doc Fit Sh. pose proof (tune_score a p beats Fit) as SF. assert (P : 0 < p) by apply Fit.
  pose proof Sh as (T & I & Ce). split; [exact T|]. split; [now rewrite I, tune_sounds_eq|]. split.
  - intros i chord v N V. destruct (kept b a p beats i chord v Fit N V) as (s1 & s2 & Sp & Ls & Lf & K).
    pose proof SF as SF'. rewrite Sp in SF', Sh.
    pose proof (C105_note b s1 (v_chan v) (v_sound v) (v_ops v) (v_pitch v) s2 p doc SF' P Sh K) as Q.
    change (Play (v_chan v) (v_sound v) (v_ops v) (v_pitch v)) with (strike v) in Q. rewrite <- Sp, tune_sounds_eq, Ls, Lf in Q.
    replace ((a + p * Z.of_nat i) / p) with (a / p + Z.of_nat i) in Q by (rewrite (Z.mul_comm p), Z_div_plus by lia; reflexivity).
    exact Q.
  - intros r ch Hr Hc No. unfold at_row.
    pose proof (Ce ch (r / 64) (r mod 64) Hc ltac:(apply Z.div_pos; lia) ltac:(apply Z.mod_pos_bound; lia)) as Q.
    rewrite <- Z.div_mod in Q by lia. rewrite (tune_rest b a p beats r ch P No) in Q. exact Q.
Qed.
Print Assumptions C107_document.

(** A log of a tune on a grid, exported with its distance: the song file has its tempo,
    a row per chord, and shows every note. *)
Theorem C107_grid : forall g D writable ierr now name instr track tpn d head b a p beats,
  world_ok g D -> file_name name -> D name = Some d -> content g d (Ok (score_file head b (in_time a p beats))) ->
  header_fits head -> lfo_fits b -> grid_fits a p beats ->
  score_row b (in_time a p beats) tpn p -> zip_clock now ->
  (forall f, track = Some f -> writable f = true) -> (forall i, instr = Some i -> writable i = true) ->
  let run := main_bytes g D writable ierr now name instr track tpn in
  let D' := disk_after (fst run) D in
  snd run = Fine
  /\ (forall f, track = Some f -> f <> "" -> exists x, D' f = Some x
      /\ (len x < 2 ^ 30 -> exists doc, song_in x = Some doc /\ tune_shown b a p beats doc)).
Proof.
  intros g D w ierr now name instr track tpn d head b a p beats W Fn E C Hd Lb Fit Row Ck Wf Wi run D'.
  destruct (C105_file g D w ierr now name instr track tpn d head b (in_time a p beats) p W Fn E C Hd Lb (tune_score _ _ _ Fit)
    Row) as (P1 & P2 & _); try assumption.
  { destruct Fit as (_ & P & _). unfold float_limit. split; [lia|]. apply Z.lt_trans with (44100 * 65536); [lia|].
    apply Zmult_lt_compat_l; [lia|]. reflexivity. }
  split; [exact P1|]. intros f Hf Nf. destruct (P2 f Hf Nf) as (x & X & Y). exists x. split; [exact X|]. intro Sm.
  destruct (Y Sm) as (doc & Sg & Sh). exists doc. split; [exact Sg|]. now apply C107_document.
Qed.
Print Assumptions C107_grid.
(** Without -t the distance is found if no chord is empty. *)
Theorem C107_file : forall g D writable ierr now name instr track tpn d head b a p beats,
  world_ok g D -> file_name name -> D name = Some d -> content g d (Ok (score_file head b (in_time a p beats))) ->
  header_fits head -> lfo_fits b -> tune_fits a p beats ->
  tpn = None \/ tpn = Some 0 \/ tpn = Some p -> zip_clock now ->
  (forall f, track = Some f -> writable f = true) -> (forall i, instr = Some i -> writable i = true) ->
  let run := main_bytes g D writable ierr now name instr track tpn in
  let D' := disk_after (fst run) D in
  snd run = Fine
  /\ (forall f, track = Some f -> f <> "" -> exists x, D' f = Some x
      /\ (len x < 2 ^ 30 -> exists doc, song_in x = Some doc /\ tune_shown b a p beats doc)).
Proof.
  intros g D w ierr now name instr track tpn d head b a p beats W Fn E C Hd Lb Fit O.
  exact (C107_grid g D w ierr now name instr track tpn d head b a p beats W Fn E C Hd Lb (proj1 Fit) (tune_row b a p beats Fit tpn O)).
Qed.
Print Assumptions C107_file.

(** Any distance, without -t: the song shows the score with the rows that are found; a
    note is on its row unless another one of its channel follows there. *)
Theorem C107_any_distance : forall g D writable ierr now name instr track tpn d head b a p beats,
  world_ok g D -> file_name name -> D name = Some d -> content g d (Ok (score_file head b (in_time a p beats))) ->
  header_fits head -> lfo_fits b -> grid_fits a p beats -> Forall (fun chord => chord <> []) beats ->
  tpn = None \/ tpn = Some 0 -> zip_clock now ->
  (forall f, track = Some f -> writable f = true) -> (forall i, instr = Some i -> writable i = true) ->
  let rl := rows_of a p (Z.of_nat (List.length beats)) in
  let run := main_bytes g D writable ierr now name instr track tpn in
  let D' := disk_after (fst run) D in
  snd run = Fine
  /\ (forall f, track = Some f -> f <> "" -> exists x, D' f = Some x
      /\ (len x < 2 ^ 30 -> exists doc, song_in x = Some doc /\ score_shown b (in_time a p beats) rl doc
          /\ forall i chord v, nth_error beats i = Some chord -> In v chord ->
             (forall j chord' v', nth_error beats j = Some chord' -> In v' chord' -> v_chan v' = v_chan v -> (i < j)%nat ->
                (a + p * Z.of_nat j) / rl <> (a + p * Z.of_nat i) / rl) ->
             exists cl k txt, at_row doc ((a + p * Z.of_nat i) / rl) (v_chan v) = Some cl
             /\ xn_note cl = pitch_name (shown_pitch (nc_octave (v_pitch v)) (nc_note (v_pitch v)))
             /\ xn_instrument cl = Some txt /\ hex_text (Z.of_nat k) txt
             /\ nth_error (tune_sounds b beats) k = Some (mksettings b (v_sound v) (v_ops v))
             /\ xn_panning cl = pan_shown (nc_right (v_pitch v)) (nc_left (v_pitch v)))).
Proof.
  intros g D w ierr now name instr track tpn d head b a p beats W Fn E C Hd Lb G Ne O Ck Wf Wi rl run D'.
  assert (Rl : 0 < rl <= 9000).
  { unfold rl, rows_of. destruct G as (A & P & _). destruct (Z.leb_spec 8000 p); cbn [orb]; [lia|].
    destruct (Z.ltb_spec (p * (early_chords a p (Z.of_nat (List.length beats)) - 1)) 1000); [lia|].
    pose proof (Z_div_mod_eq_full (999 + p) p). pose proof (Z.mod_pos_bound (999 + p) p ltac:(lia)). nia. }
  destruct (C105_file g D w ierr now name instr track tpn d head b (in_time a p beats) rl W Fn E C Hd Lb (tune_score _ _ _ G)
    (any_tune_row b a p beats G Ne tpn O)) as (P1 & P2 & _); try assumption.
  { unfold float_limit. split; [lia|]. apply Z.lt_trans with (44100 * 9001); [lia|]. apply Zmult_lt_compat_l; [lia|]. reflexivity. }
  split; [exact P1|]. intros f Hf Nf. destruct (P2 f Hf Nf) as (x & X & Y). exists x. split; [exact X|]. intro Sm.
  destruct (Y Sm) as (doc & Sg & Sh). exists doc. split; [exact Sg|]. split; [exact Sh|]. intros i chord v N V Last.
  pose proof (tune_score a p beats G) as SF.
  destruct (tune_split b a p beats i chord v G N V) as (s1 & s2 & Sp & Ls & Lf & K).
  assert (Kr : row_kept rl (lasts s1) (v_chan v) s2).
  { intros r1 y r2 Ey Cy. destruct (K r1 y r2 Ey Cy) as (j & c & u & Nj & Wj & Q & Lt & ->). rewrite Ls. exact (Last j c u Nj Wj Q Lt). }
  rewrite Sp in SF, Sh. pose proof (C105_note b s1 (v_chan v) (v_sound v) (v_ops v) (v_pitch v) s2 rl doc SF (proj1 Rl) Sh Kr) as Q.
  change (Play (v_chan v) (v_sound v) (v_ops v) (v_pitch v)) with (strike v) in Q. rewrite <- Sp, tune_sounds_eq, Ls, Lf in Q. exact Q.
Qed.
Print Assumptions C107_any_distance.

(** ** Notes that end in their row *)
Lemma split_event b e : ev_sound e <> None -> forall sc t has E1 E2, events b t has sc = E1 ++ e :: E2 ->
  exists b' s1 c ops s2 has', sc = s1 ++ Play (ev_chan e) c ops (ev_pitch e) :: s2 /\ ev_time e = t + lasts s1
  /\ E2 = events b' (ev_time e) has' s2.
Proof.
  intros Ne sc. revert b. induction sc as [|x sc IH]; intros b t has E1 E2 E; [destruct E1; discriminate|].
  assert (K : forall b0 t0 has0, events b0 t0 has0 sc = E1 ++ e :: E2 -> t0 = t + lasts [x] ->
    exists b' s1 c ops s2 has', x :: sc = s1 ++ Play (ev_chan e) c ops (ev_pitch e) :: s2 /\ ev_time e = t + lasts s1
    /\ E2 = events b' (ev_time e) has' s2).
  { intros b0 t0 has0 E0 T. destruct (IH b0 t0 has0 E1 E2 E0) as (b' & s1 & c & ops & s2 & h & -> & Ti & Q).
    exists b', (x :: s1), c, ops, s2, h. split; [reflexivity|]. split; [|exact Q].
    rewrite Ti, T. change (x :: s1) with ([x] ++ s1). rewrite lasts_app. lia. }
  assert (K2 : forall y E', E1 = y :: E' -> forall b0 t0 has0, events b0 t0 has0 sc = E' ++ e :: E2 -> t0 = t + lasts [x] ->
    exists b' s1 c ops s2 has', x :: sc = s1 ++ Play (ev_chan e) c ops (ev_pitch e) :: s2 /\ ev_time e = t + lasts s1
    /\ E2 = events b' (ev_time e) has' s2).
  { intros y E' _ b0 t0 has0 E0 T. destruct (IH b0 t0 has0 E' E2 E0) as (b' & s1 & c & ops & s2 & h & -> & Ti & Q).
    exists b', (x :: s1), c, ops, s2, h. split; [reflexivity|]. split; [|exact Q].
    rewrite Ti, T. change (x :: s1) with ([x] ++ s1). rewrite lasts_app. lia. }
  destruct x as [n|ch c ops p|ch|ch o n k|b']; cbn [events] in E.
  - apply (K _ _ _ E). cbn. lia.
  - destruct E1 as [|y E1]; cbn [app] in E.
    + injection E as <- <-. exists b, [], c, ops, sc. eexists. split; [reflexivity|]. cbn. split; [lia|reflexivity].
    + injection E as <- E. apply (K2 _ _ eq_refl _ _ _ E). cbn. lia.
  - destruct E1 as [|y E1]; cbn [app] in E; injection E as <- E; [now destruct Ne|]. apply (K2 _ _ eq_refl _ _ _ E). cbn. lia.
  - apply (K _ _ _ E). cbn. lia.
  - apply (K _ _ _ E). cbn. lia.
Qed.
Lemma filter_last {A} (q : A -> bool) l n r : rev (filter q l) = n :: r ->
  exists l1 l2, l = l1 ++ n :: l2 /\ filter q l2 = [].
Proof.
  revert r. induction l as [|x l IH] using rev_ind; intros r E; [discriminate|].
  rewrite filter_app, rev_app_distr in E. cbn [filter] in E. destruct (q x) eqn:Q; cbn [rev app] in E.
  - injection E as -> _. now exists l, [].
  - destruct (IH r E) as (l1 & l2 & -> & F). exists l1, (l2 ++ [x]). rewrite <- app_assoc. split; [reflexivity|].
    rewrite filter_app, F. cbn. now rewrite Q.
Qed.
Lemma filter_cut {A} (q : A -> bool) : forall l y Y X, filter q l = X ++ y :: Y ->
  exists l1 l2, l = l1 ++ y :: l2 /\ filter q l2 = Y /\ q y = true.
Proof.
  induction l as [|x l IH]; intros y Y X E; [destruct X; discriminate|]. cbn [filter] in E. destruct (q x) eqn:Q.
  - destruct X as [|z X]; cbn [app] in E.
    + injection E as -> <-. now exists [], l.
    + injection E as -> E. destruct (IH y Y X E) as (l1 & l2 & -> & F & Qy). exists (z :: l1), l2; now split.
  - destruct (IH y Y X E) as (l1 & l2 & -> & F & Qy). now exists (x :: l1), l2.
Qed.
Lemma drop_suffix {A} (q : A -> bool) l : exists pre, l = pre ++ drop_until q l.
Proof.
  induction l as [|x l (pre & IH)]; [now exists []|]. cbn [drop_until]. destruct (q x); [now exists []|]. exists (x :: pre). cbn. now rewrite <- IH.
Qed.

(** If every note of a channel ends in the row it begins in, no note of that channel is
    seen: its cells are empty or say "Off". *)
Theorem C107_staccato : forall b sc rl doc ch, 0 <= ch < 8 -> score_shown b sc rl doc ->
  (forall s1 c ops p s2, sc = s1 ++ Play ch c ops p :: s2 ->
     exists m s3, s2 = m ++ Stop ch :: s3 /\ (lasts s1 + lasts m) / rl = lasts s1 / rl) ->
  forall r, 0 <= r -> at_row doc r ch = None
    \/ exists cl, at_row doc r ch = Some cl /\ xn_note cl = "Off" /\ xn_instrument cl = None.
Proof.
  intros b sc rl doc ch Hc (_ & _ & Sh) Off r Hr. unfold at_row.
  pose proof (Sh ch (r / 64) (r mod 64) Hc ltac:(apply Z.div_pos; lia) ltac:(apply Z.mod_pos_bound; lia)) as Q.
  rewrite <- Z.div_mod in Q by lia. destruct (last_event rl (score_notes b sc ch) r) as [n|] eqn:LE; [|now left]. right.
  destruct Q as (cl & Ce & Dn & Di & _). exists cl. split; [exact Ce|].
  assert (O : is_off n = true).
  { unfold last_event in LE. destruct (rev (filter (fun n => n_sample n / rl =? r) (score_notes b sc ch))) as [|n' rest] eqn:Rv; [discriminate|].
    injection LE as ->. 
    assert (Row : n_sample n / rl = r).
    { assert (J : In n (rev (filter (fun n => n_sample n / rl =? r) (score_notes b sc ch)))) by (rewrite Rv; now left).
      apply in_rev, filter_In in J as [_ J]. now apply Z.eqb_eq in J. }
    apply filter_last in Rv as (l1 & l2 & El & F). unfold score_notes in El. apply map_eq_app in El as (x1 & x2 & Ex & _ & Mx).
    destruct x2 as [|e x2]; [discriminate|]. cbn [map] in Mx. injection Mx as Me Mx.
    apply filter_cut in Ex as (y1 & y2 & Ey & Fy & Che). destruct (drop_suffix (fun e => match ev_sound e with Some _ => true | None => false end) (score_events b sc)) as (pre & Pre).
    rewrite Ey, app_assoc in Pre. destruct (ev_sound e) as [w|] eqn:So; [exfalso|subst n; unfold is_off; reflexivity].
    apply Z.eqb_eq in Che. destruct (split_event b e ltac:(congruence) sc 0 _ _ _ Pre) as (b' & s1 & c & ops & s2 & h & Es & Ti & E2).
    rewrite Che in Es. destruct (Off _ _ _ _ _ Es) as (m & s3 & -> & Rw). destruct (events_split m b' (ev_time e) h) as (h' & Sp).
    specialize (Sp (Stop ch :: s3)). cbn [events] in Sp. rewrite Sp in E2.
    set (e' := mkevent (ev_time e + lasts m) ch None (h' ch)) in *.
    assert (J : In e' x2).
    { rewrite <- Fy, E2. apply filter_In. split; [apply in_app_iff; right; now left|]. cbn. apply Z.eqb_refl. }
    rewrite <- Mx in F. match type of F with filter ?q (map ?f x2) = [] => assert (J' : In (f e') (filter q (map f x2))) end.
    { apply filter_In. split; [exact (in_map _ _ _ J)|]. cbn [n_sample e' ev_time]. rewrite <- Me in Row. cbn [n_sample] in Row.
      apply Z.eqb_eq. rewrite Ti, Z.add_0_l in *. now rewrite Rw. }
    rewrite F in J'. destruct J'. }
  rewrite O in Dn. split; [exact Dn|]. destruct (xn_instrument cl); [|reflexivity]. destruct Di as [Di _]. congruence.
Qed.
Print Assumptions C107_staccato.

(** ** A tune *)
Definition some_tune : list (list voice) :=
  [[mkvoice 0 (some_sound 3 false) 15 (mknc true true 4 14 9); mkvoice 7 (some_sound 1 true) 6 (mknc true false 2 5 63)];
   [mkvoice 7 (some_sound 1 true) 15 (mknc true false 2 5 63)];
   [mkvoice 0 (some_sound 3 false) 15 (mknc true true 4 9 0); mkvoice 3 (some_sound 5 false) 15 (mknc false true 5 1 0)]].
Lemma some_tune_fits : tune_fits 700 2205 some_tune.
Proof.
  assert (V : forall ch fb noise ops p, 0 <= ch < 8 -> 0 <= fb < 8 -> (noise = true -> ch = 7) -> 0 < ops < 16 -> pitch_fits p ->
    voice_fits (mkvoice ch (some_sound fb noise) ops p)).
  { intros ch fb noise ops p H1 H2 H3 H4 H5. split; [exact H1|]. split; [now apply some_sound_fits|]. split; assumption. }
  split; [|split; [lia|]; split; [repeat (apply Forall_cons; [discriminate|]); apply Forall_nil|split; [cbn; lia|lia]]].
  split; [lia|]. split; [lia|]. unfold some_tune.
  repeat (apply Forall_cons; [split;
    [repeat (apply Forall_cons; [apply V; [lia|lia|discriminate || reflexivity|lia|unfold pitch_fits; cbn; lia]|]); apply Forall_nil|
     cbn; repeat (apply NoDup_cons; [cbn; lia|]); apply NoDup_nil]|]).
  apply Forall_nil.
Qed.
Example C107_tune_sounds : List.length (tune_sounds some_lfo some_tune) = 4%nat.
Proof. vm_compute. reflexivity. Qed.
(** Its log on disk, exported without -t. *)
Definition tune_disk (n : string) : option (list Z) :=
  if String.eqb n "p.vgm" then Some (score_file some_header some_lfo (in_time 700 2205 some_tune)) else None.
Example C107_exported :
  let run := main_bytes no_gzip tune_disk (fun _ => true) None noon "p.vgm" None (Some "s.xrns") None in
  snd run = Fine
  /\ (exists x, disk_after (fst run) tune_disk "s.xrns" = Some x
      /\ (len x < 2 ^ 30 -> exists doc, song_in x = Some doc /\ tune_shown some_lfo 700 2205 some_tune doc)).
Proof.
  destruct C105_score_fits as (A & _ & C).
  assert (W : world_ok no_gzip tune_disk).
  { split.
    - intros n d. unfold tune_disk. destruct (String.eqb n "p.vgm"); [|discriminate]. intro X. injection X as <-.
      assert (V : forallb (fun z => (0 <=? z) && (z <? 256)) (score_file some_header some_lfo (in_time 700 2205 some_tune)) = true) by (vm_compute; reflexivity).
      rewrite forallb_forall in V. apply Forall_forall. intros z Hz. specialize (V z Hz). unfold byte. lia.
    - intros d p _ X. discriminate. }
  assert (Cn : content no_gzip (score_file some_header some_lfo (in_time 700 2205 some_tune)) (Ok (score_file some_header some_lfo (in_time 700 2205 some_tune)))).
  { apply raw. intro X. unfold is_gzip in X. vm_compute in X. discriminate. }
  destruct (C107_file no_gzip tune_disk (fun _ => true) None noon "p.vgm" None (Some "s.xrns") None
    _ some_header some_lfo 700 2205 some_tune W ltac:(split; discriminate) eq_refl Cn C A some_tune_fits (or_introl eq_refl) C83_noon
    ltac:(reflexivity) ltac:(reflexivity)) as (P1 & P2).
  split; [exact P1|]. apply P2; [reflexivity|discriminate].
Qed.
(** Two short notes: with rows of 2000 samples neither is seen. *)
Definition short_notes : list step :=
  [Rest 100; Play 0 (some_sound 3 false) 15 (mknc true true 4 14 9); Rest 500; Stop 0; Rest 1500;
   Play 0 (some_sound 3 false) 15 (mknc true true 4 9 9); Rest 500; Stop 0].
Example C107_short_notes : score_fits short_notes /\ forall s1 c ops p s2, short_notes = s1 ++ Play 0 c ops p :: s2 ->
  exists m s3, s2 = m ++ Stop 0 :: s3 /\ (lasts s1 + lasts m) / 2000 = lasts s1 / 2000.
Proof.
  split.
  - split; [|exists 100; eexists; split; [reflexivity|lia]]. unfold short_notes.
    repeat (apply Forall_cons; [first [unfold step_fits; lia|
      split; [lia|]; split; [apply some_sound_fits; [lia|discriminate]|]; split; [lia|unfold pitch_fits; cbn; lia]]|]); apply Forall_nil.
  - intros s1 c ops p s2 E.
    destruct s1 as [|? s1]; [discriminate|]. injection E as <- E.
    destruct s1 as [|? s1]; [injection E as <- <- <- <-; now exists [Rest 500], [Rest 1500; Play 0 (some_sound 3 false) 15 (mknc true true 4 9 9); Rest 500; Stop 0]|].
    injection E as <- E. destruct s1 as [|? s1]; [discriminate|]. injection E as <- E. destruct s1 as [|? s1]; [discriminate|]. injection E as <- E.
    destruct s1 as [|? s1]; [discriminate|]. injection E as <- E.
    destruct s1 as [|? s1]; [injection E as <- <- <- <-; now exists [Rest 500], []|].
    injection E as <- E. destruct s1 as [|? s1]; [discriminate|]. injection E as <- E. destruct s1 as [|? s1]; [discriminate|]. injection E as <- E.
    destruct s1; discriminate.
Qed.
(** A tune with a silent beat is on a grid, and -t gives its rows. *)
Example C107_grid_fits : grid_fits 700 2205 (some_tune ++ [] :: some_tune)
  /\ score_row some_lfo (in_time 700 2205 (some_tune ++ [] :: some_tune)) (Some 2205) 2205.
Proof.
  destruct some_tune_fits as ((A & P & F) & _). split; [|constructor; lia]. split; [exact A|]. split; [exact P|].
  apply Forall_app. split; [exact F|]. apply Forall_cons; [|exact F]. split; [apply Forall_nil|apply NoDup_nil].
Qed.
(** The tune played fast: two chords a row. *)
Example C107_fast : rows_of 700 735 (Z.of_nat (List.length some_tune)) = 1470 /\ rows_of 700 2205 3 = 2205 /\ rows_of 100 9000 3 = 1000
  /\ grid_fits 700 735 some_tune /\ Forall (fun chord => chord <> []) some_tune.
Proof.
  do 3 (split; [reflexivity|]). destruct some_tune_fits as ((_ & _ & F) & _ & Ne & _). split; [|exact Ne]. split; [lia|]. split; [lia|exact F].
Qed.
