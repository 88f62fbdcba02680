(** The document written by the serializer is the template; it reads back. *)
From Coq Require Import Lia.
From Verif.Model Require Import Py Song Dataclass Dao Serializer Document.
From Verif.Spec Require Import Text SongFile.
From Verif.Proofs Require Import PyLemmas TextProofs.
Open Scope string_scope.
Open Scope list_scope.
Open Scope Z_scope.

Definition kid_fields (fs : list (fmeta * pyval)) : list (bool * list xml) :=
  flat_map (fun mv : fmeta * pyval =>
    match fm_kind (fst mv) with
    | PElement => [(fm_seq (fst mv), write (fm_xml (fst mv)) (snd mv))]
    | PAttribute => []
    end) fs.
Lemma write_obj t fs : write t (VObj fs) = [Node t (write_attrs fs) "" (arrange (kid_fields fs) [])].
Proof.
  cbn [write]. do 2 f_equal. generalize (@nil (list xml)) as run.
  match goal with |- forall run, arrange (?F fs) run = _ => assert (E : F fs = kid_fields fs) end.
  { induction fs as [|[[[[a x] k] q] w] r IH]; [reflexivity|]. cbn [kid_fields flat_map fst snd fm_kind fm_seq fm_xml].
    destruct k; cbn [app]; [f_equal|]; exact IH. }
  intros run. now rewrite E.
Qed.
Lemma write_list t l : write t (VList l) = flat_map (write t) l.
Proof. cbn [write]. induction l; [reflexivity|]. cbn [flat_map]. now f_equal. Qed.
Lemma write_none t : write t VNone = []. Proof. reflexivity. Qed.
Lemma write_int t n : write t (VInt n) = [leaf t (str_int n)]. Proof. reflexivity. Qed.
Lemma write_str t s : write t (VStr s) = [leaf t s]. Proof. reflexivity. Qed.
Lemma write_bool t b : write t (VBool b) = [leaf t (flag b)]. Proof. now destruct b. Qed.
Lemma write_vstr t o : write t (vstr o) = opt_leaf t o. Proof. now destruct o. Qed.
Lemma write_nil t : write t (VList []) = []. Proof. reflexivity. Qed.
Lemma write_ints t l : write t (VList (map VInt l)) = map (fun n => leaf t (str_int n)) l.
Proof. rewrite write_list. induction l; [reflexivity|]. cbn. now rewrite <- IHl. Qed.
Lemma robin_one l : robin (length l) [l] = l.
Proof. induction l as [|x l IH]; [reflexivity|]. cbn. now rewrite IH. Qed.
Lemma interleave_one l : interleave [l] = l.
Proof. unfold interleave. cbn [map fold_right]. rewrite Nat.max_0_r. apply robin_one. Qed.
Lemma interleave_nil : interleave [] = []. Proof. reflexivity. Qed.

Lemma each_write {A} (d : A -> res pyval) t (doc : A -> xml) :
  (forall a, exists v, d a = Ok v /\ write t v = [doc a]) ->
  forall l, exists vs, each d l = Ok vs /\ write t (VList vs) = map doc l.
Proof.
  intros H l. induction l as [|a r IH]; [now exists []|]. destruct (H a) as (v & E & W). destruct IH as (vs & E' & W').
  exists (v :: vs). cbn [each]. rewrite E. cbn [bind]. rewrite E'. split; [reflexivity|].
  rewrite write_list in *. cbn [flat_map map]. now rewrite W, W'.
Qed.

Ltac obj :=
  rewrite ?write_obj; cbn [write_attrs kid_fields flat_map fst snd fm_kind fm_seq fm_xml app text_of];
  rewrite ?write_none, ?write_int, ?write_str, ?write_bool, ?write_vstr, ?write_nil, ?write_ints.
Ltac objs := repeat (progress obj).
Ltac arr := cbn [arrange app]; rewrite ?interleave_nil; cbn [app].

Lemma w_globals g : exists v, d_globals g = Ok v /\ write "GlobalSongData" v = [globals_doc str_int g].
Proof.
  unfold d_globals. eexists. split; [vm_compute; reflexivity|]. cbv [g_beats_per_min].
  destruct g. obj. arr. obj. arr. rewrite app_nil_r. reflexivity.
Qed.

Lemma w_instrument i : exists v, d_instrument i = Ok v /\ write "Instrument" v = [branch "Instrument" []].
Proof. eexists. split; [vm_compute; reflexivity|reflexivity]. Qed.
Lemma w_instruments l : exists v, d_instruments l = Ok v
  /\ write "Instruments" v = [branch "Instruments" (map (fun _ => branch "Instrument" []) (render_instruments l))].
Proof.
  destruct (each_write d_instrument "Instrument" _ w_instrument l) as (vs & E & W).
  unfold d_instruments. rewrite E. eexists. split; [vm_compute; reflexivity|]. objs. rewrite W. arr.
  unfold render_instruments. rewrite map_map, app_nil_r. reflexivity.
Qed.

Lemma w_column c cs : exists v, d_line (c, cs) = Ok v /\
  write "Line" v = [line_doc str_int (mkxline c [mkxnc (l_note cs) (l_instrument cs) (l_pan cs)])].
Proof.
  destruct cs as [n i p]. eexists. split; [cbn [d_line l_note l_instrument l_pan]; vm_compute; reflexivity|].
  destruct i, p; reflexivity.
Qed.
Definition x_line_of (il : Z * line) : x_line :=
  mkxline (fst il) [mkxnc (l_note (snd il)) (l_instrument (snd il)) (l_pan (snd il))].
Lemma w_line il : exists v, d_line il = Ok v /\ write "Line" v = [line_doc str_int (x_line_of il)].
Proof. destruct il as [i l]. apply w_column. Qed.
Lemma w_ptrack t : exists v, d_ptrack t = Ok v /\ write "PatternTrack" v = [ptrack_doc str_int (render_ptrack t)].
Proof.
  destruct (each_write d_line "Line" _ w_line t) as (vs & E & W).
  unfold d_ptrack. rewrite E. eexists. split; [vm_compute; reflexivity|]. objs. rewrite W. arr. rewrite app_nil_r.
  replace (render_ptrack t) with (map x_line_of t) by (apply map_ext; intros []; reflexivity).
  unfold ptrack_doc. rewrite map_map. reflexivity.
Qed.
Lemma w_pmaster t : exists v, d_pmaster t = Ok v /\ write "PatternMasterTrack" v = [typed "PatternMasterTrack" []].
Proof. eexists. split; [vm_compute; reflexivity|reflexivity]. Qed.
Lemma w_psend t : exists v, d_psend t = Ok v /\ write "PatternSendTrack" v = [typed "PatternSendTrack" []].
Proof. eexists. split; [vm_compute; reflexivity|reflexivity]. Qed.
Lemma w_pattern p : exists v, d_pattern p = Ok v /\ write "Pattern" v = [pattern_doc str_int (render_pattern p)].
Proof.
  destruct (each_write d_ptrack "PatternTrack" _ w_ptrack (p_tracks p)) as (ts & E1 & W1).
  destruct (each_write d_pmaster "PatternMasterTrack" _ w_pmaster (p_master p)) as (ms & E2 & W2).
  destruct (each_write d_psend "PatternSendTrack" _ w_psend (p_send p)) as (ss & E3 & W3).
  unfold d_pattern. rewrite E1, E2, E3. eexists. split; [vm_compute; reflexivity|]. objs. rewrite W1, W2, W3. arr.
  rewrite app_nil_r. unfold pattern_doc, render_pattern. cbn [xp_tracks xp_master xp_send]. rewrite !map_map. reflexivity.
Qed.
Lemma w_pool p : exists v, d_pool p = Ok v
  /\ write "PatternPool" v = [branch "PatternPool" [branch "Patterns" (map (pattern_doc str_int) (map render_pattern (pp_patterns p)))]].
Proof.
  destruct (each_write d_pattern "Pattern" _ w_pattern (pp_patterns p)) as (ts & E1 & W1).
  unfold d_pool. rewrite E1. eexists. split; [vm_compute; reflexivity|]. objs. rewrite W1. arr.
  rewrite app_nil_r, map_map. reflexivity.
Qed.
Lemma w_entry n : exists v, d_entry n = Ok v /\ write "SequenceEntry" v = [branch "SequenceEntry" [leaf "Pattern" (str_int n)]].
Proof. eexists. split; [vm_compute; reflexivity|reflexivity]. Qed.
Lemma w_sequence s : exists v, d_sequence s = Ok v
  /\ write "PatternSequence" v = [branch "PatternSequence" [branch "SequenceEntries"
        (map (fun n => branch "SequenceEntry" [leaf "Pattern" (str_int n)]) (render_sequence s))]].
Proof.
  destruct (each_write d_entry "SequenceEntry" _ w_entry s) as (ts & E1 & W1).
  unfold d_sequence. rewrite E1. eexists. split; [vm_compute; reflexivity|]. objs. rewrite W1. arr.
  rewrite app_nil_r. unfold render_sequence. rewrite map_id. reflexivity.
Qed.

Definition panning_visible : list xml := [leaf "PanningColumnIsVisible" "true"].
Lemma w_tracks_seq l : forall cs, exists vs, d_seq_tracks l cs = Ok vs
  /\ write "SequencerTrack" (VList vs) = map (strack_doc "SequencerTrack" panning_visible) (render_tracks l cs).
Proof.
  induction l as [|[n st so] l IH]; intros cs; [now exists []|]. cbn [d_seq_tracks render_tracks t_name t_state t_soloed].
  destruct cs as [|c cs].
  - destruct (IH []) as (vs & E & W).
    assert (Q : exists v, d_track (mkstrack n st so) [] = Ok (v, []) /\ write "SequencerTrack" v =
      [strack_doc "SequencerTrack" panning_visible (mkxstrack n None st so "TrackMixerDevice")]).
    { eexists. split; [vm_compute; reflexivity|]. destruct so; reflexivity. }
    destruct Q as (v & Ev & Wv). exists (v :: vs). rewrite Ev. cbn [bind]. rewrite E. split; [reflexivity|].
    rewrite write_list in *. cbn [flat_map map]. rewrite Wv, W. reflexivity.
  - destruct (IH cs) as (vs & E & W).
    assert (Q : exists v, d_track (mkstrack n st so) (c :: cs) = Ok (v, cs) /\ write "SequencerTrack" v =
      [strack_doc "SequencerTrack" panning_visible (mkxstrack n (Some c) st so "TrackMixerDevice")]).
    { eexists. split; [vm_compute; reflexivity|]. destruct so; reflexivity. }
    destruct Q as (v & Ev & Wv). exists (v :: vs). rewrite Ev. cbn [bind]. rewrite E. split; [reflexivity|].
    rewrite write_list in *. cbn [flat_map map]. rewrite Wv, W. reflexivity.
Qed.
Lemma w_master t : exists v, d_master t = Ok v
  /\ write "SequencerMasterTrack" v = [strack_doc "SequencerMasterTrack" [] (render_master t)].
Proof. destruct t as [n st so]. eexists. split; [vm_compute; reflexivity|]. destruct so; reflexivity. Qed.
Lemma w_send t : exists v, d_send t = Ok v
  /\ write "SequencerSendTrack" v = [strack_doc "SequencerSendTrack" [] (render_send t)].
Proof. destruct t as [n st so]. eexists. split; [vm_compute; reflexivity|]. destruct so; reflexivity. Qed.
Lemma w_tracks t : exists v, d_tracks t = Ok v
  /\ write "Tracks" v = [branch "Tracks"
      (map (strack_doc "SequencerTrack" panning_visible) (render_tracks (ts_tracks t) track_colors)
       ++ map (strack_doc "SequencerMasterTrack" []) (map render_master (ts_master t))
       ++ map (strack_doc "SequencerSendTrack" []) (map render_send (ts_send t)))].
Proof.
  destruct (w_tracks_seq (ts_tracks t) track_colors) as (ts & E1 & W1).
  destruct (each_write d_master "SequencerMasterTrack" _ w_master (ts_master t)) as (ms & E2 & W2).
  destruct (each_write d_send "SequencerSendTrack" _ w_send (ts_send t)) as (ss & E3 & W3).
  unfold d_tracks. rewrite E1, E2, E3. eexists. split; [vm_compute; reflexivity|]. objs. rewrite W1, W2, W3. arr.
  rewrite interleave_one, !map_map. reflexivity.
Qed.

Lemma song_xml_doc sg : song_xml sg = Ok (song_doc str_int (render sg)).
Proof.
  destruct sg as [g i t p q]. unfold song_xml, d_song. cbn [sg_globals sg_instruments sg_tracks sg_pool sg_sequence].
  destruct (w_globals g) as (v1 & -> & W1). destruct (w_instruments i) as (v2 & -> & W2).
  destruct (w_tracks t) as (v3 & -> & W3). destruct (w_pool p) as (v4 & -> & W4).
  destruct (w_sequence q) as (v5 & -> & W5). cbn [bind].
  set (o := new RenoiseSong_fields [] _). vm_compute in o. subst o. cbn [bind]. unfold document_of.
  obj. rewrite W1, W2, W3, W4, W5. arr. cbn [hd_error]. destruct g. reflexivity.
Qed.

(** ** Reading back *)
Lemma filter_tag_map {A} (f : A -> xml) u t l : (forall a, tag (f a) = u) ->
  filter (fun k => String.eqb (tag k) t) (map f l) = if String.eqb u t then map f l else [].
Proof.
  intros H. induction l as [|a l IH]; [now destruct (String.eqb u t)|]. cbn [map filter]. rewrite H, IH.
  now destruct (String.eqb u t).
Qed.
Lemma every_map {A B C} (f : B -> option C) (g : A -> B) (h : A -> C) l :
  (forall a, f (g a) = Some (h a)) -> every f (map g l) = Some (map h l).
Proof. intros H. induction l as [|a l IH]; [reflexivity|]. cbn [map every]. rewrite H. cbn [obind]. now rewrite IH. Qed.
Lemma every_map_id {A B} (f : B -> option A) (g : A -> B) l : (forall a, f (g a) = Some a) -> every f (map g l) = Some l.
Proof. intros H. rewrite (every_map f g (fun a => a)) by assumption. now rewrite map_id. Qed.
Lemma units {A} (f : x_empty -> A) l : map (fun _ : A => XEmpty) (map f l) = l.
Proof. induction l as [|[] l IH]; [reflexivity|]. cbn. now rewrite IH. Qed.
Lemma filter_tag_app t l l' : filter (fun k => String.eqb (tag k) t) (l ++ l')
  = filter (fun k => String.eqb (tag k) t) l ++ filter (fun k => String.eqb (tag k) t) l'.
Proof. apply filter_app. Qed.

Section Reading.
  Variable dec : Z -> string.
  Hypothesis dec_ok : forall n, int_value (dec n) = Some n.

  Lemma r_column c : read_column (column_doc c) = Some c.
  Proof. destruct c as [n [i|] [p|]]; reflexivity. Qed.
  Lemma r_line l : read_line (line_doc dec l) = Some l.
  Proof.
    destruct l as [i cs]. unfold read_line, line_doc. cbn [attribute find fst snd String.eqb Ascii.eqb Bool.eqb option_map obind xl_index xl_note_columns].
    rewrite dec_ok. cbn [obind]. unfold one, all, branch. cbn [kids filter tag String.eqb Ascii.eqb Bool.eqb obind].
    rewrite (filter_tag_map column_doc "NoteColumn") by reflexivity. cbn [String.eqb Ascii.eqb Bool.eqb].
    rewrite every_map_id by exact r_column. reflexivity.
  Qed.
  Lemma r_ptrack t : read_ptrack (ptrack_doc dec t) = Some t.
  Proof.
    unfold read_ptrack, ptrack_doc, one, all, branch, typed. cbn [kids filter tag String.eqb Ascii.eqb Bool.eqb obind].
    rewrite (filter_tag_map (line_doc dec) "Line") by reflexivity. cbn [String.eqb Ascii.eqb Bool.eqb].
    apply every_map_id. exact r_line.
  Qed.
  Lemma r_pattern p : read_pattern (pattern_doc dec p) = Some p.
  Proof.
    destruct p as [ts ms ss]. unfold read_pattern, pattern_doc, one, all, branch.
    cbn [kids filter tag String.eqb Ascii.eqb Bool.eqb obind xp_tracks xp_master xp_send].
    rewrite !filter_tag_app, !(filter_tag_map (ptrack_doc dec) "PatternTrack") by reflexivity.
    rewrite !(filter_tag_map (fun _ => typed "PatternMasterTrack" []) "PatternMasterTrack") by reflexivity.
    rewrite !(filter_tag_map (fun _ => typed "PatternSendTrack" []) "PatternSendTrack") by reflexivity.
    cbn [String.eqb Ascii.eqb Bool.eqb app]. rewrite !app_nil_r. rewrite every_map_id by exact r_ptrack. cbn [obind].
    rewrite !units. reflexivity.
  Qed.
  Lemma r_globals g : read_globals (globals_doc dec g) = Some g.
  Proof.
    destruct g as [a b c d e f g h i j k l m]. unfold globals_doc, read_globals, read_int, read_flag, read_text, one, all, branch, leaf.
    cbn [kids filter tag text String.eqb Ascii.eqb Bool.eqb obind option_map
         g_beats_per_min g_lines_per_beat g_ticks_per_line g_signature_numerator g_signature_denominator
         g_metronome_beats_per_bar g_metronome_lines_per_beat g_shuffle_is_active g_shuffle_amounts g_octave
         g_loop_coeff g_song_name g_artist].
    rewrite !dec_ok. cbn [obind].
    rewrite (filter_tag_map (fun n => Node "ShuffleAmount" [] (dec n) []) "ShuffleAmount") by reflexivity.
    destruct h; cbn [flag String.eqb Ascii.eqb Bool.eqb obind]; rewrite every_map_id by (intros; apply dec_ok); reflexivity.
  Qed.
  Lemma r_strack u extra t : (forall x, In x extra -> tag x = "PanningColumnIsVisible") -> read_strack (strack_doc u extra t) = Some t.
  Proof.
    intros H.
    assert (N : forall v, v <> "PanningColumnIsVisible" -> filter (fun k => String.eqb (tag k) v) extra = []).
    { intros v Hv. clear - H Hv. induction extra as [|x l IH]; [reflexivity|]. cbn [filter].
      rewrite (H x) by now left. destruct (String.eqb_spec "PanningColumnIsVisible" v); [congruence|].
      apply IH. intros. apply H. now right. }
    destruct t as [n c s so m]. unfold read_strack, strack_doc, read_text, read_flag, maybe, read_text, one, all, typed, branch, leaf.
    cbn [kids xt_name xt_color xt_state xt_soloed xt_mixer].
    rewrite !filter_tag_app, !N by discriminate.
    destruct c as [c|], so; reflexivity.
  Qed.
  Lemma r_song s : read_song (song_doc dec s) = Some s.
  Proof.
    destruct s as [g i ts ms ss ps q]. unfold song_doc, read_song. cbn [xs_globals xs_instruments xs_tracks xs_master xs_send xs_patterns xs_sequence].
    unfold one, all. unfold branch at 1 2 3 4 5 6 7. unfold branch at 2 3 4.
    cbn [kids filter tag String.eqb Ascii.eqb Bool.eqb obind negb globals_doc branch].
    rewrite r_globals. cbn [obind].
    rewrite !filter_tag_app.
    rewrite !(filter_tag_map (strack_doc "SequencerTrack" _) "SequencerTrack") by reflexivity.
    rewrite !(filter_tag_map (strack_doc "SequencerMasterTrack" _) "SequencerMasterTrack") by reflexivity.
    rewrite !(filter_tag_map (strack_doc "SequencerSendTrack" _) "SequencerSendTrack") by reflexivity.
    rewrite !(filter_tag_map (pattern_doc dec) "Pattern") by reflexivity.
    rewrite !(filter_tag_map (fun _ => Node "Instrument" [] "" []) "Instrument") by reflexivity.
    rewrite !(filter_tag_map (fun n => Node "SequenceEntry" [] "" [leaf "Pattern" (dec n)]) "SequenceEntry") by reflexivity.
    cbn [String.eqb Ascii.eqb Bool.eqb app]. rewrite !app_nil_r.
    rewrite !every_map_id; cbn [obind].
    - rewrite units. reflexivity.
    - intros n. unfold read_int, read_text, one, all, leaf. cbn [kids filter tag String.eqb Ascii.eqb Bool.eqb option_map text obind]. apply dec_ok.
    - exact r_pattern.
    - intros. apply r_strack. intros x [].
    - intros. apply r_strack. intros x [].
    - intros. apply r_strack. intros x [<-|[]]. reflexivity.
  Qed.
End Reading.

(** ** Elements that never occur *)
Section Absent.
  Variable t : string.
  Lemma absent_node u a s k : u <> t -> (forall x, In x k -> ~ occurs t x) -> ~ occurs t (Node u a s k).
  Proof. intros N H O. inversion O; subst; [congruence|]. now apply (H x). Qed.
  Lemma absent_leaf u s : u <> t -> ~ occurs t (leaf u s).
  Proof. intros N. apply absent_node; [assumption|]. intros x []. Qed.
  Lemma absent_map {A} (f : A -> xml) l : (forall a, In a l -> ~ occurs t (f a)) -> forall x, In x (map f l) -> ~ occurs t x.
  Proof. intros H x I. apply in_map_iff in I as (a & <- & I). now apply H. Qed.
  Lemma absent_app l l' : (forall x, In x l -> ~ occurs t x) -> (forall x, In x l' -> ~ occurs t x) ->
    forall x, In x (l ++ l') -> ~ occurs t x.
  Proof. intros H H' x I. apply in_app_iff in I as []; auto. Qed.
  Lemma absent_cons y l : ~ occurs t y -> (forall x, In x l -> ~ occurs t x) -> forall x, In x (y :: l) -> ~ occurs t x.
  Proof. intros H H' x [<-|I]; auto. Qed.
  Lemma absent_nil : forall x : xml, In x [] -> ~ occurs t x. Proof. intros x []. Qed.
  Lemma absent_opt u o : u <> t -> forall x, In x (opt_leaf u o) -> ~ occurs t x.
  Proof. intros N. destruct o; cbn; [|intros x []]. intros x [<-|[]]. now apply absent_leaf. Qed.
End Absent.
Ltac absent := repeat first
  [ exact (absent_nil _) | apply absent_node; [discriminate|] | apply absent_leaf; discriminate | apply absent_opt; discriminate
  | match goal with |- forall x, In x (_ :: _) -> _ => apply absent_cons | |- forall x, In x (_ ++ _) -> _ => apply absent_app
    | |- forall x, In x (map _ _) -> _ => apply absent_map; intros ? ? end ].
Lemma absent_globals dec g : ~ occurs "NumberOfLines" (globals_doc dec g).
Proof. unfold globals_doc, branch. absent. Qed.
Lemma absent_pattern dec p : ~ occurs "NumberOfLines" (pattern_doc dec p).
Proof. unfold pattern_doc, branch, ptrack_doc, line_doc, column_doc, typed, branch. absent. Qed.
Lemma absent_strack u extra t : u <> "NumberOfLines" -> xt_mixer t <> "NumberOfLines" ->
  (forall x, In x extra -> ~ occurs "NumberOfLines" x) -> ~ occurs "NumberOfLines" (strack_doc u extra t).
Proof.
  intros U M E. unfold strack_doc, typed, branch. apply absent_node; [exact U|]. absent; [exact E|].
  apply absent_node; [exact M|]. apply absent_nil.
Qed.
Lemma render_tracks_mixer l : forall cs x, In x (render_tracks l cs) -> xt_mixer x = "TrackMixerDevice".
Proof.
  induction l as [|t l IH]; intros cs x; cbn [render_tracks]; [intros []|].
  destruct cs as [|c cs]; intros [<-|I]; [reflexivity|now apply IH in I|reflexivity|now apply IH in I].
Qed.
Local Opaque strack_doc globals_doc pattern_doc.
Lemma no_pattern_length sg x : song_xml sg = Ok x -> ~ occurs "NumberOfLines" x.
Proof.
  rewrite song_xml_doc. intros E. injection E as <-. unfold song_doc, render.
  cbn [xs_globals xs_instruments xs_tracks xs_master xs_send xs_patterns xs_sequence]. unfold branch.
  absent; try apply absent_globals; try apply absent_pattern; apply absent_strack; try discriminate; try exact (absent_nil _).
  - erewrite render_tracks_mixer by eassumption. discriminate.
  - absent.
  - apply in_map_iff in H as (? & <- & _). discriminate.
  - apply in_map_iff in H as (? & <- & _). discriminate.
Qed.
