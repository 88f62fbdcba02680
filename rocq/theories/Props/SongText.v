(** C81: the text of Song.xml. *)
From Coq Require Import Lia ZifyBool.
From Verif.Model Require Import Py Command Config Note State Ticks Song Serializer Dataclass Dao Document XmlText Extract History.
From Verif.Spec Require Import VgmFormat Ym2151 Ranges Rhythm Text Tracker SongFile XmlReader SongText.
From Verif.Proofs Require Import PyLemmas CoreProofs StateProofs KeyProofs TextProofs BpmProofs GridProofs SongProofs
  DocumentProofs XmlProofs XmlProofs2.
From Verif.Props Require Import Chip Song.
Open Scope string_scope.
Open Scope list_scope.
Open Scope Z_scope.

(** An XML reader that gets the text finds the document, and a reader of the document
    finds the song: for every song whose texts XML can carry. *)
Theorem C81_reads_back : forall sg, Forall clean (song_strings sg) ->
  exists txt x, song_text sg = Ok txt /\ read_xml txt = Some x /\ read_song x = Some (render sg).
Proof.
  intros sg C. eexists _, (song_doc str_int (render sg)). unfold song_text. rewrite song_xml_doc. cbn [bind].
  split; [reflexivity|]. split; [now apply read_document, song_ok|]. apply r_song. exact int_value_str.
Qed.
Print Assumptions C81_reads_back.

(** Two songs with the same text are the same for every reader. *)
Theorem C81_faithful : forall sg sg' txt, Forall clean (song_strings sg) -> Forall clean (song_strings sg') ->
  song_text sg = Ok txt -> song_text sg' = Ok txt -> render sg = render sg'.
Proof.
  intros sg sg' txt C C' E E'. destruct (C81_reads_back sg C) as (t & x & T & X & R).
  destruct (C81_reads_back sg' C') as (t' & x' & T' & X' & R'). congruence.
Qed.
Print Assumptions C81_faithful.

(** Songs made from recordings have such texts only. *)
Lemma name_clean n : note_in_range n -> clean (name_text n).
Proof.
  intros (_ & Ho & Hk & _). unfold width in *. unfold name_text. apply clean_every.
  destruct (is_off n); [reflexivity|].
  assert (forallb (fun o => forallb (fun k => every_char clean_char (pitch_name (shown_pitch o k)))
            (map Z.of_nat (seq 0 16))) (map Z.of_nat (seq 0 8)) = true) as C by (vm_compute; reflexivity).
  apply (sweep 8) with (b := n_octave n) in C; [|lia]. cbv beta in C.
  apply (sweep 16) with (b := n_note n) in C; [|lia]. exact C.
Qed.
Lemma exported_clean_pos h s tpn sg : history_ok h -> run_calls h state_init = Ok s -> 0 < tpn -> build_song s tpn = Ok sg ->
  Forall clean (song_strings sg).
Proof.
  intros H E Ht B. pose proof (run_logs h s H E) as L. pose proof (song_facts_of s _ tpn sg L Ht B) as F.
  apply Forall_forall. intros t I. unfold song_strings in I. apply in_app_iff in I as [I|I]; [|apply in_app_iff in I as [I|I]].
  - rewrite (sf_globals _ _ _ _ F) in I. cbn in I. destruct I as [<-|[<-|[]]]; now apply clean_every.
  - rewrite (sf_tracks _ _ _ _ F) in I. apply clean_every. revert t I.
    assert (A : forallb (every_char clean_char) (flat_map (fun t => [t_name t; t_state t])
       (ts_tracks (tracks_new 8) ++ ts_master (tracks_new 8) ++ ts_send (tracks_new 8))) = true) by (vm_compute; reflexivity).
    rewrite forallb_forall in A. exact A.
  - apply in_flat_map in I as (p & Hp & I). apply in_flat_map in I as (t0 & Ht0 & I). apply in_flat_map in I as ([k v] & Hk & I).
    cbn [snd] in I.
    assert (D : exists i c, 0 <= c < 8 /\ t0 = fill tpn i [] (notes h c)).
    { apply (In_nth _ _ empty_pattern) in Hp as (i & Hi & Ei).
      assert (K : pat_ok p).
      { destruct (sf_pool _ _ _ _ F) as (_ & _ & A). rewrite Forall_forall in A. apply A. rewrite <- Ei. now apply nth_In. }
      apply (In_nth _ _ ([] : ptrack)) in Ht0 as (c & Hc & Ec). destruct K as (_ & K & _).
      exists i, (Z.of_nat c). assert (0 <= Z.of_nat c < 8) by (rewrite K in Hc; lia). split; [assumption|].
      rewrite <- (sf_fill _ _ _ _ F) by assumption. unfold track. rewrite Nat2Z.id. now rewrite Ei, Ec. }
    destruct D as (i & c & Hc & ->). apply fill_values in Hk as (n & Hn & ->).
    destruct (L c Hc) as (_ & R & _). rewrite Forall_forall in R. specialize (R n Hn).
    unfold line_strings, line_of in I. cbn [l_note l_instrument l_pan] in I.
    destruct I as [<-|I]; [now apply name_clean|]. apply in_app_iff in I as [I|I]; apply clean_every.
    + unfold instr_text in I. destruct (Z.leb_spec 0 (n_config_id n)) as [P|P]; [|destruct I].
      destruct I as [<-|[]]. destruct (hex02_text _ P) as (V & _). exact (hex_clean _ _ V).
    + unfold pan_text in I. destruct (n_right n), (n_left n); cbn in I; destruct I as [<-|[]] || destruct I; reflexivity.
Qed.
(** A negative tick length gives a song only if there are no notes. *)
Lemma exported_clean h s tpn sg : history_ok h -> run_calls h state_init = Ok s -> build_song s tpn = Ok sg ->
  Forall clean (song_strings sg).
Proof.
  intros H E B. destruct (Z_lt_le_dec 0 tpn) as [Ht|Ht]; [exact (exported_clean_pos h s tpn sg H E Ht B)|].
  assert (Ht0 : tpn <> 0) by (intros ->; discriminate (eq_trans (eq_sym B) (proj1 (C47_zero_and_huge s 0) eq_refl))).
  assert (FL : - float_limit < tpn < 0).
  { split; [|lia]. destruct (Z_lt_le_dec (- float_limit) tpn); [assumption|].
    rewrite (proj2 (C47_zero_and_huge s tpn)) in B by lia. discriminate. }
  assert (P : pp_patterns (sg_pool sg) = []).
  { destruct (C47_negative h s tpn H E FL) as [N1 N2].
    assert (EM : forall ch, 0 <= ch < 8 -> key_presses s ch = Ok []).
    { intros ch C. destruct (run_logs h s H E ch C) as (K & _). destruct (notes h ch) as [|n l] eqn:EN; [exact K|].
      rewrite (N1 ch _ C K) in B; discriminate. }
    destruct (N2 EM) as (sg' & B' & Q & _). rewrite B in B'. injection B' as <-.
    unfold render in Q. cbn [xs_patterns] in Q. destruct (pp_patterns (sg_pool sg)); [reflexivity|discriminate]. }
  unfold song_strings. rewrite P. cbn [flat_map]. rewrite app_nil_r. apply Forall_app. split.
  - unfold build_song in B. destruct (bpm_of tpn) as [bpm|]; [|discriminate]. cbn [bind] in B.
    destruct (foldM _ _ _) as [p|]; [|discriminate]. injection B as <-.
    apply Forall_forall. intros t I. cbn in I. destruct I as [<-|[<-|[]]]; now apply clean_every.
  - unfold build_song in B. destruct (bpm_of tpn) as [bpm|]; [|discriminate]. cbn [bind] in B.
    destruct (foldM _ _ _) as [p|]; [|discriminate]. injection B as <-. cbn [sg_tracks song_new].
    apply Forall_forall. intros t I. apply clean_every. revert t I.
    assert (A : forallb (every_char clean_char) (flat_map (fun t => [t_name t; t_state t])
       (ts_tracks (tracks_new 8) ++ ts_master (tracks_new 8) ++ ts_send (tracks_new 8))) = true) by (vm_compute; reflexivity).
    rewrite forallb_forall in A. exact A.
Qed.
Theorem C81_exported : forall h s tpn sg,
  history_ok h -> run_calls h state_init = Ok s -> build_song s tpn = Ok sg ->
  exists txt x, song_text sg = Ok txt /\ read_xml txt = Some x /\ read_song x = Some (render sg).
Proof. intros h s tpn sg H E B. apply C81_reads_back. exact (exported_clean h s tpn sg H E B). Qed.
Print Assumptions C81_exported.

(** What needs care: a carriage return in a name comes back as a line feed, and a
    control character makes the text no XML at all. *)
Definition named (n : string) : song :=
  mksong (mkglobals 125 4 12 4 4 4 0 false [0; 0; 0; 0] 3 4 n "me") [] (tracks_new 1) (mkpool [] 1 64) [].
Theorem C81_any_name_refuted :
  (exists sg txt x doc, song_text sg = Ok txt /\ read_xml txt = Some x /\ read_song x = Some doc
     /\ g_song_name (xs_globals doc) <> g_song_name (sg_globals sg))
  /\ exists sg txt, song_text sg = Ok txt /\ read_xml txt = None.
Proof.
  split.
  - exists (named (String CR "")). eexists _, _, _. split; [vm_compute; reflexivity|]. split; [vm_compute; reflexivity|].
    split; [vm_compute; reflexivity|]. vm_compute. discriminate.
  - exists (named (String "007" "")). eexists. split; vm_compute; reflexivity.
Qed.
Print Assumptions C81_any_name_refuted.

(** Names with markup in them are carried. *)
Example C81_markup : exists txt x, song_text (named "<b> & ""c"" ]]> 'd'") = Ok txt
  /\ read_xml txt = Some x /\ read_song x = Some (render (named "<b> & ""c"" ]]> 'd'")).
Proof.
  apply C81_reads_back. apply Forall_forall. intros s I. apply clean_every. revert s I.
  apply forallb_forall. vm_compute. reflexivity.
Qed.
Example C81_layout : exists body, song_text (named "a&b") = Ok
  ("<?xml version=""1.0"" encoding=""UTF-8""?>" ++ newline ++
   "<RenoiseSong doc_version=""65"">" ++ newline ++
   "  <GlobalSongData>" ++ newline ++
   "    <BeatsPerMin>125</BeatsPerMin>" ++ newline ++ body)%string.
Proof. eexists. vm_compute. reflexivity. Qed.
Example C81_tune : exists txt x, song_text tune_song = Ok txt /\ read_xml txt = Some x
  /\ read_song x = Some (render tune_song) /\ cell (render tune_song) 1 0 11 <> None.
Proof.
  destruct (C81_exported tune tune_state 20 tune_song) as (t & x & A & B & C).
  - exact tune_ok. - exact tune_run. - vm_compute; reflexivity.
  - exists t, x. split; [exact A|]. split; [exact B|]. split; [exact C|vm_compute; discriminate].
Qed.
