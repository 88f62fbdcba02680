(** The song built by extract_tracks_to_xrns and its document. *)
From Coq Require Import ZArith List Bool String Lia ZifyBool Sorting.Sorted.
From Verif.Model Require Import Py PyFloat Config Note State Ticks Song Serializer Extract History.
From Verif.Spec Require Import Ym2151 Ranges Rhythm Text Tracker.
From Verif.Proofs Require Import PyLemmas StateProofs KeyProofs ChipProofs ChipProofs2 TextProofs TickProofs
  TempoProofs BpmProofs GridProofs.
Import ListNotations.
Open Scope Z_scope.

Definition logs_ok (s : state) (log : Z -> list note) : Prop :=
  forall ch, 0 <= ch < 8 -> key_presses s ch = Ok (log ch) /\ Forall note_in_range (log ch)
    /\ StronglySorted (fun a b => n_sample a <= n_sample b) (log ch)
    /\ Forall (fun n => 0 < n_sample n) (log ch).

Lemma range8 : py_range 0 channel_count = chans.
Proof. reflexivity. Qed.
Lemma fold_add l a : fold_left add_pattern l a = a ++ l.
Proof.
  revert a. induction l as [|x l IH]; intro a; cbn [fold_left]; [now rewrite app_nil_r|].
  rewrite IH. unfold add_pattern. now rewrite <- app_assoc.
Qed.
Lemma track_nil i c : track [] i c = [].
Proof.
  unfold track. replace (nth i [] empty_pattern) with empty_pattern by (destruct i; reflexivity).
  do 9 (destruct c as [|c]; [reflexivity|]). reflexivity.
Qed.

Record song_facts (s : state) (log : Z -> list note) (tpn : Z) (sg : song) : Prop := mkfacts {
  sf_globals : sg_globals sg = set_bpm globals_new (tempo tpn);
  sf_instruments : sg_instruments sg = repeat Instrument (List.length (s_configs s));
  sf_tracks : sg_tracks sg = tracks_new 8;
  sf_pool : pool_ok (sg_pool sg);
  sf_count : List.length (pp_patterns (sg_pool sg)) = need tpn 0 (flat_map log chans);
  sf_fill : forall i c, 0 <= c < 8 ->
    track (pp_patterns (sg_pool sg)) i (Z.to_nat c) = fill tpn i [] (log c);
  sf_sequence : sg_sequence sg = py_range 0 (len (pp_patterns (sg_pool sg))) }.

Lemma song_exists s log tpn : logs_ok s log -> 0 < tpn < float_limit ->
  exists sg, build_song s tpn = Ok sg /\ song_facts s log tpn sg.
Proof.
  intros L H. unfold build_song. rewrite tempo_ok by assumption. cbn [bind].
  rewrite range8. unfold song_new at 1. cbn [sg_pool].
  destruct (place_channels_ok tpn ltac:(lia) s log chans (pool_new 8 64)) as (p & E & K & C & T).
  - intros ch Hc. apply chans_in in Hc. destruct (L ch Hc) as (A & B & _). auto.
  - unfold chans. repeat (constructor; [cbn; lia|]). constructor.
  - apply pool_new_ok.
  - rewrite E. cbn [bind]. eexists. split; [reflexivity|]. constructor; cbn [sg_globals sg_instruments sg_tracks sg_pool sg_sequence song_new].
    + reflexivity.
    + unfold len. now rewrite Nat2Z.id.
    + reflexivity.
    + assumption.
    + exact C.
    + intros i c Hc. rewrite T by lia. destruct (in_dec Z.eq_dec c chans) as [I|I].
      * cbn [pool_new pp_patterns]. now rewrite track_nil.
      * destruct I. now apply chans_in.
    + now rewrite fold_add.
Qed.

Lemma song_limit s tpn sg : 0 < tpn -> build_song s tpn = Ok sg -> tpn < float_limit.
Proof.
  intros H E. destruct (Z_lt_le_dec tpn float_limit) as [|L]; [assumption|].
  unfold build_song in E. rewrite tempo_overflow in E by lia. discriminate.
Qed.
Lemma song_facts_of s log tpn sg : logs_ok s log -> 0 < tpn -> build_song s tpn = Ok sg -> song_facts s log tpn sg.
Proof.
  intros L H E. destruct (song_exists s log tpn L) as (sg' & E' & F).
  - split; [assumption|]. eapply song_limit; eassumption.
  - congruence.
Qed.

Lemma run_logs h s : history_ok h -> run_calls h state_init = Ok s -> logs_ok s (notes h).
Proof.
  intros H E ch Hc. pose proof (refines_of_run _ _ H E) as R.
  split; [now apply q_presses|]. split.
  - destruct (C18_proof h s H E) as (_ & _ & _ & _ & K). destruct (K ch Hc) as (l & El & F).
    rewrite (q_presses _ _ _ R Hc) in El. now injection El as <-.
  - destruct (C24_proof h s ch (notes h ch) H R Hc (q_presses _ _ _ R Hc)) as [S P]. split; [assumption|].
    eapply Forall_impl; [|exact P]. cbn. lia.
Qed.

(** Cells of the document. *)
Lemma cell_fill s log tpn sg p ch j : song_facts s log tpn sg -> 0 <= p -> 0 <= ch < 8 ->
  cell (render sg) p ch j =
  match dict_get Z.eqb (fill tpn (Z.to_nat p) [] (log ch)) j with
  | None => None
  | Some v => Some (mkxnc (l_note v) (l_instrument v) (l_pan v))
  end.
Proof.
  intros F Hp Hc. rewrite <- (sf_fill _ _ _ _ F) by assumption. unfold cell, render, track. cbn [xs_patterns].
  rewrite nth_error_map.
  destruct (nth_error (pp_patterns (sg_pool sg)) (Z.to_nat p)) as [pat|] eqn:E; cbn [option_map].
  - rewrite (nth_error_nth _ _ _ E). unfold render_pattern. cbn [xp_tracks]. rewrite nth_error_map.
    assert (K : pat_ok pat).
    { destruct (sf_pool _ _ _ _ F) as (_ & _ & A). rewrite Forall_forall in A. apply A. eapply nth_error_In; eassumption. }
    destruct (nth_error (p_tracks pat) (Z.to_nat ch)) as [t|] eqn:Et; cbn [option_map].
    + rewrite (nth_error_nth _ _ _ Et). rewrite render_track_find.
      destruct (dict_get Z.eqb t j); reflexivity.
    + apply nth_error_None in Et. destruct K as (_ & K & _). lia.
  - apply nth_error_None in E. rewrite (nth_overflow _ _ E).
    change (p_tracks empty_pattern) with (repeat (@nil (Z * line)) 8).
    rewrite nth_repeat. reflexivity.
Qed.

Lemma cell_last s log tpn sg p ch j : logs_ok s log -> 0 < tpn -> song_facts s log tpn sg ->
  0 <= p -> 0 <= ch < 8 -> 0 <= j < 64 ->
  cell (render sg) p ch j = option_map column_of (last_event tpn (log ch) (64 * p + j)).
Proof.
  intros L Ht F Hp Hc Hj. rewrite (cell_fill _ _ _ _ _ _ _ F Hp Hc).
  destruct (L ch Hc) as (_ & R & _). rewrite fill_get by assumption. rewrite Z2Nat.id by assumption.
  destruct (last_event tpn (log ch) (64 * p + j)); reflexivity.
Qed.

(** Tracks of the document. *)
Lemma doc_tracks s log tpn sg pat xt : song_facts s log tpn sg -> In pat (xs_patterns (render sg)) ->
  In xt (xp_tracks pat) -> exists i c, 0 <= c < 8 /\ xt = render_ptrack (fill tpn i [] (log c)).
Proof.
  intros F Hp Ht. unfold render in Hp. cbn [xs_patterns] in Hp. apply in_map_iff in Hp as (p0 & <- & Hp).
  cbn [render_pattern xp_tracks] in Ht. apply in_map_iff in Ht as (t & <- & Ht).
  apply (In_nth _ _ empty_pattern) in Hp as (i & Hi & Ei).
  assert (K : pat_ok p0).
  { destruct (sf_pool _ _ _ _ F) as (_ & _ & A). rewrite Forall_forall in A. apply A. rewrite <- Ei. now apply nth_In. }
  apply (In_nth _ _ ([] : ptrack)) in Ht as (c & Hc & Ec). destruct K as (_ & K & _).
  exists i, (Z.of_nat c). assert (0 <= Z.of_nat c < 8) by (rewrite K in Hc; lia). split; [assumption|]. rewrite <- (sf_fill _ _ _ _ F) by assumption.
  unfold track. rewrite Nat2Z.id. now rewrite Ei, Ec.
Qed.

Lemma fill_values tpn i l k v : In (k, v) (fill tpn i [] l) -> exists n, In n l /\ v = line_of n.
Proof.
  assert (DS : forall (d : ptrack) k' v' k v, In (k, v) (dict_set Z.eqb d k' v') -> (k, v) = (k', v') \/ In (k, v) d \/ v = v').
  { clear. induction d as [|[a b] d IH]; intros k' v' k v; cbn [dict_set].
    - intros [H|[]]; auto.
    - destruct (Z.eqb_spec a k').
      + intros [H|H]; [injection H as <- <-|]; auto. right; left; now right.
      + intros [H|H]; [right; left; now left|]. destruct (IH _ _ _ _ H) as [?|[?|?]]; auto. right; left; now right. }
  induction l as [|n l IH] using rev_ind; [intros []|]. rewrite fill_snoc. intro H.
  destruct (i =? _)%nat.
  - apply DS in H as [H|[H|H]].
    + injection H as _ ->. exists n. rewrite in_app_iff. cbn. auto.
    + destruct (IH H) as (m & Hm & E). exists m. rewrite in_app_iff. auto.
    + exists n. rewrite in_app_iff. cbn. auto.
  - destruct (IH H) as (m & Hm & E). exists m. rewrite in_app_iff. auto.
Qed.

Lemma last_event_in tpn l r n : last_event tpn l r = Some n -> In n l /\ n_sample n / tpn = r.
Proof.
  unfold last_event. destruct (rev _) as [|m t] eqn:E; [discriminate|]. intro H. injection H as ->.
  assert (I : In n (filter (fun n => n_sample n / tpn =? r) l)).
  { apply in_rev. rewrite E. now left. }
  apply filter_In in I. split; [apply I|]. lia.
Qed.
Lemma last_event_split tpn l1 n l2 : (forall m, In m l2 -> n_sample m / tpn <> n_sample n / tpn) ->
  last_event tpn (l1 ++ n :: l2) (n_sample n / tpn) = Some n.
Proof.
  intro H. unfold last_event. rewrite filter_app. cbn [filter]. rewrite Z.eqb_refl.
  replace (filter _ l2) with (@nil note).
  - rewrite rev_app_distr. reflexivity.
  - symmetry. induction l2 as [|m l2 IH]; [reflexivity|]. cbn [filter].
    destruct (Z.eqb_spec (n_sample m / tpn) (n_sample n / tpn)) as [E|].
    + destruct (H m); [now left|assumption].
    + apply IH. intros x Hx. apply H. now right.
Qed.

(** Negative and zero tick lengths. *)
Lemma first_event_negative s tpn log : logs_ok s log -> tpn < 0 ->
  forall chs, (forall c, In c chs -> 0 <= c < 8) ->
  foldM (place_channel s tpn) chs (pool_new 8 64) =
  match flat_map log chs with [] => Ok (pool_new 8 64) | _ => Err IndexError end.
Proof.
  intros L H. induction chs as [|ch chs IH]; intro B; [reflexivity|].
  cbn [foldM flat_map]. destruct (L ch (B ch (or_introl eq_refl))) as (E & R & _ & P).
  unfold place_channel at 1. rewrite E. cbn [bind]. destruct (log ch) as [|n l].
  - cbn [foldM bind app]. apply IH. intros c Hc. apply B. now right.
  - cbn [foldM app]. inversion R as [|? ? Rn R']; subst. apply Forall_inv in P.
    unfold place_note, floor_div. destruct (Z.eqb_spec tpn 0); [lia|]. cbn [bind].
    rewrite xrns_name by assumption. cbn [bind]. change line_count with 64.
    assert (N : n_sample n / tpn < 0) by (clear -H P; nia).
    assert (K : n_sample n / tpn / 64 < 0) by (apply Z.div_lt_upper_bound; lia).
    unfold add_note. set (k := n_sample n / tpn / 64) in *.
    assert (G : grow (Z.to_nat (k + 1)) k (pool_new 8 64) = pool_new 8 64).
    { replace (Z.to_nat (k + 1)) with 0%nat by lia. reflexivity. }
    rewrite G. cbn [pool_new pp_patterns]. unfold py_get, py_slot. change (len (@nil pattern)) with 0.
    destruct ((0 <=? k) && (k <? 0)) eqn:C1; [lia|].
    destruct ((- 0 <=? k) && (k <? 0)) eqn:C2; [lia|]. reflexivity.
Qed.
Lemma song_negative s tpn log : logs_ok s log -> - float_limit < tpn < 0 ->
  match flat_map log chans with
  | [] => exists sg, build_song s tpn = Ok sg /\ pp_patterns (sg_pool sg) = [] /\ sg_sequence sg = []
            /\ g_beats_per_min (sg_globals sg) = - tempo (- tpn)
  | _ => build_song s tpn = Err IndexError
  end.
Proof.
  intros L H. assert (BP : bpm_of tpn = Ok (- tempo (- tpn))).
  { rewrite <- tempo_neg by lia. f_equal. lia. }
  unfold build_song. rewrite BP.
  cbn [bind]. rewrite range8. change (sg_pool (song_new 8 (len (s_configs s)) 64)) with (pool_new 8 64).
  pose proof (first_event_negative s tpn log L ltac:(lia) chans) as F.
  assert (B : forall c, In c chans -> 0 <= c < 8) by (intros c; apply chans_in). specialize (F B).
  destruct (flat_map log chans); rewrite F; [|reflexivity]. cbn [bind].
  eexists. split; [reflexivity|]. repeat split.
Qed.
