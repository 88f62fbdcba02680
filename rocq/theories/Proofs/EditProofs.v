(** Lemmas for C96-C98. *)
From Coq Require Import Lia ZifyBool Sorted.
From Verif.Model Require Import Py Command Config Note State Ticks Song Serializer Extract Csv History Main.
From Verif.Spec Require Import VgmFormat Ym2151 Ranges Rhythm Text Tracker View Editing.
From Verif.Proofs Require Import PyLemmas CoreProofs StateProofs KeyProofs FileProofs ChipProofs ChipProofs2
  TempoProofs BpmProofs GridProofs SongProofs ViewProofs.
Ltac Zify.zify_post_hook ::= Z.div_mod_to_equations.

(** ** Longer recordings *)
Lemma late_keys : forall g past, history_ok g -> Forall (fun k => time past <= k_time k) (keys_from past g).
Proof.
  induction g as [|c g IH]; intros past G; [constructor|]. inversion G as [|? ? C G']; subst. cbn [keys_from]. apply Forall_app. split.
  - destruct c as [r v|n]; [|constructor]. destruct (r =? 8); [|constructor]. constructor; [cbn [key_at k_time]; lia|constructor].
  - eapply Forall_impl; [|exact (IH (past ++ [c]) G')]. intros k. cbn beta. rewrite time_snoc.
    destruct c; cbn [call_ok] in C; lia.
Qed.
Lemma drop_app {A} (p : A -> bool) a b : drop_until p (a ++ b) =
  match drop_until p a with [] => drop_until p b | _ => drop_until p a ++ b end.
Proof.
  induction a as [|x a IH]; cbn [app drop_until]; [reflexivity|]. destruct (p x); [reflexivity|exact IH].
Qed.
Lemma notes_later h g ch : history_ok g ->
  exists new, notes (h ++ g) ch = notes h ch ++ new /\ Forall (fun n => time h <= n_sample n) new.
Proof.
  intros G. unfold notes, recorded, keys. rewrite keys_from_app, drop_app. cbn [app].
  pose proof (late_keys g h G) as L.
  assert (S : forall l, Forall (fun k => time h <= k_time k) l ->
     Forall (fun n => time h <= n_sample n) (map (note_of (h ++ g)) (filter (fun k => k_chan k =? ch) l))).
  { intros l F. apply Forall_forall. intros n I. apply in_map_iff in I as (k & <- & I). apply filter_In in I as [I _].
    rewrite Forall_forall in F. exact (F k I). }
  destruct (drop_until starts (keys_from [] h)) as [|k0 l0] eqn:E.
  - eexists. split; [reflexivity|]. apply S. apply Forall_forall. intros k I. rewrite Forall_forall in L. apply L. eapply drop_until_in. exact I.
  - rewrite filter_app, map_app. eexists. split.
    + f_equal. apply map_ext_in. intros k Hk. apply filter_In in Hk as [Hk _]. apply note_of_later.
      apply (drop_until_in starts). unfold keys. rewrite E. exact Hk.
    + now apply S.
Qed.
Lemma last_event_app tpn l l' row : Forall (fun n => n_sample n / tpn <> row) l' -> last_event tpn (l ++ l') row = last_event tpn l row.
Proof.
  intros F. unfold last_event. rewrite filter_app. replace (filter _ l') with (@nil note); [now rewrite app_nil_r|].
  symmetry. induction F as [|n l' N F IH]; [reflexivity|]. cbn [filter]. destruct (Z.eqb_spec (n_sample n / tpn) row); [contradiction|exact IH].
Qed.
Lemma early_same h g s s' : history_ok h -> history_ok g -> run_calls h state_init = Ok s -> run_calls (h ++ g) state_init = Ok s' ->
  32000 <= time h -> early_ticks s' = early_ticks s.
Proof.
  intros H G E E' T. pose proof (refines_of_run _ _ H E) as R.
  pose proof (refines_of_run _ _ (proj2 (ok_app h g) (conj H G)) E') as R'.
  destruct (rf_beats _ _ R) as [N B]. destruct (rf_beats _ _ R') as [N' B'].
  destruct (sorted_set _ N) as [S P]. destruct (sorted_set _ N') as [S' P'].
  assert (SF : forall l, StronglySorted Z.lt l -> StronglySorted Z.lt (filter (fun t => t <? top_ticks) l)).
  { induction 1 as [|x l S0 IH F]; [constructor|]. cbn [filter]. destruct (x <? top_ticks); [|exact IH]. constructor; [exact IH|].
    apply Forall_forall. intros y I. apply filter_In in I as [I _]. rewrite Forall_forall in F. exact (F y I). }
  unfold early_ticks. apply sorted_ext; [apply SF, S'|apply SF, S|]. intros t. rewrite !filter_In. change top_ticks with 32000.
  unfold ticks. rewrite P, P', B, B'. unfold key_ons, keys. rewrite keys_from_app, filter_app. cbn [app].
  split; intros [(k & I & Q) L]; (split; [|exact L]); exists k; (split; [|exact Q]).
  - apply in_app_iff in I as [I|I]; [exact I|]. apply filter_In in I as [I _].
    pose proof (late_keys g h G) as F. rewrite Forall_forall in F. specialize (F k I). lia.
  - apply in_app_iff. now left.
Qed.

(** ** One channel *)
Lemma last_such_filter (f : call -> bool) p h r : (forall v, f (Apply r v) = true) -> last_such p (filter f h) r = last_such p h r.
Proof.
  intros F. induction h as [|c h IH] using rev_ind; [reflexivity|]. rewrite filter_app, last_such_snoc. cbn [filter].
  destruct (f c) eqn:Fc.
  - rewrite last_such_snoc, IH. reflexivity.
  - rewrite app_nil_r, IH. destruct c as [r' v|n]; [|reflexivity]. destruct (Z.eqb_spec r' r) as [->|]; [|reflexivity].
    rewrite F in Fc. discriminate.
Qed.
Section Channel.
  Variable ch : Z.
  Hypothesis Hc : 0 <= ch < 8.
  Let pick := filter (concerns ch).
  Let mine (k : key) : bool := k_chan k =? ch.

  Lemma pick_such p h r : r <> 8 -> r < 0x20 \/ r mod 8 = ch -> last_such p (pick h) r = last_such p h r.
  Proof. intros N C. apply last_such_filter. intros v. cbn [concerns]. destruct (Z.eqb_spec r 8); [contradiction|]. lia. Qed.
  Lemma pick_reg h r : r <> 8 -> r < 0x20 \/ r mod 8 = ch -> reg (pick h) r = reg h r.
  Proof. intros N C. unfold reg, last_write. now rewrite pick_such. Qed.
  Lemma pick_time h : time (pick h) = time h.
  Proof.
    unfold pick. induction h as [|c h IH] using rev_ind; [reflexivity|]. rewrite filter_app, time_app, time_snoc, IH. cbn [filter].
    destruct (concerns ch c) eqn:C; [destruct c; cbn; lia|]. destruct c; [cbn; lia|discriminate].
  Qed.
  Lemma pick_key h v : bits v 2 0 = ch -> key_at (pick h) v = key_at h v.
  Proof.
    intros V. unfold key_at. rewrite V, pick_time. f_equal.
    - f_equal.
      + unfold base_of, depth. rewrite !pick_reg, !pick_such by lia. reflexivity.
      + unfold chan_of. f_equal.
        * apply map_ext_in. intros o O. unfold op_of. cbn [In] in O. rewrite !pick_reg by lia. reflexivity.
        * now rewrite pick_reg by lia.
        * now rewrite pick_reg by lia.
        * now rewrite pick_reg by lia.
        * now rewrite pick_reg by lia.
        * destruct (ch =? 7); [now rewrite pick_reg by lia|reflexivity].
        * destruct (ch =? 7); [now rewrite pick_reg by lia|reflexivity].
    - unfold pitch_of. now rewrite !pick_reg by lia.
  Qed.
  Lemma pick_keys h : filter mine (keys (pick h)) = filter mine (keys h).
  Proof.
    unfold pick at 1. induction h as [|c h IH] using rev_ind; [reflexivity|]. rewrite filter_app, keys_snoc, !filter_app, <- IH. cbn [filter].
    destruct (concerns ch c) eqn:C.
    - rewrite keys_snoc, filter_app. f_equal. destruct c as [r v|]; [|reflexivity]. destruct (Z.eqb_spec r 8) as [->|]; [|reflexivity].
      change (concerns ch (Apply 8 v)) with (bits v 2 0 =? ch) in C. apply Z.eqb_eq in C. change (8 =? 8) with true. cbn iota. fold (pick h). rewrite (pick_key h v C). reflexivity.
    - rewrite app_nil_r. destruct c as [r v|]; [|now rewrite app_nil_r]. destruct (Z.eqb_spec r 8) as [->|]; [|now rewrite app_nil_r].
      change (concerns ch (Apply 8 v)) with (bits v 2 0 =? ch) in C. change (8 =? 8) with true. cbn iota. cbn [filter].
      change (mine (key_at h v)) with (bits v 2 0 =? ch). rewrite C. now rewrite app_nil_r.
  Qed.
End Channel.

Lemma drop_ext {A} (p q : A -> bool) l : (forall x, In x l -> p x = q x) -> drop_until p l = drop_until q l.
Proof.
  induction l as [|x l IH]; intros E; [reflexivity|]. cbn [drop_until]. rewrite <- (E x) by now left.
  destruct (p x); [reflexivity|]. apply IH. intros y I. apply E. now right.
Qed.
Lemma drop_map {A B} (f : A -> B) (p : B -> bool) l : drop_until p (map f l) = map f (drop_until (fun x => p (f x)) l).
Proof. induction l as [|x l IH]; [reflexivity|]. cbn [map drop_until]. destruct (p (f x)); [reflexivity|exact IH]. Qed.
Lemma drop_filter (m : key -> bool) l : StronglySorted (fun a b => k_time a <= k_time b) l -> Forall (fun k => 0 <= k_time k) l ->
  drop_until k_on (filter m (drop_until starts l)) = drop_until starts (filter m l).
Proof.
  induction 1 as [|x l S IH F]; intros N; [reflexivity|]. inversion N as [|? ? N0 N']; subst. cbn [drop_until].
  destruct (starts x) eqn:Sx.
  - apply drop_ext. intros y I. apply filter_In in I as [I _]. unfold starts in *.
    assert (k_time x <= k_time y) by (destruct I as [<-|I]; [lia|rewrite Forall_forall in F; exact (F y I)]).
    apply andb_true_iff in Sx as [_ Sx]. replace (k_time y =? 0) with false by lia. now rewrite andb_true_r.
  - rewrite IH by assumption. cbn [filter]. destruct (m x); [|reflexivity]. cbn [drop_until]. now rewrite Sx.
Qed.
Lemma off_note h k : In k (keys h) -> negb (is_off (note_of h k)) = k_on k.
Proof. intros I. pose proof (note_on h k I) as N. unfold is_off. destruct (k_on k); lia. Qed.
(** The events of a channel from its first recorded key-on. *)
Lemma from_on h ch : history_ok h ->
  from_first_on (notes h ch) = map (note_of h) (drop_until starts (filter (fun k => k_chan k =? ch) (keys h))).
Proof.
  intros H. unfold from_first_on, notes. rewrite drop_map. destruct (keys_sorted h H) as [S F].
  rewrite <- drop_filter; [|exact S|eapply Forall_impl; [|exact F]; cbn beta; intros; lia].
  f_equal. apply drop_ext. intros k I. apply off_note. apply filter_In in I as [I _]. now apply recorded_in.
Qed.
Lemma sound_of h s k : refines h s -> In k (keys h) ->
  sound (s_configs s) (n_config_id (note_of h k)) =
  if k_on k then Some (st_base (k_settings k), st_chan (k_settings k), st_ops (k_settings k)) else None.
Proof.
  intros R I. pose proof (note_on h k I) as N. unfold sound. destruct (k_on k) eqn:K.
  - rewrite (note_config h s k R I K). destruct (Z.ltb_spec (n_config_id (note_of h k)) 0); [lia|reflexivity].
  - destruct (Z.ltb_spec (n_config_id (note_of h k)) 0); [reflexivity|]. lia.
Qed.
Lemma same_note h h' s s' k : refines h s -> refines h' s' -> In k (keys h) -> In k (keys h') ->
  same_event (s_configs s) (s_configs s') (note_of h k) (note_of h' k).
Proof.
  intros R R' I I'. constructor.
  - pose proof (off_note h k I). pose proof (off_note h' k I'). destruct (is_off _), (is_off _), (k_on k); try reflexivity; discriminate.
  - now rewrite !sound_of.
  - reflexivity.
  - reflexivity.
Qed.

(** ** Pitches *)
Definition key_like (k k' : key) : Prop :=
  k_time k = k_time k' /\ k_chan k = k_chan k' /\ k_settings k = k_settings k'
  /\ nc_right (k_pitch k) = nc_right (k_pitch k') /\ nc_left (k_pitch k) = nc_left (k_pitch k').
Lemma Forall2_snoc_inv {A B} (R : A -> B -> Prop) l x l' : Forall2 R (l ++ [x]) l' ->
  exists m y, l' = m ++ [y] /\ Forall2 R l m /\ R x y.
Proof.
  intros F. apply Forall2_app_inv_l in F as (m & n & F & G & ->). inversion G as [|? y ? ? Rxy N]; subst. inversion N; subst. eauto.
Qed.
Lemma repitched_such p h h' r : Forall2 repitched h h' -> ~ 0x28 <= r < 0x38 -> last_such p h' r = last_such p h r.
Proof.
  intros F N. revert h' F. induction h as [|c h IH] using rev_ind; intros h' F; [inversion F; reflexivity|].
  apply Forall2_snoc_inv in F as (m & y & -> & F & Q). rewrite !last_such_snoc, (IH m F).
  destruct Q as [<-|(r' & v & v' & -> & -> & C)]; [reflexivity|]. destruct (Z.eqb_spec r' r); [lia|reflexivity].
Qed.
Lemma repitched_reg h h' r : Forall2 repitched h h' -> ~ 0x28 <= r < 0x38 -> reg h' r = reg h r.
Proof. intros F N. unfold reg, last_write. now rewrite (repitched_such _ h). Qed.
Lemma repitched_time h h' : Forall2 repitched h h' -> time h' = time h.
Proof.
  unfold time. induction 1 as [|c c' h h' Q F IH]; [reflexivity|]. cbn [fold_right]. rewrite IH.
  destruct Q as [<-|(r' & v & v' & -> & -> & C)]; reflexivity.
Qed.
Lemma bits_low v : 0 <= bits v 2 0 < 8.
Proof. unfold bits. rewrite Z.pow_0_r, Z.div_1_r. change (2 ^ (2 - 0 + 1)) with 8. lia. Qed.
Lemma repitched_key h h' v : Forall2 repitched h h' -> key_like (key_at h v) (key_at h' v).
Proof.
  intros F. pose proof (bits_low v) as B. unfold key_like, key_at. cbn [k_time k_chan k_settings k_pitch].
  rewrite (repitched_time _ _ F). split; [reflexivity|]. split; [reflexivity|]. split; [|split].
  - f_equal.
    + unfold base_of, depth. rewrite !(repitched_reg h h'), !(repitched_such _ h h') by (assumption || lia). reflexivity.
    + unfold chan_of. f_equal.
      * apply map_ext_in. intros o O. unfold op_of. cbn [In] in O. rewrite !(repitched_reg h h') by (assumption || lia). reflexivity.
      * now rewrite (repitched_reg h h') by (assumption || lia).
      * now rewrite (repitched_reg h h') by (assumption || lia).
      * now rewrite (repitched_reg h h') by (assumption || lia).
      * now rewrite (repitched_reg h h') by (assumption || lia).
      * now rewrite (repitched_reg h h') by (assumption || lia).
      * now rewrite (repitched_reg h h') by (assumption || lia).
  - unfold pitch_of. cbn [nc_right]. now rewrite (repitched_reg h h') by (assumption || lia).
  - unfold pitch_of. cbn [nc_left]. now rewrite (repitched_reg h h') by (assumption || lia).
Qed.
Lemma repitched_keys h h' : Forall2 repitched h h' -> Forall2 key_like (keys h) (keys h').
Proof.
  revert h'. induction h as [|c h IH] using rev_ind; intros h' F; [inversion F; constructor|].
  apply Forall2_snoc_inv in F as (m & y & -> & F & Q). rewrite !keys_snoc. apply Forall2_app; [now apply IH|].
  destruct Q as [<-|(r' & v & v' & -> & -> & C)].
  - destruct c as [r v|n]; [|constructor]. destruct (r =? 8); [|constructor]. constructor; [now apply repitched_key|constructor].
  - destruct (Z.eqb_spec r' 8); [lia|constructor].
Qed.
(** Lists of keys related by more than [key_like]. *)
Section Alike.
  Variable Rk : key -> key -> Prop.
  Hypothesis like : forall k k', Rk k k' -> key_like k k'.
  Variables h h' : history.
  Hypothesis FK : Forall2 Rk (keys h) (keys h').
  Lemma like_on k k' : Rk k k' -> k_on k = k_on k'.
  Proof. intros R. apply like in R as (_ & _ & S & _). unfold k_on. now rewrite S. Qed.
  Lemma filter2 (p : key -> bool) l l' : (forall k k', Rk k k' -> p k = p k') -> Forall2 Rk l l' -> Forall2 Rk (filter p l) (filter p l').
  Proof.
    intros P F. induction F as [|k k' l l' R F IH]; [constructor|]. cbn [filter]. rewrite <- (P k k' R). destruct (p k); [now constructor|exact IH].
  Qed.
  Lemma drop2 (p : key -> bool) l l' : (forall k k', Rk k k' -> p k = p k') -> Forall2 Rk l l' -> Forall2 Rk (drop_until p l) (drop_until p l').
  Proof.
    intros P F. induction F as [|k k' l l' R F IH]; [constructor|]. cbn [drop_until]. rewrite <- (P k k' R). destruct (p k); [now constructor|exact IH].
  Qed.
  Lemma alike_ons : Forall2 Rk (key_ons h) (key_ons h').
  Proof. apply filter2; [exact like_on|exact FK]. Qed.
  Lemma alike_distinct : distinct h' = distinct h.
  Proof.
    unfold distinct. f_equal. pose proof alike_ons as F. induction F as [|k k' l l' R F IH]; [reflexivity|]. cbn [map]. rewrite IH.
    apply like in R as (_ & _ & S & _). now rewrite S.
  Qed.
  Lemma alike_times t : (exists k, In k (key_ons h) /\ k_time k = t) <-> (exists k, In k (key_ons h') /\ k_time k = t).
  Proof.
    pose proof alike_ons as F. induction F as [|k k' l l' R F IH]; [split; intros (k & [] & _)|].
    apply like in R as (T & _). split; intros (x & [<-|I] & Q).
    - exists k'. split; [now left|congruence].
    - destruct (proj1 IH) as (y & I' & Q'); [eauto|]. exists y. split; [now right|exact Q'].
    - exists k. split; [now left|congruence].
    - destruct (proj2 IH) as (y & I' & Q'); [eauto|]. exists y. split; [now right|exact Q'].
  Qed.
  Lemma alike_notes ch : Forall2 (fun n n' => exists k k', Rk k k' /\ In k (keys h) /\ In k' (keys h') /\ n = note_of h k /\ n' = note_of h' k')
    (notes h ch) (notes h' ch).
  Proof.
    unfold notes.
    assert (F : Forall2 Rk (filter (fun k => k_chan k =? ch) (recorded h)) (filter (fun k => k_chan k =? ch) (recorded h'))).
    { apply filter2; [intros k k' R; apply like in R as (_ & C & _); now rewrite C|]. apply drop2; [|exact FK].
      intros k k' R. unfold starts. rewrite (like_on k k' R). apply like in R as (T & _). now rewrite T. }
    assert (I : forall k, In k (filter (fun k => k_chan k =? ch) (recorded h)) -> In k (keys h)).
    { intros k I. apply filter_In in I as [I _]. now apply recorded_in. }
    assert (I' : forall k, In k (filter (fun k => k_chan k =? ch) (recorded h')) -> In k (keys h')).
    { intros k J. apply filter_In in J as [J _]. now apply recorded_in. }
    revert I I'. induction F as [|k k' l l' R F IH]; intros I I'; [constructor|]. cbn [map]. constructor.
    - exists k, k'. split; [exact R|]. split; [apply I; now left|]. split; [apply I'; now left|]. split; reflexivity.
    - apply IH; intros x X; [apply I|apply I']; now right.
  Qed.
End Alike.
Lemma like_note h h' k k' : distinct h' = distinct h -> key_like k k' ->
  note_of h' k' = at_pitch (nc_octave (k_pitch k')) (nc_note (k_pitch k')) (nc_key_fraction (k_pitch k')) (note_of h k).
Proof.
  intros D (T & _ & S & R & L). unfold note_of, at_pitch. cbn [n_config_id n_right n_left n_sample].
  assert (O : k_on k' = k_on k) by (unfold k_on; now rewrite S). now rewrite D, O, S, T, R, L.
Qed.

(** ** Transposing *)
Lemma transposed_repitched k h : Forall2 repitched h (map (transposed k) h).
Proof.
  induction h as [|c h IH]; [constructor|]. cbn [map]. constructor; [|exact IH]. destruct c as [r v|n]; [|now left]. cbn [transposed].
  destruct (Z.leb_spec 0x28 r), (Z.ltb_spec r 0x30); cbn [andb]; try now left. right. exists r, v, (v + 16 * k). repeat split; lia.
Qed.
Lemma octave_bits v k : 0 <= v < 128 -> 0 <= bits v 6 4 + k < 8 ->
  0 <= v + 16 * k < 128 /\ bits (v + 16 * k) 6 4 = bits v 6 4 + k /\ bits (v + 16 * k) 3 0 = bits v 3 0.
Proof.
  unfold bits. change (2 ^ 4) with 16. change (2 ^ (6 - 4 + 1)) with 8. change (2 ^ 0) with 1. change (2 ^ (3 - 0 + 1)) with 16. lia.
Qed.
Lemma transposed_ok k h : history_ok h -> Forall (room k) h -> history_ok (map (transposed k) h).
Proof.
  intros H R. unfold history_ok in *. induction H as [|c h C H IH]; [constructor|]. inversion R as [|? ? R0 R']; subst. cbn [map]. constructor; [|now apply IH].
  destruct c as [r v|n]; [|exact C]. cbn [transposed]. destruct (Z.leb_spec 0x28 r), (Z.ltb_spec r 0x30); cbn [andb]; try exact C.
  cbn [call_ok room] in *. destruct C as [C1 C2]. unfold byte in *. destruct (R0 ltac:(lia)) as [V B].
  destruct (octave_bits v k ltac:(lia) B) as (X & _). lia.
Qed.
Lemma transposed_code k h r : 0x28 <= r < 0x30 -> last_write (map (transposed k) h) r = option_map (fun v => v + 16 * k) (last_write h r).
Proof.
  intros Hr. unfold last_write. induction h as [|c h IH] using rev_ind; [reflexivity|]. rewrite map_app. cbn [map]. rewrite !last_such_snoc, IH.
  destruct c as [r' v|n]; [|reflexivity]. cbn [transposed]. destruct (Z.leb_spec 0x28 r'), (Z.ltb_spec r' 0x30); cbn [andb];
    (destruct (Z.eqb_spec r' r); [try lia; reflexivity|reflexivity]).
Qed.
Lemma transposed_other k h r : ~ 0x28 <= r < 0x30 -> last_write (map (transposed k) h) r = last_write h r.
Proof.
  intros Hr. unfold last_write. induction h as [|c h IH] using rev_ind; [reflexivity|]. rewrite map_app. cbn [map]. rewrite !last_such_snoc, IH.
  destruct c as [r' v|n]; [|reflexivity]. cbn [transposed]. destruct (Z.leb_spec 0x28 r'), (Z.ltb_spec r' 0x30); cbn [andb]; try reflexivity.
  destruct (Z.eqb_spec r' r); [lia|reflexivity].
Qed.
Lemma last_write_in h r v : last_write h r = Some v -> In (Apply r v) h.
Proof.
  unfold last_write. induction h as [|c h IH] using rev_ind; [discriminate|]. rewrite last_such_snoc. intros E. apply in_app_iff.
  destruct c as [r' w|n]; [|left; now apply IH]. destruct (Z.eqb_spec r' r) as [->|]; cbn [andb] in E; [|left; now apply IH].
  injection E as ->. right. now left.
Qed.
Lemma in_last_write h r w : In (Apply r w) h -> exists v, last_write h r = Some v.
Proof.
  unfold last_write. induction h as [|c h IH] using rev_ind; [intros []|]. rewrite last_such_snoc. intros I. apply in_app_iff in I as [I|[->|[]]].
  - destruct c as [r' v|n]; [|now apply IH]. destruct (Z.eqb_spec r' r); cbn [andb]; [eauto|now apply IH].
  - rewrite Z.eqb_refl. cbn [andb]. eauto.
Qed.
Definition octave_like (d : Z) (k k' : key) : Prop :=
  key_like k k' /\ nc_note (k_pitch k') = nc_note (k_pitch k) /\ nc_key_fraction (k_pitch k') = nc_key_fraction (k_pitch k)
  /\ (k_on k = true -> nc_octave (k_pitch k') = nc_octave (k_pitch k) + d).
Lemma keyed_front h c : keyed (h ++ [c]) -> keyed h.
Proof. intros K b v a E. apply (K b v (a ++ [c])). rewrite E, <- app_assoc. reflexivity. Qed.
Lemma transposed_keys d h : history_ok h -> Forall (room d) h -> keyed h -> Forall2 (octave_like d) (keys h) (keys (map (transposed d) h)).
Proof.
  induction h as [|c h IH] using rev_ind; intros H R K; [constructor|].
  apply ok_app in H as [H C]. apply Forall_app in R as [R R0].
  rewrite map_app. cbn [map]. rewrite !keys_snoc. apply Forall2_app; [apply IH; [exact H|exact R|now apply keyed_front in K]|].
  destruct c as [r v|n]; [|constructor]. cbn [transposed].
  destruct (Z.eqb_spec r 8) as [->|N].
  2: { destruct (_ && _); destruct (Z.eqb_spec r 8); try contradiction; constructor. }
  change ((40 <=? 8) && (8 <? 48)) with false. cbn iota. change (8 =? 8) with true. cbn iota. constructor; [|constructor].
  pose proof (transposed_repitched d h) as TR. split; [now apply repitched_key|].
  pose proof (bits_low v) as B. set (ch := bits v 2 0) in *.
  unfold key_at. cbn [k_pitch k_on k_settings st_ops]. fold ch. unfold pitch_of. cbn [nc_note nc_key_fraction nc_octave].
  unfold reg. rewrite (transposed_other d h (48 + ch)), (transposed_code d h (40 + ch)) by lia.
  destruct (last_write h (40 + ch)) as [w|] eqn:LW; cbn [option_map].
  - apply last_write_in in LW. rewrite Forall_forall in R. pose proof (R _ LW) as RW. cbn [room] in RW. destruct (RW ltac:(lia)) as [W1 W2].
    unfold history_ok in H. rewrite Forall_forall in H. pose proof (H _ LW) as CW. cbn [call_ok] in CW. unfold byte in CW.
    destruct (octave_bits w d ltac:(lia) W2) as (_ & O1 & O2). auto.
  - split; [reflexivity|]. split; [reflexivity|]. unfold k_on. cbn [k_settings st_ops]. intros ON.
    assert (NZ : bits v 6 3 <> 0) by (intros Z0; rewrite Z0 in ON; discriminate).
    destruct (K h v [] eq_refl NZ) as (w & I). fold ch in I. apply in_last_write in I as (x & I). congruence.
Qed.

(** Cells of logs that correspond. *)
Lemma last_event2 (R : note -> note -> Prop) tpn l l' row : (forall n n', R n n' -> n_sample n = n_sample n') -> Forall2 R l l' ->
  match last_event tpn l row, last_event tpn l' row with
  | None, None => True | Some n, Some n' => R n n' /\ In n l /\ In n' l' | _, _ => False end.
Proof.
  intros P F. unfold last_event.
  set (f := fun n => n_sample n / tpn =? row).
  assert (G : Forall2 (fun n n' => R n n' /\ In n l /\ In n' l') (rev (filter f l)) (rev (filter f l'))).
  { assert (Q : forall m m', Forall2 R m m' -> incl m l -> incl m' l' ->
       Forall2 (fun n n' => R n n' /\ In n l /\ In n' l') (rev (filter f m)) (rev (filter f m'))).
    { clear F. induction 1 as [|n n' m m' Rn F IH]; intros I I'; [constructor|]. cbn [filter].
      assert (Ef : f n = f n') by (unfold f; now rewrite (P n n' Rn)). rewrite <- Ef.
      assert (IH' : Forall2 (fun n n' => R n n' /\ In n l /\ In n' l') (rev (filter f m)) (rev (filter f m'))).
      { apply IH; intros x X; [apply I|apply I']; now right. }
      destruct (f n); [|exact IH']. cbn [rev]. apply Forall2_app; [exact IH'|]. constructor; [|constructor].
      split; [exact Rn|]. split; [apply I; now left|apply I'; now left]. }
    apply Q; [exact F|apply incl_refl|apply incl_refl]. }
  destruct G as [|n n' m m' Rn _]; [exact I|exact Rn].
Qed.

(** ** Songs *)
Lemma name_not_off o c : 0 <= o < 8 -> 0 <= c < 16 -> pitch_name (shown_pitch o c) <> "Off"%string.
Proof.
  intros Ho Hc.
  assert (forallb (fun o => forallb (fun k => negb (String.eqb (pitch_name (shown_pitch o k)) "Off"))
            (map Z.of_nat (seq 0 16))) (map Z.of_nat (seq 0 8)) = true) as C by (vm_compute; reflexivity).
  apply (TextProofs.sweep 8) with (b := o) in C; [|lia]. cbv beta in C.
  apply (TextProofs.sweep 16) with (b := c) in C; [|lia]. cbv beta in C.
  apply negb_true_iff in C. now apply String.eqb_neq in C.
Qed.
Lemma octave_pitch o c k : shown_pitch (o + k) c = shown_pitch o c + 12 * k.
Proof. unfold shown_pitch, chip_pitch. destruct (c =? 3), (c =? 7), (c =? 11), (c =? 15); lia. Qed.
Lemma shown_range o c : 0 <= o < 8 -> 0 <= c < 16 -> 0 <= shown_pitch o c < 120.
Proof. unfold shown_pitch, chip_pitch. intros. destruct (c =? 3), (c =? 7), (c =? 11), (c =? 15); lia. Qed.
Lemma need2 (R : note -> note -> Prop) tpn : (forall n n', R n n' -> n_sample n = n_sample n') ->
  forall l l', Forall2 R l l' -> forall k, need tpn k l = need tpn k l'.
Proof.
  intros P. unfold need. induction 1 as [|n n' l l' Rn F IH]; intro k; [reflexivity|]. cbn [fold_left]. unfold row.
  rewrite (P n n' Rn). apply IH.
Qed.
Lemma flat2 (R : note -> note -> Prop) (f g : Z -> list note) cs : (forall c, In c cs -> Forall2 R (f c) (g c)) ->
  Forall2 R (flat_map f cs) (flat_map g cs).
Proof.
  induction cs as [|c cs IH]; intros H; [constructor|]. cbn [flat_map]. apply Forall2_app; [apply H; now left|].
  apply IH. intros d I. apply H. now right.
Qed.
Lemma need_app tpn l l' k : (need tpn k l <= need tpn k (l ++ l'))%nat.
Proof.
  unfold need. rewrite fold_left_app. generalize (fold_left (fun (k0 : nat) (n : note) => Nat.max k0 (Z.to_nat (row tpn n / 64 + 1))) l k).
  induction l' as [|n l' IH]; intro m; cbn [fold_left]; [lia|]. etransitivity; [|apply IH]. lia.
Qed.
Lemma need_incl tpn : forall l l' k, 0 < tpn -> Forall note_in_range l -> Forall note_in_range l' -> incl l l' -> (need tpn k l <= need tpn k l')%nat.
Proof.
  intros l l' k Ht F F' I. destruct (need_spec tpn Ht l k F) as (_ & _ & D). destruct (need_spec tpn Ht l' k F') as (A & B & _).
  destruct D as [->|(n & In_ & D)]; [exact A|]. specialize (B n (I n In_)). unfold row in *. lia.
Qed.
(** The events before the first key-on. *)
Lemma before_on l : exists pre, l = pre ++ from_first_on l /\ Forall (fun n => is_off n = true) pre.
Proof.
  unfold from_first_on. induction l as [|n l (pre & E & F)]; [now exists []|]. cbn [drop_until].
  destruct (is_off n) eqn:O; cbn [negb].
  - exists (n :: pre). cbn [app]. split; [now f_equal|now constructor].
  - now exists [].
Qed.
Lemma last_event_none tpn l r : last_event tpn l r = None <-> forall n, In n l -> n_sample n / tpn <> r.
Proof.
  unfold last_event. split.
  - intros E n I Q. assert (J : In n (rev (filter (fun n => n_sample n / tpn =? r) l))).
    { apply -> in_rev. apply filter_In. split; [exact I|lia]. }
    destruct (rev _); [destruct J|discriminate].
  - intros H. destruct (rev _) as [|n m] eqn:E; [reflexivity|]. exfalso.
    assert (J : In n (rev (filter (fun n => n_sample n / tpn =? r) l))) by (rewrite E; now left).
    apply in_rev, filter_In in J as [J Q]. apply (H n J). lia.
Qed.
Lemma last_event_pre tpn a b r : last_event tpn (a ++ b) r = match last_event tpn b r with Some n => Some n | None => last_event tpn a r end.
Proof.
  unfold last_event. rewrite filter_app, rev_app_distr. destruct (rev (filter _ b)); reflexivity.
Qed.
Lemma on_row tpn l r n : 0 < tpn -> StronglySorted (fun a b => n_sample a <= n_sample b) l ->
  In n l -> is_off n = false -> n_sample n / tpn <= r -> last_event tpn l r = last_event tpn (from_first_on l) r.
Proof.
  intros Ht S I O Q. destruct (before_on l) as (pre & E & F). remember (from_first_on l) as post eqn:Ep. clear Ep. subst l.
  rewrite last_event_pre. destruct (last_event tpn post r) eqn:P; [reflexivity|].
  apply last_event_none. intros m Im Qm.
  assert (Ip : In n post).
  { apply in_app_iff in I as [I|I]; [|exact I]. rewrite Forall_forall in F. rewrite (F n I) in O. discriminate. }
  assert (L : n_sample m <= n_sample n).
  { clear - S Im Ip. induction pre as [|x pre IH]; [destruct Im|]. cbn [app] in S. inversion S as [|? ? S' G]; subst.
    destruct Im as [->|Im]; [|now apply IH]. rewrite Forall_forall in G. apply G. apply in_app_iff. now right. }
  assert (n_sample m / tpn <= n_sample n / tpn) by (apply Z.div_le_mono; lia).
  rewrite last_event_none in P. apply (P n Ip). lia.
Qed.
Lemma Forall2_weaken {A B} (R Q : A -> B -> Prop) l l' : (forall x y, R x y -> Q x y) -> Forall2 R l l' -> Forall2 Q l l'.
Proof. intros W. induction 1; constructor; auto. Qed.

(** ** Songs are determined by the rows *)
Lemma look_column n n' : note_in_range n -> note_in_range n' -> (look_alike n n' <-> column_of n = column_of n').
Proof.
  intros (_ & O & C & _) (_ & O' & C' & _). unfold width in *. split.
  - intros (A & B & P). unfold column_of. f_equal.
    + unfold name_text. rewrite <- A. destruct (is_off n); [reflexivity|]. now destruct (B eq_refl) as [_ ->].
    + unfold instr_text. unfold is_off in *. destruct (Z.ltb_spec (n_config_id n) 0), (Z.ltb_spec (n_config_id n') 0); try discriminate.
      * replace (0 <=? n_config_id n) with false by lia. replace (0 <=? n_config_id n') with false by lia. reflexivity.
      * now destruct (B eq_refl) as [-> _].
    + unfold pan_shown, pan_text in *. destruct (n_right n), (n_left n), (n_right n'), (n_left n'); cbn in *; congruence.
  - intros E. destruct (column_displays n) as (D1 & D2 & D3). destruct (column_displays n') as (D1' & D2' & D3'). rewrite <- E in D1', D2', D3'.
    assert (A : is_off n = is_off n') by (destruct (xn_instrument (column_of n)); [destruct D2, D2'; congruence|congruence]).
    split; [exact A|]. split; [|congruence].
    intros F. rewrite <- A in *. rewrite F in *. destruct (xn_instrument (column_of n)) as [t|]; [|discriminate].
    destruct D2 as (_ & V & _), D2' as (_ & V' & _). split; [congruence|].
    assert (PN : pitch_name (shown_pitch (n_octave n) (n_note n)) = pitch_name (shown_pitch (n_octave n') (n_note n'))) by congruence.
    pose proof (shown_range _ _ O C) as R1. pose proof (shown_range _ _ O' C') as R2.
    revert PN R1 R2. generalize (shown_pitch (n_octave n) (n_note n)) as p, (shown_pitch (n_octave n') (n_note n')) as q. clear.
    intros p q N Hp Hq.
    assert (C : forallb (fun p => forallb (fun q => (p =? q) || negb (String.eqb (pitch_name p) (pitch_name q)))
      (map Z.of_nat (seq 0 120))) (map Z.of_nat (seq 0 120)) = true) by (vm_compute; reflexivity).
    apply (TextProofs.sweep 120) with (b := p) in C; [|lia]. cbv beta in C.
    apply (TextProofs.sweep 120) with (b := q) in C; [|lia]. cbv beta in C.
    apply orb_true_iff in C as [C|C]; [lia|]. apply negb_true_iff in C. apply String.eqb_neq in C. contradiction.
Qed.
Lemma column_line n n' : column_of n = column_of n' <-> line_of n = line_of n'.
Proof. unfold column_of, line_of. split; intro E; injection E as -> -> ->; reflexivity. Qed.
Lemma get_absent (d : ptrack) j : ~ In j (map fst d) -> dict_get Z.eqb d j = None.
Proof.
  induction d as [|[k v] d IH]; intros N; [reflexivity|]. cbn [dict_get map fst In] in *. destruct (Z.eqb_spec k j) as [->|]; [tauto|]. apply IH. tauto.
Qed.
Lemma dict_ext : forall d d' : ptrack, StronglySorted Z.lt (map fst d) -> StronglySorted Z.lt (map fst d') ->
  (forall j, dict_get Z.eqb d j = dict_get Z.eqb d' j) -> d = d'.
Proof.
  induction d as [|[k v] d IH]; intros d' S S' G.
  - destruct d' as [|[k' v'] d']; [reflexivity|]. specialize (G k'). cbn [dict_get] in G. rewrite Z.eqb_refl in G. discriminate.
  - destruct d' as [|[k' v'] d']; [specialize (G k); cbn [dict_get] in G; rewrite Z.eqb_refl in G; discriminate|].
    cbn [map fst] in S, S'. inversion S as [|? ? S0 F]; inversion S' as [|? ? S0' F']; subst. rewrite Forall_forall in F, F'.
    assert (K : k = k').
    { destruct (Z.lt_trichotomy k k') as [L|[E|L]]; [|exact E|]; exfalso.
      - specialize (G k). cbn [dict_get] in G. rewrite Z.eqb_refl in G. destruct (Z.eqb_spec k' k); [lia|].
        rewrite get_absent in G; [discriminate|]. intro I. specialize (F' k I). lia.
      - specialize (G k'). cbn [dict_get] in G. rewrite Z.eqb_refl in G. destruct (Z.eqb_spec k k'); [lia|].
        rewrite get_absent in G; [discriminate|]. intro I. specialize (F k' I). lia. }
    subst k'. assert (v = v') by (specialize (G k); cbn [dict_get] in G; rewrite Z.eqb_refl in G; congruence). subst v'. f_equal.
    apply IH; [exact S0|exact S0'|]. intro j. pose proof (G j) as Gj. cbn [dict_get] in Gj. destruct (Z.eqb_spec k j) as [->|]; [|exact Gj].
    rewrite !get_absent; [reflexivity| |]; intro I; [specialize (F' j I)|specialize (F j I)]; lia.
Qed.
Lemma pool_patterns s log tpn sg : song_facts s log tpn sg ->
  pp_patterns (sg_pool sg) = map (fun i => mkpattern 64 (map (fun c => fill tpn i [] (log c)) chans) [[]] [[]])
    (seq 0 (need tpn 0 (flat_map log chans))).
Proof.
  intros F. destruct (sf_pool _ _ _ _ F) as (_ & _ & A).
  rewrite <- (sf_count _ _ _ _ F). pose proof (sf_fill _ _ _ _ F) as T. set (ps := pp_patterns (sg_pool sg)) in *.
  match goal with |- _ = map ?g _ => set (ff := g) end.
  apply nth_ext with (d := empty_pattern) (d' := ff 0%nat).
  { now rewrite map_length, seq_length. }
  intros i Hi. rewrite (map_nth ff), seq_nth by exact Hi. cbn [Nat.add]. unfold ff.
  rewrite Forall_forall in A. destruct (A (nth i ps empty_pattern)) as (P & L & M & S); [now apply nth_In|].
  assert (E : p_tracks (nth i ps empty_pattern) = map (fun c => fill tpn i [] (log c)) chans).
  { apply nth_ext with (d := []) (d' := fill tpn i [] (log 0)); [now rewrite L|]. intros c Hc. rewrite L in Hc.
    change (nth c (p_tracks (nth i ps empty_pattern)) []) with (track ps i c).
    rewrite (map_nth (fun c => fill tpn i [] (log c)) chans 0).
    assert (V : nth c chans 0 = Z.of_nat c) by (do 8 (destruct c as [|c]; [reflexivity|]); lia).
    rewrite V, <- (T i (Z.of_nat c)) by lia. now rewrite Nat2Z.id. }
  destruct (nth i ps empty_pattern) as [pl pt pm psd]. cbn [p_lines_per_track p_tracks p_master p_send] in *. now subst.
Qed.
Lemma last_event_some tpn l n r : In n l -> n_sample n / tpn = r -> exists m, last_event tpn l r = Some m.
Proof.
  intros I Q. destruct (last_event tpn l r) as [m|] eqn:E; [eauto|]. rewrite last_event_none in E. destruct (E n I Q).
Qed.

Lemma rows_need (f f' : Z -> list note) tpn tpn' : 0 < tpn -> 0 < tpn' ->
  Forall note_in_range (flat_map f chans) -> Forall note_in_range (flat_map f' chans) ->
  (forall ch row, 0 <= ch < 8 -> 0 <= row -> last_event tpn (f ch) row <> None -> last_event tpn' (f' ch) row <> None) ->
  (need tpn 0 (flat_map f chans) <= need tpn' 0 (flat_map f' chans))%nat.
Proof.
  intros Ht Ht' F F' H. destruct (need_spec tpn Ht _ 0%nat F) as (_ & _ & D). destruct (need_spec tpn' Ht' _ 0%nat F') as (_ & B & _).
  destruct D as [->|(n & I & D)]; [lia|]. pose proof I as J. apply in_flat_map in J as (c & Hc & J). apply chans_in in Hc.
  assert (R : 0 <= n_sample n / tpn).
  { rewrite Forall_forall in F. apply Z.div_pos; [|exact Ht]. destruct (F n I) as (_ & _ & _ & _ & X). exact X. }
  destruct (last_event_some tpn (f c) n _ J eq_refl) as (m & E).
  assert (N : last_event tpn' (f' c) (n_sample n / tpn) <> None) by (apply H; [exact Hc|exact R|congruence]).
  destruct (last_event tpn' (f' c) (n_sample n / tpn)) as [m'|] eqn:E'; [|congruence].
  apply last_event_in in E' as [I' Q']. assert (I2 : In m' (flat_map f' chans)) by (apply in_flat_map; exists c; split; [now apply chans_in|exact I']).
  specialize (B m' I2). unfold row in *. lia.
Qed.
Lemma rows_song h h' s s' tpn tpn' sg sg' : history_ok h -> history_ok h' ->
  run_calls h state_init = Ok s -> run_calls h' state_init = Ok s' -> 0 < tpn -> 0 < tpn' ->
  build_song s tpn = Ok sg -> build_song s' tpn' = Ok sg' ->
  tempo tpn = tempo tpn' -> List.length (s_configs s) = List.length (s_configs s') -> same_rows h tpn h' tpn' -> sg = sg'.
Proof.
  intros H H' E E' Ht Ht' B B' T C SR.
  pose proof (run_logs h s H E) as L. pose proof (run_logs _ s' H' E') as L'.
  pose proof (song_facts_of s _ tpn sg L Ht B) as F. pose proof (song_facts_of s' _ tpn' sg' L' Ht' B') as F'.
  assert (A : forall (s0 : state) log, logs_ok s0 log -> Forall note_in_range (flat_map log chans)).
  { intros s0 log L0. apply Forall_forall. intros n I. apply in_flat_map in I as (c & Hc & I). apply chans_in in Hc.
    destruct (L0 c Hc) as (_ & R & _). rewrite Forall_forall in R. auto. }
  assert (N : need tpn 0 (flat_map (notes h) chans) = need tpn' 0 (flat_map (notes h') chans)).
  { apply Nat.le_antisymm; apply rows_need; try assumption; try exact (A _ _ L); try exact (A _ _ L');
      intros ch row Hc Hr X; specialize (SR ch row Hc Hr);
      destruct (last_event tpn (notes h ch) row), (last_event tpn' (notes h' ch) row); try discriminate; congruence || contradiction. }
  assert (FE : forall i c, In c chans -> fill tpn i [] (notes h c) = fill tpn' i [] (notes h' c)).
  { intros i c Hc. apply chans_in in Hc. destruct (L c Hc) as (_ & R & S & _). destruct (L' c Hc) as (_ & R' & S' & _).
    apply dict_ext; [now apply fill_sorted|now apply fill_sorted|]. intro j.
    destruct (Z_lt_le_dec j 0) as [Lj|Lj]; [|destruct (Z_lt_le_dec j 64) as [Gj|Gj]].
    1,3: rewrite !get_absent; [reflexivity| |]; intro I; apply fill_keys in I as (n & _ & _ & ->); lia.
    rewrite !fill_get by (assumption || lia). specialize (SR c (64 * Z.of_nat i + j) Hc ltac:(lia)).
    destruct (last_event tpn (notes h c) _) as [n|] eqn:X, (last_event tpn' (notes h' c) _) as [n'|] eqn:X'; try contradiction; [|reflexivity].
    cbn [option_map]. f_equal. apply column_line. apply last_event_in in X as [X _], X' as [X' _]. rewrite Forall_forall in R, R'.
    apply look_column; auto. }
  pose proof (pool_patterns _ _ _ _ F) as P. pose proof (pool_patterns _ _ _ _ F') as P'.
  assert (PP : pp_patterns (sg_pool sg) = pp_patterns (sg_pool sg')).
  { rewrite P, P', N. apply map_ext. intro i. f_equal. apply map_ext_in. intros c Hc. now apply FE. }
  pose proof (sf_globals _ _ _ _ F) as X1. pose proof (sf_globals _ _ _ _ F') as X1'.
  pose proof (sf_instruments _ _ _ _ F) as X2. pose proof (sf_instruments _ _ _ _ F') as X2'.
  pose proof (sf_tracks _ _ _ _ F) as X3. pose proof (sf_tracks _ _ _ _ F') as X3'.
  pose proof (sf_sequence _ _ _ _ F) as X4. pose proof (sf_sequence _ _ _ _ F') as X4'.
  destruct (sf_pool _ _ _ _ F) as (Y1 & Y2 & _). destruct (sf_pool _ _ _ _ F') as (Y1' & Y2' & _).
  rewrite <- PP in X4'. rewrite <- T in X1'. rewrite <- C in X2'.
  destruct sg as [g1 g2 g3 g4 g5], sg' as [g1' g2' g3' g4' g5'].
  cbn [sg_globals sg_instruments sg_tracks sg_pool sg_sequence] in *.
  assert (Q : g4 = g4').
  { clear - PP Y1 Y2 Y1' Y2'. destruct g4 as [a b c], g4' as [a' b' c']. cbn [pp_patterns pp_tracks pp_lines] in *. congruence. }
  congruence.
Qed.
