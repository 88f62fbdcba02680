(** Attributes and arbitrary integers. *)
From Coq Require Import Lia ZifyBool.
From Verif.Model Require Import Py Command Config Note State Attr Extract History.
From Verif.Spec Require Import VgmFormat Ym2151 Api.
From Verif.Proofs Require Import PyLemmas StateProofs KeyProofs ChipProofs.
Ltac Zify.zify_post_hook ::= Z.div_mod_to_equations.

Lemma config_attrs n c : Forall (fun e => config_getattr (S (S n)) (Some c) (fst e) = Ok (snd e))
  (instrument_attributes (mksettings (c_base c) (c_channel c) (c_operators c))).
Proof. repeat constructor. Qed.
Lemma state_attrs n s : forall k v, In (k, v)
  [ ("lfo", AInt (b_lfo (s_base s))); ("phs_md", AInt (b_phs_md (s_base s)));
    ("amp_md", AInt (b_amp_md (s_base s))); ("waveform", AWave (b_waveform (s_base s)));
    ("configs", AConfigs (s_configs s)); ("repr_json", AMethod "repr_json");
    ("apply", AMethod "apply"); ("key_presses", AMethod "key_presses");
    ("channel_config", AMethod "channel_config"); ("beat", AMethod "beat");
    ("ticks", AMethod "ticks"); ("ticks_per_note", AMethod "ticks_per_note") ]%string ->
  state_getattr (S (S n)) (Some s) k = Ok v.
Proof.
  intros k v H. apply (proj1 (Forall_forall (fun e => state_getattr (S (S n)) (Some s) (fst e) = Ok (snd e)) _)) in H; [exact H|].
  repeat constructor.
Qed.

Ltac no_name P N :=
  repeat match goal with
  | |- context [String.eqb ?x ?y] => destruct (String.eqb_spec x y);
      [subst x; exfalso; first [exact P | apply N; cbn [In map fst instrument_attributes state_attributes state_methods]; tauto]|]
  end.
Lemma config_no_attr n c x name : public name -> ~ In name (map fst (instrument_attributes x)) ->
  config_getattr (S (S n)) (Some c) name = Err AttributeError.
Proof.
  intros P N. cbn [config_getattr]. unfold config_own at 1.
  no_name P N. cbn [orb].
  replace (config_own (Some c) "_channel") with (Some (AChannel (c_channel c))) by reflexivity.
  cbn [bind value_getattr]. unfold chan_getattr. no_name P N. reflexivity.
Qed.
Lemma state_no_attr n s h name : public name -> ~ In name (map fst (state_attributes h)) ->
  state_getattr (S (S n)) (Some s) name = Err AttributeError.
Proof.
  intros P N. cbn [state_getattr]. unfold state_own at 1. cbn [existsb state_methods].
  no_name P N. cbn [orb].
  replace (state_own (Some s) "_current_base_config") with (Some (ABase (s_base s))) by reflexivity.
  cbn [bind value_getattr]. unfold base_getattr. no_name P N. reflexivity.
Qed.

Lemma config_none_private : forall n, config_getattr n None "_channel" = Err RecursionError
  /\ config_getattr n None "_base" = Err RecursionError /\ config_getattr n None "_operators" = Err RecursionError.
Proof.
  induction n as [|n (I1 & I2 & I3)]; [auto|]. cbn [config_getattr]. rewrite I1. cbn. auto.
Qed.
Lemma config_none n name : name <> "compare"%string -> name <> "repr_json"%string ->
  config_getattr n None name = Err RecursionError.
Proof.
  intros N1 N2. destruct n as [|n]; [reflexivity|]. cbn [config_getattr]. unfold config_own.
  destruct (String.eqb_spec name "compare"); [contradiction|]. destruct (String.eqb_spec name "repr_json"); [contradiction|].
  cbn [orb]. destruct (config_none_private n) as (-> & -> & ->). cbn [bind].
  repeat match goal with |- context [if ?b then _ else _] => destruct b end; reflexivity.
Qed.
Lemma state_none_base : forall n, state_getattr n None "_current_base_config" = Err RecursionError.
Proof. induction n as [|n I]; [reflexivity|]. cbn [state_getattr]. rewrite I. reflexivity. Qed.
Lemma state_none n name : ~ In name state_methods -> state_getattr n None name = Err RecursionError.
Proof.
  intro N. destruct n as [|n]; [reflexivity|]. cbn [state_getattr]. unfold state_own.
  assert (E : existsb (String.eqb name) state_methods = false).
  { apply not_true_iff_false. intro H. apply existsb_exists in H as (x & H & Q). apply String.eqb_eq in Q. congruence. }
  rewrite E, state_none_base. reflexivity.
Qed.

(** *** Arbitrary integers *)
Lemma land_wrap r m : Z.land 255 m = m -> Z.land (r mod 256) m = Z.land r m.
Proof.
  intro H. change 256 with (2 ^ 8). rewrite <- (land_mask' r 8 255) by (lia || reflexivity). now rewrite <- Z.land_assoc, H.
Qed.
Lemma shift_wrap r k m : Z.land (Z.shiftr 255 k) m = m -> Z.land (Z.shiftr (r mod 256) k) m = Z.land (Z.shiftr r k) m.
Proof.
  intro H. change 256 with (2 ^ 8). rewrite <- (land_mask' r 8 255) by (lia || reflexivity).
  now rewrite Z.shiftr_land, <- Z.land_assoc, H.
Qed.

Lemma value_wrap r v s : r <> 24 -> r <> 25 -> apply r (v mod 256) s = apply r v s.
Proof.
  intros N1 N2. unfold apply, key_event.
  rewrite !(land_wrap v) by reflexivity.
  rewrite !(shift_wrap v 3 15), !(shift_wrap v 3 7), !(shift_wrap v 4 7), !(shift_wrap v 2 63), !(shift_wrap v 6 3), !(shift_wrap v 4 15)
    by (lia || reflexivity).
  replace (r =? 24) with false by lia. replace (r =? 25) with false by lia. reflexivity.
Qed.
Lemma reg_wrap r v s : single (r mod 256) = false -> apply (r mod 256) v s = apply r v s.
Proof.
  intros N. unfold single in N. cbn [existsb] in N. unfold apply.
  rewrite !(land_wrap r) by reflexivity. rewrite !(shift_wrap r 3 3) by (lia || reflexivity).
  assert (F : forall k, 0 <= k < 256 -> (r mod 256 =? k) = false -> (r =? k) = false) by (intros; lia).
  assert (E8 : (r mod 256 =? 8) = false) by lia. assert (E15 : (r mod 256 =? 15) = false) by lia.
  assert (E24 : (r mod 256 =? 24) = false) by lia. assert (E25 : (r mod 256 =? 25) = false) by lia.
  assert (E27 : (r mod 256 =? 27) = false) by lia.
  rewrite E8, E15, E24, E25, E27. rewrite (F 8), (F 15), (F 24), (F 25), (F 27) by (assumption || lia). reflexivity.
Qed.
Lemma reg_out r v s : single (r mod 256) = true -> r <> r mod 256 -> apply r v s = Ok s.
Proof.
  intros N M. unfold single in N. cbn [existsb] in N. unfold apply.
  assert (F : forall k, r mod 256 = k -> Z.land r 248 = Z.land k 248 /\ Z.land r 224 = Z.land k 224).
  { intros k E. rewrite <- (land_wrap r 248), <- (land_wrap r 224), E by reflexivity. auto. }
  replace (r =? 8) with false by lia. replace (r =? 15) with false by lia. replace (r =? 24) with false by lia.
  replace (r =? 25) with false by lia. replace (r =? 27) with false by lia.
  assert (C : r mod 256 = 8 \/ r mod 256 = 15 \/ r mod 256 = 24 \/ r mod 256 = 25 \/ r mod 256 = 27) by lia.
  destruct C as [C|[C|[C|[C|C]]]]; destruct (F _ C) as [-> ->]; reflexivity.
Qed.
Lemma as_bytes_call c s : do_call s c = run_calls (as_bytes c) s.
Proof.
  destruct c as [r v|n]; cbn [as_bytes].
  - destruct (single (r mod 256)) eqn:S.
    + destruct (Z.eqb_spec r (r mod 256)) as [E|E].
      * unfold run_calls. cbn [foldM do_call].
        destruct ((r =? 24) || (r =? 25)) eqn:R.
        -- destruct (apply r v s); reflexivity.
        -- rewrite value_wrap by lia. destruct (apply r v s); reflexivity.
      * cbn. now apply reg_out.
    + unfold run_calls. cbn [foldM do_call]. rewrite value_wrap.
      2-3: intro H; rewrite H in S; discriminate.
      rewrite reg_wrap by assumption. destruct (apply r v s); reflexivity.
  - unfold run_calls. cbn [foldM do_call]. reflexivity.
Qed.
Lemma as_bytes_run : forall h s, run_calls h s = run_calls (flat_map as_bytes h) s.
Proof.
  induction h as [|c h IH]; intro s; [reflexivity|]. cbn [flat_map]. rewrite run_app.
  rewrite <- (as_bytes_call c s). unfold run_calls in *. cbn [foldM]. destruct (do_call s c) as [s'|e]; [|reflexivity]. cbn [bind]. apply IH.
Qed.

(** Shape of a state: nothing can be out of range. *)
Record shape (s : state) : Prop := mkshape {
  sh_k : length (s_key_presses s) = 8%nat; sh_n : length (s_notes s) = 8%nat;
  sh_c : length (s_channels s) = 8%nat; sh_o : Forall (fun c => length (ch_operators c) = 4%nat) (s_channels s) }.
Lemma get_ok {A} (l : list A) i n : length l = n -> 0 <= i < Z.of_nat n ->
  exists x, py_get l i = Ok x /\ In x l /\ forall y, py_set l i y = Ok (set_nth (Z.to_nat i) y l).
Proof.
  intros L H. unfold py_get, py_set, py_slot, len. rewrite L.
  replace ((0 <=? i) && (i <? Z.of_nat n)) with true by lia.
  destruct (nth_error l (Z.to_nat i)) as [x|] eqn:E.
  - exists x. split; [reflexivity|]. split; [now apply nth_error_In in E|reflexivity].
  - apply nth_error_None in E. lia.
Qed.
Lemma Forall_set_nth {A} (P : A -> Prop) x : P x -> forall l k, Forall P l -> Forall P (set_nth k x l).
Proof. intros X. induction l as [|y l IH]; intros [|k] H; cbn; auto; inversion H; constructor; auto. Qed.
Lemma land_range v n m : 0 <= n -> m = 2 ^ n - 1 -> 0 <= Z.land v m < 2 ^ n.
Proof. intros N ->. rewrite land_mask by assumption. apply Z.mod_pos_bound. lia. Qed.

Lemma upd_channel_shape s c g : shape s -> 0 <= c < 8 -> (forall x, length (ch_operators (g x)) = length (ch_operators x)) ->
  exists s', upd_channel s c g = Ok s' /\ shape s'.
Proof.
  intros [K N C O] H G. unfold upd_channel. destruct (get_ok _ _ _ C H) as (x & E & I & S). rewrite E. cbn [bind]. rewrite S. cbn [bind].
  eexists. split; [reflexivity|]. constructor; cbn; auto; [now rewrite set_nth_length|].
  apply Forall_set_nth; [|assumption]. rewrite G. exact (proj1 (Forall_forall _ _) O x I).
Qed.
Lemma upd_note_shape s c g : shape s -> 0 <= c < 8 -> exists s', upd_note s c g = Ok s' /\ shape s'.
Proof.
  intros [K N C O] H. unfold upd_note. destruct (get_ok _ _ _ N H) as (x & E & I & S). rewrite E. cbn [bind]. rewrite S. cbn [bind].
  eexists. split; [reflexivity|]. constructor; cbn; auto. now rewrite set_nth_length.
Qed.
Lemma upd_operator_shape s c o g : shape s -> 0 <= c < 8 -> 0 <= o < 4 -> exists s', upd_operator s c o g = Ok s' /\ shape s'.
Proof.
  intros [K N C O] H Ho. unfold upd_operator. destruct (get_ok _ _ _ C H) as (x & E & I & S). rewrite E. cbn [bind].
  pose proof (proj1 (Forall_forall _ _) O x I) as L. cbn in L.
  destruct (get_ok _ _ _ L Ho) as (y & E' & _ & S'). rewrite E'. cbn [bind]. rewrite S'. cbn [bind]. rewrite S. cbn [bind].
  eexists. split; [reflexivity|]. constructor; cbn; auto; [now rewrite set_nth_length|].
  apply Forall_set_nth; [|assumption]. cbn. now rewrite set_nth_length.
Qed.
Lemma waveform_total v : exists w, waveform_of (Z.land v 3) = Some w.
Proof.
  pose proof (land_range v 2 3 ltac:(lia) eq_refl) as R. change (2 ^ 2) with 4 in R. unfold waveform_of.
  destruct (Z.eqb_spec (Z.land v 3) 0); [eauto|]. destruct (Z.eqb_spec (Z.land v 3) 1); [eauto|].
  destruct (Z.eqb_spec (Z.land v 3) 2); [eauto|]. destruct (Z.eqb_spec (Z.land v 3) 3); [eauto|]. lia.
Qed.
Lemma key_shape v s : shape s -> exists s', key_event v s = Ok s' /\ shape s'.
Proof.
  intros [K N C O]. unfold key_event.
  pose proof (land_range v 3 7 ltac:(lia) eq_refl) as R. change (2 ^ 3) with 8 in R.
  destruct (get_ok _ _ _ C R) as (x & E & I & S). rewrite E. cbn [bind].
  set (op := Z.land (Z.shiftr v 3) 15). set (id := find_config _ _ _ _ _).
  assert (Z1 : forall s1 i, s_key_presses s1 = s_key_presses s -> s_notes s1 = s_notes s -> s_channels s1 = s_channels s ->
    exists s', (let s1 := if op_true op && negb (first_beat_true (s_first_beat s1)) then set_first_beat s1 (Some (s_samples s1)) else s1 in
      let! s1 := if first_beat_true (s_first_beat s1) then
          let! nc := py_get (s_notes s1) (Z.land v 7) in
          let! kp := py_get (s_key_presses s1) (Z.land v 7) in
          let! kps := py_set (s_key_presses s1) (Z.land v 7) (kp ++ [note_new i nc (s_samples s1)]) in
          Ok (set_key_presses s1 kps)
        else Ok s1 in
      Ok (if 0 <=? i then set_note_beats s1 (set_add (s_samples s1) (s_note_beats s1)) else s1)) = Ok s' /\ shape s').
  { intros s1 i H1 H2 H3.
    set (s2 := if op_true op && negb (first_beat_true (s_first_beat s1)) then set_first_beat s1 (Some (s_samples s1)) else s1).
    assert (J : s_key_presses s2 = s_key_presses s /\ s_notes s2 = s_notes s /\ s_channels s2 = s_channels s)
      by (unfold s2; destruct (_ && _); cbn; auto).
    clearbody s2. destruct J as (J1 & J2 & J3). cbv zeta.
    destruct (first_beat_true (s_first_beat s2)).
    - rewrite J1, J2. destruct (get_ok _ _ _ N R) as (nc & -> & _ & _). cbn [bind].
      destruct (get_ok _ _ _ K R) as (kp & -> & _ & Sk). cbn [bind]. rewrite Sk. cbn [bind].
      eexists. split; [reflexivity|].
      assert (shape (set_key_presses s2 (set_nth (Z.to_nat (Z.land v 7)) (kp ++ [note_new i nc (s_samples s2)]) (s_key_presses s)))).
      { constructor; cbn; [now rewrite set_nth_length| | |]; congruence. }
      destruct (0 <=? i); [|assumption]. destruct H. constructor; assumption.
    - cbn [bind]. eexists. split; [reflexivity|]. assert (shape s2) by (constructor; congruence).
      destruct (0 <=? i); [|assumption]. destruct H. constructor; assumption. }
  destruct (len (s_configs s) =? id).
  - destruct (op_true op) eqn:T.
    + specialize (Z1 (set_configs s (s_configs s ++ [mkconfig id (s_base s) x op])) id eq_refl eq_refl eq_refl). exact Z1.
    + specialize (Z1 s (-1) eq_refl eq_refl eq_refl). exact Z1.
  - exact (Z1 s id eq_refl eq_refl eq_refl).
Qed.
Lemma apply_shape r v s : shape s -> exists s', apply r v s = Ok s' /\ shape s'.
Proof.
  intro H. unfold apply.
  pose proof (land_range r 3 7 ltac:(lia) eq_refl) as R. change (2 ^ 3) with 8 in R.
  pose proof (land_range (Z.shiftr r 3) 2 3 ltac:(lia) eq_refl) as R'. change (2 ^ 2) with 4 in R'.
  assert (B : forall b, shape (set_base s b)) by (intro b; destruct H; constructor; assumption).
  destruct (r =? 8); [now apply key_shape|].
  destruct (r =? 15); [apply upd_channel_shape; auto; lia|].
  destruct (r =? 24); [eauto|].
  destruct (r =? 25); [destruct (0 <? Z.land v 128); eauto|].
  destruct (r =? 27); [destruct (waveform_total v) as [w ->]; eauto|].
  destruct (Z.land r 248 =? 32).
  { destruct (upd_note_shape s _ (fun n => mknc (0 <? Z.land v 128) (0 <? Z.land v 64) (nc_octave n) (nc_note n) (nc_key_fraction n)) H R)
      as (s1 & -> & H1). cbn [bind]. apply upd_channel_shape; auto. }
  destruct (Z.land r 248 =? 40); [now apply upd_note_shape|].
  destruct (Z.land r 248 =? 48); [now apply upd_note_shape|].
  destruct (Z.land r 248 =? 56); [apply upd_channel_shape; auto|].
  repeat match goal with |- context [if ?b then _ else _] => destruct b; [now apply upd_operator_shape|] end.
  eauto.
Qed.
Lemma run_shape : forall h s, shape s -> exists s', run_calls h s = Ok s' /\ shape s'.
Proof.
  induction h as [|c h IH]; intros s H; [cbn; eauto|]. unfold run_calls. cbn [foldM].
  assert (D : exists s1, do_call s c = Ok s1 /\ shape s1).
  { destruct c as [r v|n]; cbn [do_call]; [now apply apply_shape|]. cbn. eexists. split; [reflexivity|]. destruct H. constructor; assumption. }
  destruct D as (s1 & -> & H1). cbn [bind]. exact (IH s1 H1).
Qed.
Lemma shape_init : shape state_init.
Proof. constructor; try reflexivity. repeat constructor. Qed.
