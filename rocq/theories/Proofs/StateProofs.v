(** Refinement of Model/State.v to Spec/Ym2151.v. *)
From Coq Require Import Lia ZifyBool.
From Verif.Model Require Import Py Config Note State Extract History.
From Verif.Spec Require Import VgmFormat Ym2151.
From Verif.Proofs Require Import PyLemmas.
Ltac Zify.zify_post_hook ::= Z.div_mod_to_equations.

(** ** History lemmas *)
Lemma last_such_snoc p h c r : last_such p (h ++ [c]) r =
  match c with
  | Apply r' v => if (r' =? r) && p v then Some v else last_such p h r
  | Beat _ => last_such p h r
  end.
Proof. unfold last_such. now rewrite fold_left_app. Qed.
Lemma reg_snoc h r' v r : reg (h ++ [Apply r' v]) r = if r' =? r then v else reg h r.
Proof.
  unfold reg, last_write. rewrite last_such_snoc, andb_true_r.
  destruct (r' =? r); reflexivity.
Qed.
Lemma reg_beat h n r : reg (h ++ [Beat n]) r = reg h r.
Proof. unfold reg, last_write. now rewrite last_such_snoc. Qed.
Lemma time_snoc h c : time (h ++ [c]) = time h + match c with Beat n => n | Apply _ _ => 0 end.
Proof.
  induction h as [|x h IH]; cbn [app time fold_right].
  - destruct c; lia.
  - fold (time (h ++ [c])). rewrite IH. fold (time h). destruct x, c; lia.
Qed.
Lemma keys_from_snoc : forall h past c, keys_from past (h ++ [c]) = keys_from past h ++
  match c with Apply r v => if r =? 8 then [key_at (past ++ h) v] else [] | Beat _ => [] end.
Proof.
  induction h as [|x h IH]; intros past c; cbn [app keys_from].
  - rewrite !app_nil_r. reflexivity.
  - rewrite IH, <- app_assoc, <- app_assoc. reflexivity.
Qed.
Lemma keys_snoc h c : keys (h ++ [c]) = keys h ++
  match c with Apply r v => if r =? 8 then [key_at h v] else [] | Beat _ => [] end.
Proof. apply keys_from_snoc. Qed.

(** ** Settings equality: the __eq__ methods decide equality of all fields. *)
Lemma waveform_eqb_eq a b : waveform_eqb a b = true <-> a = b.
Proof. destruct a, b; cbn; split; congruence. Qed.
Lemma base_eqb_eq a b : base_eqb a b = true <-> a = b.
Proof.
  unfold base_eqb. destruct a, b; cbn. rewrite !andb_true_iff, !Z.eqb_eq, waveform_eqb_eq.
  split; [intros (((-> & ->) & ->) & ->); reflexivity|]. intros E; injection E; auto.
Qed.
Lemma op_eqb_eq a b : op_eqb a b = true <-> a = b.
Proof.
  unfold op_eqb. destruct a, b; cbn. rewrite !andb_true_iff, !Z.eqb_eq, Bool.eqb_true_iff.
  split; [intros H; decompose [and] H; subst; reflexivity|].
  intros E; injection E; intros; subst; repeat split; reflexivity.
Qed.
Lemma list_eqb_eq {A} (eqb : A -> A -> bool) (H : forall a b, eqb a b = true <-> a = b) :
  forall a b, list_eqb eqb a b = true <-> a = b.
Proof.
  induction a as [|x a IH]; intros [|y b]; cbn; try (split; congruence).
  rewrite andb_true_iff, H, IH. split; [intros [-> ->]; reflexivity|].
  intros E; injection E; auto.
Qed.
Lemma ch_eqb_eq a b : ch_eqb a b = true <-> a = b.
Proof.
  unfold ch_eqb. destruct a, b; cbn.
  rewrite !andb_true_iff, !Z.eqb_eq, Bool.eqb_true_iff, (list_eqb_eq _ op_eqb_eq).
  split; [intros H; decompose [and] H; subst; reflexivity|].
  intros E; injection E; intros; subst; repeat split; reflexivity.
Qed.
Definition settings_of (c : config) : settings := mksettings (c_base c) (c_channel c) (c_operators c).
Lemma compare_eq c b ch o : config_compare c b ch o = true <-> settings_of c = mksettings b ch o.
Proof.
  unfold config_compare, settings_of. rewrite !andb_true_iff, base_eqb_eq, ch_eqb_eq, Z.eqb_eq.
  split; [intros [[-> ->] ->]; reflexivity|]. intros E; injection E; auto.
Qed.

Lemma find_config_index : forall l i n b ch o,
  find_config (numbered i l) b ch o n = n + index_of (mksettings b ch o) l.
Proof.
  induction l as [|x l IH]; intros i n b ch o; cbn [numbered find_config index_of]; [lia|].
  destruct (config_compare (mkconfig i (st_base x) (st_chan x) (st_ops x)) b ch o) eqn:E.
  - apply compare_eq in E.
    assert (Ex : mksettings b ch o = x) by (rewrite <- E; destruct x; reflexivity).
    rewrite Ex. destruct (settings_eq_dec x x); [lia|congruence].
  - destruct (settings_eq_dec (mksettings b ch o) x) as [<-|]; [|rewrite IH; lia].
    cbn in E. exfalso. rewrite <- not_true_iff_false in E. apply E. apply compare_eq. reflexivity.
Qed.

Lemma index_in x : forall l, In x l -> 0 <= index_of x l < len l.
Proof.
  unfold len. induction l as [|y l IH]; cbn [In index_of length]; [tauto|].
  intros H. destruct (settings_eq_dec x y); [lia|]. destruct H as [->|H]; [congruence|].
  specialize (IH H). lia.
Qed.
Lemma index_notin x : forall l, ~ In x l -> index_of x l = len l.
Proof.
  unfold len. induction l as [|y l IH]; cbn [In index_of length]; [reflexivity|].
  intros H. destruct (settings_eq_dec x y) as [->|]; [tauto|]. rewrite IH by tauto. lia.
Qed.
Lemma index_app_in x l l' : In x l -> index_of x (l ++ l') = index_of x l.
Proof.
  induction l as [|y l IH]; cbn [In app index_of]; [tauto|]. intros H.
  destruct (settings_eq_dec x y); [reflexivity|]. destruct H as [->|H]; [congruence|].
  now rewrite IH.
Qed.
Lemma index_app_new x l : ~ In x l -> index_of x (l ++ [x]) = len l.
Proof.
  unfold len. induction l as [|y l IH]; cbn [In app index_of length].
  - intros _. destruct (settings_eq_dec x x); [reflexivity|congruence].
  - intros H. destruct (settings_eq_dec x y) as [->|]; [tauto|]. rewrite IH by tauto. lia.
Qed.
Lemma index_nth x l : In x l -> nth_error l (Z.to_nat (index_of x l)) = Some x.
Proof.
  induction l as [|y l IH]; cbn [In index_of]; [tauto|]. intros H.
  destruct (settings_eq_dec x y) as [->|]; [reflexivity|]. destruct H as [->|H]; [congruence|].
  pose proof (index_in x l H). replace (Z.to_nat (1 + index_of x l)) with (S (Z.to_nat (index_of x l))) by lia.
  cbn. auto.
Qed.
Lemma numbered_app : forall l i l', numbered i (l ++ l') = numbered i l ++ numbered (i + len l) l'.
Proof.
  unfold len. induction l as [|x l IH]; intros i l'; cbn [app numbered length].
  - now rewrite Z.add_0_r.
  - rewrite IH. do 3 f_equal. lia.
Qed.
Lemma numbered_len : forall l i, length (numbered i l) = length l.
Proof. induction l; intros i; cbn; auto. Qed.
Lemma numbered_settings : forall l i, map settings_of (numbered i l) = l.
Proof. induction l as [|x l IH]; intros i; cbn; [reflexivity|]. rewrite IH. destruct x; reflexivity. Qed.
Lemma numbered_nth : forall l i k, nth_error (numbered i l) k =
  option_map (fun x => mkconfig (i + Z.of_nat k) (st_base x) (st_chan x) (st_ops x)) (nth_error l k).
Proof.
  induction l as [|x l IH]; intros i [|k]; cbn [numbered nth_error option_map]; try reflexivity.
  - now rewrite Z.add_0_r.
  - rewrite IH. destruct (nth_error l k); cbn [option_map]; [|reflexivity]. do 2 f_equal. lia.
Qed.

(** ** Distinct settings *)
Lemma distinct_snoc h c : distinct (h ++ [c]) =
  match c with
  | Apply r v =>
      if (r =? 8) && k_on (key_at h v) then add_new (distinct h) (k_settings (key_at h v))
      else distinct h
  | Beat _ => distinct h
  end.
Proof.
  unfold distinct, key_ons. rewrite keys_snoc.
  destruct c as [r v|n]; [|now rewrite app_nil_r].
  destruct (r =? 8); cbn [andb]; [|now rewrite app_nil_r].
  rewrite filter_app. cbn [filter]. destruct (k_on (key_at h v)).
  - rewrite map_app, fold_left_app. reflexivity.
  - now rewrite app_nil_r.
Qed.

(** ** Masks *)
Lemma land_bits v hi m : 0 <= hi -> m = 2 ^ (hi + 1) - 1 -> Z.land v m = bits v hi 0.
Proof.
  intros H E. unfold bits. rewrite Z.pow_0_r, Z.div_1_r, Z.sub_0_r. apply land_mask'; lia.
Qed.
Lemma shiftr_bits v hi lo m : 0 <= lo <= hi -> m = 2 ^ (hi - lo + 1) - 1 ->
  Z.land (Z.shiftr v lo) m = bits v hi lo.
Proof. intros H E. unfold bits. apply shift_mask; lia. Qed.
Lemma land_is_bit v k m : 0 <= k -> m = 2 ^ k -> (0 <? Z.land v m) = bit v k.
Proof.
  intros H E. rewrite (land_bit' v k) by assumption. unfold bit, bits.
  replace (k - k + 1) with 1 by lia. reflexivity.
Qed.

(** ** Eight channels, four operators *)
Definition chans : list Z := [0; 1; 2; 3; 4; 5; 6; 7].
Lemma chans_in j : In j chans <-> 0 <= j < 8.
Proof. unfold chans. cbn [In]. lia. Qed.
Lemma get8 {A} (f : Z -> A) c : 0 <= c < 8 -> py_get (map f chans) c = Ok (f c).
Proof.
  intros H. assert (c = 0 \/ c = 1 \/ c = 2 \/ c = 3 \/ c = 4 \/ c = 5 \/ c = 6 \/ c = 7) as C by lia.
  repeat destruct C as [->|C]; subst; reflexivity.
Qed.
Lemma set8 {A} (f : Z -> A) c x : 0 <= c < 8 ->
  py_set (map f chans) c x = Ok (map (fun j => if j =? c then x else f j) chans).
Proof.
  intros H. assert (c = 0 \/ c = 1 \/ c = 2 \/ c = 3 \/ c = 4 \/ c = 5 \/ c = 6 \/ c = 7) as C by lia.
  repeat destruct C as [->|C]; subst; reflexivity.
Qed.
Lemma get4 {A} (f : Z -> A) c : 0 <= c < 4 -> py_get (map f [0; 1; 2; 3]) c = Ok (f c).
Proof.
  intros H. assert (c = 0 \/ c = 1 \/ c = 2 \/ c = 3) as C by lia.
  repeat destruct C as [->|C]; subst; reflexivity.
Qed.
Lemma set4 {A} (f : Z -> A) c x : 0 <= c < 4 ->
  py_set (map f [0; 1; 2; 3]) c x = Ok (map (fun j => if j =? c then x else f j) [0; 1; 2; 3]).
Proof.
  intros H. assert (c = 0 \/ c = 1 \/ c = 2 \/ c = 3) as C by lia.
  repeat destruct C as [->|C]; subst; reflexivity.
Qed.

(** ** The refinement relation *)
Definition is_nil {A} (l : list A) : bool := match l with [] => true | _ => false end.
Record refines (h : history) (s : state) : Prop := mkrefines {
  rf_channels : s_channels s = map (chan_of h) chans;
  rf_notes : s_notes s = map (pitch_of h) chans;
  rf_base : s_base s = base_of h;
  rf_configs : s_configs s = instruments h;
  rf_samples : s_samples s = time h;
  rf_presses : s_key_presses s = map (notes h) chans;
  rf_beats : NoDup (s_note_beats s)
    /\ forall t, In t (s_note_beats s) <-> exists k, In k (key_ons h) /\ k_time k = t;
  rf_first : first_beat_true (s_first_beat s) = negb (is_nil (recorded h)) }.

Lemma refines_init : refines [] state_init.
Proof.
  constructor; try reflexivity. split; [constructor|].
  intros t. cbn. split; [tauto|]. intros (k & H & _). contradiction.
Qed.

(** ** Non-key writes and waits: only registers and time change. *)
Definition is_key (c : call) : bool := match c with Apply r _ => r =? 8 | Beat _ => false end.
Lemma keys_frame h c : is_key c = false -> keys (h ++ [c]) = keys h.
Proof.
  intros H. rewrite keys_snoc. destruct c as [r v|n]; cbn in H; [rewrite H|]; apply app_nil_r.
Qed.
Lemma notes_frame h c : is_key c = false -> notes (h ++ [c]) = notes h.
Proof.
  intros H. unfold notes, recorded, note_of, distinct, key_ons. rewrite keys_frame by assumption.
  reflexivity.
Qed.
Lemma refines_frame h c s chs nts b smp :
  is_key c = false -> refines h s ->
  chs = map (chan_of (h ++ [c])) chans -> nts = map (pitch_of (h ++ [c])) chans ->
  b = base_of (h ++ [c]) -> smp = time (h ++ [c]) ->
  refines (h ++ [c]) (mkstate (s_key_presses s) chs nts b (s_configs s) smp
                        (s_note_beats s) (s_first_beat s)).
Proof.
  intros Hk [] -> -> -> ->. constructor; cbn; try reflexivity.
  - rewrite rf_configs0. unfold instruments, distinct, key_ons. now rewrite keys_frame.
  - rewrite rf_presses0. now rewrite notes_frame.
  - unfold key_ons in *. now rewrite keys_frame.
  - unfold recorded in *. now rewrite keys_frame.
Qed.

Lemma time_apply h r v : time (h ++ [Apply r v]) = time h.
Proof. rewrite time_snoc. lia. Qed.

(** Simplify register reads after a write, given bounds. *)
Ltac regs :=
  rewrite ?reg_snoc;
  repeat match goal with
         | |- context [if ?a =? ?b then _ else _] =>
             first [ replace (a =? b) with false by lia | replace (a =? b) with true by lia ]
         end.

Lemma base_frame h r v : r <> 0x18 -> r <> 0x19 -> r <> 0x1B ->
  base_of (h ++ [Apply r v]) = base_of h.
Proof.
  intros. unfold base_of, depth. rewrite !last_such_snoc.
  replace (r =? 25) with false by lia. cbn [andb]. regs. reflexivity.
Qed.
Lemma pitch_frame h r v ch : 0 <= ch < 8 -> ~ (0x20 <= r < 0x38 /\ r mod 8 = ch) ->
  pitch_of (h ++ [Apply r v]) ch = pitch_of h ch.
Proof. intros. unfold pitch_of. regs. reflexivity. Qed.
Lemma op_frame h r v ch o : 0 <= ch < 8 -> 0 <= o < 4 ->
  ~ (0x40 <= r < 256 /\ r mod 8 = ch /\ r / 8 mod 4 = o) ->
  op_of (h ++ [Apply r v]) ch o = op_of h ch o.
Proof. intros. unfold op_of. regs. reflexivity. Qed.
Lemma ops_frame h r v ch : 0 <= ch < 8 -> ~ (0x40 <= r < 256 /\ r mod 8 = ch) ->
  map (op_of (h ++ [Apply r v]) ch) [0; 1; 2; 3] = map (op_of h ch) [0; 1; 2; 3].
Proof. intros. apply map_ext_in. intros o Ho. apply op_frame; cbn [In] in Ho; lia. Qed.
Lemma chan_frame h r v ch : 0 <= ch < 8 ->
  ~ (0x40 <= r < 256 /\ r mod 8 = ch) -> ~ (0x20 <= r < 0x28 /\ r mod 8 = ch) ->
  ~ (0x38 <= r < 0x40 /\ r mod 8 = ch) -> ~ (r = 0x0F /\ ch = 7) ->
  chan_of (h ++ [Apply r v]) ch = chan_of h ch.
Proof.
  intros. unfold chan_of. rewrite ops_frame by assumption.
  destruct (Z.eqb_spec ch 7).
  - regs. reflexivity.
  - regs. reflexivity.
Qed.

(** ** Decoding of the register number *)
Lemma land_f8 r : byte r -> Z.land r 248 = 8 * (r / 8).
Proof.
  intros H. apply Z.eqb_eq. apply (byte_sweep (fun r => Z.land r 248 =? 8 * (r / 8))); [|exact H].
  vm_compute. reflexivity.
Qed.
Lemma land_e0 r : byte r -> Z.land r 224 = 32 * (r / 32).
Proof.
  intros H. apply Z.eqb_eq. apply (byte_sweep (fun r => Z.land r 224 =? 32 * (r / 32))); [|exact H].
  vm_compute. reflexivity.
Qed.

Lemma upd_channel_eq h s c g : s_channels s = map (chan_of h) chans -> 0 <= c < 8 ->
  upd_channel s c g =
  Ok (set_channels s (map (fun j => if j =? c then g (chan_of h c) else chan_of h j) chans)).
Proof. intros E H. unfold upd_channel. rewrite E, get8 by assumption. cbn [bind]. now rewrite set8. Qed.
Lemma upd_note_eq h s c g : s_notes s = map (pitch_of h) chans -> 0 <= c < 8 ->
  upd_note s c g =
  Ok (set_notes s (map (fun j => if j =? c then g (pitch_of h c) else pitch_of h j) chans)).
Proof. intros E H. unfold upd_note. rewrite E, get8 by assumption. cbn [bind]. now rewrite set8. Qed.
Lemma upd_operator_eq h s c o g : s_channels s = map (chan_of h) chans -> 0 <= c < 8 ->
  0 <= o < 4 ->
  upd_operator s c o g =
  Ok (set_channels s (map (fun j => if j =? c
        then set_operators (chan_of h c)
               (map (fun i => if i =? o then g (op_of h c o) else op_of h c i) [0; 1; 2; 3])
        else chan_of h j) chans)).
Proof.
  intros E H Ho. unfold upd_operator. rewrite E, get8 by assumption. cbn [bind].
  change (ch_operators (chan_of h c)) with (map (op_of h c) [0; 1; 2; 3]).
  rewrite get4 by assumption. cbn [bind]. rewrite set4 by assumption. cbn [bind].
  now rewrite set8.
Qed.

(** A write to an operator register, block by block. *)
Lemma operator_case h s r v g :
  0x40 <= r < 256 -> refines h s ->
  (forall c o, c = r mod 8 -> o = r / 8 mod 4 -> g (op_of h c o) = op_of (h ++ [Apply r v]) c o) ->
  exists s', upd_operator s (r mod 8) (r / 8 mod 4) g = Ok s' /\ refines (h ++ [Apply r v]) s'.
Proof.
  intros Hr Hs Hg. rewrite (upd_operator_eq h) by (try apply Hs; lia).
  eexists; split; [reflexivity|].
  apply (refines_frame h _ s); [cbn; lia|assumption| | | |].
  - apply map_ext_in. intros j Hj. apply chans_in in Hj.
    destruct (Z.eqb_spec j (r mod 8)) as [->|Hne].
    + rewrite (Hg _ _ eq_refl eq_refl). unfold set_operators, chan_of. cbn [ch_fb ch_ams ch_pms
        ch_connection ch_noise ch_noise_freq].
      f_equal.
      * apply map_ext_in. intros i Hi. cbn [In] in Hi.
        destruct (Z.eqb_spec i (r / 8 mod 4)) as [->|]; [reflexivity|].
        symmetry. apply op_frame; lia.
      * regs; reflexivity.
      * regs; reflexivity.
      * regs; reflexivity.
      * regs; reflexivity.
      * destruct (r mod 8 =? 7); [|reflexivity]. regs; reflexivity.
      * destruct (r mod 8 =? 7); [|reflexivity]. regs; reflexivity.
    + symmetry. apply chan_frame; lia.
  - rewrite (rf_notes h s Hs). apply map_ext_in. intros j Hj. apply chans_in in Hj.
    symmetry. apply pitch_frame; lia.
  - rewrite (rf_base h s Hs). symmetry. apply base_frame; lia.
  - rewrite (rf_samples h s Hs). now rewrite time_apply.
Qed.

Ltac frames Hs :=
  cbn [s_channels s_notes s_base s_samples set_notes set_channels set_base];
  try (rewrite (rf_channels _ _ Hs); apply map_ext_in; intros j Hj; apply chans_in in Hj;
       symmetry; apply chan_frame; lia);
  try (rewrite (rf_notes _ _ Hs); apply map_ext_in; intros j Hj; apply chans_in in Hj;
       symmetry; apply pitch_frame; lia);
  try (rewrite (rf_base _ _ Hs); symmetry; apply base_frame; lia);
  try (rewrite (rf_samples _ _ Hs), time_apply; reflexivity).

Lemma byte_bits7 v : byte v -> bit v 7 = (128 <=? v).
Proof. unfold byte, bit, bits. change (2 ^ 7) with 128. change (2 ^ (7 - 7 + 1)) with 2. lia. Qed.

Lemma refines_apply_nonkey h s r v : byte r -> byte v -> r <> 8 -> refines h s ->
  exists s', apply r v s = Ok s' /\ refines (h ++ [Apply r v]) s'.
Proof.
  intros Hr Hv H8 Hs. pose proof Hr as Hrb. unfold byte in Hr, Hv.
  unfold apply. rewrite (land_f8 r Hrb), (land_e0 r Hrb).
  rewrite (land_mask' r 3 7) by lia. rewrite (shift_mask r 3 2 3) by lia.
  change (2 ^ 3) with 8. change (2 ^ 2) with 4.
  destruct (Z.eqb_spec r 8) as [|_]; [contradiction|].
  destruct (Z.eqb_spec r 15) as [->|H15].
  { (* noise *)
    rewrite (upd_channel_eq h) by (try apply Hs; lia). eexists; split; [reflexivity|].
    apply (refines_frame h _ s); [reflexivity|assumption| | | |]; frames Hs.
    apply map_ext_in. intros j Hj. apply chans_in in Hj.
    destruct (Z.eqb_spec j 7) as [->|Hne]; [|symmetry; apply chan_frame; lia].
    unfold chan_of. rewrite ops_frame by lia. cbn [ch_fb ch_ams ch_pms ch_connection ch_operators].
    change (7 =? 7) with true. cbn iota.
    rewrite (land_is_bit v 7), (land_bits v 4) by lia. regs. reflexivity. }
  destruct (Z.eqb_spec r 24) as [->|H24].
  { eexists; split; [reflexivity|].
    apply (refines_frame h _ s); [reflexivity|assumption| | | |]; frames Hs.
    rewrite (rf_base _ _ Hs). unfold base_of, depth. rewrite !last_such_snoc. cbn [b_waveform b_amp_md b_phs_md].
    change (24 =? 25) with false. cbn [andb]. regs. reflexivity. }
  destruct (Z.eqb_spec r 25) as [->|H25].
  { rewrite (land_is_bit v 7) by lia. destruct (bit v 7) eqn:Eb.
    - eexists; split; [reflexivity|].
      apply (refines_frame h _ s); [reflexivity|assumption| | | |]; frames Hs.
      rewrite (rf_base _ _ Hs). unfold base_of, depth. rewrite !last_such_snoc, Eb.
      cbn [b_waveform b_amp_md b_phs_md b_lfo]. change (25 =? 25) with true. cbn [andb Bool.eqb].
      rewrite (land_bits v 6) by lia. regs. reflexivity.
    - eexists; split; [reflexivity|].
      apply (refines_frame h _ s); [reflexivity|assumption| | | |]; frames Hs.
      rewrite (rf_base _ _ Hs). unfold base_of, depth. rewrite !last_such_snoc, Eb.
      cbn [b_waveform b_amp_md b_phs_md b_lfo]. change (25 =? 25) with true. cbn [andb Bool.eqb].
      rewrite byte_bits7 in Eb by assumption. regs. f_equal.
      unfold bits. rewrite Z.pow_0_r, Z.div_1_r. change (2 ^ (6 - 0 + 1)) with 128. lia. }
  destruct (Z.eqb_spec r 27) as [->|H27].
  { rewrite (land_bits v 1) by lia.
    assert (B : bits v 1 0 = 0 \/ bits v 1 0 = 1 \/ bits v 1 0 = 2 \/ bits v 1 0 = 3).
    { unfold bits. change (2 ^ (1 - 0 + 1)) with 4. lia. }
    assert (W : waveform_of (bits v 1 0) = Some (waveform_no (bits v 1 0)))
      by (repeat destruct B as [B|B]; rewrite B; reflexivity).
    rewrite W. eexists; split; [reflexivity|].
    apply (refines_frame h _ s); [reflexivity|assumption| | | |]; frames Hs.
    rewrite (rf_base _ _ Hs). unfold base_of, depth. rewrite !last_such_snoc.
    cbn [b_waveform b_amp_md b_phs_md b_lfo]. change (27 =? 25) with false. cbn [andb].
    regs. reflexivity. }
  destruct (Z.eqb_spec (8 * (r / 8)) 32) as [H20|H20].
  { rewrite (upd_note_eq h) by (try apply Hs; lia). cbn [bind].
    rewrite (upd_channel_eq h) by (try apply Hs; lia).
    eexists; split; [reflexivity|].
    apply (refines_frame h _ s); [cbn; lia|assumption| | | |]; frames Hs.
    - apply map_ext_in. intros j Hj. apply chans_in in Hj.
      destruct (Z.eqb_spec j (r mod 8)) as [->|Hne]; [|symmetry; apply chan_frame; lia].
      rewrite (shiftr_bits v 5 3), (land_bits v 2) by lia.
      unfold chan_of. rewrite ops_frame by lia. cbn [ch_fb ch_ams ch_pms ch_connection ch_operators
        ch_noise ch_noise_freq].
      f_equal; try (regs; reflexivity); destruct (r mod 8 =? 7); regs; reflexivity.
    - apply map_ext_in. intros j Hj. apply chans_in in Hj.
      destruct (Z.eqb_spec j (r mod 8)) as [->|Hne]; [|symmetry; apply pitch_frame; lia].
      rewrite (land_is_bit v 7), (land_is_bit v 6) by lia. unfold pitch_of.
      cbn [nc_octave nc_note nc_key_fraction]. f_equal; regs; reflexivity. }
  destruct (Z.eqb_spec (8 * (r / 8)) 40) as [H28|H28].
  { rewrite (upd_note_eq h) by (try apply Hs; lia). eexists; split; [reflexivity|].
    apply (refines_frame h _ s); [cbn; lia|assumption| | | |]; frames Hs.
    apply map_ext_in. intros j Hj. apply chans_in in Hj.
    destruct (Z.eqb_spec j (r mod 8)) as [->|Hne]; [|symmetry; apply pitch_frame; lia].
    rewrite (shiftr_bits v 6 4), (land_bits v 3) by lia. unfold pitch_of.
    cbn [nc_octave nc_note nc_key_fraction nc_left nc_right]. f_equal; regs; reflexivity. }
  destruct (Z.eqb_spec (8 * (r / 8)) 48) as [H30|H30].
  { rewrite (upd_note_eq h) by (try apply Hs; lia). eexists; split; [reflexivity|].
    apply (refines_frame h _ s); [cbn; lia|assumption| | | |]; frames Hs.
    apply map_ext_in. intros j Hj. apply chans_in in Hj.
    destruct (Z.eqb_spec j (r mod 8)) as [->|Hne]; [|symmetry; apply pitch_frame; lia].
    rewrite (shiftr_bits v 7 2) by lia. unfold pitch_of.
    cbn [nc_octave nc_note nc_key_fraction nc_left nc_right]. f_equal; regs; reflexivity. }
  destruct (Z.eqb_spec (8 * (r / 8)) 56) as [H38|H38].
  { rewrite (upd_channel_eq h) by (try apply Hs; lia). eexists; split; [reflexivity|].
    apply (refines_frame h _ s); [cbn; lia|assumption| | | |]; frames Hs.
    apply map_ext_in. intros j Hj. apply chans_in in Hj.
    destruct (Z.eqb_spec j (r mod 8)) as [->|Hne]; [|symmetry; apply chan_frame; lia].
    rewrite (shiftr_bits v 6 4), (land_bits v 1) by lia.
    unfold chan_of. rewrite ops_frame by lia. cbn [ch_fb ch_ams ch_pms ch_connection ch_operators
      ch_noise ch_noise_freq].
    f_equal; try (regs; reflexivity); destruct (r mod 8 =? 7); regs; reflexivity. }
  destruct (Z.eqb_spec (32 * (r / 32)) 64) as [H40|H40].
  { apply operator_case; [lia|assumption|]. intros c o -> ->.
    rewrite (shiftr_bits v 6 4), (land_bits v 3) by lia. unfold op_of.
    cbn [total_level attack_rate first_decay_rate first_decay_level second_decay_rate release_rate
      key_scale multiply first_detune second_detune ase].
    f_equal; regs; reflexivity. }
  destruct (Z.eqb_spec (32 * (r / 32)) 96) as [H60|H60].
  { apply operator_case; [lia|assumption|]. intros c o -> ->.
    rewrite (land_bits v 6) by lia. unfold op_of.
    cbn [total_level attack_rate first_decay_rate first_decay_level second_decay_rate release_rate
      key_scale multiply first_detune second_detune ase].
    f_equal; regs; reflexivity. }
  destruct (Z.eqb_spec (32 * (r / 32)) 128) as [H80|H80].
  { apply operator_case; [lia|assumption|]. intros c o -> ->.
    rewrite (land_bits v 4), (shiftr_bits v 7 6) by lia. unfold op_of.
    cbn [total_level attack_rate first_decay_rate first_decay_level second_decay_rate release_rate
      key_scale multiply first_detune second_detune ase].
    f_equal; regs; reflexivity. }
  destruct (Z.eqb_spec (32 * (r / 32)) 160) as [HA0|HA0].
  { apply operator_case; [lia|assumption|]. intros c o -> ->.
    rewrite (land_bits v 4), (land_is_bit v 7) by lia. unfold op_of.
    cbn [total_level attack_rate first_decay_rate first_decay_level second_decay_rate release_rate
      key_scale multiply first_detune second_detune ase].
    f_equal; regs; reflexivity. }
  destruct (Z.eqb_spec (32 * (r / 32)) 192) as [HC0|HC0].
  { apply operator_case; [lia|assumption|]. intros c o -> ->.
    rewrite (land_bits v 3), (shiftr_bits v 7 6) by lia. unfold op_of.
    cbn [total_level attack_rate first_decay_rate first_decay_level second_decay_rate release_rate
      key_scale multiply first_detune second_detune ase].
    f_equal; regs; reflexivity. }
  destruct (Z.eqb_spec (32 * (r / 32)) 224) as [HE0|HE0].
  { apply operator_case; [lia|assumption|]. intros c o -> ->.
    rewrite (land_bits v 3), (shiftr_bits v 7 4) by lia. unfold op_of.
    cbn [total_level attack_rate first_decay_rate first_decay_level second_decay_rate release_rate
      key_scale multiply first_detune second_detune ase].
    f_equal; regs; reflexivity. }
  (* no branch *)
  exists s. split; [reflexivity|].
  replace s with (mkstate (s_key_presses s) (s_channels s) (s_notes s) (s_base s) (s_configs s)
    (s_samples s) (s_note_beats s) (s_first_beat s)) by (destruct s; reflexivity).
  apply (refines_frame h _ s); [cbn; lia|assumption| | | |]; frames Hs.
Qed.
