(** Scores: the registers after a load, the key events of a performance, its file. *)
From Coq Require Import Lia ZifyBool Sorted.
From Verif.Model Require Import Py Config Note Command Song Serializer History.
From Verif.Spec Require Import VgmFormat Cli Ym2151 Rhythm Tracker Whole Score.
From Verif.Proofs Require Import PyLemmas CoreProofs ChipProofs.
Open Scope Z_scope.
Open Scope list_scope.

(** ** Registers after a list of writes *)
Lemma such_fold p r g : forall acc,
  fold_left (fun acc c => match c with Apply r' v => if (r' =? r) && p v then Some v else acc | Beat _ => acc end) g acc
  = match last_such p g r with Some v => Some v | None => acc end.
Proof.
  unfold last_such. induction g as [|c g IH]; intro acc; [reflexivity|]. cbn [fold_left]. rewrite IH.
  destruct c as [r' v|n]; [|reflexivity]. destruct ((r' =? r) && p v); [|reflexivity].
  rewrite (IH (Some v)). destruct (fold_left _ g None); reflexivity.
Qed.
Lemma such_app p h g r : last_such p (h ++ g) r = match last_such p g r with Some v => Some v | None => last_such p h r end.
Proof. unfold last_such at 1. rewrite fold_left_app. apply such_fold. Qed.
Lemma such_cons p c g r : last_such p (c :: g) r
  = match last_such p g r with Some v => Some v | None => last_such p [c] r end.
Proof. exact (such_app p [c] g r). Qed.
Definition keys_of (g : history) : list Z := flat_map (fun c => match c with Apply r _ => [r] | Beat _ => [] end) g.
Lemma such_none p g r : ~ In r (keys_of g) -> last_such p g r = None.
Proof.
  induction g as [|c g IH]; intro H; [reflexivity|]. rewrite such_cons, IH.
  - destruct c as [r' v|n]; [|reflexivity]. cbn. destruct (Z.eqb_spec r' r) as [->|]; [|reflexivity].
    exfalso. apply H. now left.
  - intro X. apply H. unfold keys_of. cbn [flat_map]. rewrite in_app_iff. now right.
Qed.
Fixpoint znodup (l : list Z) : bool := match l with [] => true | a :: r => negb (existsb (Z.eqb a) r) && znodup r end.
Lemma such_hit g : znodup (keys_of g) = true -> forall i r v, nth_error g i = Some (Apply r v) ->
  last_such (fun _ => true) g r = Some v.
Proof.
  induction g as [|c g IH]; intros N i r v H; [destruct i; discriminate|]. destruct i as [|i].
  - injection H as ->. cbn [keys_of flat_map app] in N. cbn [znodup] in N. apply andb_true_iff in N as [N _].
    rewrite such_cons, such_none; [cbn; now rewrite Z.eqb_refl|].
    intro X. apply negb_true_iff in N. enough (E : existsb (Z.eqb r) (keys_of g) = true) by (unfold keys_of in *; congruence).
    apply existsb_exists. exists r. split; [exact X|apply Z.eqb_refl].
  - rewrite such_cons, (IH ltac:(destruct c; [cbn [keys_of flat_map app znodup] in N; now apply andb_true_iff in N|exact N]) i r v H).
    reflexivity.
Qed.
Lemma reg_hit past g i r v : znodup (keys_of g) = true -> nth_error g i = Some (Apply r v) -> reg (past ++ g) r = v.
Proof. intros N H. unfold reg, last_write. rewrite such_app. now rewrite (such_hit g N i r v H). Qed.
Lemma reg_miss past g r : ~ In r (keys_of g) -> reg (past ++ g) r = reg past r.
Proof. intro H. unfold reg, last_write. now rewrite such_app, such_none. Qed.

Lemma eight (P : Z -> Prop) ch : 0 <= ch < 8 -> P 0 -> P 1 -> P 2 -> P 3 -> P 4 -> P 5 -> P 6 -> P 7 -> P ch.
Proof.
  intros H. assert (C : ch = 0 \/ ch = 1 \/ ch = 2 \/ ch = 3 \/ ch = 4 \/ ch = 5 \/ ch = 6 \/ ch = 7) by lia.
  intros. repeat (destruct C as [->|C]; [assumption|]). now subst.
Qed.

(** ** One load *)
Section Load.
  Variables (past : history) (c : chan_config) (p : Config.note_config).
  Lemma load_keys ch : 0 <= ch < 8 -> znodup (keys_of (load ch c p)) = true.
  Proof. intro H. pattern ch. apply eight; [exact H|..]; reflexivity. Qed.
  Lemma load_block ch : 0 <= ch < 8 ->
    reg (past ++ load ch c p) (0x20 + ch) = 128 * one_bit (nc_right p) + 64 * one_bit (nc_left p) + 8 * ch_fb c + ch_connection c
    /\ reg (past ++ load ch c p) (0x28 + ch) = 16 * nc_octave p + nc_note p
    /\ reg (past ++ load ch c p) (0x30 + ch) = 4 * nc_key_fraction p
    /\ reg (past ++ load ch c p) (0x38 + ch) = 16 * ch_pms c + ch_ams c.
  Proof.
    intro H. pose proof (load_keys ch H) as N.
    split; [|split; [|split]]; [apply (reg_hit _ _ 0)|apply (reg_hit _ _ 1)|apply (reg_hit _ _ 2)|apply (reg_hit _ _ 3)];
      first [exact N|reflexivity].
  Qed.
  Lemma load_op_regs ch (i : nat) : 0 <= ch < 8 -> (i < 4)%nat ->
    let o := nth i (ch_operators c) op_init in let q base := reg (past ++ load ch c p) (base + 8 * Z.of_nat i + ch) in
    q 0x40 = 16 * first_detune o + multiply o /\ q 0x60 = total_level o /\ q 0x80 = 64 * key_scale o + attack_rate o
    /\ q 0xA0 = 128 * one_bit (ase o) + first_decay_rate o /\ q 0xC0 = 64 * second_detune o + second_decay_rate o
    /\ q 0xE0 = 16 * first_decay_level o + release_rate o.
  Proof.
    intros H Hi. pose proof (load_keys ch H) as N. intros o q. subst q. cbv beta.
    Local Ltac hit N n := rewrite <- Z.add_assoc; apply (reg_hit _ _ n _ _ N); reflexivity.
    do 4 (destruct i as [|i]; [
      first [ split; [hit N 4%nat|]; split; [hit N 5%nat|]; split; [hit N 6%nat|]; split; [hit N 7%nat|]; split; [hit N 8%nat|]; hit N 9%nat
            | split; [hit N 10%nat|]; split; [hit N 11%nat|]; split; [hit N 12%nat|]; split; [hit N 13%nat|]; split; [hit N 14%nat|]; hit N 15%nat
            | split; [hit N 16%nat|]; split; [hit N 17%nat|]; split; [hit N 18%nat|]; split; [hit N 19%nat|]; split; [hit N 20%nat|]; hit N 21%nat
            | split; [hit N 22%nat|]; split; [hit N 23%nat|]; split; [hit N 24%nat|]; split; [hit N 25%nat|]; split; [hit N 26%nat|]; hit N 27%nat ]|]).
    lia.
  Qed.
End Load.

Section Loaded.
  Variables (past : history) (c : chan_config) (p : Config.note_config) (ch : Z).
  Hypotheses (Hch : 0 <= ch < 8) (Hc : chan_fits ch c) (Hp : pitch_fits p).
  Lemma bit_top b x k m : 0 <= x < 2 ^ k -> 0 <= k -> m = 2 ^ k -> bit (m * one_bit b + x) k = b.
  Proof.
    intros H K ->. unfold bit, bits. rewrite Z.sub_diag. change (2 ^ (0 + 1)) with 2.
    rewrite Z.mul_comm, Z.div_add_l by lia. rewrite (Z.div_small x) by lia. rewrite Z.add_0_r.
    destruct b; reflexivity.
  Qed.
  Lemma bits_top a x k m n : 0 <= x < 2 ^ k -> 0 <= k -> m = 2 ^ k -> 0 <= a < 2 ^ (n - k + 1) -> bits (m * a + x) n k = a.
  Proof.
    intros H K -> A. unfold bits. rewrite Z.mul_comm, Z.div_add_l by lia. rewrite (Z.div_small x) by lia.
    rewrite Z.add_0_r. apply Z.mod_small. exact A.
  Qed.
  Lemma bits_low a x k m n : 0 <= x < m -> m = 2 ^ (n + 1) -> k = 0 -> bits (m * a + x) n k = x.
  Proof.
    intros H -> ->. unfold bits. rewrite Z.sub_0_r, Z.pow_0_r, Z.div_1_r, Z.add_comm, Z.mul_comm, Z.mod_add by lia.
    apply Z.mod_small. exact H.
  Qed.
  Lemma bits_all x n : 0 <= x < 2 ^ (n + 1) -> bits x n 0 = x.
  Proof. intro H. unfold bits. rewrite Z.sub_0_r, Z.pow_0_r, Z.div_1_r. now apply Z.mod_small. Qed.
  Lemma loaded_pitch : pitch_of (past ++ load ch c p) ch = p.
  Proof.
    destruct (load_block past c p ch Hch) as (B1 & B2 & B3 & _). unfold pitch_of. rewrite B1, B2, B3.
    destruct Hc as (_ & _ & F & _ & _ & C & _). destruct Hp as (O & N & K). destruct p as [r l o n k]. cbn [nc_right nc_left nc_octave nc_note nc_key_fraction] in *.
    f_equal.
    - rewrite <- !Z.add_assoc. apply (bit_top r _ 7 128); [|lia|reflexivity]. destruct l; cbn [one_bit]; lia.
    - destruct r; destruct l; cbn [one_bit]; unfold bit, bits; change (2 ^ 6) with 64; change (2 ^ (6 - 6 + 1)) with 2;
        (apply Z.eqb_eq || apply Z.eqb_neq); Z.to_euclidean_division_equations; lia.
    - apply (bits_top o n 4 16 6); [lia|lia|reflexivity|lia].
    - apply (bits_low o n 0 16 3); [lia|reflexivity|reflexivity].
    - rewrite <- (Z.add_0_r (4 * k)). apply (bits_top k 0 2 4 7); [lia|lia|reflexivity|lia].
  Qed.
  Lemma loaded_op (i : nat) : (i < 4)%nat -> op_of (past ++ load ch c p) ch (Z.of_nat i) = nth i (ch_operators c) op_init.
  Proof.
    intro Hi. destruct (load_op_regs past c p ch i Hch Hi) as (R4 & R6 & R8 & RA & RC & RE). unfold op_of. cbv zeta.
    rewrite R4, R6, R8, RA, RC, RE. destruct Hc as (L & F & _). rewrite Forall_forall in F.
    assert (Fo : op_fits (nth i (ch_operators c) op_init)) by (apply F, nth_In; lia).
    destruct (nth i (ch_operators c) op_init) as [tl ar d1r d1l d2r rr ks mul dt1 dt2 am].
    destruct Fo as (F1 & F2 & F3 & F4 & F5 & F6 & F7 & F8 & F9 & F0).
    cbn [total_level attack_rate first_decay_rate first_decay_level second_decay_rate release_rate key_scale multiply
      first_detune second_detune ase] in *.
    f_equal.
    - apply bits_all. lia.
    - unfold bits. change (2 ^ 0) with 1. change (2 ^ (4 - 0 + 1)) with 32. rewrite Z.div_1_r.
      replace (64 * ks + ar) with (ar + (2 * ks) * 32) by lia. rewrite Z.mod_add by lia. apply Z.mod_small. lia.
    - unfold bits. change (2 ^ 0) with 1. change (2 ^ (4 - 0 + 1)) with 32. rewrite Z.div_1_r.
      replace (128 * one_bit am + d1r) with (d1r + (4 * one_bit am) * 32) by lia. rewrite Z.mod_add by lia. apply Z.mod_small. lia.
    - apply (bits_top d1l rr 4 16 7); [lia|lia|reflexivity|lia].
    - unfold bits. change (2 ^ 0) with 1. change (2 ^ (3 - 0 + 1)) with 16. rewrite Z.div_1_r.
      replace (64 * dt2 + d2r) with (d2r + (4 * dt2) * 16) by lia. rewrite Z.mod_add by lia. apply Z.mod_small. lia.
    - apply (bits_low d1l rr 0 16 3); [lia|reflexivity|reflexivity].
    - apply (bits_top ks ar 6 64 7); [lia|lia|reflexivity|lia].
    - apply (bits_low dt1 mul 0 16 3); [lia|reflexivity|reflexivity].
    - apply (bits_top dt1 mul 4 16 6); [lia|lia|reflexivity|lia].
    - apply (bits_top dt2 d2r 6 64 7); [lia|lia|reflexivity|lia].
    - apply (bit_top am d1r 7 128); [lia|lia|reflexivity].
  Qed.
  Lemma loaded_chan : chan_of (past ++ load ch c p) ch = c.
  Proof.
    destruct (load_block past c p ch Hch) as (B1 & _ & _ & B4). unfold chan_of. rewrite B1, B4.
    assert (Ops : map (op_of (past ++ load ch c p) ch) [0; 1; 2; 3] = ch_operators c).
    { pose proof (loaded_op 0 ltac:(lia)) as O0. pose proof (loaded_op 1 ltac:(lia)) as O1.
      pose proof (loaded_op 2 ltac:(lia)) as O2. pose proof (loaded_op 3 ltac:(lia)) as O3.
      change (Z.of_nat 0) with 0 in O0. change (Z.of_nat 1) with 1 in O1. change (Z.of_nat 2) with 2 in O2. change (Z.of_nat 3) with 3 in O3.
      cbn [map]. rewrite O0, O1, O2, O3. destruct Hc as (L & _).
      destruct (ch_operators c) as [|a [|b [|d [|e [|]]]]]; try discriminate. reflexivity. }
    rewrite Ops. destruct Hc as (_ & _ & F & A & P & C & Nf & N7).
    destruct c as [ops fb ams pms con noise nf].
    cbn [ch_operators ch_fb ch_ams ch_pms ch_connection ch_noise ch_noise_freq] in *.
    f_equal.
    - set (w := 2 * one_bit (nc_right p) + one_bit (nc_left p)).
      replace (128 * one_bit (nc_right p) + 64 * one_bit (nc_left p) + 8 * fb + con) with (con + (8 * w + fb) * 8) by (unfold w; lia).
      unfold bits. change (2 ^ 3) with 8. change (2 ^ (5 - 3 + 1)) with 8. rewrite Z.div_add by lia. rewrite (Z.div_small con) by lia.
      rewrite Z.add_0_l, Z.add_comm, Z.mul_comm, Z.mod_add by lia. apply Z.mod_small. lia.
    - unfold bits. change (2 ^ 0) with 1. change (2 ^ (1 - 0 + 1)) with 4. rewrite Z.div_1_r.
      replace (16 * pms + ams) with (ams + (4 * pms) * 4) by lia. rewrite Z.mod_add by lia. apply Z.mod_small. lia.
    - apply (bits_top pms ams 4 16 6); [lia|lia|reflexivity|lia].
    - unfold bits. change (2 ^ 0) with 1. change (2 ^ (2 - 0 + 1)) with 8. rewrite Z.div_1_r.
      replace (128 * one_bit (nc_right p) + 64 * one_bit (nc_left p) + 8 * fb + con)
        with (con + (16 * one_bit (nc_right p) + 8 * one_bit (nc_left p) + fb) * 8) by lia.
      rewrite Z.mod_add by lia. apply Z.mod_small. lia.
    - destruct (Z.eqb_spec ch 7) as [E|E]; [|symmetry; now apply N7]. subst ch.
      assert (R : reg (past ++ load 7 (mkch ops fb ams pms con noise nf) p) 15 = 128 * one_bit noise + nf)
        by (apply (reg_hit _ _ 28); [apply load_keys; lia|reflexivity]).
      rewrite R. apply (bit_top noise nf 7 128); [lia|lia|reflexivity].
    - destruct (Z.eqb_spec ch 7) as [E|E]; [|symmetry; now apply N7]. subst ch.
      assert (R : reg (past ++ load 7 (mkch ops fb ams pms con noise nf) p) 15 = 128 * one_bit noise + nf)
        by (apply (reg_hit _ _ 28); [apply load_keys; lia|reflexivity]).
      rewrite R. unfold bits. change (2 ^ 0) with 1. change (2 ^ (4 - 0 + 1)) with 32. rewrite Z.div_1_r.
      replace (128 * one_bit noise + nf) with (nf + (4 * one_bit noise) * 32) by lia. rewrite Z.mod_add by lia. apply Z.mod_small. lia.
  Qed.
End Loaded.

(** ** What a step leaves alone *)
Lemma keys_of_app a b : keys_of (a ++ b) = keys_of a ++ keys_of b.
Proof. apply flat_map_app. Qed.
Lemma load_misses ch c p r : 0 <= ch < 8 -> In r (keys_of (load ch c p)) ->
  r = 0x0F \/ (0x20 <= r < 256 /\ r mod 8 = ch).
Proof.
  intro H. pattern ch. apply eight; [exact H|..]; cbn; intro X;
    repeat (destruct X as [<-|X]; [first [now left | right; split; [lia|reflexivity]]|]); destruct X.
Qed.
Lemma silent g : ~ In 8 (keys_of g) -> forall past, keys_from past g = [].
Proof.
  induction g as [|c g IH]; intros H past; [reflexivity|]. cbn [keys_from].
  assert (H' : ~ In 8 (keys_of g)) by (intro X; apply H; unfold keys_of; cbn [flat_map]; apply in_app_iff; now right).
  rewrite (IH H'). destruct c as [r v|n]; [|reflexivity]. destruct (Z.eqb_spec r 8) as [->|]; [|reflexivity].
  exfalso. apply H. now left.
Qed.
Lemma base_kept past g : ~ In 0x18 (keys_of g) -> ~ In 0x19 (keys_of g) -> ~ In 0x1B (keys_of g) ->
  base_of (past ++ g) = base_of past.
Proof.
  intros A B C. unfold base_of, depth. rewrite !reg_miss by assumption. rewrite !such_app, !(such_none _ g) by assumption. reflexivity.
Qed.
Lemma pitch_kept past g ch : ~ In (0x20 + ch) (keys_of g) -> ~ In (0x28 + ch) (keys_of g) -> ~ In (0x30 + ch) (keys_of g) ->
  pitch_of (past ++ g) ch = pitch_of past ch.
Proof. intros A B C. unfold pitch_of. rewrite !reg_miss by assumption. reflexivity. Qed.
Lemma load_base past ch c p : 0 <= ch < 8 -> base_of (past ++ load ch c p) = base_of past.
Proof. intro H. apply base_kept; intro X; apply (load_misses _ _ _ _ H) in X; lia. Qed.
Lemma load_other past ch c p x : 0 <= ch < 8 -> 0 <= x < 8 -> x <> ch -> pitch_of (past ++ load ch c p) x = pitch_of past x.
Proof.
  intros H Hx N.
  apply pitch_kept; intro X; apply (load_misses _ _ _ _ H) in X; destruct X as [X|[_ X]]; [lia| |lia| |lia|];
    Z.to_euclidean_division_equations; lia.
Qed.
Lemma load_silent past ch c p : 0 <= ch < 8 -> keys_from past (load ch c p) = [].
Proof. intro H. apply silent. intro X. apply (load_misses _ _ _ _ H) in X. lia. Qed.
Lemma lfo_silent b past : keys_from past (load_lfo b) = [].
Proof. apply silent. cbn. lia. Qed.
Lemma lfo_base past b : lfo_fits b -> base_of (past ++ load_lfo b) = b.
Proof.
  intros (L & A & P). destruct b as [w l a q]. cbn [b_lfo b_amp_md b_phs_md b_waveform] in *. unfold base_of.
  assert (R27 : reg (past ++ load_lfo (mkbase w l a q)) 27 = wave_no w) by (unfold reg, last_write; rewrite such_app; reflexivity).
  assert (R24 : reg (past ++ load_lfo (mkbase w l a q)) 24 = l) by (unfold reg, last_write; rewrite such_app; reflexivity).
  rewrite R27, R24.
  assert (Ba : bit a 7 = false).
  { unfold bit, bits. change (2 ^ 7) with 128. rewrite Z.div_small by lia. reflexivity. }
  assert (Bq : bit (128 + q) 7 = true) by (apply (bit_top true q 7 128); [lia|lia|reflexivity]).
  assert (Xa : bits a 6 0 = a) by (apply bits_all; lia).
  assert (Xq : bits (128 + q) 6 0 = q).
  { unfold bits. change (2 ^ 0) with 1. change (2 ^ (6 - 0 + 1)) with 128. rewrite Z.div_1_r. rewrite <- (Z.mod_small q 128) at 2 by lia.
    replace (128 + q) with (q + 1 * 128) by lia. now rewrite Z.mod_add. }
  f_equal.
  - destruct w; reflexivity.
  - unfold depth. rewrite such_app. unfold load_lfo, last_such at 1. cbn -[bit bits]. rewrite Bq, Ba. cbn -[bit bits]. exact Xa.
  - unfold depth. rewrite such_app. unfold load_lfo, last_such at 1. cbn -[bit bits]. rewrite Bq, Ba. cbn -[bit bits]. exact Xq.
Qed.

(** ** The key events of a performance *)
Definition seen (k : key) : event :=
  mkevent (k_time k) (k_chan k) (if k_on k then Some (k_settings k) else None) (k_pitch k).
Lemma time_load ch c p : time (load ch c p) = 0.
Proof. unfold load. rewrite !time_app. destruct (ch =? 7); reflexivity. Qed.
Lemma keys_play past b ch c ops p : base_of past = b -> 0 <= ch < 8 -> chan_fits ch c -> 0 < ops < 16 -> pitch_fits p ->
  map seen (keys_from past (load ch c p ++ [Apply 8 (8 * ops + ch)]))
  = [mkevent (time past) ch (Some (mksettings b c ops)) p].
Proof.
  intros B H Fc Ho Fp. rewrite keys_from_app, load_silent by exact H. cbn [app keys_from]. change (8 =? 8) with true. cbn iota. cbn [app map].
  unfold seen, key_at. cbv zeta. cbn [k_time k_chan k_settings k_pitch].
  assert (E1 : bits (8 * ops + ch) 2 0 = ch).
  { unfold bits. change (2 ^ 0) with 1. change (2 ^ (2 - 0 + 1)) with 8. rewrite Z.div_1_r.
    replace (8 * ops + ch) with (ch + ops * 8) by lia. rewrite Z.mod_add by lia. apply Z.mod_small. lia. }
  assert (E2 : bits (8 * ops + ch) 6 3 = ops) by (apply (bits_top ops ch 3 8 6); [lia|lia|reflexivity|lia]).
  rewrite E1, E2. rewrite loaded_chan, loaded_pitch, load_base, B by assumption. rewrite time_app.
  rewrite time_load, Z.add_0_r. unfold k_on. cbn [k_settings st_ops]. destruct (Z.eqb_spec ops 0); [lia|]. reflexivity.
Qed.
Lemma one_bend past ch o n k : 0 <= ch < 8 -> 0 <= o < 8 -> 0 <= n < 16 -> 0 <= k < 64 ->
  base_of (past ++ bend ch o n k) = base_of past
  /\ (forall x, 0 <= x < 8 -> pitch_of (past ++ bend ch o n k) x = if x =? ch then bent (pitch_of past ch) o n k else pitch_of past x)
  /\ time (past ++ bend ch o n k) = time past.
Proof.
  intros H Ho Hn Hk. split; [|split].
  - apply base_kept; cbn; lia.
  - intros x Hx. destruct (Z.eqb_spec x ch) as [->|N].
    + unfold pitch_of, bent. cbn [nc_right nc_left].
      rewrite (reg_miss past (bend ch o n k) (0x20 + ch)) by (cbn; lia).
      assert (Nd : znodup (keys_of (bend ch o n k)) = true) by (cbn; destruct (Z.eqb_spec (40 + ch) (48 + ch)); [lia|reflexivity]).
      rewrite (reg_hit past (bend ch o n k) 0 (0x28 + ch) (16 * o + n) Nd eq_refl).
      rewrite (reg_hit past (bend ch o n k) 1 (0x30 + ch) (4 * k) Nd eq_refl). f_equal.
      * apply (bits_top o n 4 16 6); [lia|lia|reflexivity|lia].
      * apply (bits_low o n 0 16 3); [lia|reflexivity|reflexivity].
      * rewrite <- (Z.add_0_r (4 * k)). apply (bits_top k 0 2 4 7); [lia|lia|reflexivity|lia].
    + apply pitch_kept; cbn; lia.
  - rewrite time_app. cbn. lia.
Qed.
Lemma one_key past v : base_of (past ++ [Apply 8 v]) = base_of past
  /\ (forall x, 0 <= x < 8 -> pitch_of (past ++ [Apply 8 v]) x = pitch_of past x) /\ time (past ++ [Apply 8 v]) = time past.
Proof.
  split; [|split].
  - apply base_kept; cbn; lia.
  - intros x Hx. apply pitch_kept; cbn; lia.
  - rewrite time_app. cbn. lia.
Qed.
Lemma one_beat past n : base_of (past ++ [Beat n]) = base_of past
  /\ (forall x, 0 <= x < 8 -> pitch_of (past ++ [Beat n]) x = pitch_of past x) /\ time (past ++ [Beat n]) = time past + n.
Proof.
  split; [|split].
  - apply base_kept; cbn; lia.
  - intros x Hx. apply pitch_kept; cbn; lia.
  - rewrite time_app. cbn. lia.
Qed.
Lemma played : forall sc, Forall step_fits sc -> forall b past has, base_of past = b ->
  (forall ch, 0 <= ch < 8 -> pitch_of past ch = has ch) ->
  map seen (keys_from past (flat_map play_step sc)) = events b (time past) has sc.
Proof.
  induction sc as [|x sc IH]; intros F b past has B P; [reflexivity|]. inversion F as [|x' sc' Fx Fsc]; subst x' sc'.
  cbn [flat_map]. rewrite keys_from_app, map_app. destruct x as [n|ch c ops p|ch|ch o n k|b']; cbn [play_step events].
  - destruct (one_beat past n) as (B' & P' & T'). cbn [keys_from app map].
    rewrite (IH Fsc b _ has); [now rewrite T'|congruence|]. intros y Hy. rewrite P' by exact Hy. now apply P.
  - destruct Fx as (H & Fc & Ho & Fp). rewrite (keys_play past b ch c ops p B H Fc Ho Fp). cbn [app]. f_equal.
    rewrite app_assoc. destruct (one_key (past ++ load ch c p) (8 * ops + ch)) as (B' & P' & T').
    rewrite (IH Fsc b _ (fun x => if x =? ch then p else has x)).
    + now rewrite T', time_app, time_load, Z.add_0_r.
    + rewrite B', load_base; assumption.
    + intros y Hy. rewrite P' by exact Hy. cbv beta. destruct (Z.eqb_spec y ch) as [->|N].
      * now apply loaded_pitch.
      * rewrite load_other by assumption. now apply P.
  - cbn in Fx. destruct (one_key past ch) as (B' & P' & T').
    cbn [keys_from]. change (8 =? 8) with true. cbn iota. cbn [app map].
    assert (E1 : bits ch 2 0 = ch) by (apply bits_all; lia).
    assert (E2 : bits ch 6 3 = 0).
    { unfold bits. change (2 ^ 3) with 8. rewrite (Z.div_small ch) by lia. reflexivity. }
    unfold seen at 1, key_at. cbv zeta. cbn [k_time k_chan k_settings k_pitch k_on]. rewrite E1, E2.
    unfold k_on. cbn [k_settings st_ops]. cbn [Z.eqb negb]. rewrite P by exact Fx. f_equal.
    rewrite (IH Fsc b _ has); [now rewrite T'|congruence|]. intros y Hy. rewrite P' by exact Hy. now apply P.
  - destruct Fx as (H & Ho & Hn & Hk). destruct (one_bend past ch o n k H Ho Hn Hk) as (B' & P' & T').
    rewrite (silent (bend ch o n k)) by (cbn; lia). cbn [app map].
    rewrite (IH Fsc b _ (fun x => if x =? ch then bent (has ch) o n k else has x)); [now rewrite T'|congruence|].
    intros y Hy. rewrite P' by exact Hy. rewrite (P ch H). destruct (y =? ch); [reflexivity|now apply P].
  - rewrite lfo_silent. cbn [app map]. rewrite (IH Fsc b' _ has).
    + rewrite time_app. change (time (load_lfo b')) with 0. now rewrite Z.add_0_r.
    + now apply lfo_base.
    + intros y Hy. rewrite pitch_kept by (cbn; lia). now apply P.
Qed.
Lemma has_init b ch : 0 <= ch < 8 -> pitch_of (load_lfo b) ch = nc_init.
Proof.
  intro H. change (load_lfo b) with ([] ++ load_lfo b). rewrite pitch_kept by (cbn; lia). reflexivity.
Qed.
Theorem performed b sc : lfo_fits b -> Forall step_fits sc ->
  map seen (keys (performance b sc)) = score_events b sc.
Proof.
  intros Lb F. unfold keys, performance. rewrite keys_from_app, lfo_silent. cbn [app].
  rewrite (played sc F b (load_lfo b) (fun _ => nc_init)); [reflexivity|now apply (lfo_base [])|]. intros ch H. now apply has_init.
Qed.

(** ** Instruments and notes *)
Definition heard (e : event) : bool := match ev_sound e with Some _ => true | None => false end.
Lemma distinct_sounds b sc : lfo_fits b -> Forall step_fits sc -> distinct (performance b sc) = sounds b sc.
Proof.
  intros Lb F. unfold distinct, sounds, key_ons. rewrite <- (performed b sc Lb F). f_equal.
  induction (keys (performance b sc)) as [|k ks IH]; [reflexivity|]. cbn [filter map flat_map]. unfold seen at 1. cbn [ev_sound].
  destruct (k_on k); cbn [map app]; now rewrite IH.
Qed.
Lemma events_later : forall sc b t has, Forall step_fits sc -> 0 < t -> Forall (fun e => 0 < ev_time e) (events b t has sc).
Proof.
  induction sc as [|x sc IH]; intros b t has F T; [constructor|]. inversion F as [|x' sc' Fx Fsc]; subst x' sc'.
  destruct x as [n|ch c ops p|ch|ch o n k|b']; cbn [events].
  - apply IH; [exact Fsc|cbn in Fx; lia].
  - constructor; [exact T|]. now apply IH.
  - constructor; [exact T|]. now apply IH.
  - now apply IH.
  - now apply IH.
Qed.
Lemma drop_until_map {A B} (p : A -> bool) (q : B -> bool) (f : A -> B) l :
  Forall (fun x => p x = q (f x)) l -> map f (drop_until p l) = drop_until q (map f l).
Proof.
  induction 1 as [|x l H _ IH]; [reflexivity|]. cbn [drop_until map]. rewrite <- H. now destruct (p x).
Qed.
Lemma filter_map_seen ch l : map seen (filter (fun k => k_chan k =? ch) l) = filter (fun e => ev_chan e =? ch) (map seen l).
Proof.
  induction l as [|k l IH]; [reflexivity|]. cbn [filter map]. change (ev_chan (seen k)) with (k_chan k).
  destruct (k_chan k =? ch); cbn [map]; now rewrite IH.
Qed.
Theorem performed_notes b sc ch : lfo_fits b -> score_fits sc -> notes (performance b sc) ch = score_notes b sc ch.
Proof.
  intros Lb (F & n & r & E & N). unfold notes, score_notes. unfold recorded.
  pose proof (performed b sc Lb F) as K. pose proof (distinct_sounds b sc Lb F) as D.
  assert (T : Forall (fun k => starts k = heard (seen k)) (keys (performance b sc))).
  { assert (L : Forall (fun e => 0 < ev_time e) (score_events b sc)).
    { rewrite E in F |- *. inversion F; subst. unfold score_events. cbn [events]. apply events_later; [assumption|lia]. }
    rewrite <- K in L. rewrite Forall_map in L. eapply Forall_impl; [|exact L]. cbv beta. intros k Hk.
    unfold starts, heard, seen in *. cbn [ev_sound ev_time] in *. destruct (k_on k); [|reflexivity].
    destruct (Z.eqb_spec (k_time k) 0); [lia|reflexivity]. }
  rewrite <- K. change (fun e => match ev_sound e with Some _ => true | None => false end) with heard.
  rewrite <- (drop_until_map starts heard seen _ T), <- filter_map_seen, map_map. apply map_ext. intro k.
  unfold note_of, seen. cbn [ev_sound ev_pitch ev_time]. rewrite D. destruct (k_on k); reflexivity.
Qed.

(** ** The writes are bytes; the file *)
Lemma op_load_ok slot o : op_fits o -> 0 <= slot < 32 -> history_ok (load_op slot o).
Proof.
  intros (F1 & F2 & F3 & F4 & F5 & F6 & F7 & F8 & F9 & F0) H. unfold load_op.
  assert (A : 0 <= one_bit (ase o) <= 1) by (destruct (ase o); cbn; lia).
  repeat constructor; unfold byte; lia.
Qed.
Lemma load_ok ch c p : 0 <= ch < 8 -> chan_fits ch c -> pitch_fits p -> history_ok (load ch c p).
Proof.
  intros H (L & F & B1 & B2 & B3 & B4 & B5 & _) (P1 & P2 & P3). unfold load.
  assert (R : 0 <= one_bit (nc_right p) <= 1) by (destruct (nc_right p); cbn; lia).
  assert (Lf : 0 <= one_bit (nc_left p) <= 1) by (destruct (nc_left p); cbn; lia).
  assert (N : 0 <= one_bit (ch_noise c) <= 1) by (destruct (ch_noise c); cbn; lia).
  apply Forall_app. split; [repeat constructor; unfold byte; lia|]. apply Forall_app. split.
  - apply Forall_flat_map. rewrite Forall_forall in F.
    assert (Fo : forall i : nat, (i < 4)%nat -> op_fits (nth i (ch_operators c) op_init)) by (intros i Hi; apply F, nth_In; lia).
    do 4 (apply Forall_cons; [apply op_load_ok; [apply Fo; lia|lia]|]). apply Forall_nil.
  - destruct (ch =? 7); [|constructor]. repeat constructor; unfold byte; lia.
Qed.
Lemma lfo_ok b : lfo_fits b -> history_ok (load_lfo b).
Proof.
  intros (A & B & C). unfold load_lfo. assert (W : 0 <= wave_no (b_waveform b) < 256) by (destruct (b_waveform b); cbn; lia).
  repeat (apply Forall_cons; [split; unfold byte; lia|]). apply Forall_nil.
Qed.
Lemma play_ok x : step_fits x -> history_ok (play_step x).
Proof.
  destruct x as [n|ch c ops p|ch|ch o n k|b]; cbn [step_fits play_step]; intro H.
  - apply Forall_cons; [exact (proj1 H)|apply Forall_nil].
  - destruct H as (H & Fc & Ho & Fp). apply Forall_app. split; [now apply load_ok|]. apply Forall_cons; [split; unfold byte; lia|apply Forall_nil].
  - apply Forall_cons; [split; unfold byte; lia|apply Forall_nil].
  - unfold bend. repeat (apply Forall_cons; [split; unfold byte; lia|]). apply Forall_nil.
  - now apply lfo_ok.
Qed.
Lemma performance_ok b sc : lfo_fits b -> Forall step_fits sc -> history_ok (performance b sc).
Proof.
  intros L F. unfold performance. apply Forall_app. split; [now apply lfo_ok|].
  apply Forall_flat_map. eapply Forall_impl; [|exact F]. exact play_ok.
Qed.
Lemma rests_fit b sc : Forall step_fits sc -> Forall (fun c => match c with Beat n => 0 <= n < 65536 | _ => True end) (performance b sc).
Proof.
  intro F. unfold performance. apply Forall_app. split; [repeat constructor|]. apply Forall_flat_map.
  eapply Forall_impl; [|exact F]. intros x Hx. destruct x as [n|ch c ops p|ch|ch o n k|b']; cbn [play_step].
  - constructor; [exact Hx|constructor].
  - unfold load. destruct (ch =? 7); repeat constructor.
  - repeat constructor.
  - repeat constructor.
  - repeat constructor.
Qed.
Lemma ops_valid b sc : lfo_fits b -> Forall step_fits sc -> Forall op_valid (map op_of_call (performance b sc) ++ [OpEnd]).
Proof.
  intros Lb F. apply Forall_app. split; [|repeat constructor]. rewrite Forall_map.
  pose proof (performance_ok b sc Lb F) as H. pose proof (rests_fit b sc F) as R. unfold history_ok in H.
  rewrite Forall_forall in *. intros c Hc. specialize (H c Hc). specialize (R c Hc). destruct c; cbn in *; [exact H|].
  change (2 ^ 16) with 65536. exact R.
Qed.
Lemma calls_back h : calls_of (map op_command (map op_of_call h ++ [OpEnd])) = h.
Proof.
  unfold calls_of. rewrite map_app, flat_map_app. cbn [map op_command flat_map]. rewrite !app_nil_r.
  induction h as [|c h IH]; [reflexivity|]. cbn [map flat_map]. rewrite IH. now destruct c.
Qed.
Lemma byte_at_app head r i : (i < List.length head)%nat -> byte_at (head ++ r) i = byte_at head i.
Proof. intro H. unfold byte_at. now apply app_nth1. Qed.
Lemma ops_readable g d head ops : header_fits head -> Forall op_valid ops ->
  content g d (Ok (head ++ flat_map encode ops)) -> readable g d (map op_command ops).
Proof.
  intros (B & L & Id & Off) V C. exists (head ++ flat_map encode ops).
  assert (D : data_offset (head ++ flat_map encode ops) = Z.of_nat (List.length head)).
  { rewrite <- Off. unfold data_offset, version, bcd_at, u32_at. rewrite !byte_at_app by lia. reflexivity. }
  split; [exact C|]. split; [|split].
  - unfold has_ident in *. rewrite firstn_app. replace (4 - List.length head)%nat with 0%nat by lia. cbn [firstn]. now rewrite app_nil_r.
  - unfold header_complete. rewrite app_length. split; [lia|right; lia].
  - rewrite D, Nat2Z.id. rewrite skipn_app, skipn_all, Nat.sub_diag. cbn [app skipn]. now apply encode_stream.
Qed.
Lemma score_readable g d head b sc : header_fits head -> lfo_fits b -> Forall step_fits sc ->
  content g d (Ok (score_file head b sc)) ->
  readable g d (map op_command (map op_of_call (performance b sc) ++ [OpEnd])).
Proof. intros H Lb F C. apply (ops_readable g d head); [exact H|now apply ops_valid|exact C]. Qed.
Lemma score_row_length b sc o t : lfo_fits b -> Forall step_fits sc ->
  (score_row b sc o t <-> row_length (performance b sc) o t).
Proof.
  intros Lb F. pose proof (performed b sc Lb F) as K.
  assert (E : forall x, (exists e, In e (score_events b sc) /\ ev_sound e <> None /\ ev_time e = x)
    <-> exists k, In k (key_ons (performance b sc)) /\ k_time k = x).
  { intro x. rewrite <- K. split.
    - intros (e & I & S & T). apply in_map_iff in I as (k & <- & I). exists k. unfold seen in S. cbn [ev_sound] in S.
      split; [|exact T]. apply filter_In. split; [exact I|]. destruct (k_on k); congruence.
    - intros (k & I & T). apply filter_In in I as (I & On). exists (seen k). split; [now apply in_map|]. split; [|exact T].
      unfold seen. cbn [ev_sound]. rewrite On. discriminate. }
  split.
  - intros [n N|o' T t' O S M B]; [now constructor|]. apply (row_guessed _ _ T); [exact O| |exact B]. split; [exact S|].
    intro x. now rewrite M, E.
  - intros [n N|o' T t' O [S M] B]; [now constructor|]. apply (score_guessed _ _ _ T); [exact O|exact S| |exact B].
    intro x. now rewrite M, E.
Qed.

(** ** Single steps *)
Lemma drop_until_at {A} (p : A -> bool) a e r : p e = true \/ (exists y, In y a /\ p y = true) ->
  exists a', drop_until p (a ++ e :: r) = a' ++ e :: r.
Proof.
  induction a as [|x a IH]; intro H.
  - exists []. cbn. destruct H as [->|(y & [] & _)]. reflexivity.
  - cbn [app drop_until]. destruct (p x) eqn:Ex; [now exists (x :: a)|]. apply IH.
    destruct H as [H|(y & [->|I] & Py)]; [now left|congruence|right; now exists y].
Qed.
Lemma events_split : forall s1 b t has, exists has', forall s2,
  events b t has (s1 ++ s2) = events b t has s1 ++ events (lfo_after b s1) (t + lasts s1) has' s2.
Proof.
  induction s1 as [|x s1 IH]; intros b t has; [exists has; intro s2; cbn; now rewrite Z.add_0_r|].
  destruct x as [n|ch c ops p|ch|ch o n k|b'].
  - destruct (IH b (t + n) has) as (h' & H). exists h'. intro s2. cbn [app events lasts fold_right lfo_after fold_left]; fold (lasts s1) (lfo_after b s1). rewrite H. f_equal. f_equal. lia.
  - destruct (IH b t (fun x => if x =? ch then p else has x)) as (h' & H). exists h'. intro s2. cbn [app events lasts fold_right]. now rewrite H.
  - destruct (IH b t has) as (h' & H). exists h'. intro s2. cbn [app events lasts fold_right]. now rewrite H.
  - destruct (IH b t (fun x => if x =? ch then bent (has ch) o n k else has x)) as (h' & H). exists h'. intro s2. cbn [app events lasts fold_right]. now rewrite H.
  - destruct (IH b' t has) as (h' & H). exists h'. intro s2. cbn [app events lasts fold_right]. now rewrite H.
Qed.
Lemma events_from rl ch row : forall s b t has,
  (forall r1 x r2, s = r1 ++ x :: r2 -> concerns ch x -> (t + lasts r1) / rl <> row) ->
  Forall (fun e => ev_chan e = ch -> ev_time e / rl <> row) (events b t has s).
Proof.
  induction s as [|x s IH]; intros b t has H; [constructor|].
  assert (H0 : concerns ch x -> t / rl <> row).
  { intro C. specialize (H [] x s eq_refl C). cbn [lasts fold_right] in H. now rewrite Z.add_0_r in H. }
  assert (H1 : forall r1 y r2, s = r1 ++ y :: r2 -> concerns ch y -> (t + lasts (x :: r1)) / rl <> row).
  { intros r1 y r2 E C. apply (H (x :: r1) y r2); [now rewrite E|exact C]. }
  destruct x as [n|c0 c ops p|c0|c0 o n k|b']; cbn [events].
  - apply IH. intros r1 y r2 E C. specialize (H1 r1 y r2 E C). cbn [lasts fold_right] in H1. fold (lasts r1) in H1. now rewrite Z.add_assoc in H1.
  - constructor; [cbn; intro; apply H0; assumption|]. apply IH. exact H1.
  - constructor; [cbn; intro; apply H0; assumption|]. apply IH. exact H1.
  - apply IH. exact H1.
  - apply IH. exact H1.
Qed.
Lemma row_shows b s1 x s2 rl e rest : 0 < rl ->
  concerns (ev_chan e) x -> ev_time e = lasts s1 ->
  (exists b' has', rest = events b' (lasts s1) has' s2) -> row_kept rl (lasts s1) (ev_chan e) s2 ->
  events b 0 (fun _ => nc_init) (s1 ++ x :: s2) = events b 0 (fun _ => nc_init) s1 ++ e :: rest ->
  (heard e = true \/ exists y, In y (events b 0 (fun _ => nc_init) s1) /\ heard y = true) ->
  last_event rl (score_notes b (s1 ++ x :: s2) (ev_chan e)) (lasts s1 / rl)
  = Some (mknote (match ev_sound e with Some y => index_of y (sounds b (s1 ++ x :: s2)) | None => -1 end)
         (nc_right (ev_pitch e)) (nc_left (ev_pitch e)) (nc_octave (ev_pitch e)) (nc_note (ev_pitch e))
         (nc_key_fraction (ev_pitch e)) (lasts s1)).
Proof.
  intros Pos Co Te (b' & h' & Er) K Sp Hd. unfold score_notes, score_events at 1. fold heard.
  change (fun e => match ev_sound e with Some _ => true | None => false end) with heard. rewrite Sp.
  destruct (drop_until_at heard _ e rest Hd) as (a' & ->). rewrite filter_app. cbn [filter]. rewrite Z.eqb_refl. rewrite map_app. cbn [map].
  unfold last_event. rewrite filter_app. cbn [filter n_sample]. rewrite Te, Z.eqb_refl.
  match goal with |- context [rev (?a ++ ?n :: ?r)] => assert (N : r = []) end.
  { assert (Fo : Forall (fun e' => ev_chan e' = ev_chan e -> ev_time e' / rl <> lasts s1 / rl) rest).
    { rewrite Er. apply events_from. intros r1 y r2 E C. exact (K r1 y r2 E C). }
    clear -Fo. induction Fo as [|e' r H _ IH]; [reflexivity|]. cbn [filter]. destruct (Z.eqb_spec (ev_chan e') (ev_chan e)) as [Q|Q]; [|exact IH].
    cbn [map filter n_sample]. destruct (Z.eqb_spec (ev_time e' / rl) (lasts s1 / rl)) as [Q'|Q']; [now apply H in Q|exact IH]. }
  rewrite N. rewrite rev_app_distr. reflexivity.
Qed.
(** Without key events of [ch] its panning stays. *)
Lemma has_now : forall s1 b t has ch, (forall x, In x s1 -> ~ concerns ch x) ->
  exists has', nc_right (has' ch) = nc_right (has ch) /\ nc_left (has' ch) = nc_left (has ch)
  /\ forall s2, events b t has (s1 ++ s2) = events b t has s1 ++ events (lfo_after b s1) (t + lasts s1) has' s2.
Proof.
  induction s1 as [|x s1 IH]; intros b t has ch H; [exists has; split; [reflexivity|split; [reflexivity|]]; intro s2; cbn; now rewrite Z.add_0_r|].
  assert (H1 : forall y, In y s1 -> ~ concerns ch y) by (intros y I; apply H; now right).
  pose proof (H x (or_introl eq_refl)) as Hx.
  destruct x as [n|c0 c ops p|c0|c0 o n k|b']; cbn [concerns] in Hx.
  - destruct (IH b (t + n) has ch H1) as (h' & A & A' & S). exists h'. split; [exact A|]. split; [exact A'|]. intro s2.
    cbn [app events lasts fold_right lfo_after fold_left]; fold (lasts s1) (lfo_after b s1). rewrite S. f_equal. f_equal. lia.
  - destruct (IH b t (fun x => if x =? c0 then p else has x) ch H1) as (h' & A & A' & S). cbv beta in A, A'.
    replace (ch =? c0) with false in A, A' by lia. exists h'. split; [exact A|]. split; [exact A'|].
    intro s2. cbn [app events lasts fold_right]. now rewrite S.
  - destruct (IH b t has ch H1) as (h' & A & A' & S). exists h'. split; [exact A|]. split; [exact A'|]. intro s2. cbn [app events lasts fold_right]. now rewrite S.
  - destruct (IH b t (fun x => if x =? c0 then bent (has c0) o n k else has x) ch H1) as (h' & A & A' & S). cbv beta in A, A'. exists h'.
    destruct (Z.eqb_spec ch c0) as [->|N]; (split; [exact A|]; split; [exact A'|]; intro s2; cbn [app events lasts fold_right]; now rewrite S).
  - destruct (IH b' t has ch H1) as (h' & A & A' & S). exists h'. split; [exact A|]. split; [exact A'|]. intro s2. cbn [app events lasts fold_right]. now rewrite S.
Qed.
Lemma lasts_app a r : lasts (a ++ r) = lasts a + lasts r.
Proof. induction a as [|x a IH]; [reflexivity|]. destruct x; cbn [app lasts fold_right]; fold (lasts a) (lasts (a ++ r)); lia. Qed.
Lemma play_shown b s1 ch c ops p s2 rl : 0 < rl -> row_kept rl (lasts s1) ch s2 ->
  last_event rl (score_notes b (s1 ++ Play ch c ops p :: s2) ch) (lasts s1 / rl)
  = Some (mknote (index_of (mksettings (lfo_after b s1) c ops) (sounds b (s1 ++ Play ch c ops p :: s2)))
         (nc_right p) (nc_left p) (nc_octave p) (nc_note p) (nc_key_fraction p) (lasts s1)).
Proof.
  intros Pos K. destruct (events_split s1 b 0 (fun _ => nc_init)) as (h & Sp). specialize (Sp (Play ch c ops p :: s2)). rewrite Z.add_0_l in Sp. cbn [events] in Sp.
  apply (row_shows b s1 (Play ch c ops p) s2 rl (mkevent (lasts s1) ch (Some (mksettings (lfo_after b s1) c ops)) p)
    (events (lfo_after b s1) (lasts s1) (fun x => if x =? ch then p else h x) s2) Pos eq_refl eq_refl); [now eexists _, _|exact K|exact Sp|now left].
Qed.
Lemma stop_shown b s0 ch c ops p m s2 rl : 0 < rl -> (forall x, In x m -> ~ concerns ch x) ->
  let s1 := s0 ++ Play ch c ops p :: m in row_kept rl (lasts s1) ch s2 ->
  exists o n k, last_event rl (score_notes b (s1 ++ Stop ch :: s2) ch) (lasts s1 / rl)
  = Some (mknote (-1) (nc_right p) (nc_left p) o n k (lasts s1)).
Proof.
  intros Pos M s1 K.
  destruct (events_split s0 b 0 (fun _ => nc_init)) as (h0 & S0). rewrite Z.add_0_l in S0.
  destruct (has_now m (lfo_after b s0) (lasts s0) (fun x => if x =? ch then p else h0 x) ch M) as (h & A & A' & S1).
  cbv beta in A, A'. rewrite Z.eqb_refl in A, A'.
  assert (L : lasts s1 = lasts s0 + lasts m) by (unfold s1; rewrite lasts_app; reflexivity).
  assert (T : events b 0 (fun _ => nc_init) s1 = events b 0 (fun _ => nc_init) s0
     ++ mkevent (lasts s0) ch (Some (mksettings (lfo_after b s0) c ops)) p :: events (lfo_after b s0) (lasts s0) (fun x => if x =? ch then p else h0 x) m)
    by (unfold s1; now rewrite S0).
  assert (Sp : events b 0 (fun _ => nc_init) (s1 ++ Stop ch :: s2)
     = events b 0 (fun _ => nc_init) s1 ++ mkevent (lasts s1) ch None (h ch) :: events (lfo_after (lfo_after b s0) m) (lasts s1) h s2).
  { rewrite T. unfold s1 at 1. rewrite <- app_assoc. cbn [app]. rewrite S0. cbn [events]. rewrite S1. rewrite <- app_assoc. cbn [app events].
    rewrite L. reflexivity. }
  exists (nc_octave (h ch)), (nc_note (h ch)), (nc_key_fraction (h ch)). rewrite <- A, <- A'.
  apply (row_shows b s1 (Stop ch) s2 rl (mkevent (lasts s1) ch None (h ch)) (events (lfo_after (lfo_after b s0) m) (lasts s1) h s2) Pos);
    [reflexivity|reflexivity|now eexists _, _|exact K|exact Sp|].
  right. eexists. split; [rewrite T; apply in_app_iff; right; now left|reflexivity].
Qed.
