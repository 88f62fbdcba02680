(** A log has the key events of what it logs. *)
From Coq Require Import Lia ZifyBool.
From Verif.Model Require Import Py Config Note Command Song Serializer History.
From Verif.Spec Require Import VgmFormat Cli Ym2151 Rhythm Tracker Whole View Logging.
From Verif.Proofs Require Import PyLemmas StateProofs KeyProofs ChipProofs ViewProofs.
Open Scope Z_scope.
Open Scope list_scope.

(** The chip sounds alike after [h] and [h']. *)
Record alike (h h' : history) : Prop := mkalike {
  al_reg : forall r, r <> 8 -> r <> 0x19 -> heard_bits r (reg h r) = heard_bits r (reg h' r);
  al_depth : forall b, depth b h = depth b h';
  al_time : time h = time h' }.
Lemma agree_alike h h' : agree h h' -> alike h h'.
Proof. intros [R D T K]. constructor; intros; auto. now rewrite R. Qed.
Lemma alike_refl h : alike h h.
Proof. now constructor. Qed.
Lemma alike_sym a b : alike a b -> alike b a.
Proof. intros []. constructor; intros; symmetry; auto. Qed.
Lemma alike_trans a b c : alike a b -> alike b c -> alike a c.
Proof.
  intros [A1 A2 A3] [B1 B2 B3]. constructor; intros.
  - rewrite A1, B1; auto.
  - rewrite A2; auto.
  - congruence.
Qed.
Ltac pick_reg H r :=
  unfold heard_bits in H; repeat (match type of H with context [?a =? ?b] => destruct (Z.eqb_spec a b); [lia|] end);
  repeat (match type of H with context [?a <? ?b] => destruct (Z.ltb_spec a b); try lia end); injection H; clear H; intros.
Lemma alike_key_at h h' v : alike h h' -> key_at h v = key_at h' v.
Proof.
  intros [A D T]. unfold key_at. pose proof (bits_range v 2 0 ltac:(lia)) as B. change (2 ^ (2 - 0 + 1)) with 8 in B.
  set (ch := bits v 2 0) in *. clearbody ch. cbv zeta.
  assert (E1 : base_of h = base_of h').
  { unfold base_of. rewrite !D. pose proof (A 0x1B ltac:(lia) ltac:(lia)) as X. pose proof (A 0x18 ltac:(lia) ltac:(lia)) as Y.
    cbn in X, Y. injection X as X. injection Y as Y. now rewrite X, Y. }
  assert (E2 : chan_of h ch = chan_of h' ch).
  { unfold chan_of. rewrite (map_ext_in (op_of h ch) (op_of h' ch)).
    - pose proof (A (0x20 + ch) ltac:(lia) ltac:(lia)) as X. pose proof (A (0x38 + ch) ltac:(lia) ltac:(lia)) as Y.
      pose proof (A 0x0F ltac:(lia) ltac:(lia)) as W. cbn [heard_bits Z.eqb Pos.eqb] in W. injection W as W1 W2.
      pick_reg X ch. pick_reg Y ch. f_equal; try assumption; destruct (ch =? 7); try reflexivity; [|assumption]. unfold bit. now rewrite W1.
    - intros o Ho. cbn [In] in Ho. unfold op_of. cbv zeta.
      pose proof (A (0x40 + 8 * o + ch) ltac:(lia) ltac:(lia)) as X4. pose proof (A (0x60 + 8 * o + ch) ltac:(lia) ltac:(lia)) as X6.
      pose proof (A (0x80 + 8 * o + ch) ltac:(lia) ltac:(lia)) as X8. pose proof (A (0xA0 + 8 * o + ch) ltac:(lia) ltac:(lia)) as XA.
      pose proof (A (0xC0 + 8 * o + ch) ltac:(lia) ltac:(lia)) as XC. pose proof (A (0xE0 + 8 * o + ch) ltac:(lia) ltac:(lia)) as XE.
      pick_reg X4 ch. pick_reg X6 ch. pick_reg X8 ch. pick_reg XA ch. pick_reg XC ch. pick_reg XE ch.
      f_equal; try assumption. unfold bit. congruence. }
  assert (E3 : pitch_of h ch = pitch_of h' ch).
  { unfold pitch_of. pose proof (A (0x20 + ch) ltac:(lia) ltac:(lia)) as X. pose proof (A (0x28 + ch) ltac:(lia) ltac:(lia)) as Y.
    pose proof (A (0x30 + ch) ltac:(lia) ltac:(lia)) as W. pick_reg X ch. pick_reg Y ch. pick_reg W ch.
    f_equal; try assumption; unfold bit; congruence. }
  now rewrite T, E1, E2, E3.
Qed.
Lemma alike_snoc h h' c c' : alike h h' -> sounds_alike c c' -> alike (h ++ [c]) (h' ++ [c']).
Proof.
  intros A S. destruct c as [r v|n], c' as [r' v'|n']; cbn in S; try contradiction.
  - destruct S as [<- S]. constructor.
    + intros x H H'. rewrite !reg_snoc. destruct (Z.eqb_spec r x) as [->|]; [exact S|]. now apply (al_reg _ _ A).
    + intros b. pose proof (al_depth _ _ A b) as D. unfold depth in *. rewrite !last_such_snoc.
      destruct (Z.eqb_spec r 25) as [->|]; cbn [andb]; [|assumption]. cbn in S. injection S as S1 S2. unfold bit in *. rewrite S1.
      destruct (Bool.eqb (bits v' 7 7 =? 1) b); [exact S2|assumption].
    + rewrite !time_snoc. now rewrite (al_time _ _ A).
  - subst n'. constructor.
    + intros x H H'. rewrite !reg_beat. now apply (al_reg _ _ A).
    + intros b. pose proof (al_depth _ _ A b) as D. unfold depth in *. now rewrite !last_such_snoc.
    + rewrite !time_snoc. now rewrite (al_time _ _ A).
Qed.
Lemma same_alike c : sounds_alike c c.
Proof. destruct c; cbn; auto. Qed.
Lemma key_alike h h' v v' : alike h h' -> heard_bits 8 v = heard_bits 8 v' -> key_at h v = key_at h' v'.
Proof.
  intros A H. cbn in H. injection H as H1 H2. rewrite (alike_key_at _ _ v A). unfold key_at. now rewrite H1, H2.
Qed.
Lemma alike_keys : forall a p p', alike p p' -> keys_from p a = keys_from p' a.
Proof.
  induction a as [|c a IH]; intros p p' A; [reflexivity|]. cbn [keys_from]. rewrite (IH _ _ (alike_snoc _ _ c c A (same_alike c))).
  destruct c as [r v|n]; [|reflexivity]. destruct (r =? 8); [|reflexivity]. now rewrite (alike_key_at _ _ v A).
Qed.
Lemma alike_unheard h r v : unheard r -> alike (h ++ [Apply r v]) h.
Proof.
  intros U. destruct U as [U1 U2]. cbn [In] in U2. constructor.
  - intros x _ _. rewrite reg_snoc. destruct (Z.eqb_spec r x) as [->|]; [|reflexivity]. unfold heard_bits.
    repeat (match goal with |- context [?a =? ?b] => destruct (Z.eqb_spec a b); [lia|] end).
    destruct (Z.ltb_spec x 32); [reflexivity|lia].
  - intros b. unfold depth. rewrite last_such_snoc. destruct (Z.eqb_spec r 25) as [->|]; [lia|reflexivity].
  - rewrite time_snoc. lia.
Qed.
Lemma keys_silent p r v a : r <> 8 -> keys_from p (Apply r v :: a) = keys_from (p ++ [Apply r v]) a.
Proof. intro H. cbn [keys_from]. replace (r =? 8) with false by lia. reflexivity. Qed.
Theorem logged_keys : forall q a l, logged q a l -> forall p, alike p q -> keys_from p a = keys_from q l.
Proof.
  induction 1 as [q|q c c' a l S _ IH|q r v a l N H _ IH|q r v a l N H _ IH|q r v a l U _ IH|q g a l _ IH|q g n m a l _ IH|q g n m a l _ IH
    |q g r v r' v' a l N N' D _ IH|q g r v n a l N _ IH|q g r v n a l N _ IH]; intros p A.
  - reflexivity.
  - cbn [keys_from]. rewrite (IH _ (alike_snoc _ _ c c' A S)). destruct c as [r v|n], c' as [r' v'|n']; cbn in S; try contradiction.
    + destruct S as [<- S]. destruct (Z.eqb_spec r 8) as [->|]; [|reflexivity]. now rewrite (key_alike _ _ _ _ A S).
    + reflexivity.
  - rewrite keys_silent by exact N. apply IH. apply (alike_trans _ (q ++ [Apply r v])); [exact (alike_snoc _ _ _ _ A (same_alike _))|].
    apply agree_alike. now apply agree_redundant.
  - rewrite keys_silent by exact N. apply IH. apply (alike_trans _ q); [exact A|].
    apply alike_sym, agree_alike. now apply agree_redundant.
  - assert (N : r <> 8) by (intros ->; destruct U as [_ U]; apply U; cbn; lia).
    rewrite keys_silent by exact N. apply IH. apply (alike_trans _ q); [exact A|]. apply alike_sym. now apply alike_unheard.
  - rewrite <- (IH p A), !keys_from_app. f_equal. cbn [keys_from app]. apply alike_keys. apply agree_alike, agree_zero.
  - rewrite <- (IH p A), !keys_from_app. f_equal. cbn [keys_from app]. apply alike_keys. rewrite <- (app_assoc (p ++ g)). apply agree_alike, agree_split.
  - rewrite <- (IH p A), !keys_from_app. f_equal. cbn [keys_from app]. apply alike_keys. rewrite <- (app_assoc (p ++ g)). apply alike_sym, agree_alike, agree_split.
  - rewrite <- (IH p A), !keys_from_app. f_equal. rewrite !keys_silent by assumption. rewrite <- !(app_assoc (p ++ g)). apply alike_keys. apply agree_alike. now apply agree_swap.
  - rewrite <- (IH p A), !keys_from_app. f_equal. cbn [keys_from app]. replace (r =? 8) with false by lia. cbn [app]. rewrite <- !(app_assoc (p ++ g)). apply alike_keys.
    apply agree_alike. now apply agree_late.
  - rewrite <- (IH p A), !keys_from_app. f_equal. cbn [keys_from app]. replace (r =? 8) with false by lia. cbn [app]. rewrite <- !(app_assoc (p ++ g)). apply alike_keys.
    apply alike_sym, agree_alike. now apply agree_late.
Qed.

(** What a file, a song and an instrument list say depends on the key events. *)
Section SameKeys.
  Variables (h h' : history).
  Hypothesis K : keys h = keys h'.
  Lemma k_ons : key_ons h = key_ons h'. Proof. unfold key_ons. now rewrite K. Qed.
  Lemma k_distinct : distinct h = distinct h'. Proof. unfold distinct. now rewrite k_ons. Qed.
  Lemma k_notes ch : notes h ch = notes h' ch.
  Proof. unfold notes, recorded. rewrite K. apply map_ext. intro k. unfold note_of. now rewrite k_distinct. Qed.
  Lemma k_all : all_notes h = all_notes h'.
  Proof. unfold all_notes. apply flat_map_ext. exact k_notes. Qed.
  Lemma k_row o t : row_length h o t -> row_length h' o t.
  Proof.
    intros [n N|o' T t' O [S M] B]; [now constructor|]. apply (row_guessed _ _ T); [exact O| |exact B]. split; [exact S|].
    intro x. now rewrite M, k_ons.
  Qed.
  Lemma k_shows t doc : song_shows h t doc -> song_shows h' t doc.
  Proof.
    intros [T L I Tr Pt Pn Sq Ce]. constructor; try assumption.
    - now rewrite <- k_distinct.
    - intro m. now rewrite Pn, k_all.
    - intros ch p l A B C. rewrite <- k_notes. now apply Ce.
  Qed.
  Lemma k_instruments txt : instruments_shown h txt -> instruments_shown h' txt.
  Proof. intros (l & J & S). exists l. split; [exact J|]. unfold instruments in *. now rewrite <- k_distinct. Qed.
End SameKeys.
Lemma logged_same h l : logged [] h l -> keys h = keys l.
Proof. intro G. exact (logged_keys _ _ _ G [] (alike_refl [])). Qed.
