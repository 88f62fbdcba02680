(** The object-level methods simulate the value-level ones; a new State object; a
    process with many State objects. *)
From Coq Require Import Lia ZifyBool Permutation.
From Verif.Model Require Import Py Config Note State Extract History Heap.
From Verif.Proofs Require Import HeapProofs.
Open Scope nat_scope.

(** ** Two assignments to the same object *)
Lemma slot_set {A} k (x : A) l i : py_slot (set_nth k x l) i = py_slot l i.
Proof. unfold py_slot, len. now rewrite set_nth_length. Qed.
Lemma set_set {A} k (x y : A) l : set_nth k y (set_nth k x l) = set_nth k y l.
Proof. revert k. induction l as [|a l IH]; intros [|k]; cbn; f_equal; auto. Qed.
Lemma get_inv {A} (l : list A) i x : py_get l i = Ok x ->
  exists k, py_slot l i = Some k /\ nth_error l k = Some x /\ k < length l.
Proof.
  unfold py_get. destruct (py_slot l i) as [k|]; [|discriminate]. destruct (nth_error l k) eqn:E; [|discriminate].
  intro X. injection X as ->. exists k. split; [reflexivity|]. split; [assumption|]. apply nth_error_Some. congruence.
Qed.
Lemma get_set_same {A} (l : list A) i k x : py_slot l i = Some k -> k < length l -> py_get (set_nth k x l) i = Ok x.
Proof. intros E L. unfold py_get. rewrite slot_set, E. now rewrite nth_set_same. Qed.
Lemma set_set_same {A} (l : list A) i k x y : py_slot l i = Some k -> py_set (set_nth k x l) i y = Ok (set_nth k y l).
Proof. intros E. unfold py_set. rewrite slot_set, E. now rewrite set_set. Qed.

Lemma note_twice s ch g1 g2 : bind (upd_note s ch g1) (fun s => upd_note s ch g2) = upd_note s ch (fun n => g2 (g1 n)).
Proof.
  unfold upd_note. destruct (py_get (s_notes s) ch) as [c|] eqn:E; [|reflexivity].
  destruct (get_inv _ _ _ E) as (k & S & N & L). cbn [bind]. rewrite !(py_set_slot _ _ _ _ S). cbn [bind].
  cbn [s_notes set_notes]. rewrite (get_set_same _ _ _ _ S L). cbn [bind]. rewrite (set_set_same _ _ _ _ _ S). reflexivity.
Qed.
Lemma channel_twice s ch g1 g2 : bind (upd_channel s ch g1) (fun s => upd_channel s ch g2) = upd_channel s ch (fun n => g2 (g1 n)).
Proof.
  unfold upd_channel. destruct (py_get (s_channels s) ch) as [c|] eqn:E; [|reflexivity].
  destruct (get_inv _ _ _ E) as (k & S & N & L). cbn [bind]. rewrite !(py_set_slot _ _ _ _ S). cbn [bind].
  cbn [s_channels set_channels]. rewrite (get_set_same _ _ _ _ S L). cbn [bind]. rewrite (set_set_same _ _ _ _ _ S). reflexivity.
Qed.
Lemma operator_twice s ch op g1 g2 :
  bind (upd_operator s ch op g1) (fun s => upd_operator s ch op g2) = upd_operator s ch op (fun n => g2 (g1 n)).
Proof.
  unfold upd_operator. destruct (py_get (s_channels s) ch) as [c|] eqn:E; [|reflexivity].
  destruct (get_inv _ _ _ E) as (k & S & N & L). cbn [bind].
  destruct (py_get (ch_operators c) op) as [o|] eqn:E'; [|reflexivity].
  destruct (get_inv _ _ _ E') as (k' & S' & N' & L'). cbn [bind]. rewrite !(py_set_slot _ _ _ _ S'). cbn [bind].
  rewrite !(py_set_slot _ _ _ _ S). cbn [bind]. cbn [s_channels set_channels].
  rewrite (get_set_same _ _ _ _ S L). cbn [bind ch_operators set_operators].
  rewrite (get_set_same _ _ _ _ S' L'). cbn [bind]. rewrite (set_set_same _ _ _ _ _ S'). cbn [bind].
  rewrite (set_set_same _ _ _ _ _ S). cbn [bind]. reflexivity.
Qed.
Lemma bind_assoc {A B C} (m : res A) (f : A -> res B) (g : B -> res C) :
  bind (bind m f) g = bind m (fun a => bind (f a) g).
Proof. now destruct m. Qed.

(** ** State.apply *)
Definition on_value (g : chan_obj -> chan_obj) (c : chan_config) : chan_config :=
  chan_value (g (mkco 0 (ch_fb c) (ch_ams c) (ch_pms c) (ch_connection c) (ch_noise c) (ch_noise_freq c))) (ch_operators c).
Ltac chan_ := match goal with |- sim ?r (on_chan ?r ?c ?g) _ => apply (sim_chan r c g (on_value g)) end; [reflexivity|intros; reflexivity].
Lemma sim_apply r reg value : sim r (happly r reg value) (apply reg value).
Proof.
  unfold happly, apply. set (ch := Z.land reg 7). set (op := Z.land (Z.shiftr reg 3) 3).
  destruct (reg =? 8)%Z; [apply sim_key|].
  destruct (reg =? 15)%Z.
  { eapply sim_ext; [|apply sim_seq; [chan_|chan_]]. intro s. etransitivity; [apply channel_twice|]. reflexivity. }
  destruct (reg =? 24)%Z; [apply sim_base|].
  destruct (reg =? 25)%Z; [destruct (0 <? Z.land value 128)%Z; apply sim_base|].
  destruct (reg =? 27)%Z.
  { destruct (waveform_of (Z.land value 3)); [apply sim_base|]. intros h s F G q s' R E. discriminate. }
  destruct (Z.land reg 248 =? 32)%Z.
  { eapply sim_ext; [|apply sim_seq; [apply sim_nc|apply sim_seq; [apply sim_nc|apply sim_seq; [chan_|chan_]]]].
    intro s. cbn beta. rewrite <- bind_assoc. rewrite note_twice.
    destruct (upd_note s ch _); [|reflexivity]. cbn [bind]. etransitivity; [apply channel_twice|]. reflexivity. }
  destruct (Z.land reg 248 =? 40)%Z.
  { eapply sim_ext; [|apply sim_seq; apply sim_nc]. intro s. etransitivity; [apply note_twice|]. reflexivity. }
  destruct (Z.land reg 248 =? 48)%Z; [apply sim_nc|].
  destruct (Z.land reg 248 =? 56)%Z.
  { eapply sim_ext; [|apply sim_seq; [chan_|chan_]]. intro s. etransitivity; [apply channel_twice|]. reflexivity. }
  destruct (Z.land reg 224 =? 64)%Z.
  { eapply sim_ext; [|apply sim_seq; apply sim_op]. intro s. etransitivity; [apply operator_twice|]. reflexivity. }
  destruct (Z.land reg 224 =? 96)%Z; [apply sim_op|].
  destruct (Z.land reg 224 =? 128)%Z.
  { eapply sim_ext; [|apply sim_seq; apply sim_op]. intro s. etransitivity; [apply operator_twice|]. reflexivity. }
  destruct (Z.land reg 224 =? 160)%Z.
  { eapply sim_ext; [|apply sim_seq; apply sim_op]. intro s. etransitivity; [apply operator_twice|]. reflexivity. }
  destruct (Z.land reg 224 =? 192)%Z.
  { eapply sim_ext; [|apply sim_seq; apply sim_op]. intro s. etransitivity; [apply operator_twice|]. reflexivity. }
  destruct (Z.land reg 224 =? 224)%Z.
  { eapply sim_ext; [|apply sim_seq; apply sim_op]. intro s. etransitivity; [apply operator_twice|]. reflexivity. }
  apply sim_ret.
Qed.
Lemma sim_call r c : sim r (hcall r c) (fun s => do_call s c).
Proof. destruct c; [apply sim_apply|apply sim_beat]. Qed.

(** ** A new State object *)
Lemma fill_ops : forall n l acc h, get h l = Some (OList acc) ->
  exists h' ys, repeat_do n (do! o <- new_op; append l o) h = Ok (tt, h') /\ get h' l = Some (OList (acc ++ ys))
    /\ Forall2 (rep_op h') ys (repeat op_init n) /\ (forall i, In i ys -> length h <= i) /\ NoDup ys
    /\ length h <= length h' /\ (forall i, i < length h -> i <> l -> get h' i = get h i).
Proof.
  induction n as [|n IH]; intros l acc h E.
  - exists h, []. rewrite app_nil_r. repeat split; auto; constructor || (intros i []).
  - cbn [repeat_do].
    set (m := length h). set (h1 := set_nth l (OList (acc ++ [m])) (h ++ [OOp op_init])).
    assert (B : l < length h) by (eapply get_bound; eassumption).
    assert (L1 : length h1 = S (length h)) by (unfold h1; rewrite set_nth_length, app_length; cbn; lia).
    assert (E1 : get (h ++ [OOp op_init]) l = Some (OList acc)) by now apply get_app.
    assert (O1 : forall i, i < length h -> i <> l -> get h1 i = get h i).
    { intros i L N. unfold h1. rewrite nth_set_other by congruence. now apply nth_error_app1. }
    assert (E2 : get h1 l = Some (OList (acc ++ [m]))) by (apply nth_set_same; rewrite app_length; cbn; lia).
    assert (En : get h1 m = Some (OOp op_init)).
    { unfold h1. rewrite nth_set_other by (unfold m; lia). apply get_new. }
    destruct (IH l (acc ++ [m]) h1 E2) as (h' & ys & X1 & X2 & X3 & X4 & X5 & X6 & X7).
    exists h', (m :: ys). rewrite <- app_assoc in X2.
    split; [|split; [exact X2|split; [|split; [|split; [|split]]]]].
    + rewrite (hbind_ok _ _ _ tt h1); [exact X1|]. unfold new_op. by_ (f_alloc h (OOp op_init)). exact (f_append _ _ _ _ E1).
    + constructor; [|assumption]. unfold rep_op. rewrite X7; [assumption|rewrite L1; unfold m; lia|unfold m; lia].
    + intros i [<-|I]; [reflexivity|]. apply X4 in I. lia.
    + constructor; [|assumption]. intro I. apply X4 in I. unfold m in I. lia.
    + lia.
    + intros i Li Ni. rewrite X7 by (try assumption; lia). now apply O1.
Qed.
Lemma new_chan_ok h : exists h' r, new_chan h = Ok (r, h') /\ extends h h' /\ rep_chan h' r ch_init
  /\ (forall i, In i (chan_fp h' r) -> length h <= i) /\ NoDup (chan_fp h' r).
Proof.
  set (l := length h). set (c := OChan (mkco l 0 0 0 0 false 0)). set (h1 := h ++ [OList []]). set (r := length h1).
  set (h2 := h1 ++ [c]).
  assert (L1 : length h1 = S (length h)) by (unfold h1; rewrite app_length; cbn; lia).
  assert (L2 : length h2 = S (S (length h))) by (unfold h2; rewrite app_length; cbn; lia).
  assert (E : get h2 l = Some (OList [])) by (apply get_app, get_new).
  assert (Er : get h2 r = Some c) by apply get_new.
  destruct (fill_ops 4 l [] h2 E) as (h' & ys & X1 & X2 & X3 & X4 & X5 & X6 & X7). cbn [app] in X2.
  assert (Er' : get h' r = Some c) by (rewrite X7; [assumption|unfold r; lia|unfold r, l; lia]).
  assert (FP : chan_fp h' r = r :: l :: ys).
  { unfold chan_fp. rewrite Er'. unfold c. cbn [co_operators]. unfold items. now rewrite X2. }
  exists h', r. split; [|split; [|split; [|split]]].
  - unfold new_chan. by_ (f_alloc h (OList [])). fold l h1. by_ (f_alloc h1 c). fold r h2. by_ X1. reflexivity.
  - split; [lia|]. intros i Li. rewrite X7 by (unfold l; lia). unfold h2, h1. rewrite !nth_error_app1; [reflexivity|lia|rewrite app_length; cbn; lia].
  - exists (mkco l 0 0 0 0 false 0), ys. split; [assumption|]. split; [assumption|]. split; [exact X3|reflexivity].
  - rewrite FP. intros i [<-|[<-|I]]; [unfold r; lia|unfold l; lia|]. apply X4 in I. lia.
  - rewrite FP. constructor; [|constructor; [|assumption]].
    + intros [I|I]; [unfold r, l in I; lia|]. apply X4 in I. unfold r in I. lia.
    + intro I. apply X4 in I. unfold l in I. lia.
Qed.

Lemma perm1 {A} (a b x c : list A) : Permutation (x ++ a ++ b ++ c) (a ++ (b ++ x) ++ c).
Proof.
  rewrite <- (app_assoc b x c). rewrite !(app_assoc a b). rewrite (app_assoc x (a ++ b) c), (app_assoc (a ++ b) x c).
  apply Permutation_app_tail, Permutation_app_comm.
Qed.
Lemma grow_ok {T} (x F F' : list T) : Permutation (x ++ F) F' -> NoDup x -> NoDup F -> (forall i, In i x -> ~ In i F) ->
  NoDup F' /\ (forall i, In i F' <-> In i x \/ In i F).
Proof.
  intros P N1 N2 D. split.
  - eapply Permutation_NoDup; [exact P|]. apply NoDup_app_iff. split; [assumption|]. split; [assumption|]. exact D.
  - intro i. rewrite <- in_app_iff. split; apply Permutation_in; [now apply Permutation_sym|assumption].
Qed.

Section Grow.
  Variables (h : heap) (r : ref) (s : state) (F : list ref) (G : list ref) (q : parts).
  Hypothesis R : repq h r s F G q.
  Let Q : rep_parts h r s q := proj1 R.

  (** self._channel_key_presses.append([]) *)
  Lemma add_press p : get h p = Some (OList []) -> ~ In p F -> ~ In p G ->
    exists h' F' q', append (so_presses (q_so q)) p h = Ok (tt, h')
      /\ repq h' r (set_key_presses s (s_key_presses s ++ [[]])) F' G q' /\ length h' = length h
      /\ (forall i, ~ In i F -> get h' i = get h i) /\ (forall i, In i F' -> i = p \/ In i F) /\ q_so q' = q_so q.
  Proof.
    intros E NF NG. pose proof R as (_ & EF & EG & ND & D). subst F G.
    set (x := so_presses (q_so q)). set (o := OList (q_ps q ++ [p])). set (h' := set_nth x o h).
    assert (X7 : In x (seven r (q_so q))) by (cbn; unfold x; tauto).
    destruct (update_seven h r s q x o Q ND D X7) as (B & Ap & P1 & P2 & C1 & C2 & N1 & G1 & G2 & V).
    fold h' in Ap, P1, P2, C1, C2, N1, G1, G2, V.
    set (q' := mkparts (q_so q) (q_ps q ++ [p]) (q_cs q) (q_ns q) (q_gs q)).
    assert (Ep : get h' p = Some (OList [])).
    { unfold h'. rewrite nth_set_other; [assumption|]. intros <-. now apply NF, in_seven. }
    destruct (grow_ok [p] (live_of h r q) (live_of h' r q')) as [ND' IN'].
    { unfold live_of, q'. cbn [q_so q_ps q_cs q_ns q_gs]. rewrite C2. apply perm1. }
    { constructor; [intros []|constructor]. }
    { assumption. }
    { intros i [<-|[]]. assumption. }
    exists h', (live_of h' r q'), q'. split; [apply f_append, Q|]. split; [|split; [apply set_nth_length|split; [|split; [|reflexivity]]]].
    - split; [|split; [reflexivity|split; [|split; [assumption|]]]].
      + seven_nodup ND. constructor; cbn [q_so q_ps q_cs q_ns q_gs q' set_key_presses s_key_presses s_channels s_notes s_base s_configs s_samples s_note_beats s_first_beat]; try assumption; try apply Q.
        all: try (apply Forall2_app; [assumption|]; constructor; [|constructor]; exists []; now split; [|constructor]).
        all: try (unfold h', x; apply nth_set_same; assumption).
        all: unfold h', x; rewrite nth_set_other by (let X := fresh in intro X; first [tauto | symmetry in X; tauto]); apply Q.
      + unfold frozen_of, q'. cbn [q_gs q_ps]. rewrite G2, flat_map_app, P2. cbn [flat_map]. unfold items at 3. rewrite Ep. now rewrite !app_nil_r.
      + intros i I J. apply IN' in I as [[<-|[]]|I]; [contradiction|now apply (D i)].
    - intros i N. apply nth_set_other. intros <-. now apply N, in_seven.
    - intros i I. apply IN' in I as [[<-|[]]|I]; auto.
  Qed.
  (** self._channel_configs.append(ChannelConfig()) *)
  Lemma add_chan c v : rep_chan h c v -> (forall i, In i (chan_fp h c) -> ~ In i F /\ ~ In i G) -> NoDup (chan_fp h c) ->
    exists h' F' q', append (so_channels (q_so q)) c h = Ok (tt, h')
      /\ repq h' r (set_channels s (s_channels s ++ [v])) F' G q' /\ length h' = length h
      /\ (forall i, ~ In i F -> get h' i = get h i) /\ (forall i, In i F' -> In i (chan_fp h c) \/ In i F) /\ q_so q' = q_so q.
  Proof.
    intros E NFG NDc. pose proof R as (_ & EF & EG & ND & D). subst F G.
    set (x := so_channels (q_so q)). set (o := OList (q_cs q ++ [c])). set (h' := set_nth x o h).
    assert (X7 : In x (seven r (q_so q))) by (cbn; unfold x; tauto).
    destruct (update_seven h r s q x o Q ND D X7) as (B & Ap & P1 & P2 & C1 & C2 & N1 & G1 & G2 & V).
    fold h' in Ap, P1, P2, C1, C2, N1, G1, G2, V.
    set (q' := mkparts (q_so q) (q_ps q) (q_cs q ++ [c]) (q_ns q) (q_gs q)).
    destruct (chan_frame h h' c v) as [Ec Fc]; [|assumption|].
    { apply agree_store. intro I. apply NFG in I as [I _]. now apply I, in_seven. }
    destruct (grow_ok (chan_fp h c) (live_of h r q) (live_of h' r q')) as [ND' IN'].
    { unfold live_of, q'. cbn [q_so q_ps q_cs q_ns q_gs]. rewrite flat_map_app, C2. cbn [flat_map]. rewrite Fc, app_nil_r.
      eapply Permutation_trans; [apply Permutation_app_comm|]. rewrite <- !app_assoc. apply Permutation_refl. }
    { assumption. }
    { assumption. }
    { intros i I. now apply NFG. }
    exists h', (live_of h' r q'), q'. split; [apply f_append, Q|]. split; [|split; [apply set_nth_length|split; [|split; [|reflexivity]]]].
    - split; [|split; [reflexivity|split; [|split; [assumption|]]]].
      + seven_nodup ND. constructor; cbn [q_so q_ps q_cs q_ns q_gs q' set_channels s_key_presses s_channels s_notes s_base s_configs s_samples s_note_beats s_first_beat]; try assumption; try apply Q.
        all: try (apply Forall2_app; [assumption|]; constructor; [assumption|constructor]).
        all: try (unfold h', x; apply nth_set_same; assumption).
        all: unfold h', x; rewrite nth_set_other by (let X := fresh in intro X; first [tauto | symmetry in X; tauto]); apply Q.
      + unfold frozen_of, q'. cbn [q_gs q_ps]. now rewrite G2, P2.
      + intros i I J. apply IN' in I as [I|I]; [now apply NFG in I|now apply (D i)].
    - intros i N. apply nth_set_other. intros <-. now apply N, in_seven.
    - intros i I. apply IN' in I. tauto.
  Qed.
  (** self._note_configs.append(NoteConfig()) *)
  Lemma add_nc n v : get h n = Some (ONc v) -> ~ In n F -> ~ In n G ->
    exists h' F' q', append (so_notes (q_so q)) n h = Ok (tt, h')
      /\ repq h' r (set_notes s (s_notes s ++ [v])) F' G q' /\ length h' = length h
      /\ (forall i, ~ In i F -> get h' i = get h i) /\ (forall i, In i F' -> i = n \/ In i F) /\ q_so q' = q_so q.
  Proof.
    intros E NF NG. pose proof R as (_ & EF & EG & ND & D). subst F G.
    set (x := so_notes (q_so q)). set (o := OList (q_ns q ++ [n])). set (h' := set_nth x o h).
    assert (X7 : In x (seven r (q_so q))) by (cbn; unfold x; tauto).
    destruct (update_seven h r s q x o Q ND D X7) as (B & Ap & P1 & P2 & C1 & C2 & N1 & G1 & G2 & V).
    fold h' in Ap, P1, P2, C1, C2, N1, G1, G2, V.
    set (q' := mkparts (q_so q) (q_ps q) (q_cs q) (q_ns q ++ [n]) (q_gs q)).
    assert (Ep : get h' n = Some (ONc v)).
    { unfold h'. rewrite nth_set_other; [assumption|]. intros <-. now apply NF, in_seven. }
    destruct (grow_ok [n] (live_of h r q) (live_of h' r q')) as [ND' IN'].
    { unfold live_of, q'. cbn [q_so q_ps q_cs q_ns q_gs]. rewrite C2. rewrite !(app_assoc _ (q_ps q)). apply perm1. }
    { constructor; [intros []|constructor]. }
    { assumption. }
    { intros i [<-|[]]. assumption. }
    exists h', (live_of h' r q'), q'. split; [apply f_append, Q|]. split; [|split; [apply set_nth_length|split; [|split; [|reflexivity]]]].
    - split; [|split; [reflexivity|split; [|split; [assumption|]]]].
      + seven_nodup ND. constructor; cbn [q_so q_ps q_cs q_ns q_gs q' set_notes s_key_presses s_channels s_notes s_base s_configs s_samples s_note_beats s_first_beat]; try assumption; try apply Q.
        all: try (apply Forall2_app; [assumption|]; constructor; [assumption|constructor]).
        all: try (unfold h', x; apply nth_set_same; assumption).
        all: unfold h', x; rewrite nth_set_other by (let X := fresh in intro X; first [tauto | symmetry in X; tauto]); apply Q.
      + unfold frozen_of, q'. cbn [q_gs q_ps]. now rewrite G2, P2.
      + intros i I J. apply IN' in I as [[<-|[]]|I]; [contradiction|now apply (D i)].
    - intros i N. apply nth_set_other. intros <-. now apply N, in_seven.
    - intros i I. apply IN' in I as [[<-|[]]|I]; auto.
  Qed.
End Grow.

Definition blank (a b c : nat) : state := mkstate (repeat [] a) (repeat ch_init b) (repeat nc_init c) base_init [] 0 [] None.
Lemma repeat_snoc {A} (x : A) n : repeat x n ++ [x] = repeat x (S n).
Proof. induction n as [|n IH]; [reflexivity|]. cbn [repeat app]. f_equal. exact IH. Qed.
(** A State under construction in a heap that extends [h0]. *)
Definition building (h0 h : heap) (r : ref) (so : state_obj) (s : state) : Prop :=
  exists F q, repq h r s F [] q /\ q_so q = so /\ extends h0 h /\ forall i, In i F -> length h0 <= i.
Lemma building_extends h0 h r so s h' : building h0 h r so s -> extends h h' -> building h0 h' r so s.
Proof.
  intros (F & q & R & S & X & B) X'. exists F, q.
  split; [now apply (repq_extends h h')|]. split; [assumption|]. split; [eapply extends_trans; eassumption|assumption].
Qed.
Lemma extends_write h0 h h' (F : list ref) : extends h0 h -> length h' = length h -> (forall i, ~ In i F -> get h' i = get h i) ->
  (forall i, In i F -> length h0 <= i) -> extends h0 h'.
Proof.
  intros [L A] L' O B. split; [lia|]. intros i Li. rewrite O; [now apply A|]. intro I. apply B in I. lia.
Qed.
Lemma init_round h0 h r so k : building h0 h r so (blank k k k) ->
  exists h', (do! p <- alloc (OList []); do! _ <- append (so_presses so) p;
     do! c <- new_chan; do! _ <- append (so_channels so) c;
     do! n <- new_nc; append (so_notes so) n) h = Ok (tt, h') /\ building h0 h' r so (blank (S k) (S k) (S k)).
Proof.
  intros B. pose proof B as (F1 & q1 & R0 & S1 & X0 & B1).
  destruct (repq_extends _ _ _ _ _ _ _ R0 (extends_alloc h (OList []))) as [R1 _].
  pose proof (extends_trans _ _ _ X0 (extends_alloc h (OList []))) as X1.
  set (h1 := h ++ [OList []]) in *.
  assert (N1 : ~ In (length h) F1).
  { intro I. assert (length h < length h) by (apply (rep_bounds _ _ _ _ _ (ex_intro _ q1 R0)), in_app_iff; now left). lia. }
  destruct (add_press h1 r _ F1 [] q1 R1 (length h)) as (h2 & F2 & q2 & M2 & R2 & L2 & O2 & I2 & S2); [apply get_new|assumption|intros []|].
  rewrite S1 in M2, S2.
  assert (X2 : extends h0 h2) by (eapply extends_write; eassumption).
  assert (B2 : forall i, In i F2 -> length h0 <= i).
  { intros i I. apply I2 in I as [->|I]; [|auto]. destruct B as (_ & _ & _ & _ & [X _] & _). exact X. }
  destruct (new_chan_ok h2) as (h3 & c & M3 & X3 & RC & FC & NC).
  destruct (repq_extends _ _ _ _ _ _ _ R2 X3) as [R3 _].
  pose proof (rep_bounds _ _ _ _ _ (ex_intro _ q2 R2)) as BD2.
  destruct (add_chan h3 r _ F2 [] q2 R3 c ch_init RC) as (h4 & F4 & q4 & M4 & R4 & L4 & O4 & I4 & S4).
  { intros i I. split; [|intros []]. intro J. apply FC in I. assert (i < length h2) by (apply BD2, in_app_iff; now left). lia. }
  { assumption. }
  rewrite S2 in M4, S4.
  assert (X03 : extends h0 h3) by (eapply extends_trans; eassumption).
  assert (X4 : extends h0 h4) by (eapply extends_write; eassumption).
  assert (B4 : forall i, In i F4 -> length h0 <= i).
  { intros i I. apply I4 in I as [I|I]; [|auto]. apply FC in I. destruct X2 as [X2 _]. lia. }
  set (h5 := h4 ++ [ONc nc_init]).
  destruct (repq_extends _ _ _ _ _ _ _ R4 (extends_alloc h4 (ONc nc_init))) as [R5 _]. fold h5 in R5.
  pose proof (rep_bounds _ _ _ _ _ (ex_intro _ q4 R4)) as BD4.
  destruct (add_nc h5 r _ F4 [] q4 R5 (length h4) nc_init) as (h6 & F6 & q6 & M6 & R6 & L6 & O6 & I6 & S6).
  { apply get_new. }
  { intro I. assert (length h4 < length h4) by (apply BD4, in_app_iff; now left). lia. }
  { intros []. }
  rewrite S4 in M6, S6.
  exists h6. split.
  - by_ (f_alloc h (OList [])). fold h1. by_ M2. by_ M3. by_ M4. unfold new_nc. by_ (f_alloc h4 (ONc nc_init)). exact M6.
  - exists F6, q6. split; [|split; [assumption|split]].
    + replace (blank (S k) (S k) (S k)) with
        (set_notes (set_channels (set_key_presses (blank k k k) (s_key_presses (blank k k k) ++ [[]]))
           (s_channels (set_key_presses (blank k k k) (s_key_presses (blank k k k) ++ [[]])) ++ [ch_init]))
           (s_notes (set_channels (set_key_presses (blank k k k) (s_key_presses (blank k k k) ++ [[]]))
           (s_channels (set_key_presses (blank k k k) (s_key_presses (blank k k k) ++ [[]])) ++ [ch_init])) ++ [nc_init])); [exact R6|].
      unfold blank, set_notes, set_channels, set_key_presses. cbn [s_key_presses s_channels s_notes s_base s_configs s_samples s_note_beats s_first_beat].
      now rewrite !repeat_snoc.
    + eapply extends_write with (h := h5); [|exact L6|exact O6|exact B4]. eapply extends_trans; [exact X4|apply extends_alloc].
    + intros i I. apply I6 in I as [->|I]; [|auto]. destruct X4. lia.
Qed.
Lemma init_rounds h0 r so : forall n k h, building h0 h r so (blank k k k) ->
  exists h', repeat_do n (do! p <- alloc (OList []); do! _ <- append (so_presses so) p;
     do! c <- new_chan; do! _ <- append (so_channels so) c;
     do! n <- new_nc; append (so_notes so) n) h = Ok (tt, h') /\ building h0 h' r so (blank (k + n) (k + n) (k + n)).
Proof.
  induction n as [|n IH]; intros k h B; cbn [repeat_do].
  - exists h. rewrite Nat.add_0_r. auto.
  - destruct (init_round _ _ _ _ _ B) as (h1 & M1 & B1). destruct (IH _ _ B1) as (h2 & M2 & B2).
    exists h2. split; [by_ M1; exact M2|]. now replace (k + S n) with (S k + n) by lia.
Qed.
Lemma get_at h L k : get (h ++ L) (length h + k) = nth_error L k.
Proof. rewrite nth_error_app2 by lia. f_equal. lia. Qed.
Lemma new_state_ok h : exists h' r F, new_state h = Ok (r, h') /\ rep h' r state_init F [] /\ extends h h'
  /\ forall i, In i F -> length h <= i.
Proof.
  set (n := length h).
  set (so := mkso (n + 0) (n + 1) (n + 2) (n + 3) (n + 4) 0 (n + 5) None).
  set (L := [OList []; OList []; OList []; OBase base_init; OList []; OSet []; OState so]).
  assert (B : building h (h ++ L) (n + 6) so (blank 0 0 0)).
  { exists (seven (n + 6) so), (mkparts so [] [] [] []). split; [|split; [reflexivity|split]].
    - split; [|split; [|split; [|split]]].
      + constructor; cbn [q_so q_ps q_cs q_ns q_gs so so_presses so_channels so_notes so_base so_configs so_beats so_samples so_first];
          unfold n; rewrite ?get_at; try reflexivity; constructor.
      + reflexivity.
      + reflexivity.
      + unfold seven, so. cbn [so_presses so_channels so_notes so_base so_configs so_beats].
        repeat (constructor; [cbn [In]; lia|]). constructor.
      + intros i _ [].
    - split; [rewrite app_length; lia|]. intros i Li. now apply nth_error_app1.
    - unfold seven, so. cbn [so_presses so_channels so_notes so_base so_configs so_beats In]. fold n. intros i I.
      repeat (destruct I as [<-|I]; [lia|]). destruct I. }
  destruct (init_rounds h (n + 6) so 8 0 _ B) as (h' & M & F & q & R & S & X & I).
  exists h', (n + 6), F. split; [|split; [exists q; exact R|split; assumption]].
  unfold new_state, new_base.
  set (h1 := h ++ [OList []]). set (h2 := h1 ++ [OList []]). set (h3 := h2 ++ [OList []]). set (h4 := h3 ++ [OBase base_init]).
  set (h5 := h4 ++ [OList []]). set (h6 := h5 ++ [OSet []]).
  assert (L1 : length h1 = n + 1) by (unfold h1; rewrite app_length; reflexivity).
  assert (L2 : length h2 = n + 2) by (unfold h2; rewrite app_length, L1; cbn; lia).
  assert (L3 : length h3 = n + 3) by (unfold h3; rewrite app_length, L2; cbn; lia).
  assert (L4 : length h4 = n + 4) by (unfold h4; rewrite app_length, L3; cbn; lia).
  assert (L5 : length h5 = n + 5) by (unfold h5; rewrite app_length, L4; cbn; lia).
  assert (L6 : length h6 = n + 6) by (unfold h6; rewrite app_length, L5; cbn; lia).
  by_ (f_alloc h (OList [])). fold h1. by_ (f_alloc h1 (OList [])). fold h2. by_ (f_alloc h2 (OList [])). fold h3.
  by_ (f_alloc h3 (OBase base_init)). fold h4. by_ (f_alloc h4 (OList [])). fold h5. by_ (f_alloc h5 (OSet [])). fold h6.
  rewrite L1, L2, L3, L4, L5. replace (length h) with (n + 0) by (unfold n; lia).
  by_ (f_alloc h6 (OState (mkso (n + 0) (n + 1) (n + 2) (n + 3) (n + 4) 0 (n + 5) None))). rewrite L6.
  assert (HL : h6 ++ [OState (mkso (n + 0) (n + 1) (n + 2) (n + 3) (n + 4) 0 (n + 5) None)] = h ++ L).
  { unfold h6, h5, h4, h3, h2, h1, L. rewrite <- !app_assoc. reflexivity. }
  rewrite HL. rewrite (hbind_ok _ _ _ tt h'); [reflexivity|]. exact M.
Qed.
