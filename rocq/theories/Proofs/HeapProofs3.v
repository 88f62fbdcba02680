(** Processes with many State objects. *)
From Coq Require Import Lia ZifyBool.
From Verif.Model Require Import Py Config Note State Extract History Heap.
From Verif.Spec Require Import Ym2151 Objects.
From Verif.Proofs Require Import HeapProofs HeapProofs2 ChipProofs.
Open Scope nat_scope.

Record slot := mkslot { sl_ref : ref; sl_calls : history; sl_state : state; sl_F : list ref; sl_G : list ref; sl_q : parts }.
Definition holds (h : heap) (x : slot) : Prop :=
  history_ok (sl_calls x) /\ run_calls (sl_calls x) state_init = Ok (sl_state x)
  /\ repq h (sl_ref x) (sl_state x) (sl_F x) (sl_G x) (sl_q x).
Record inv (h0 : heap) (p : process) (sl : list slot) : Prop := {
  inv_refs : p_states p = map sl_ref sl;
  inv_holds : forall k x, nth_error sl k = Some x -> holds (p_heap p) x;
  inv_apart : forall j k x y, j <> k -> nth_error sl j = Some x -> nth_error sl k = Some y ->
    disjoint (sl_F x) (sl_F y ++ sl_G y);
  inv_fresh : forall k x i, nth_error sl k = Some x -> In i (sl_F x) -> length h0 <= i;
  inv_extends : extends h0 (p_heap p) }.

Lemma nth_snoc {A} (l : list A) a k x : nth_error (l ++ [a]) k = Some x ->
  nth_error l k = Some x \/ (k = length l /\ x = a).
Proof.
  intro E. destruct (Nat.lt_ge_cases k (length l)) as [L|L].
  - rewrite nth_error_app1 in E by assumption. auto.
  - rewrite nth_error_app2 in E by assumption. right. destruct (k - length l) as [|d] eqn:D.
    + injection E as <-. split; [lia|reflexivity].
    + destruct d; discriminate.
Qed.
Lemma nth_set {A} k (a x : A) l j : nth_error (set_nth k a l) j = Some x ->
  (j = k /\ x = a) \/ (j <> k /\ nth_error l j = Some x).
Proof.
  intro E. destruct (Nat.eq_dec j k) as [->|N].
  - left. split; [reflexivity|]. assert (k < length l).
    { rewrite <- (set_nth_length k a). apply nth_error_Some. congruence. }
    rewrite nth_set_same in E by assumption. congruence.
  - right. rewrite nth_set_other in E by congruence. auto.
Qed.
Lemma holds_bounds h x i : holds h x -> In i (sl_F x ++ sl_G x) -> i < length h.
Proof. intros (_ & _ & R). apply (rep_bounds _ _ _ _ _ (ex_intro _ _ R)). Qed.

(** State() *)
Lemma inv_new h0 p sl : inv h0 p sl ->
  exists p' x, process_act p New = Ok p' /\ inv h0 p' (sl ++ [x]) /\ sl_calls x = [] /\ extends (p_heap p) (p_heap p')
    /\ (forall i, In i (sl_F x) -> length (p_heap p) <= i).
Proof.
  intros [I1 I2 I3 I4 I5]. destruct (new_state_ok (p_heap p)) as (h' & r & F & M & [q R] & X & B).
  set (x := mkslot r [] state_init F [] q).
  exists (mkprocess h' (p_states p ++ [r])), x. split; [unfold process_act; now rewrite M|].
  split; [|split; [reflexivity|split; [exact X|exact B]]]. constructor; cbn [p_heap p_states].
  - now rewrite map_app, I1.
  - intros k y E. apply nth_snoc in E as [E|[_ ->]].
    + destruct (I2 _ _ E) as (A & S & R'). split; [exact A|]. split; [exact S|]. now apply (repq_extends _ _ _ _ _ _ _ R' X).
    + split; [constructor|]. split; [reflexivity|exact R].
  - intros j k y z N E1 E2 i J1 J2. apply nth_snoc in E1 as [E1|[K1 ->]]; apply nth_snoc in E2 as [E2|[K2 ->]].
    + now apply (I3 j k y z N E1 E2 i).
    + cbn [sl_F sl_G x] in J2. rewrite app_nil_r in J2. apply B in J2.
      assert (i < length (p_heap p)) by (apply (holds_bounds _ y); [now apply (I2 j)|apply in_app_iff; now left]). lia.
    + cbn [sl_F x] in J1. apply B in J1.
      assert (i < length (p_heap p)) by (apply (holds_bounds _ z); [now apply (I2 k)|assumption]). lia.
    + lia.
  - intros k y i E J. apply nth_snoc in E as [E|[_ ->]]; [now apply (I4 k y)|].
    cbn [sl_F x] in J. apply B in J. destruct I5. lia.
  - eapply extends_trans; eassumption.
Qed.

(** A method call *)
Lemma inv_call h0 p sl k x c : inv h0 p sl -> nth_error sl k = Some x -> call_ok c ->
  exists p' x', process_act p (On k c) = Ok p' /\ inv h0 p' (set_nth k x' sl) /\ sl_calls x' = sl_calls x ++ [c]
    /\ sl_ref x' = sl_ref x /\ grown (sl_q x) (sl_q x')
    /\ (forall i, i < length (p_heap p) -> ~ In i (sl_F x) -> get (p_heap p') i = get (p_heap p) i)
    /\ length (p_heap p) <= length (p_heap p')
    /\ (forall i, In i (sl_F x') -> In i (sl_F x) \/ length (p_heap p) <= i).
Proof.
  intros [I1 I2 I3 I4 I5] E C. destruct (I2 _ _ E) as (HO & S & R).
  assert (HO' : history_ok (sl_calls x ++ [c])) by (apply Forall_app; split; [exact HO|repeat constructor; exact C]).
  destruct (run_total _ HO') as [s' S']. pose proof S' as S2. rewrite run_app, S in S2. cbn [bind run_calls foldM] in S2.
  assert (DC : do_call (sl_state x) c = Ok s').
  { unfold run_calls in S2. cbn [foldM] in S2. destruct (do_call (sl_state x) c); [|discriminate]. exact S2. }
  destruct (sim_call (sl_ref x) c _ _ _ _ _ _ R DC) as (h' & F' & G' & q' & M & R' & V & W).
  set (x' := mkslot (sl_ref x) (sl_calls x ++ [c]) s' F' G' q').
  assert (Er : nth_error (p_states p) k = Some (sl_ref x)) by (rewrite I1; now apply map_nth_error).
  exists (mkprocess h' (p_states p)), x'. split; [unfold process_act; now rewrite Er, M|].
  split; [|split; [reflexivity|split; [reflexivity|split; [exact W|split; [exact (ev_old _ _ _ _ _ _ V)|split; [exact (ev_len _ _ _ _ _ _ V)|exact (ev_live _ _ _ _ _ _ V)]]]]]].
  assert (OLD : forall j y, j <> k -> nth_error sl j = Some y -> agree (p_heap p) h' (sl_F y ++ sl_G y)).
  { intros j y N Ey i J. apply (ev_old _ _ _ _ _ _ V).
    - apply (holds_bounds _ y); [now apply (I2 j)|assumption].
    - intro J'. now apply (I3 k j x y (not_eq_sym N) E Ey i). }
  constructor; cbn [p_heap p_states].
  - rewrite I1. clear -E. revert k E. induction sl as [|y sl IH]; intros [|k] E; cbn in *; try discriminate.
    + now injection E as <-.
    + f_equal. now apply IH.
  - intros j y Ey. apply nth_set in Ey as [[-> ->]|[N Ey]].
    + split; [exact HO'|]. split; [exact S'|exact R'].
    + destruct (I2 _ _ Ey) as (A1 & A2 & A3). split; [exact A1|]. split; [exact A2|].
      apply (repq_frame (p_heap p)); [exact A3|..]; intros i J; apply (OLD j y N Ey), in_app_iff; auto.
  - intros j m y z N Ey Ez i J1 J2.
    apply nth_set in Ey as [[-> ->]|[Ny Ey]]; apply nth_set in Ez as [[-> ->]|[Nz Ez]].
    + lia.
    + cbn [sl_F x'] in J1. assert (B : i < length (p_heap p)) by (apply (holds_bounds _ z); [now apply (I2 m)|assumption]).
      apply (ev_live _ _ _ _ _ _ V) in J1 as [J1|J1]; [|lia]. now apply (I3 k m x z N E Ez i).
    + assert (B : i < length (p_heap p)) by (apply (holds_bounds _ y); [now apply (I2 j)|apply in_app_iff; now left]).
      apply (I3 j k y x N Ey E i J1). cbn [sl_F sl_G x'] in J2. rewrite in_app_iff in *. destruct J2 as [J2|J2].
      * apply (ev_live _ _ _ _ _ _ V) in J2 as [J2|J2]; [auto|lia].
      * apply (ev_frozen _ _ _ _ _ _ V) in J2 as [J2|J2]; [auto|lia].
    + now apply (I3 j m y z N Ey Ez i).
  - intros j y i Ey J. apply nth_set in Ey as [[-> ->]|[N Ey]]; [|now apply (I4 j y)].
    cbn [sl_F x'] in J. apply (ev_live _ _ _ _ _ _ V) in J as [J|J]; [now apply (I4 k x)|]. destruct I5. lia.
  - destruct I5 as [L A]. pose proof (ev_len _ _ _ _ _ _ V). split; [lia|]. intros i Li.
    rewrite (ev_old _ _ _ _ _ _ V); [now apply A|lia|]. intro J. apply (I4 k x i E) in J. lia.
Qed.

(** A whole process *)
Lemma inv_run : forall l h0 p sl, inv h0 p sl -> well_formed (length sl) l ->
  exists p' sl', run_process l p = Ok p' /\ inv h0 p' sl' /\ length sl' = length sl + created l
    /\ (forall k x', nth_error sl' k = Some x' -> (exists x, nth_error sl k = Some x
           /\ sl_calls x' = sl_calls x ++ calls_on k l /\ sl_ref x' = sl_ref x /\ grown (sl_q x) (sl_q x'))
         \/ (length sl <= k /\ sl_calls x' = calls_on k l))
    /\ (forall k x, nth_error sl k = Some x -> exists x', nth_error sl' k = Some x')
    /\ (forall i, i < length (p_heap p) -> (forall k x, nth_error sl k = Some x -> ~ In i (sl_F x)) ->
         get (p_heap p') i = get (p_heap p) i).
Proof.
  induction l as [|a l IH]; intros h0 p sl I WF.
  - exists p, sl. cbn. split; [reflexivity|]. split; [exact I|]. split; [lia|]. split; [|split; [eauto|reflexivity]].
    intros k x' E. left. exists x'. rewrite app_nil_r. split; [exact E|]. split; [reflexivity|]. split; [reflexivity|apply grown_refl].
  - destruct a as [|k c]; cbn [well_formed] in WF; cbn [run_process].
    + destruct (inv_new _ _ _ I) as (p1 & x1 & M1 & V1 & C1 & X1 & B1). rewrite M1. cbn [bind].
      destruct (IH h0 p1 (sl ++ [x1]) V1) as (p' & sl' & M & V & L & H1 & H2 & H3).
      { rewrite app_length. cbn [length]. now rewrite Nat.add_1_r. }
      exists p', sl'. split; [exact M|]. split; [exact V|]. split; [rewrite app_length in L; unfold created in *; cbn in *; lia|].
      split; [|split].
      * intros k x' E. destruct (H1 k x' E) as [(x & Ex & A1 & A2 & A3)|[A1 A2]].
        -- apply nth_snoc in Ex as [Ex|[-> ->]].
           ++ left. exists x. auto.
           ++ right. split; [lia|]. rewrite C1 in A1. exact A1.
        -- right. rewrite app_length in A1. cbn in A1. split; [lia|exact A2].
      * intros k x E. apply (H2 k x). rewrite nth_error_app1; [assumption|]. apply nth_error_Some. congruence.
      * intros i B N. rewrite H3.
        -- now apply X1.
        -- destruct X1. lia.
        -- intros k x E J. apply nth_snoc in E as [E|[_ ->]]; [now apply (N k x)|]. apply B1 in J. lia.
    + destruct WF as (K & CO & WF).
      destruct (nth_error sl k) as [x|] eqn:Ex; [|apply nth_error_None in Ex; lia].
      destruct (inv_call _ _ _ _ _ _ I Ex CO) as (p1 & x1 & M1 & V1 & C1 & Rf & W1 & O1 & L1 & B1). rewrite M1. cbn [bind].
      destruct (IH h0 p1 (set_nth k x1 sl) V1) as (p' & sl' & M & V & L & H1 & H2 & H3).
      { now rewrite set_nth_length. }
      exists p', sl'. split; [exact M|]. split; [exact V|]. split; [rewrite set_nth_length in L; exact L|].
      assert (SN : nth_error (set_nth k x1 sl) k = Some x1) by now apply nth_set_same.
      split; [|split].
      * intros j x' E. unfold calls_on. cbn [flat_map]. fold (calls_on j l).
        destruct (H1 j x' E) as [(y & Ey & A1 & A2 & A3)|[A1 A2]].
        -- left. apply nth_set in Ey as [[-> ->]|[N Ey]].
           ++ exists x. rewrite Nat.eqb_refl. split; [assumption|]. split; [rewrite A1, C1, <- app_assoc; reflexivity|].
              split; [congruence|eapply grown_trans; eassumption].
           ++ exists y. replace (k =? j) with false by (symmetry; apply Nat.eqb_neq; congruence). auto.
        -- right. rewrite set_nth_length in A1. split; [assumption|].
           replace (k =? j) with false by (symmetry; apply Nat.eqb_neq; lia). exact A2.
      * intros j y E. destruct (Nat.eq_dec k j) as [<-|N]; [apply (H2 k x1 SN)|].
        apply (H2 j y). now rewrite nth_set_other.
      * intros i B N. rewrite H3.
        -- apply O1; [assumption|now apply (N k)].
        -- lia.
        -- intros j y E J. apply nth_set in E as [[-> ->]|[_ E]]; [|now apply (N j y)].
           apply B1 in J as [J|J]; [now apply (N k x)|lia].
Qed.
Lemma inv_start h0 : inv h0 (mkprocess h0 []) [].
Proof.
  constructor.
  - reflexivity.
  - intros [|k] x E; discriminate.
  - intros [|j] k x y _ E; discriminate.
  - intros [|k] x i E; discriminate.
  - apply extends_refl.
Qed.
Lemma run_process_app : forall a b p, run_process (a ++ b) p = bind (run_process a p) (run_process b).
Proof.
  induction a as [|x a IH]; intros b p; [reflexivity|]. cbn [app run_process].
  destruct (process_act p x); [|reflexivity]. cbn [bind]. apply IH.
Qed.
Lemma well_formed_app : forall a b n, well_formed n (a ++ b) -> well_formed n a /\ well_formed (n + created a) b.
Proof.
  induction a as [|x a IH]; intros b n W.
  - split; [exact I|]. unfold created. cbn. now rewrite Nat.add_0_r.
  - destruct x as [|k c]; cbn [app well_formed] in *.
    + apply IH in W as [W1 W2]. split; [exact W1|]. unfold created in *. cbn in *. now rewrite Nat.add_succ_r.
    + destruct W as (K & C & W). apply IH in W as [W1 W2]. split; [auto|]. exact W2.
Qed.

(** ** C45 *)
Lemma values_proof l h0 : well_formed 0 l ->
  exists p, run_process l (mkprocess h0 []) = Ok p /\ length (p_states p) = created l
    /\ (forall i, i < length h0 -> nth_error (p_heap p) i = nth_error h0 i)
    /\ forall k r, nth_error (p_states p) k = Some r ->
       exists s, run_calls (calls_on k l) state_init = Ok s /\ read_state r (p_heap p) = Ok (s, p_heap p).
Proof.
  intro W. destruct (inv_run l h0 _ _ (inv_start h0) W) as (p & sl & M & V & L & H1 & _ & _).
  exists p. split; [exact M|]. split; [rewrite (inv_refs _ _ _ V), map_length; exact L|].
  split; [apply (inv_extends _ _ _ V)|]. intros k r E. rewrite (inv_refs _ _ _ V) in E.
  rewrite nth_error_map in E. destruct (nth_error sl k) as [x|] eqn:Ex; [|discriminate]. injection E as <-.
  destruct (inv_holds _ _ _ V k x Ex) as (_ & S & R). exists (sl_state x). split; [|eapply read_state_ok; exists (sl_q x); exact R].
  destruct (H1 k x Ex) as [(y & Ey & _)|[_ C]]; [destruct k; discriminate|]. now rewrite <- C.
Qed.
(** Two moments of one process. *)
Lemma moments l1 l2 h0 p1 p2 k r : well_formed 0 (l1 ++ l2) -> run_process l1 (mkprocess h0 []) = Ok p1 ->
  run_process l2 p1 = Ok p2 -> nth_error (p_states p1) k = Some r ->
  exists x1 x2, holds (p_heap p1) x1 /\ holds (p_heap p2) x2 /\ sl_ref x1 = r /\ sl_ref x2 = r
    /\ nth_error (p_states p2) k = Some r /\ grown (sl_q x1) (sl_q x2)
    /\ (forall i, In i (sl_G x1) -> get (p_heap p2) i = get (p_heap p1) i).
Proof.
  intros W M1 M2 E. apply well_formed_app in W as [W1 W2].
  destruct (inv_run l1 h0 _ _ (inv_start h0) W1) as (p & sl & M & V & L & _). rewrite M1 in M. injection M as <-.
  cbn [length Nat.add] in *. rewrite <- L in W2.
  destruct (inv_run l2 h0 _ _ V W2) as (p' & sl' & M & V' & L' & H1 & H2 & H3). rewrite M2 in M. injection M as <-.
  rewrite (inv_refs _ _ _ V), nth_error_map in E. destruct (nth_error sl k) as [x1|] eqn:Ex; [|discriminate]. injection E as <-.
  destruct (H2 k x1 Ex) as [x2 Ex2]. destruct (H1 k x2 Ex2) as [(y & Ey & _ & Rf & Gr)|[K _]].
  2: { assert (k < length sl) by (apply nth_error_Some; congruence). lia. }
  rewrite Ex in Ey. injection Ey as <-.
  exists x1, x2. split; [now apply (inv_holds _ _ _ V k)|]. split; [now apply (inv_holds _ _ _ V' k)|].
  split; [reflexivity|]. split; [exact Rf|]. split; [rewrite (inv_refs _ _ _ V'), nth_error_map, Ex2; cbn; now rewrite Rf|].
  split; [exact Gr|]. intros i J. apply H3.
  - apply (holds_bounds _ x1); [now apply (inv_holds _ _ _ V k)|apply in_app_iff; now right].
  - intros j y E J'. destruct (Nat.eq_dec j k) as [->|N].
    + assert (y = x1) by congruence. subst y. destruct (inv_holds _ _ _ V k x1 Ex) as (_ & _ & _ & _ & _ & _ & D). now apply (D i).
    + apply (inv_apart _ _ _ V j k y x1 N E Ex i J'). apply in_app_iff. now right.
Qed.

Lemma item_at {A} (l m : list A) i x : (0 <= i)%Z -> py_get l i = Ok x -> py_get (l ++ m) i = Ok x /\ nth_error l (Z.to_nat i) = Some x.
Proof.
  intros B E. unfold py_get, py_slot, len in *. rewrite app_length.
  destruct (Z.ltb_spec i (Z.of_nat (length l))) as [L|L].
  - replace ((0 <=? i)%Z && true) with true in E by lia.
    replace ((0 <=? i) && (i <? Z.of_nat (length l + length m)))%Z with true by lia.
    destruct (nth_error l (Z.to_nat i)) eqn:N; [|discriminate]. injection E as ->.
    rewrite nth_error_app1 by lia. now rewrite N.
  - rewrite andb_false_r in E. destruct ((_ <=? i)%Z && (i <? 0)%Z) eqn:K in E; [lia|discriminate].
Qed.
Lemma get_config_inv h r s F G q i g : repq h r s F G q -> get_config r i h = Ok (g, h) <-> py_get (q_gs q) i = Ok g.
Proof.
  intros (Q & _). unfold get_config. step (rp_state _ _ _ _ Q). unfold item. step (rp_configs _ _ _ _ Q).
  unfold lift. destruct (py_get (q_gs q) i); split; intro X; congruence.
Qed.
Lemma get_channel_inv h r s F G q i g : repq h r s F G q -> get_channel r i h = Ok (g, h) <-> py_get (q_cs q) i = Ok g.
Proof.
  intros (Q & _). unfold get_channel. step (rp_state _ _ _ _ Q). unfold item. step (rp_channels _ _ _ _ Q).
  unfold lift. destruct (py_get (q_cs q) i); split; intro X; congruence.
Qed.
Lemma py_get_left {A B} (R : A -> B -> Prop) l vs i x : Forall2 R l vs -> py_get l i = Ok x -> exists v, py_get vs i = Ok v /\ R x v.
Proof.
  intros F E. pose proof (Forall2_len _ _ _ F) as L. unfold py_get in *.
  assert (S : py_slot l i = py_slot vs i) by (unfold py_slot, len; now rewrite L).
  rewrite <- S. destruct (py_slot l i) as [k|]; [|discriminate].
  destruct (nth_error l k) as [a|] eqn:N; [|discriminate]. injection E as ->.
  destruct (Forall2_nth _ _ _ _ _ F N) as (v & Nv & Rx). rewrite Nv. eauto.
Qed.
Lemma instruments_proof l1 l2 h0 p1 p2 k r i g : well_formed 0 (l1 ++ l2) -> run_process l1 (mkprocess h0 []) = Ok p1 ->
  run_process l2 p1 = Ok p2 -> nth_error (p_states p1) k = Some r -> (0 <= i)%Z ->
  get_config r i (p_heap p1) = Ok (g, p_heap p1) ->
  get_config r i (p_heap p2) = Ok (g, p_heap p2)
  /\ exists c, read_config g (p_heap p1) = Ok (c, p_heap p1) /\ read_config g (p_heap p2) = Ok (c, p_heap p2).
Proof.
  intros W M1 M2 E B EG. destruct (moments _ _ _ _ _ _ _ W M1 M2 E) as (x1 & x2 & (_ & _ & R1) & (_ & _ & R2) & <- & Rf & _ & (_ & more & GS) & FZ).
  apply (get_config_inv _ _ _ _ _ _ _ _ R1) in EG. rewrite <- Rf at 1.
  rewrite (get_config_inv _ _ _ _ _ _ _ _ R2), GS. split; [now apply item_at|].
  destruct R1 as (Q1 & EF & EGz & _). destruct (py_get_left _ _ _ _ _ (rp_gs _ _ _ _ Q1) EG) as (c & _ & RC).
  exists c. split; [now apply read_config_ok|]. apply read_config_ok.
  apply (config_frame (p_heap p1)); [|assumption]. intros j J. apply FZ. rewrite EGz. apply in_app_iff. left.
  apply in_flat_map. exists g. split; [|assumption]. destruct (item_at (q_gs (sl_q x1)) [] i g B EG) as [_ N]. eapply nth_error_In; eassumption.
Qed.
Lemma channel_proof l1 l2 h0 p1 p2 k r ch c : well_formed 0 (l1 ++ l2) -> run_process l1 (mkprocess h0 []) = Ok p1 ->
  run_process l2 p1 = Ok p2 -> nth_error (p_states p1) k = Some r ->
  get_channel r ch (p_heap p1) = Ok (c, p_heap p1) ->
  get_channel r ch (p_heap p2) = Ok (c, p_heap p2)
  /\ exists s v, read_state r (p_heap p2) = Ok (s, p_heap p2) /\ channel_config s ch = Ok v
     /\ read_chan c (p_heap p2) = Ok (v, p_heap p2).
Proof.
  intros W M1 M2 E EG. destruct (moments _ _ _ _ _ _ _ W M1 M2 E) as (x1 & x2 & (_ & _ & R1) & (_ & _ & R2) & <- & Rf & _ & (CS & _) & FZ).
  apply (get_channel_inv _ _ _ _ _ _ _ _ R1) in EG. rewrite <- Rf.
  rewrite (get_channel_inv _ _ _ _ _ _ _ _ R2). rewrite <- CS in EG. split; [assumption|].
  exists (sl_state x2). destruct (py_get_left _ _ _ _ _ (rp_cs _ _ _ _ (proj1 R2)) EG) as (v & Ev & RC).
  exists v. split; [eapply read_state_ok; exists (sl_q x2); exact R2|]. split; [exact Ev|now apply read_chan_ok].
Qed.
Lemma note_proof l1 l2 h0 p1 p2 k r ch i x : well_formed 0 (l1 ++ l2) -> run_process l1 (mkprocess h0 []) = Ok p1 ->
  run_process l2 p1 = Ok p2 -> nth_error (p_states p1) k = Some r ->
  get_note r ch i (p_heap p1) = Ok (x, p_heap p1) ->
  exists n, fetch_note x (p_heap p1) = Ok (n, p_heap p1) /\ fetch_note x (p_heap p2) = Ok (n, p_heap p2).
Proof.
  intros W M1 M2 E EG. destruct (moments _ _ _ _ _ _ _ W M1 M2 E) as (x1 & x2 & (_ & _ & R1) & _ & <- & Rf & _ & _ & FZ).
  destruct R1 as (Q1 & EF & EGz & _). unfold get_note, item in EG.
  rewrite (hbind_ok _ _ _ _ _ (f_state _ _ _ (rp_state _ _ _ _ Q1))) in EG.
  unfold hbind at 1 in EG. rewrite (hbind_ok _ _ _ _ _ (f_list _ _ _ (rp_presses _ _ _ _ Q1))) in EG. unfold lift at 1 in EG.
  destruct (py_get (q_ps (sl_q x1)) ch) as [p|] eqn:Ep; [|discriminate].
  destruct (py_get_left _ _ _ _ _ (rp_ps _ _ _ _ Q1) Ep) as (ns & _ & (li & El & Fl)).
  rewrite (hbind_ok _ _ _ _ _ (f_list _ _ _ El)) in EG. unfold lift in EG.
  destruct (py_get li i) as [y|] eqn:Ei; [|discriminate]. injection EG as ->.
  destruct (py_get_left _ _ _ _ _ Fl Ei) as (n & _ & Rn). exists n. split; [now apply f_note|]. apply f_note.
  rewrite FZ; [exact Rn|]. rewrite EGz. apply in_app_iff. right. apply in_flat_map. exists p. split.
  - destruct (get_inv _ _ _ Ep) as (j & _ & N & _). eapply nth_error_In; eassumption.
  - unfold items. rewrite El. destruct (get_inv _ _ _ Ei) as (j & _ & N & _). eapply nth_error_In; eassumption.
Qed.
