(** The object-level program simulates the value-level one: every live object has
    exactly one owner, stored instruments and notes are never written. *)
From Coq Require Import Lia ZifyBool Permutation.
From Verif.Model Require Import Py Config Note State Extract History Heap.
From Verif.Proofs Require Import PyLemmas.
Open Scope nat_scope.

(** ** The heap *)
Lemma set_nth_length {A} k (x : A) l : length (set_nth k x l) = length l.
Proof. revert k. induction l as [|y l IH]; intros [|k]; cbn; auto. Qed.
Lemma nth_set_same {A} k (x : A) l : k < length l -> nth_error (set_nth k x l) k = Some x.
Proof. revert k. induction l as [|y l IH]; intros [|k] L; cbn in *; try lia; [reflexivity|]. apply IH. lia. Qed.
Lemma nth_set_other {A} k j (x : A) l : k <> j -> nth_error (set_nth k x l) j = nth_error l j.
Proof. revert k j. induction l as [|y l IH]; intros [|k] [|j] N; cbn; try reflexivity; try lia. apply IH. lia. Qed.

Notation get := (@nth_error obj).
Lemma get_bound h r o : get h r = Some o -> r < length h.
Proof. intro E. apply nth_error_Some. congruence. Qed.
Lemma get_app h r o o' : get h r = Some o -> get (h ++ [o']) r = Some o.
Proof. intro E. rewrite nth_error_app1; [assumption|eapply get_bound; eassumption]. Qed.

Definition agree (h h' : heap) (F : list ref) : Prop := forall i, In i F -> get h' i = get h i.
Lemma agree_sub h h' F F' : agree h h' F -> incl F' F -> agree h h' F'.
Proof. intros A S i I. apply A, S, I. Qed.
Lemma agree_alloc h o F : (forall i, In i F -> i < length h) -> agree h (h ++ [o]) F.
Proof. intros B i I. apply nth_error_app1. auto. Qed.
Lemma agree_store h x o F : ~ In x F -> agree h (set_nth x o h) F.
Proof. intros N i I. apply nth_set_other. intros ->. contradiction. Qed.

(** ** Representation *)
Definition rep_op (h : heap) (r : ref) (o : op_config) : Prop := get h r = Some (OOp o).
Definition rep_nc (h : heap) (r : ref) (n : note_config) : Prop := get h r = Some (ONc n).
Definition rep_note (h : heap) (r : ref) (n : note) : Prop := get h r = Some (ONote n).
Definition items (h : heap) (r : ref) : list ref := match get h r with Some (OList l) => l | _ => [] end.
Definition rep_press (h : heap) (r : ref) (ns : list note) : Prop :=
  exists l, get h r = Some (OList l) /\ Forall2 (rep_note h) l ns.
Definition chan_value (c : chan_obj) (os : list op_config) : chan_config :=
  mkch os (co_fb c) (co_ams c) (co_pms c) (co_connection c) (co_noise c) (co_noise_freq c).
Definition rep_chan (h : heap) (r : ref) (c : chan_config) : Prop :=
  exists co l, get h r = Some (OChan co) /\ get h (co_operators co) = Some (OList l)
    /\ Forall2 (rep_op h) l (ch_operators c) /\ c = chan_value co (ch_operators c).
Definition rep_config (h : heap) (r : ref) (c : config) : Prop :=
  exists g, get h r = Some (OConfig g) /\ get h (go_base g) = Some (OBase (c_base c))
    /\ rep_chan h (go_channel g) (c_channel c) /\ c_id c = go_id g /\ c_operators c = go_operators g.
(** What an object owns. *)
Definition chan_fp (h : heap) (r : ref) : list ref :=
  r :: match get h r with
       | Some (OChan co) => co_operators co :: items h (co_operators co)
       | _ => []
       end.
Definition config_fp (h : heap) (r : ref) : list ref :=
  r :: match get h r with
       | Some (OConfig g) => go_base g :: chan_fp h (go_channel g)
       | _ => []
       end.
Definition press_fp (h : heap) (r : ref) : list ref := r :: items h r.

(** Frames: an object whose footprint is untouched still means the same. *)
Lemma items_frame h h' r : get h' r = get h r -> items h' r = items h r.
Proof. unfold items. now intros ->. Qed.
Lemma press_frame h h' r ns : agree h h' (press_fp h r) -> rep_press h r ns ->
  rep_press h' r ns /\ press_fp h' r = press_fp h r.
Proof.
  intros A (l & E & F). assert (E' : get h' r = get h r) by (apply A; now left).
  split; [|unfold press_fp; now rewrite (items_frame h h')]. exists l. split; [congruence|].
  assert (A' : agree h h' l) by (intros i I; apply A; right; unfold items; now rewrite E).
  clear -F A'. induction F as [|x y l ns Hx F IH]; constructor.
  - unfold rep_note. rewrite A' by now left. exact Hx.
  - apply IH. intros i I. apply A'. now right.
Qed.
Lemma ops_frame h h' l os : agree h h' l -> Forall2 (rep_op h) l os -> Forall2 (rep_op h') l os.
Proof.
  intros A F. induction F as [|x y l os Hx F IH]; constructor.
  - unfold rep_op. rewrite A by now left. exact Hx.
  - apply IH. intros i I. apply A. now right.
Qed.
Lemma chan_frame h h' r c : agree h h' (chan_fp h r) -> rep_chan h r c ->
  rep_chan h' r c /\ chan_fp h' r = chan_fp h r.
Proof.
  intros A (co & l & E & E1 & F & V). unfold chan_fp in *. rewrite E in A.
  unfold items in A. rewrite E1 in A.
  assert (Er : get h' r = Some (OChan co)) by (rewrite A by (now left); assumption).
  assert (El : get h' (co_operators co) = Some (OList l)) by (rewrite A by (right; now left); assumption).
  split.
  - exists co, l. repeat split; try assumption. eapply ops_frame; [|exact F]. intros i I. apply A. right. now right.
  - rewrite E, Er. f_equal. f_equal. unfold items. now rewrite E1, El.
Qed.
Lemma config_frame h h' r c : agree h h' (config_fp h r) -> rep_config h r c ->
  rep_config h' r c /\ config_fp h' r = config_fp h r.
Proof.
  intros A (g & E & Eb & C & I1 & I2). unfold config_fp in *. rewrite E in A.
  assert (Er : get h' r = Some (OConfig g)) by (rewrite A by (now left); assumption).
  assert (Eb' : get h' (go_base g) = Some (OBase (c_base c))) by (rewrite A by (right; now left); assumption).
  destruct (chan_frame h h' (go_channel g) (c_channel c)) as [C' FP]; [|assumption|].
  { intros i I. apply A. right. now right. }
  split; [exists g; auto|]. rewrite E, Er. now rewrite FP.
Qed.

(** Lists of objects. *)
Lemma frames {T} (R : heap -> ref -> T -> Prop) (fp : heap -> ref -> list ref) h h' :
  (forall r v, agree h h' (fp h r) -> R h r v -> R h' r v /\ fp h' r = fp h r) ->
  forall l vs, agree h h' (flat_map (fp h) l) -> Forall2 (R h) l vs ->
  Forall2 (R h') l vs /\ flat_map (fp h') l = flat_map (fp h) l.
Proof.
  intros FR l vs A F. induction F as [|r v l vs Hr F IH]; [split; [constructor|reflexivity]|].
  cbn [flat_map] in *. destruct (FR r v) as [H1 H2]; [|assumption|].
  { eapply agree_sub; [exact A|]. apply incl_appl, incl_refl. }
  destruct IH as [H3 H4]; [eapply agree_sub; [exact A|]; apply incl_appr, incl_refl|].
  split; [now constructor|]. now rewrite H2, H4.
Qed.
Lemma in_flat {A B} (f : A -> list B) l i y r : nth_error l i = Some r -> In y (f r) -> In y (flat_map f l).
Proof. intros E I. apply in_flat_map. exists r. split; [eapply nth_error_In; eassumption|assumption]. Qed.

(** One element of a list of objects changes, the rest is untouched. *)
Lemma frames_one {T} (R : heap -> ref -> T -> Prop) (fp : heap -> ref -> list ref) h h' :
  (forall r v, agree h h' (fp h r) -> R h r v -> R h' r v /\ fp h' r = fp h r) ->
  forall l vs k r v', NoDup (flat_map (fp h) l) -> Forall2 (R h) l vs -> nth_error l k = Some r ->
  (forall i, ~ In i (fp h r) -> get h' i = get h i) -> R h' r v' -> fp h' r = fp h r ->
  Forall2 (R h') l (set_nth k v' vs) /\ flat_map (fp h') l = flat_map (fp h) l.
Proof.
  intros FR l vs k r v' ND F. revert k. induction F as [|r0 v0 l vs Hr F IH]; intros k E O V P; [now destruct k|].
  cbn [flat_map] in *.
  assert (D : forall i, In i (fp h r0) -> In i (flat_map (fp h) l) -> False).
  { intros i I1 I2. clear -ND I1 I2. induction (fp h r0) as [|a fa IHa]; [destruct I1|].
    cbn in ND. inversion ND as [|? ? Na ND']; subst. destruct I1 as [->|I1]; [apply Na, in_app_iff; now right|].
    now apply IHa. }
  assert (ND' : NoDup (flat_map (fp h) l)).
  { clear -ND. induction (fp h r0) as [|a fa IHa]; [assumption|]. inversion ND; auto. }
  destruct k as [|k]; cbn in E.
  - injection E as ->. cbn [set_nth]. destruct (frames R fp h h' FR l vs) as [H1 H2]; [|assumption|].
    { intros i I. apply O. intros I'. now apply (D i). }
    split; [now constructor|]. now rewrite P, H2.
  - cbn [set_nth]. destruct (IH ND' k E O V P) as [H1 H2]. destruct (FR r0 v0) as [H3 H4]; [|assumption|].
    { intros i I. apply O. intros I'. apply (D i I). eapply in_flat; eassumption. }
    split; [now constructor|]. now rewrite H2, H4.
Qed.

(** ** A State object *)
Record parts := mkparts { q_so : state_obj; q_ps : list ref; q_cs : list ref; q_ns : list ref; q_gs : list ref }.
Record rep_parts (h : heap) (r : ref) (s : state) (q : parts) : Prop := {
  rp_state : get h r = Some (OState (q_so q));
  rp_presses : get h (so_presses (q_so q)) = Some (OList (q_ps q));
  rp_channels : get h (so_channels (q_so q)) = Some (OList (q_cs q));
  rp_notes : get h (so_notes (q_so q)) = Some (OList (q_ns q));
  rp_base : get h (so_base (q_so q)) = Some (OBase (s_base s));
  rp_configs : get h (so_configs (q_so q)) = Some (OList (q_gs q));
  rp_beats : get h (so_beats (q_so q)) = Some (OSet (s_note_beats s));
  rp_samples : so_samples (q_so q) = s_samples s;
  rp_first : so_first (q_so q) = s_first_beat s;
  rp_ps : Forall2 (rep_press h) (q_ps q) (s_key_presses s);
  rp_cs : Forall2 (rep_chan h) (q_cs q) (s_channels s);
  rp_ns : Forall2 (rep_nc h) (q_ns q) (s_notes s);
  rp_gs : Forall2 (rep_config h) (q_gs q) (s_configs s) }.
Definition live_of (h : heap) (r : ref) (q : parts) : list ref :=
  let so := q_so q in
  [r; so_presses so; so_channels so; so_notes so; so_base so; so_configs so; so_beats so]
  ++ q_ps q ++ q_ns q ++ flat_map (chan_fp h) (q_cs q).
Definition frozen_of (h : heap) (q : parts) : list ref :=
  flat_map (config_fp h) (q_gs q) ++ flat_map (items h) (q_ps q).
Definition disjoint (F G : list ref) : Prop := forall i, In i F -> In i G -> False.
Definition repq (h : heap) (r : ref) (s : state) (F G : list ref) (q : parts) : Prop :=
  rep_parts h r s q /\ F = live_of h r q /\ G = frozen_of h q /\ NoDup F /\ disjoint F G.
Definition rep (h : heap) (r : ref) (s : state) (F G : list ref) : Prop := exists q, repq h r s F G q.

(** What a step on one State does to the heap. *)
Record evolves (h : heap) (F G : list ref) (h' : heap) (F' G' : list ref) : Prop := {
  ev_len : length h <= length h';
  ev_old : forall i, i < length h -> ~ In i F -> get h' i = get h i;
  ev_live : forall i, In i F' -> In i F \/ length h <= i;
  ev_frozen : forall i, In i G' -> In i G \/ length h <= i }.
Lemma evolves_refl h F G : evolves h F G h F G.
Proof. constructor; auto. Qed.
Lemma evolves_trans h F G h1 F1 G1 h2 F2 G2 :
  evolves h F G h1 F1 G1 -> evolves h1 F1 G1 h2 F2 G2 -> evolves h F G h2 F2 G2.
Proof.
  intros A B. destruct A as [A1 A2 A3 A4], B as [B1 B2 B3 B4]. constructor.
  - lia.
  - intros i L N. rewrite B2; [now apply A2|lia|]. intros I. apply A3 in I. destruct I; [contradiction|lia].
  - intros i I. apply B3 in I as [I|I]; [now apply A3|]. right. lia.
  - intros i I. apply B4 in I as [I|I]; [now apply A4|]. right. lia.
Qed.

Lemma NoDup_app_iff {A} (a b : list A) :
  NoDup (a ++ b) <-> NoDup a /\ NoDup b /\ (forall i, In i a -> In i b -> False).
Proof.
  induction a as [|x a IH]; cbn [app].
  - split; [intro H; repeat split; [constructor|assumption|intros i []]|tauto].
  - split.
    + intros H. inversion H as [|? ? N H']; subst. apply IH in H' as (H1 & H2 & H3). repeat split.
      * constructor; [|assumption]. intro I. apply N, in_app_iff. now left.
      * assumption.
      * intros i [->|I] J; [apply N, in_app_iff; now right|now apply (H3 i)].
    + intros (H1 & H2 & H3). inversion H1 as [|? ? N H1']; subst. constructor.
      * rewrite in_app_iff. intros [I|I]; [contradiction|]. apply (H3 x); [now left|assumption].
      * apply IH. repeat split; [assumption..|]. intros i I J. apply (H3 i); [now right|assumption].
Qed.

Definition seven (r : ref) (so : state_obj) : list ref :=
  [r; so_presses so; so_channels so; so_notes so; so_base so; so_configs so; so_beats so].

Section Keep.
  Variables (h h' : heap) (r : ref) (s : state) (q : parts).
  Hypothesis (Q : rep_parts h r s q).

  Lemma keep_ps : agree h h' (q_ps q) -> agree h h' (flat_map (items h) (q_ps q)) ->
    Forall2 (rep_press h') (q_ps q) (s_key_presses s)
    /\ flat_map (items h') (q_ps q) = flat_map (items h) (q_ps q).
  Proof.
    intros A B. split.
    - eapply (frames rep_press press_fp h h'); [apply press_frame| |apply Q].
      intros i I. apply in_flat_map in I as (p & Ip & [->|I]); [now apply A|]. apply B, in_flat_map. eauto.
    - clear -A. induction (q_ps q) as [|p l IH]; [reflexivity|]. cbn [flat_map]. f_equal.
      + apply items_frame, A. now left.
      + apply IH. intros i I. apply A. now right.
  Qed.
  Lemma keep_cs : agree h h' (flat_map (chan_fp h) (q_cs q)) ->
    Forall2 (rep_chan h') (q_cs q) (s_channels s)
    /\ flat_map (chan_fp h') (q_cs q) = flat_map (chan_fp h) (q_cs q).
  Proof. intros A. eapply (frames rep_chan chan_fp h h'); [apply chan_frame|assumption|apply Q]. Qed.
  Lemma keep_gs : agree h h' (flat_map (config_fp h) (q_gs q)) ->
    Forall2 (rep_config h') (q_gs q) (s_configs s)
    /\ flat_map (config_fp h') (q_gs q) = flat_map (config_fp h) (q_gs q).
  Proof. intros A. eapply (frames rep_config config_fp h h'); [apply config_frame|assumption|apply Q]. Qed.
  Lemma keep_ns : agree h h' (q_ns q) -> Forall2 (rep_nc h') (q_ns q) (s_notes s).
  Proof.
    intros A. destruct Q as [_ _ _ _ _ _ _ _ _ _ _ Hn _]. induction Hn as [|x y l ns Hx F IH]; constructor.
    - unfold rep_nc. rewrite A by (now left). exact Hx.
    - apply IH. intros i I. apply A. now right.
  Qed.
End Keep.

(** An untouched State. *)
Lemma repq_frame h h' r s F G q : repq h r s F G q -> agree h h' F -> agree h h' G -> repq h' r s F G q.
Proof.
  intros (Q & -> & -> & ND & D) A B.
  assert (A7 : agree h h' (seven r (q_so q))) by (eapply agree_sub; [exact A|]; apply incl_appl, incl_refl).
  assert (Ap : agree h h' (q_ps q)).
  { eapply agree_sub; [exact A|]. unfold live_of. apply incl_appr, incl_appl, incl_refl. }
  assert (An : agree h h' (q_ns q)).
  { eapply agree_sub; [exact A|]. unfold live_of. apply incl_appr, incl_appr, incl_appl, incl_refl. }
  assert (Ac : agree h h' (flat_map (chan_fp h) (q_cs q))).
  { eapply agree_sub; [exact A|]. unfold live_of. apply incl_appr, incl_appr, incl_appr, incl_refl. }
  destruct (keep_ps h h' r s q Q Ap) as [P1 P2].
  { eapply agree_sub; [exact B|]. apply incl_appr, incl_refl. }
  destruct (keep_cs h h' r s q Q Ac) as [C1 C2].
  destruct (keep_gs h h' r s q Q) as [G1 G2].
  { eapply agree_sub; [exact B|]. apply incl_appl, incl_refl. }
  pose proof (keep_ns h h' r s q Q An) as N1.
  assert (L : live_of h' r q = live_of h r q) by (unfold live_of; now rewrite C2).
  assert (Z : frozen_of h' q = frozen_of h q) by (unfold frozen_of; now rewrite P2, G2).
  unfold repq. rewrite L, Z. repeat split; try assumption; try apply Q.
  all: rewrite A7 by (cbn; tauto); apply Q.
Qed.

Lemma rep_bounds h r s F G : rep h r s F G -> forall i, In i (F ++ G) -> i < length h.
Proof.
  intros (q & Q & -> & -> & _) i I. destruct Q.
  assert (CB : forall c v, rep_chan h c v -> forall i, In i (chan_fp h c) -> i < length h).
  { intros c v (co & l & E & E1 & Fo & _) j J. unfold chan_fp, items in J. rewrite E, E1 in J.
    destruct J as [<-|[<-|J]]; [eapply get_bound; eassumption..|].
    clear -Fo J. induction Fo as [|x y l os Hx Fo IH]; [destruct J|]. destruct J as [<-|J]; [eapply get_bound, Hx|auto]. }
  assert (FL : forall T (R : heap -> ref -> T -> Prop) (fp : heap -> ref -> list ref) l vs, Forall2 (R h) l vs ->
     (forall c v, R h c v -> forall i, In i (fp h c) -> i < length h) -> forall i, In i (flat_map (fp h) l) -> i < length h).
  { intros T R fp l vs HF HB j J. induction HF as [|x y l vs Hx HF IH]; [destruct J|]. cbn in J.
    apply in_app_iff in J as [J|J]; [eapply HB; eassumption|auto]. }
  assert (PB : forall p v, rep_press h p v -> forall i, In i (press_fp h p) -> i < length h).
  { intros p v (l & E & Fo) j J. unfold press_fp, items in J. rewrite E in J.
    destruct J as [<-|J]; [eapply get_bound; eassumption|].
    clear -Fo J. induction Fo as [|x y l os Hx Fo IH]; [destruct J|]. destruct J as [<-|J]; [eapply get_bound, Hx|auto]. }
  assert (GB : forall g v, rep_config h g v -> forall i, In i (config_fp h g) -> i < length h).
  { intros g v (o & E & Eb & Cb & _) j J. unfold config_fp in J. rewrite E in J.
    destruct J as [<-|[<-|J]]; [eapply get_bound; eassumption..|]. eapply CB; eassumption. }
  assert (PS : forall i, In i (q_ps q) \/ In i (flat_map (items h) (q_ps q)) -> i < length h).
  { intros j J. eapply (FL _ rep_press press_fp); [eassumption|exact PB|]. apply in_flat_map.
    destruct J as [J|J]; [exists j; split; [assumption|now left]|].
    apply in_flat_map in J as (p & Ip & J). exists p. split; [assumption|now right]. }
  apply in_app_iff in I as [I|I]; unfold live_of, frozen_of in I.
  - apply in_app_iff in I as [I|I].
    { cbn [In] in I. repeat destruct I as [<-|I]; try (eapply get_bound; eassumption). destruct I. }
    apply in_app_iff in I as [I|I]; [apply PS; now left|].
    apply in_app_iff in I as [I|I]; [|eapply (FL _ rep_chan chan_fp); eassumption].
    clear -rp_ns0 I. induction rp_ns0 as [|x y l os Hx Fo IH]; [destruct I|]. destruct I as [<-|I]; [eapply get_bound, Hx|auto].
  - apply in_app_iff in I as [I|I]; [eapply (FL _ rep_config config_fp); eassumption|apply PS; now right].
Qed.

Lemma rep_frame h h' r s F G : rep h r s F G -> agree h h' F -> agree h h' G -> rep h' r s F G.
Proof. intros [q R] A B. exists q. now apply (repq_frame h). Qed.
Lemma repq_alloc h o r s F G q : repq h r s F G q -> repq (h ++ [o]) r s F G q.
Proof.
  intros R. pose proof (rep_bounds _ _ _ _ _ (ex_intro _ q R)) as B.
  apply (repq_frame h); [assumption|apply agree_alloc..]; intros i I; apply B, in_app_iff; auto.
Qed.
Lemma evolves_alloc h o F G : evolves h F G (h ++ [o]) F G.
Proof.
  constructor; auto.
  - rewrite app_length. lia.
  - intros i L _. now apply nth_error_app1.
Qed.

(** ** In-place updates *)
Lemma evolves_inplace h h' F G : length h' = length h -> (forall i, ~ In i F -> get h' i = get h i) -> evolves h F G h' F G.
Proof. intros L A. constructor; auto. lia. Qed.

(** Where the pieces of a State lie. *)
Lemma live_apart h r q : NoDup (live_of h r q) ->
  NoDup (seven r (q_so q)) /\ NoDup (q_ps q) /\ NoDup (q_ns q) /\ NoDup (flat_map (chan_fp h) (q_cs q))
  /\ disjoint (seven r (q_so q)) (q_ps q) /\ disjoint (seven r (q_so q)) (q_ns q)
  /\ disjoint (seven r (q_so q)) (flat_map (chan_fp h) (q_cs q))
  /\ disjoint (q_ps q) (q_ns q) /\ disjoint (q_ps q) (flat_map (chan_fp h) (q_cs q))
  /\ disjoint (q_ns q) (flat_map (chan_fp h) (q_cs q)).
Proof.
  intro ND. unfold live_of in ND. change [r; _; _; _; _; _; _] with (seven r (q_so q)) in ND.
  apply NoDup_app_iff in ND as (N7 & ND & D7). apply NoDup_app_iff in ND as (Np & ND & Dp).
  apply NoDup_app_iff in ND as (Nn & Nc & Dn). unfold disjoint.
  repeat split; try assumption; intros i I J.
  - apply (D7 i I). apply in_app_iff. now left.
  - apply (D7 i I). rewrite !in_app_iff. auto.
  - apply (D7 i I). rewrite !in_app_iff. auto.
  - apply (Dp i I). apply in_app_iff. now left.
  - apply (Dp i I). apply in_app_iff. now right.
Qed.
Lemma in_seven h r q i : In i (seven r (q_so q)) -> In i (live_of h r q).
Proof. intro I. unfold live_of. apply in_app_iff. now left. Qed.
Lemma in_live_ps h r q i : In i (q_ps q) -> In i (live_of h r q).
Proof. intro I. unfold live_of. rewrite !in_app_iff. auto. Qed.
Lemma in_live_ns h r q i : In i (q_ns q) -> In i (live_of h r q).
Proof. intro I. unfold live_of. rewrite !in_app_iff. auto. Qed.
Lemma in_live_cs h r q i : In i (flat_map (chan_fp h) (q_cs q)) -> In i (live_of h r q).
Proof. intro I. unfold live_of. rewrite !in_app_iff. auto. Qed.

(** A channel object (or one of its operators) is written. *)
Lemma update_chan h h' r s F q k c v' : rep_parts h r s q -> F = live_of h r q -> NoDup F -> disjoint F (frozen_of h q) ->
  nth_error (q_cs q) k = Some c -> length h' = length h ->
  (forall i, ~ In i (chan_fp h c) -> get h' i = get h i) -> rep_chan h' c v' -> chan_fp h' c = chan_fp h c ->
  repq h' r (set_channels s (set_nth k v' (s_channels s))) F (frozen_of h q) q /\ evolves h F (frozen_of h q) h' F (frozen_of h q).
Proof.
  intros Q -> ND D E L U V P.
  assert (X : forall i, In i (chan_fp h c) -> In i (flat_map (chan_fp h) (q_cs q))) by (intros i I; eapply in_flat; eassumption).
  destruct (live_apart h r q ND) as (_ & _ & _ & Nc & _ & _ & D7c & _ & Dpc & Dnc).
  assert (A : forall K, disjoint K (flat_map (chan_fp h) (q_cs q)) -> agree h h' K).
  { intros K DK i I. apply U. intro J. apply (DK i I). now apply X. }
  assert (AG : agree h h' (frozen_of h q)).
  { intros i I. apply U. intro J. apply (D i); [now apply in_live_cs, X|assumption]. }
  destruct (keep_ps h h' r s q Q) as [P1 P2]; [now apply A|eapply agree_sub; [exact AG|]; apply incl_appr, incl_refl|].
  destruct (keep_gs h h' r s q Q) as [G1 G2]; [eapply agree_sub; [exact AG|]; apply incl_appl, incl_refl|].
  pose proof (keep_ns h h' r s q Q (A _ Dnc)) as N1.
  destruct (frames_one rep_chan chan_fp h h' (chan_frame h h') _ _ k c v' Nc (rp_cs _ _ _ _ Q) E U V P) as [C1 C2].
  assert (A7 : agree h h' (seven r (q_so q))) by now apply A.
  split.
  - unfold repq, live_of, frozen_of. rewrite C2, P2, G2. repeat split; try assumption; try apply Q.
    all: rewrite A7 by (cbn; tauto); apply Q.
  - apply evolves_inplace; [assumption|]. intros i N. apply U. intro J. apply N, in_live_cs. now apply X.
Qed.

(** A note configuration is written. *)
Lemma update_nc h r s F q k n v' : rep_parts h r s q -> F = live_of h r q -> NoDup F -> disjoint F (frozen_of h q) ->
  nth_error (q_ns q) k = Some n ->
  let h' := set_nth n (ONc v') h in
  repq h' r (set_notes s (set_nth k v' (s_notes s))) F (frozen_of h q) q /\ evolves h F (frozen_of h q) h' F (frozen_of h q).
Proof.
  intros Q -> ND D E h'. assert (X : In n (q_ns q)) by (eapply nth_error_In; eassumption).
  destruct (live_apart h r q ND) as (_ & _ & Nn & _ & _ & D7n & _ & Dpn & _ & Dnc).
  assert (B : n < length h).
  { apply (rep_bounds h r s _ _ (ex_intro _ q (conj Q (conj eq_refl (conj eq_refl (conj ND D)))))).
    apply in_app_iff. left. now apply in_live_ns. }
  assert (A : forall K, ~ In n K -> agree h h' K) by (intros K N; now apply agree_store).
  assert (AG : agree h h' (frozen_of h q)) by (apply A; intro J; apply (D n); [now apply in_live_ns|assumption]).
  destruct (keep_ps h h' r s q Q) as [P1 P2];
    [apply A; intro; now apply (Dpn n)|eapply agree_sub; [exact AG|]; apply incl_appr, incl_refl|].
  destruct (keep_gs h h' r s q Q) as [G1 G2]; [eapply agree_sub; [exact AG|]; apply incl_appl, incl_refl|].
  destruct (keep_cs h h' r s q Q) as [C1 C2]; [apply A; intro; now apply (Dnc n)|].
  assert (A7 : agree h h' (seven r (q_so q))) by (apply A; intro; now apply (D7n n)).
  assert (N1 : Forall2 (rep_nc h') (q_ns q) (set_nth k v' (s_notes s))).
  { eapply (frames_one rep_nc (fun _ i => [i]) h h'); [|replace (flat_map _ _) with (q_ns q); [exact Nn|]|apply Q|exact E| | |reflexivity].
    - intros i v Ai Ri. split; [|reflexivity]. unfold rep_nc. rewrite Ai by now left. exact Ri.
    - clear. induction (q_ns q) as [|a l IH]; [reflexivity|]. cbn. now f_equal.
    - intros i Ni. apply nth_set_other. intros ->. apply Ni. now left.
    - unfold rep_nc, h'. now apply nth_set_same. }
  split.
  - unfold repq, live_of, frozen_of. rewrite C2, P2, G2. repeat split; try assumption; try apply Q.
    all: rewrite A7 by (cbn; tauto); apply Q.
  - apply evolves_inplace; [apply set_nth_length|]. intros i Ni. apply nth_set_other. intros ->. now apply Ni, in_live_ns.
Qed.

(** One of the seven objects is written: everything else is kept. *)
Lemma update_seven h r s q x o : rep_parts h r s q -> NoDup (live_of h r q) -> disjoint (live_of h r q) (frozen_of h q) ->
  In x (seven r (q_so q)) ->
  let h' := set_nth x o h in
  x < length h /\ agree h h' (q_ps q)
  /\ Forall2 (rep_press h') (q_ps q) (s_key_presses s) /\ flat_map (items h') (q_ps q) = flat_map (items h) (q_ps q)
  /\ Forall2 (rep_chan h') (q_cs q) (s_channels s) /\ flat_map (chan_fp h') (q_cs q) = flat_map (chan_fp h) (q_cs q)
  /\ Forall2 (rep_nc h') (q_ns q) (s_notes s)
  /\ Forall2 (rep_config h') (q_gs q) (s_configs s) /\ flat_map (config_fp h') (q_gs q) = flat_map (config_fp h) (q_gs q)
  /\ (forall F G, In x F -> evolves h F G h' F G).
Proof.
  intros Q ND D X h'.
  destruct (live_apart h r q ND) as (N7 & _ & _ & _ & D7p & D7n & D7c & _).
  assert (B : x < length h).
  { apply (rep_bounds h r s _ _ (ex_intro _ q (conj Q (conj eq_refl (conj eq_refl (conj ND D)))))).
    apply in_app_iff. left. now apply in_seven. }
  assert (A : forall K, ~ In x K -> agree h h' K) by (intros K N; now apply agree_store).
  assert (AG : agree h h' (frozen_of h q)) by (apply A; intro J; apply (D x); [now apply in_seven|assumption]).
  assert (Ap : agree h h' (q_ps q)) by (apply A; intro; now apply (D7p x)).
  destruct (keep_ps h h' r s q Q) as [P1 P2];
    [assumption|eapply agree_sub; [exact AG|]; apply incl_appr, incl_refl|].
  destruct (keep_gs h h' r s q Q) as [G1 G2]; [eapply agree_sub; [exact AG|]; apply incl_appl, incl_refl|].
  destruct (keep_cs h h' r s q Q) as [C1 C2]; [apply A; intro; now apply (D7c x)|].
  pose proof (keep_ns h h' r s q Q) as N1.
  repeat (split; [solve [assumption | apply N1, A; intro; now apply (D7n x)]|]).
  intros F G I. apply evolves_inplace; [apply set_nth_length|]. intros i Ni. apply nth_set_other. intros ->. contradiction.
Qed.

(** ** Simulation *)
Definition grown (q q' : parts) : Prop := q_cs q' = q_cs q /\ exists more, q_gs q' = q_gs q ++ more.
Lemma grown_refl q : grown q q.
Proof. split; [reflexivity|]. exists []. now rewrite app_nil_r. Qed.
Lemma grown_trans a b c : grown a b -> grown b c -> grown a c.
Proof. intros (A & m & B) (C & m' & D). split; [congruence|]. exists (m ++ m'). now rewrite D, B, app_assoc. Qed.
Definition sim (r : ref) (m : H unit) (f : state -> res state) : Prop :=
  forall h s F G q s', repq h r s F G q -> f s = Ok s' ->
  exists h' F' G' q', m h = Ok (tt, h') /\ repq h' r s' F' G' q' /\ evolves h F G h' F' G' /\ grown q q'.
Lemma sim_seq r m m' f f' : sim r m f -> sim r m' f' ->
  sim r (do! _ <- m; m') (fun s => bind (f s) f').
Proof.
  intros A B h s F G q s' R E. destruct (f s) as [s1|] eqn:E1; [|discriminate]. cbn [bind] in E.
  destruct (A _ _ _ _ _ _ R E1) as (h1 & F1 & G1 & q1 & M1 & R1 & V1 & W1).
  destruct (B _ _ _ _ _ _ R1 E) as (h2 & F2 & G2 & q2 & M2 & R2 & V2 & W2).
  exists h2, F2, G2, q2. split; [unfold hbind; now rewrite M1|]. split; [assumption|].
  split; [eapply evolves_trans; eassumption|eapply grown_trans; eassumption].
Qed.
Lemma sim_ext r m f f' : (forall s, f s = f' s) -> sim r m f -> sim r m f'.
Proof. intros E S h s F G q s' R X. rewrite <- E in X. eauto. Qed.
Lemma sim_ret r : sim r (ret tt) (fun s => Ok s).
Proof.
  intros h s F G q s' R E. injection E as <-. exists h, F, G, q.
  split; [reflexivity|]. split; [assumption|]. split; [apply evolves_refl|apply grown_refl].
Qed.

Lemma fetch_at h r o : get h r = Some o -> fetch r h = Ok (o, h).
Proof. unfold fetch. now intros ->. Qed.
Ltac fetched E := unfold hbind, fetch_state, fetch_base, fetch_nc, fetch_chan, fetch_op, fetch_list, fetch_set, fetch_config, fetch_note;
  unfold hbind; rewrite (fetch_at _ _ _ E); cbn [ret].

Lemma Forall2_nth {A B} (R : A -> B -> Prop) l vs k x : Forall2 R l vs -> nth_error l k = Some x ->
  exists v, nth_error vs k = Some v /\ R x v.
Proof.
  intro F. revert k. induction F as [|a b l vs Hab F IH]; intros [|k] E; cbn in *; try discriminate.
  - injection E as <-. eauto.
  - now apply IH.
Qed.
Lemma Forall2_len {A B} (R : A -> B -> Prop) l vs : Forall2 R l vs -> length l = length vs.
Proof. induction 1; cbn; auto. Qed.
(** py_get on two lists of the same length. *)
Lemma py_get_both {A B} (R : A -> B -> Prop) l vs i v : Forall2 R l vs -> py_get vs i = Ok v ->
  exists k x, py_slot l i = Some k /\ py_slot vs i = Some k /\ nth_error l k = Some x /\ nth_error vs k = Some v
    /\ R x v /\ py_get l i = Ok x.
Proof.
  intros F E. pose proof (Forall2_len _ _ _ F) as L. unfold py_get in *.
  assert (S : py_slot l i = py_slot vs i) by (unfold py_slot, len; now rewrite L).
  rewrite S. destruct (py_slot vs i) as [k|]; [|discriminate].
  destruct (nth_error vs k) as [v0|] eqn:N; [|discriminate]. injection E as ->.
  destruct (nth_error l k) as [x|] eqn:Nl.
  - destruct (Forall2_nth _ _ _ _ _ F Nl) as (v' & Nv & Rx). assert (v' = v) by congruence. subst v'.
    exists k, x. auto 10.
  - exfalso. apply nth_error_None in Nl. assert (k < length vs) by (apply nth_error_Some; congruence). lia.
Qed.
Lemma py_set_slot {A} (l : list A) i k x : py_slot l i = Some k -> py_set l i x = Ok (set_nth k x l).
Proof. unfold py_set. now intros ->. Qed.

(** self._channel_configs[ch].operators[op].x = ... *)
Lemma sim_op r ch op g : sim r (on_op r ch op g) (fun s => upd_operator s ch op g).
Proof.
  intros h s F G q s' (Q & EF & EG & ND & D) E. unfold upd_operator in E.
  destruct (py_get (s_channels s) ch) as [c|] eqn:E1; [|discriminate]. cbn [bind] in E.
  destruct (py_get (ch_operators c) op) as [o|] eqn:E2; [|discriminate]. cbn [bind] in E.
  destruct (py_get_both _ _ _ _ _ (rp_cs _ _ _ _ Q) E1) as (k & cr & S1 & S2 & N1 & N2 & RC & P1).
  destruct RC as (co & l & C1 & C2 & C3 & C4).
  destruct (py_get_both _ _ _ _ _ C3 E2) as (k' & x & T1 & T2 & M1 & M2 & RO & P2).
  rewrite (py_set_slot _ _ _ _ T2) in E. cbn [bind] in E. rewrite (py_set_slot _ _ _ _ S2) in E. cbn [bind] in E.
  injection E as <-. subst F G.
  assert (XI : In x (chan_fp h cr)).
  { unfold chan_fp, items. rewrite C1, C2. right. right. eapply nth_error_In; eassumption. }
  assert (NDc : NoDup (chan_fp h cr)).
  { destruct (live_apart _ _ _ ND) as (_ & _ & _ & Nc & _). revert Nc N1. clear. generalize (q_cs q) as l. revert k.
    intros k l. revert k. induction l as [|a l IH]; intros [|k] Nc N1; cbn [flat_map nth_error] in *; try discriminate; apply NoDup_app_iff in Nc as (Na & Nl & _).
    - now injection N1 as ->.
    - now apply (IH k). }
  assert (Xb : x < length h) by (eapply get_bound; exact RO).
  unfold chan_fp, items in NDc. rewrite C1, C2 in NDc.
  inversion NDc as [|? ? Nr NDc']; subst. inversion NDc' as [|? ? Nl NDl]; subst.
  assert (Hx : In x l) by (eapply nth_error_In; eassumption).
  assert (Gcr : get (set_nth x (OOp (g o)) h) cr = Some (OChan co)).
  { rewrite nth_set_other; [assumption|]. intros ->. apply Nr. now right. }
  assert (Gl : get (set_nth x (OOp (g o)) h) (co_operators co) = Some (OList l)).
  { rewrite nth_set_other; [assumption|]. intros ->. contradiction. }
  destruct (update_chan h (set_nth x (OOp (g o)) h) r s _ q k cr (set_operators c (set_nth k' (g o) (ch_operators c)))
              Q eq_refl ND D N1 (set_nth_length _ _ _)) as [R' V'].
  - intros i Ni. apply nth_set_other. intros ->. contradiction.
  - exists co, l. split; [assumption|]. split; [assumption|]. split; [|cbn [ch_operators set_operators]; rewrite C4; reflexivity].
    cbn [ch_operators set_operators].
    eapply (frames_one rep_op (fun _ i => [i]) h); [|replace (flat_map _ _) with l; [exact NDl|]|exact C3|exact M1| | |reflexivity].
    + intros i v Ai Ri. split; [|reflexivity]. unfold rep_op. rewrite Ai by now left. exact Ri.
    + clear. induction l as [|a l IH]; [reflexivity|]. cbn. now f_equal.
    + intros i Ni. apply nth_set_other. intros ->. apply Ni. now left.
    + now apply nth_set_same.
  - unfold chan_fp, items. now rewrite C1, C2, Gcr, Gl.
  - eexists _, _, _, q. split; [|split; [exact R'|split; [exact V'|apply grown_refl]]].
    unfold on_op, item. fetched (rp_state _ _ _ _ Q). fetched (rp_channels _ _ _ _ Q).
    rewrite P1. cbn [lift]. fetched C1. fetched C2. rewrite P2. cbn [lift]. unfold assign_op. fetched RO. reflexivity.
Qed.

(** self._channel_configs[ch].x = ... *)
Lemma sim_chan r ch g gv : (forall co, co_operators (g co) = co_operators co) ->
  (forall co os, chan_value (g co) os = gv (chan_value co os)) ->
  sim r (on_chan r ch g) (fun s => upd_channel s ch gv).
Proof.
  intros K KV h s F G q s' (Q & EF & EG & ND & D) E. unfold upd_channel in E.
  destruct (py_get (s_channels s) ch) as [c|] eqn:E1; [|discriminate]. cbn [bind] in E.
  destruct (py_get_both _ _ _ _ _ (rp_cs _ _ _ _ Q) E1) as (k & cr & S1 & S2 & N1 & N2 & RC & P1).
  rewrite (py_set_slot _ _ _ _ S2) in E. cbn [bind] in E. injection E as <-. subst F G.
  destruct RC as (co & l & C1 & C2 & C3 & C4).
  assert (NDc : NoDup (chan_fp h cr)).
  { destruct (live_apart _ _ _ ND) as (_ & _ & _ & Nc & _). revert Nc N1. clear. generalize (q_cs q) as l. revert k.
    intros k l. revert k. induction l as [|a l IH]; intros [|k] Nc N1; cbn [flat_map nth_error] in *; try discriminate; apply NoDup_app_iff in Nc as (Na & Nl & _).
    - now injection N1 as ->.
    - now apply (IH k). }
  assert (Xb : cr < length h) by (eapply get_bound; exact C1).
  unfold chan_fp, items in NDc. rewrite C1, C2 in NDc. inversion NDc as [|? ? Nr NDc']; subst.
  set (h' := set_nth cr (OChan (g co)) h).
  assert (Gcr : get h' cr = Some (OChan (g co))) by now apply nth_set_same.
  assert (Gl : get h' (co_operators co) = Some (OList l)).
  { unfold h'. rewrite nth_set_other; [assumption|]. intros ->. apply Nr. now left. }
  destruct (update_chan h h' r s _ q k cr (gv c) Q eq_refl ND D N1 (set_nth_length _ _ _)) as [R' V'].
  - intros i Ni. apply nth_set_other. intros ->. apply Ni. now left.
  - assert (CV : gv c = chan_value (g co) (ch_operators c)) by (rewrite KV; now rewrite <- C4).
    rewrite CV. exists (g co), l. split; [assumption|]. rewrite K. split; [assumption|]. cbn [ch_operators chan_value].
    split; [|reflexivity]. eapply ops_frame; [|exact C3]. apply agree_store. intro I. apply Nr. now right.
  - unfold chan_fp, items. now rewrite C1, Gcr, K, C2, Gl.
  - eexists _, _, _, q. split; [|split; [exact R'|split; [exact V'|apply grown_refl]]].
    unfold on_chan, item. fetched (rp_state _ _ _ _ Q). fetched (rp_channels _ _ _ _ Q).
    rewrite P1. cbn [lift]. unfold assign_chan. fetched C1. reflexivity.
Qed.

(** self._note_configs[ch].x = ... *)
Lemma sim_nc r ch g : sim r (on_nc r ch g) (fun s => upd_note s ch g).
Proof.
  intros h s F G q s' (Q & EF & EG & ND & D) E. unfold upd_note in E.
  destruct (py_get (s_notes s) ch) as [c|] eqn:E1; [|discriminate]. cbn [bind] in E.
  destruct (py_get_both _ _ _ _ _ (rp_ns _ _ _ _ Q) E1) as (k & n & S1 & S2 & N1 & N2 & RC & P1).
  rewrite (py_set_slot _ _ _ _ S2) in E. cbn [bind] in E. injection E as <-. subst F G.
  destruct (update_nc h r s _ q k n (g c) Q eq_refl ND D N1) as [R' V'].
  eexists _, _, _, q. split; [|split; [exact R'|split; [exact V'|apply grown_refl]]].
  unfold on_nc, item. fetched (rp_state _ _ _ _ Q). fetched (rp_notes _ _ _ _ Q).
  rewrite P1. cbn [lift]. unfold assign_nc. fetched RC. reflexivity.
Qed.

(** The other six of the seven objects. *)
Lemma seven_other h r q x o y : NoDup (live_of h r q) -> In x (seven r (q_so q)) -> In y (seven r (q_so q)) -> x <> y ->
  get (set_nth x o h) y = get h y.
Proof. intros _ _ _ N. now apply nth_set_other. Qed.
Ltac seven_nodup ND := 
  let N7 := fresh "N7" in destruct (live_apart _ _ _ ND) as (N7 & _); unfold seven in N7;
  repeat match goal with X : NoDup (_ :: _) |- _ => let a := fresh "Na" in let b := fresh "Nb" in inversion X as [|? ? a b]; subst; clear X; cbn [In] in a end.

(** self._current_base_config.x = ... *)
Lemma sim_base r g : sim r (on_base r g) (fun s => Ok (set_base s (g (s_base s)))).
Proof.
  intros h s F G q s' (Q & EF & EG & ND & D) E. injection E as <-. subst F G.
  destruct (update_seven h r s q (so_base (q_so q)) (OBase (g (s_base s))) Q ND D) as (B & Ap & P1 & P2 & C1 & C2 & N1 & G1 & G2 & V);
    [cbn; tauto|].
  exists (set_nth (so_base (q_so q)) (OBase (g (s_base s))) h), (live_of h r q), (frozen_of h q), q.
  split; [|split; [|split; [apply V, in_seven; cbn; tauto|apply grown_refl]]].
  - unfold on_base. fetched (rp_state _ _ _ _ Q). unfold assign_base. fetched (rp_base _ _ _ _ Q). reflexivity.
  - unfold repq, live_of, frozen_of. rewrite C2, P2, G2. seven_nodup ND.
    split; [|repeat split; assumption].
    constructor; try assumption; try apply Q.
    5: now apply nth_set_same.
    all: rewrite nth_set_other by (let X := fresh in intro X; first [tauto | symmetry in X; tauto]); apply Q.
Qed.
(** Assignments of plain values to attributes of the State itself. *)
Lemma sim_self r (g : state_obj -> state_obj) (gv : state -> state) :
  (forall so, so_presses (g so) = so_presses so /\ so_channels (g so) = so_channels so /\ so_notes (g so) = so_notes so
      /\ so_base (g so) = so_base so /\ so_configs (g so) = so_configs so /\ so_beats (g so) = so_beats so) ->
  (forall s, s_key_presses (gv s) = s_key_presses s /\ s_channels (gv s) = s_channels s /\ s_notes (gv s) = s_notes s
      /\ s_base (gv s) = s_base s /\ s_configs (gv s) = s_configs s /\ s_note_beats (gv s) = s_note_beats s) ->
  forall h s F G q, repq h r s F G q -> so_samples (g (q_so q)) = s_samples (gv s) -> so_first (g (q_so q)) = s_first_beat (gv s) ->
  exists h' q', assign_state r g h = Ok (tt, h') /\ repq h' r (gv s) F G q' /\ evolves h F G h' F G /\ grown q q'.
Proof.
  intros K KV h s F G q (Q & EF & EG & ND & D) S1 S2. subst F G.
  destruct (K (q_so q)) as (K1 & K2 & K3 & K4 & K5 & K6). destruct (KV s) as (V1 & V2 & V3 & V4 & V5 & V6).
  destruct (update_seven h r s q r (OState (g (q_so q))) Q ND D) as (B & Ap & P1 & P2 & C1 & C2 & N1 & G1 & G2 & V);
    [cbn; tauto|].
  exists (set_nth r (OState (g (q_so q))) h), (mkparts (g (q_so q)) (q_ps q) (q_cs q) (q_ns q) (q_gs q)).
  split; [|split; [|split; [apply V, in_seven; cbn; tauto|split; [reflexivity|exists []; now rewrite app_nil_r]]]].
  - unfold assign_state. fetched (rp_state _ _ _ _ Q). reflexivity.
  - unfold repq, live_of, frozen_of. cbn [q_so q_ps q_cs q_ns q_gs]. rewrite C2, P2, G2, K1, K2, K3, K4, K5, K6. seven_nodup ND.
    split; [|repeat split; assumption].
    constructor; cbn [q_so q_ps q_cs q_ns q_gs]; rewrite ?K1, ?K2, ?K3, ?K4, ?K5, ?K6, ?V1, ?V2, ?V3, ?V4, ?V5, ?V6; try assumption.
    1: now apply nth_set_same.
    all: rewrite nth_set_other by (let X := fresh in intro X; first [tauto | symmetry in X; tauto]); apply Q.
Qed.
Lemma sim_beat r n : sim r (hbeat r n) (fun s => beat (Some n) s).
Proof.
  intros h s F G q s' R E. injection E as <-. pose proof R as (Q & _).
  destruct (sim_self r (set_so_samples (so_samples (q_so q) + n)) (fun s => set_samples s (s_samples s + n)%Z)) with (h := h) (s := s) (F := F) (G := G) (q := q)
    as (h' & q' & M & R' & V & W); auto.
  - now repeat split.
  - now repeat split.
  - cbn. now rewrite (rp_samples _ _ _ _ Q).
  - cbn. apply Q.
  - exists h', F, G, q'. split; [|auto]. unfold hbeat. fetched (rp_state _ _ _ _ Q). exact M.
Qed.

(** ** Reading *)
Lemma hbind_ok {A B} (m : H A) (k : A -> H B) h a h1 : m h = Ok (a, h1) -> hbind m k h = k a h1.
Proof. unfold hbind. now intros ->. Qed.
Lemma f_state h r x : get h r = Some (OState x) -> fetch_state r h = Ok (x, h).
Proof. intro E. unfold fetch_state. now rewrite (hbind_ok _ _ _ _ _ (fetch_at _ _ _ E)). Qed.
Lemma f_base h r x : get h r = Some (OBase x) -> fetch_base r h = Ok (x, h).
Proof. intro E. unfold fetch_base. now rewrite (hbind_ok _ _ _ _ _ (fetch_at _ _ _ E)). Qed.
Lemma f_nc h r x : get h r = Some (ONc x) -> fetch_nc r h = Ok (x, h).
Proof. intro E. unfold fetch_nc. now rewrite (hbind_ok _ _ _ _ _ (fetch_at _ _ _ E)). Qed.
Lemma f_chan h r x : get h r = Some (OChan x) -> fetch_chan r h = Ok (x, h).
Proof. intro E. unfold fetch_chan. now rewrite (hbind_ok _ _ _ _ _ (fetch_at _ _ _ E)). Qed.
Lemma f_op h r x : get h r = Some (OOp x) -> fetch_op r h = Ok (x, h).
Proof. intro E. unfold fetch_op. now rewrite (hbind_ok _ _ _ _ _ (fetch_at _ _ _ E)). Qed.
Lemma f_list h r x : get h r = Some (OList x) -> fetch_list r h = Ok (x, h).
Proof. intro E. unfold fetch_list. now rewrite (hbind_ok _ _ _ _ _ (fetch_at _ _ _ E)). Qed.
Lemma f_set h r x : get h r = Some (OSet x) -> fetch_set r h = Ok (x, h).
Proof. intro E. unfold fetch_set. now rewrite (hbind_ok _ _ _ _ _ (fetch_at _ _ _ E)). Qed.
Lemma f_config h r x : get h r = Some (OConfig x) -> fetch_config r h = Ok (x, h).
Proof. intro E. unfold fetch_config. now rewrite (hbind_ok _ _ _ _ _ (fetch_at _ _ _ E)). Qed.
Lemma f_note h r x : get h r = Some (ONote x) -> fetch_note r h = Ok (x, h).
Proof. intro E. unfold fetch_note. now rewrite (hbind_ok _ _ _ _ _ (fetch_at _ _ _ E)). Qed.
Lemma f_item h l i xs x : get h l = Some (OList xs) -> py_get xs i = Ok x -> item l i h = Ok (x, h).
Proof. intros E P. unfold item. rewrite (hbind_ok _ _ _ _ _ (f_list _ _ _ E)). unfold lift. now rewrite P. Qed.
Lemma f_append h l x xs : get h l = Some (OList xs) -> append l x h = Ok (tt, set_nth l (OList (xs ++ [x])) h).
Proof. intros E. unfold append. now rewrite (hbind_ok _ _ _ _ _ (f_list _ _ _ E)). Qed.
Lemma f_alloc h o : alloc o h = Ok (length h, h ++ [o]).
Proof. reflexivity. Qed.
Lemma f_copy_base h r b : get h r = Some (OBase b) -> copy_base r h = Ok (length h, h ++ [OBase b]).
Proof. intro E. unfold copy_base. now rewrite (hbind_ok _ _ _ _ _ (f_base _ _ _ E)). Qed.
Lemma f_copy_op h r b : get h r = Some (OOp b) -> copy_op r h = Ok (length h, h ++ [OOp b]).
Proof. intro E. unfold copy_op. now rewrite (hbind_ok _ _ _ _ _ (f_op _ _ _ E)). Qed.
Ltac by_ E := rewrite (hbind_ok _ _ _ _ _ E).
Ltac step E := first [by_ (f_state _ _ _ E) | by_ (f_base _ _ _ E) | by_ (f_nc _ _ _ E) | by_ (f_chan _ _ _ E)
  | by_ (f_op _ _ _ E) | by_ (f_list _ _ _ E) | by_ (f_set _ _ _ E) | by_ (f_config _ _ _ E) | by_ (f_note _ _ _ E)].
Lemma hmap_ok {T} (f : ref -> H T) h l vs : Forall2 (fun r v => f r h = Ok (v, h)) l vs -> hmap f l h = Ok (vs, h).
Proof.
  induction 1 as [|r v l vs E F IH]; [reflexivity|]. cbn [hmap]. by_ E. by_ IH. reflexivity.
Qed.
Lemma Forall2_imp {A B} (P Q : A -> B -> Prop) l vs : (forall a b, P a b -> Q a b) -> Forall2 P l vs -> Forall2 Q l vs.
Proof. intros I F. induction F; constructor; auto. Qed.
Lemma read_chan_ok h r c : rep_chan h r c -> read_chan r h = Ok (c, h).
Proof.
  intros (co & l & E1 & E2 & F & V). unfold read_chan. step E1. step E2.
  rewrite (hbind_ok _ _ _ (ch_operators c) h).
  - rewrite V at 2. reflexivity.
  - apply hmap_ok. eapply Forall2_imp; [|exact F]. intros a o Ha. now apply f_op.
Qed.
Lemma read_config_ok h r c : rep_config h r c -> read_config r h = Ok (c, h).
Proof.
  intros (g & E1 & E2 & C & I1 & I2). unfold read_config. step E1. step E2.
  by_ (read_chan_ok _ _ _ C). destruct c as [i b ch o]. cbn in *. subst. reflexivity.
Qed.
Lemma read_press_ok h r ns : rep_press h r ns -> read_press r h = Ok (ns, h).
Proof.
  intros (l & E & F). unfold read_press. step E. apply hmap_ok. eapply Forall2_imp; [|exact F].
  intros a o Ha. now apply f_note.
Qed.
Lemma read_state_ok h r s F G : rep h r s F G -> read_state r h = Ok (s, h).
Proof.
  intros (q & Q & _). unfold read_state. step (rp_state _ _ _ _ Q). step (rp_presses _ _ _ _ Q).
  by_ (hmap_ok _ _ _ _ (Forall2_imp _ _ _ _ (read_press_ok h) (rp_ps _ _ _ _ Q))).
  step (rp_channels _ _ _ _ Q). by_ (hmap_ok _ _ _ _ (Forall2_imp _ _ _ _ (read_chan_ok h) (rp_cs _ _ _ _ Q))).
  step (rp_notes _ _ _ _ Q). by_ (hmap_ok _ _ _ _ (Forall2_imp _ _ _ _ (f_nc h) (rp_ns _ _ _ _ Q))).
  step (rp_base _ _ _ _ Q). step (rp_configs _ _ _ _ Q).
  by_ (hmap_ok _ _ _ _ (Forall2_imp _ _ _ _ (read_config_ok h) (rp_gs _ _ _ _ Q))).
  step (rp_beats _ _ _ _ Q). unfold ret. rewrite (rp_samples _ _ _ _ Q), (rp_first _ _ _ _ Q). now destruct s.
Qed.

(** ** The search for an equal instrument *)
Lemma hfind_ok h r s q ch c op : rep_parts h r s q -> py_get (s_channels s) ch = Ok c ->
  forall gs cs i, Forall2 (rep_config h) gs cs ->
  hfind r ch op gs i h = Ok (find_config cs (s_base s) c op i, h).
Proof.
  intros Q E gs cs i F.
  destruct (py_get_both _ _ _ _ _ (rp_cs _ _ _ _ Q) E) as (k & cr & _ & _ & _ & _ & RC & P1).
  revert i. induction F as [|g v gs cs Hg F IH]; intro i; [reflexivity|].
  cbn [hfind find_config]. step (rp_state _ _ _ _ Q). step (rp_base _ _ _ _ Q).
  by_ (f_item _ _ _ _ _ (rp_channels _ _ _ _ Q) P1). by_ (read_chan_ok _ _ _ RC). by_ (read_config_ok _ _ _ Hg).
  destruct (config_compare v (s_base s) c op); [reflexivity|apply IH].
Qed.

(** ** Copies *)
Definition extends (h h' : heap) : Prop := length h <= length h' /\ forall i, i < length h -> get h' i = get h i.
Lemma extends_refl h : extends h h.
Proof. split; auto. Qed.
Lemma extends_trans a b c : extends a b -> extends b c -> extends a c.
Proof. intros [A1 A2] [B1 B2]. split; [lia|]. intros i L. rewrite B2 by lia. now apply A2. Qed.
Lemma extends_alloc h o : extends h (h ++ [o]).
Proof. split; [rewrite app_length; lia|]. intros i L. now apply nth_error_app1. Qed.
Lemma get_new h o : get (h ++ [o]) (length h) = Some o.
Proof. rewrite nth_error_app2 by lia. now rewrite Nat.sub_diag. Qed.

Lemma copy_items_ok : forall l os memo new acc h, Forall2 (rep_op h) l os -> NoDup l ->
  (forall a b, In (a, b) memo -> ~ In a l) -> get h new = Some (OList acc) ->
  exists h' ys, copy_items memo new l h = Ok (tt, h') /\ get h' new = Some (OList (acc ++ ys))
    /\ Forall2 (rep_op h') ys os /\ (forall i, In i ys -> length h <= i) /\ NoDup ys
    /\ length h <= length h' /\ (forall i, i < length h -> i <> new -> get h' i = get h i).
Proof.
  induction l as [|r l IH]; intros os memo new acc h F ND M E.
  - inversion F; subst. exists h, []. rewrite app_nil_r. repeat split; auto; constructor || (intros i []).
  - inversion F as [|? o ? os' Hr F']; subst. inversion ND as [|? ? Nr ND']; subst. cbn [copy_items].
    assert (MG : memo_get memo r = None).
    { clear -M. induction memo as [|[a b] memo IH]; [reflexivity|]. cbn. destruct (Nat.eqb_spec a r) as [->|].
      - exfalso. apply (M r b); [now left|now left].
      - apply IH. intros x y I. apply (M x y). now right. }
    rewrite MG. by_ (f_copy_op _ _ _ Hr).
    assert (E1 : get (h ++ [OOp o]) new = Some (OList acc)) by now apply get_app.
    by_ (f_append _ _ (length h) _ E1). set (n := length h). set (h1 := set_nth new (OList (acc ++ [n])) (h ++ [OOp o])).
    assert (B : new < length h) by (eapply get_bound; eassumption).
    assert (L1 : length h1 = S (length h)) by (unfold h1; rewrite set_nth_length, app_length; cbn; lia).
    assert (O1 : forall i, i < length h -> i <> new -> get h1 i = get h i).
    { intros i L N. unfold h1. rewrite nth_set_other by congruence. now apply nth_error_app1. }
    assert (E2 : get h1 new = Some (OList (acc ++ [n]))) by (apply nth_set_same; rewrite app_length; cbn; lia).
    assert (En : get h1 n = Some (OOp o)).
    { unfold h1. rewrite nth_set_other by (unfold n; lia). apply get_new. }
    destruct (IH os' ((r, n) :: memo) new (acc ++ [n]) h1) as (h' & ys & X1 & X2 & X3 & X4 & X5 & X6 & X7).
    + clear -F' O1 E. induction F' as [|a b l os Ha F' IH]; constructor; auto.
      unfold rep_op in *. rewrite O1; [assumption|eapply get_bound; eassumption|]. intros ->. congruence.
    + assumption.
    + intros a b [X|X]; [injection X as <- <-; assumption|]. intro I. apply (M a b X). now right.
    + assumption.
    + exists h', (n :: ys). split; [exact X1|]. rewrite <- app_assoc in X2. split; [exact X2|].
      split; [|split; [|split; [|split]]].
      * constructor; [|assumption]. unfold rep_op. rewrite X7; [assumption|rewrite L1; unfold n; lia|unfold n; lia].
      * intros i [<-|I]; [reflexivity|]. apply X4 in I. lia.
      * constructor; [|assumption]. intro I. apply X4 in I. unfold n in I. lia.
      * lia.
      * intros i Li Ni. rewrite X7 by (try assumption; lia). now apply O1.
Qed.
Lemma copy_chan_ok h r c : rep_chan h r c -> NoDup (chan_fp h r) ->
  exists h' r', copy_chan r h = Ok (r', h') /\ extends h h' /\ rep_chan h' r' c
    /\ forall i, In i (chan_fp h' r') -> length h <= i.
Proof.
  intros (co & l & E1 & E2 & F & V) ND. unfold chan_fp, items in ND. rewrite E1, E2 in ND.
  inversion ND as [|? ? Nr ND']; subst. inversion ND' as [|? ? Nl ND'']; subst.
  set (n := length h). set (h0 := h ++ [OList []]).
  destruct (copy_items_ok l (ch_operators c) [] n [] h0) as (h1 & ys & X1 & X2 & X3 & X4 & X5 & X6 & X7).
  - eapply ops_frame; [|exact F]. apply agree_alloc. intros i I. clear -F I. induction F; [destruct I|].
    destruct I as [<-|I]; [eapply get_bound; eassumption|auto].
  - assumption.
  - intros a b [].
  - apply get_new.
  - set (o := OChan (mkco n (co_fb co) (co_ams co) (co_pms co) (co_connection co) (co_noise co) (co_noise_freq co))).
    exists (h1 ++ [o]), (length h1). split; [|split; [|split]].
    + unfold copy_chan. step E1. rewrite (hbind_ok _ _ _ n h1); [reflexivity|]. unfold copy_op_list. step E2. by_ (f_alloc h (OList [])).
      fold n h0. by_ X1. reflexivity.
    + unfold h0 in *. rewrite app_length in *. cbn [length] in *. split; [rewrite app_length; cbn [length]; lia|]. intros i Li.
      rewrite nth_error_app1 by lia. rewrite X7 by (unfold n; lia). now apply nth_error_app1.
    + eexists _, ys. split; [apply get_new|]. cbn [co_operators]. split; [apply get_app, X2|].
      split; [|rewrite V at 1; reflexivity]. eapply ops_frame; [|exact X3].
      apply agree_alloc. intros i I. clear -X3 I. induction X3; [destruct I|].
      destruct I as [<-|I]; [eapply get_bound; eassumption|auto].
    + intros i I. unfold chan_fp, items in I. rewrite get_new in I. unfold o in I. cbn [co_operators] in I.
      rewrite (get_app _ _ _ _ X2) in I. cbn [app] in I. unfold h0 in *. rewrite app_length in *. cbn [length] in *.
      destruct I as [<-|[<-|I]]; [lia|unfold n; lia|]. apply X4 in I. lia.
Qed.

(** ** New instruments *)
Lemma repq_extends h h' r s F G q : repq h r s F G q -> extends h h' -> repq h' r s F G q /\ evolves h F G h' F G.
Proof.
  intros R [L A]. pose proof (rep_bounds _ _ _ _ _ (ex_intro _ q R)) as B. split.
  - apply (repq_frame h); [assumption|..]; intros i I; apply A, B, in_app_iff; auto.
  - constructor; auto.
Qed.
(** self.configs.append(g) for a new, unshared g. *)
Lemma append_config h r s F G q g c : repq h r s F G q -> rep_config h g c -> disjoint F (config_fp h g) ->
  exists h' G' q', append (so_configs (q_so q)) g h = Ok (tt, h')
    /\ repq h' r (set_configs s (s_configs s ++ [c])) F G' q' /\ length h' = length h
    /\ (forall i, ~ In i F -> get h' i = get h i) /\ (forall i, In i G' -> In i G \/ In i (config_fp h g))
    /\ grown q q' /\ q_so q' = q_so q.
Proof.
  intros (Q & EF & EG & ND & D) RG DG. subst F G.
  set (x := so_configs (q_so q)). set (h' := set_nth x (OList (q_gs q ++ [g])) h).
  assert (X7 : In x (seven r (q_so q))) by (cbn; unfold x; tauto).
  destruct (update_seven h r s q x (OList (q_gs q ++ [g])) Q ND D X7) as (B & Ap & P1 & P2 & C1 & C2 & N1 & G1 & G2 & V).
  fold h' in Ap, P1, P2, C1, C2, N1, G1, G2, V.
  destruct (config_frame h h' g c) as [RG' FP]; [|assumption|].
  { apply agree_store. intro I. apply (DG x); [now apply in_seven|assumption]. }
  exists h', (flat_map (config_fp h) (q_gs q ++ [g]) ++ flat_map (items h) (q_ps q)),
    (mkparts (q_so q) (q_ps q) (q_cs q) (q_ns q) (q_gs q ++ [g])).
  assert (IN : forall i, In i (flat_map (config_fp h) (q_gs q ++ [g]) ++ flat_map (items h) (q_ps q)) ->
     In i (frozen_of h q) \/ In i (config_fp h g)).
  { intros i I. unfold frozen_of. rewrite flat_map_app in I. cbn [flat_map] in I. rewrite app_nil_r in I.
    rewrite !in_app_iff in *. tauto. }
  split; [apply f_append, Q|]. split; [|split; [apply set_nth_length|split; [|split; [exact IN|split; [|reflexivity]]]]].
  - unfold repq, live_of, frozen_of. cbn [q_so q_ps q_cs q_ns q_gs]. rewrite flat_map_app. cbn [flat_map].
    rewrite flat_map_app. cbn [flat_map]. rewrite C2, P2, G2, FP. 
    split; [|split; [reflexivity|split; [reflexivity|split; [assumption|]]]].
    + seven_nodup ND. constructor; cbn [q_so q_ps q_cs q_ns q_gs]; try assumption; try apply Q.
      all: try (cbn [s_configs set_configs]; apply Forall2_app; [assumption|]; now constructor).
      all: try (unfold h', x; apply nth_set_same; assumption).
      all: unfold h', x; rewrite nth_set_other by (let X := fresh in intro X; first [tauto | symmetry in X; tauto]); apply Q.
    + intros i I J. rewrite <- !app_assoc in J.
      assert (J' : In i (frozen_of h q) \/ In i (config_fp h g)).
      { unfold frozen_of. cbn [app] in J. rewrite !in_app_iff in *. cbn [In] in J. tauto. }
      destruct J' as [J'|J']; [now apply (D i)|now apply (DG i)].
  - intros i N. apply nth_set_other. intros <-. now apply N, in_seven.
  - split; [reflexivity|]. now exists [g].
Qed.
(** self._current_base_config = nb for a new, unshared copy. *)
Lemma rebase h r s F G q nb : repq h r s F G q -> get h nb = Some (OBase (s_base s)) -> ~ In nb F -> ~ In nb G ->
  exists h' F' q', assign_state r (set_base_ref nb) h = Ok (tt, h') /\ repq h' r s F' G q' /\ length h' = length h
    /\ (forall i, ~ In i F -> get h' i = get h i) /\ (forall i, In i F' -> In i F \/ i = nb) /\ grown q q'.
Proof.
  intros (Q & EF & EG & ND & D) E NF NG. subst F G.
  set (so' := set_base_ref nb (q_so q)). set (h' := set_nth r (OState so') h).
  destruct (update_seven h r s q r (OState so') Q ND D) as (B & Ap & P1 & P2 & C1 & C2 & N1 & G1 & G2 & V); [cbn; tauto|].
  fold h' in Ap, P1, P2, C1, C2, N1, G1, G2, V.
  set (q' := mkparts so' (q_ps q) (q_cs q) (q_ns q) (q_gs q)).
  assert (L : forall i, In i (live_of h' r q') -> In i (live_of h r q) \/ i = nb).
  { intros i I. unfold live_of, q' in *. cbn [q_so q_ps q_cs q_ns] in I. rewrite C2 in I.
    cbn [so' set_base_ref so_presses so_channels so_notes so_base so_configs so_beats] in I.
    rewrite !in_app_iff in *. cbn [In] in *. assert (nb = i -> i = nb) by congruence. tauto. }
  exists h', (live_of h' r q'), q'. split; [|split; [|split; [apply set_nth_length|split; [|split; [exact L|]]]]].
  - unfold assign_state. step (rp_state _ _ _ _ Q). reflexivity.
  - split; [|split; [reflexivity|split; [|split]]].
    + seven_nodup ND. unfold q'. constructor; cbn [q_so q_ps q_cs q_ns q_gs so' set_base_ref so_presses so_channels so_notes so_base so_configs so_beats so_samples so_first];
        try assumption; try apply Q.
      1: now apply nth_set_same.
      4: { unfold h'. rewrite nth_set_other; [assumption|]. intros <-. apply NF, in_seven. now left. }
      all: unfold h'; rewrite nth_set_other by (let X := fresh in intro X; first [tauto | symmetry in X; tauto]); apply Q.
    + unfold frozen_of, q'. cbn [q_ps q_gs]. now rewrite P2, G2.
    + unfold live_of, q'. cbn [q_so q_ps q_cs q_ns]. rewrite C2.
      cbn [so' set_base_ref so_presses so_channels so_notes so_base so_configs so_beats].
      unfold live_of in ND, NF. cbn zeta in ND, NF. cbn [app] in *.
      change (NoDup ([r; so_presses (q_so q); so_channels (q_so q); so_notes (q_so q)] ++ nb :: [so_configs (q_so q); so_beats (q_so q)]
         ++ q_ps q ++ q_ns q ++ flat_map (chan_fp h) (q_cs q))).
      apply (Permutation_NoDup (Permutation_middle _ _ _)).
      change (NoDup ([r; so_presses (q_so q); so_channels (q_so q); so_notes (q_so q)] ++ so_base (q_so q) :: [so_configs (q_so q); so_beats (q_so q)]
         ++ q_ps q ++ q_ns q ++ flat_map (chan_fp h) (q_cs q))) in ND.
      pose proof (NoDup_remove_1 _ _ _ ND) as ND'. constructor; [|exact ND'].
      intro I. apply NF. cbn [In app] in *. tauto.
    + intros i I J. apply L in I as [I| ->]; [now apply (D i)|contradiction].
  - intros i N. apply nth_set_other. intros <-. apply N, in_seven. now left.
  - split; [reflexivity|]. exists []. now rewrite app_nil_r.
Qed.
Lemma evolves_store h h' F G F' G' : length h <= length h' -> (forall i, i < length h -> ~ In i F -> get h' i = get h i) ->
  (forall i, In i F' -> In i F \/ length h <= i) -> (forall i, In i G' -> In i G \/ length h <= i) -> evolves h F G h' F' G'.
Proof. now constructor. Qed.

Lemma new_instrument h r s F G q ch c op n : repq h r s F G q -> py_get (s_channels s) ch = Ok c ->
  exists h' F' G' q',
    (do! b <- copy_base (so_base (q_so q));
     do! c <- item (so_channels (q_so q)) ch; do! c <- copy_chan c;
     do! g <- alloc (OConfig (mkgo n b c op));
     do! _ <- append (so_configs (q_so q)) g;
     do! nb <- copy_base (so_base (q_so q));
     do! _ <- assign_state r (set_base_ref nb);
     ret n) h = Ok (n, h')
    /\ repq h' r (set_configs s (s_configs s ++ [mkconfig n (s_base s) c op])) F' G' q'
    /\ evolves h F G h' F' G' /\ grown q q'.
Proof.
  intros R E. pose proof R as (Q & EF & EG & ND & D).
  pose proof (rep_bounds _ _ _ _ _ (ex_intro _ q R)) as BD.
  destruct (py_get_both _ _ _ _ _ (rp_cs _ _ _ _ Q) E) as (k & cr & S1 & S2 & N1 & N2 & RC & P1).
  assert (NDc : NoDup (chan_fp h cr)).
  { subst F. destruct (live_apart _ _ _ ND) as (_ & _ & _ & Nc & _). revert Nc N1. clear. generalize (q_cs q) as l. revert k.
    intros k l. revert k. induction l as [|a l IH]; intros [|k] Nc N1; cbn [flat_map nth_error] in *; try discriminate; apply NoDup_app_iff in Nc as (Na & Nl & _).
    - now injection N1 as ->.
    - now apply (IH k). }
  assert (CB : forall i, In i (chan_fp h cr) -> i < length h).
  { intros i I. apply BD, in_app_iff. left. subst F. apply in_live_cs. eapply in_flat; eassumption. }
  set (h1 := h ++ [OBase (s_base s)]). set (b := length h).
  destruct (chan_frame h h1 cr c (agree_alloc _ _ _ CB) RC) as [RC1 FP1].
  destruct (copy_chan_ok h1 cr c RC1) as (h2 & cr' & M2 & X2 & RC2 & FP2); [now rewrite FP1|].
  set (g := length h2). set (h3 := h2 ++ [OConfig (mkgo n b cr' op)]).
  assert (X12 : extends h h2) by (eapply extends_trans; [apply extends_alloc|exact X2]).
  assert (X3 : extends h h3) by (eapply extends_trans; [exact X12|apply extends_alloc]).
  assert (L1 : length h1 = S (length h)) by (unfold h1; rewrite app_length; cbn; lia).
  assert (B2 : forall i, In i (chan_fp h2 cr') -> i < length h2).
  { clear -RC2. destruct RC2 as (co & l & E1 & E2 & Fo & _). intros i I. unfold chan_fp, items in I. rewrite E1, E2 in I.
    destruct I as [<-|[<-|I]]; [eapply get_bound; eassumption..|].
    clear -Fo I. induction Fo as [|x y l os Hx Fo IH]; [destruct I|]. destruct I as [<-|I]; [eapply get_bound, Hx|auto]. }
  assert (RC3 : rep_chan h3 cr' c /\ chan_fp h3 cr' = chan_fp h2 cr') by (apply chan_frame; [now apply agree_alloc|assumption]).
  destruct RC3 as [RC3 FP3].
  assert (Gb : get h3 b = Some (OBase (s_base s))).
  { apply get_app. destruct X2 as [_ X2]. rewrite X2 by (unfold b; lia). apply get_new. }
  assert (RG : rep_config h3 g (mkconfig n (s_base s) c op)).
  { eexists. split; [apply get_new|]. cbn [go_base go_channel go_id go_operators c_base c_channel c_id c_operators]. auto. }
  assert (FG : forall i, In i (config_fp h3 g) -> length h <= i).
  { intros i I. unfold config_fp in I. replace (get h3 g) with (Some (OConfig (mkgo n b cr' op))) in I by (symmetry; apply get_new).
    cbn [go_base go_channel] in I. rewrite FP3 in I. destruct I as [<-|[<-|I]].
    - unfold g. destruct X12. lia.
    - reflexivity.
    - apply FP2 in I. lia. }
  destruct (repq_extends _ _ _ _ _ _ _ R X3) as [R3 V3].
  destruct (append_config h3 r s F G q g _ R3 RG) as (h4 & G4 & q4 & M4 & R4 & L4 & O4 & I4 & W4 & SO4).
  { intros i I J. apply FG in J. assert (i < length h) by (apply BD, in_app_iff; now left). lia. }
  pose proof (rep_bounds _ _ _ _ _ (ex_intro _ q4 R4)) as BD4.
  set (s4 := set_configs s (s_configs s ++ [mkconfig n (s_base s) c op])) in *.
  assert (Gb4 : get h4 (so_base (q_so q)) = Some (OBase (s_base s))).
  { destruct R4 as (Q4 & _). pose proof (rp_base _ _ _ _ Q4) as X. now rewrite SO4 in X. }
  pose proof (repq_alloc h4 (OBase (s_base s)) _ _ _ _ _ R4) as R5. set (h5 := h4 ++ [OBase (s_base s)]) in *. set (nb := length h4) in *.
  destruct (rebase h5 r s4 F G4 q4 nb R5) as (h6 & F6 & q6 & M6 & R6 & L6 & O6 & I6 & W6).
  { apply get_new. }
  { intro I. assert (nb < length h4) by (apply BD4, in_app_iff; now left). unfold nb in *. lia. }
  { intro I. assert (nb < length h4) by (apply BD4, in_app_iff; now right). unfold nb in *. lia. }
  assert (L5 : length h5 = S (length h4)) by (unfold h5; rewrite app_length; cbn; lia).
  destruct X3 as [LX3 AX3].
  exists h6, F6, G4, q6. split; [|split; [exact R6|split; [|eapply grown_trans; eassumption]]].
  - by_ (f_copy_base _ _ _ (rp_base _ _ _ _ Q)). fold h1 b.
    assert (Gc : get h1 (so_channels (q_so q)) = Some (OList (q_cs q))) by (apply get_app, Q).
    by_ (f_item _ _ _ _ _ Gc P1). by_ M2. by_ (f_alloc h2 (OConfig (mkgo n b cr' op))). fold h3 g. by_ M4.
    by_ (f_copy_base _ _ _ Gb4). fold h5 nb. by_ M6. reflexivity.
  - apply evolves_store.
    + lia.
    + intros i Li N. rewrite O6 by assumption. unfold h5. rewrite nth_error_app1 by lia. rewrite O4 by assumption. now apply AX3.
    + intros i I. apply I6 in I as [I| ->]; [now left|]. right. unfold nb. lia.
    + intros i I. apply I4 in I as [I|I]; [now left|]. right. now apply FG.
Qed.

(** ** New notes *)
Lemma append_note h r s F G q ch kp x n : repq h r s F G q -> py_get (s_key_presses s) ch = Ok kp ->
  get h x = Some (ONote n) -> ~ In x F ->
  exists h' G' kps p, item (so_presses (q_so q)) ch h = Ok (p, h) /\ append p x h = Ok (tt, h')
    /\ py_set (s_key_presses s) ch (kp ++ [n]) = Ok kps
    /\ repq h' r (set_key_presses s kps) F G' q /\ length h' = length h
    /\ (forall i, ~ In i F -> get h' i = get h i) /\ (forall i, In i G' -> In i G \/ i = x).
Proof.
  intros (Q & EF & EG & ND & D) E Ex NF. subst F G.
  destruct (py_get_both _ _ _ _ _ (rp_ps _ _ _ _ Q) E) as (k & p & S1 & S2 & N1 & N2 & RP & P1).
  destruct RP as (l & El & Fl).
  assert (Ip : In p (q_ps q)) by (eapply nth_error_In; eassumption).
  assert (B : p < length h) by (eapply get_bound; eassumption).
  assert (Px : p <> x) by (intros ->; congruence).
  set (h' := set_nth p (OList (l ++ [x])) h).
  destruct (live_apart h r q ND) as (_ & Np & _ & _ & D7p & _ & _ & Dpn & Dpc & _).
  assert (A : forall K, ~ In p K -> agree h h' K) by (intros K N; now apply agree_store).
  assert (AG : agree h h' (frozen_of h q)) by (apply A; intro J; apply (D p); [now apply in_live_ps|assumption]).
  destruct (keep_gs h h' r s q Q) as [G1 G2]; [eapply agree_sub; [exact AG|]; apply incl_appl, incl_refl|].
  destruct (keep_cs h h' r s q Q) as [C1 C2]; [apply A; intro; now apply (Dpc p)|].
  pose proof (keep_ns h h' r s q Q (A _ (fun X => Dpn p Ip X))) as M1.
  assert (A7 : agree h h' (seven r (q_so q))) by (apply A; intro; now apply (D7p p)).
  set (R0 := fun g i (v : list note) => exists li, get g i = Some (OList li) /\ Forall2 (rep_note g) li v /\ ~ In p li).
  assert (NO : forall li v, Forall2 (rep_note h) li v -> ~ In p li -> Forall2 (rep_note h') li v).
  { intros li v Fi. induction Fi as [|a b li v Ha Fi IH]; intro Ni; constructor.
    - unfold rep_note, h'. rewrite nth_set_other; [exact Ha|]. intros ->. apply Ni. now left.
    - apply IH. intro. apply Ni. now right. }
  assert (I0 : forall i, In i (q_ps q) -> ~ In p (items h i)).
  { intros i Ii J. apply (D p); [now apply in_live_ps|]. apply in_app_iff. right. apply in_flat_map. eauto. }
  assert (F0 : Forall2 (R0 h) (q_ps q) (s_key_presses s)).
  { pose proof (rp_ps _ _ _ _ Q) as FP. clear -FP I0. induction FP as [|a b ps vs Ha FP IH]; constructor.
    - destruct Ha as (li & Ea & Fa). exists li. split; [assumption|]. split; [assumption|].
      specialize (I0 a (or_introl eq_refl)). unfold items in I0. now rewrite Ea in I0.
    - apply IH. intros i Ii. apply I0. now right. }
  destruct (frames_one R0 (fun _ i => [i]) h h') with (l := q_ps q) (vs := s_key_presses s) (k := k) (r := p) (v' := kp ++ [n])
    as [F1 _].
  - intros i v Ai (li & Ei & Fi & Ni). split; [|reflexivity]. exists li. rewrite Ai by now left.
    split; [assumption|]. split; [now apply NO|assumption].
  - replace (flat_map _ _) with (q_ps q); [exact Np|]. clear. induction (q_ps q) as [|a l IH]; [reflexivity|]. cbn. now f_equal.
  - exact F0.
  - exact N1.
  - intros i Ni. apply nth_set_other. intros ->. apply Ni. now left.
  - assert (Npl : ~ In p l) by (specialize (I0 p Ip); unfold items in I0; now rewrite El in I0).
    exists (l ++ [x]). split; [now apply nth_set_same|]. split.
    + apply Forall2_app; [now apply NO|]. constructor; [|constructor]. unfold rep_note, h'. now rewrite nth_set_other.
    + rewrite in_app_iff. cbn [In]. intros [J|[J|[]]]; [contradiction|congruence].
  - reflexivity.
  - assert (IN : forall i, In i (frozen_of h' q) -> In i (frozen_of h q) \/ i = x).
    { intros i I. unfold frozen_of in *. rewrite G2 in I. rewrite in_app_iff in *. destruct I as [I|I]; [tauto|].
      apply in_flat_map in I as (p' & Ip' & I). destruct (Nat.eq_dec p' p) as [->|Np'].
      - unfold items in I. unfold h' in I. rewrite nth_set_same in I by assumption. apply in_app_iff in I as [I|[->|[]]]; [|now right].
        left. right. apply in_flat_map. exists p. split; [assumption|]. unfold items. now rewrite El.
      - rewrite (items_frame h) in I by (apply nth_set_other; congruence). left. right. apply in_flat_map. eauto. }
    exists h', (frozen_of h' q), (set_nth k (kp ++ [n]) (s_key_presses s)), p.
    split; [eapply f_item; [apply Q|exact P1]|]. split; [now apply f_append|]. split; [now apply py_set_slot|].
    split; [|split; [apply set_nth_length|split; [|exact IN]]].
    + unfold repq, live_of. rewrite C2. split; [|split; [reflexivity|split; [reflexivity|split; [exact ND|]]]].
      * constructor; cbn [set_key_presses s_key_presses s_channels s_notes s_base s_configs s_samples s_note_beats s_first_beat];
          try assumption; try apply Q; try (rewrite A7 by (cbn; tauto); apply Q).
        eapply Forall2_imp; [|exact F1]. intros a b (li & Ha & Hb & _). now exists li.
      * intros i I J. apply IN in J as [J| ->]; [now apply (D i)|contradiction].
    + intros i Ni. apply nth_set_other. intros ->. now apply Ni, in_live_ps.
Qed.

(** self._note_beats.add(v) *)
Lemma add_beat h r s F G q v : repq h r s F G q ->
  let h' := set_nth (so_beats (q_so q)) (OSet (set_add v (s_note_beats s))) h in
  repq h' r (set_note_beats s (set_add v (s_note_beats s))) F G q /\ evolves h F G h' F G.
Proof.
  intros (Q & EF & EG & ND & D) h'. subst F G.
  destruct (update_seven h r s q (so_beats (q_so q)) (OSet (set_add v (s_note_beats s))) Q ND D) as (B & Ap & P1 & P2 & C1 & C2 & N1 & G1 & G2 & V);
    [cbn; tauto|]. fold h' in Ap, P1, P2, C1, C2, N1, G1, G2, V.
  split; [|apply V, in_seven; cbn; tauto].
  unfold repq, live_of, frozen_of. rewrite C2, P2, G2. seven_nodup ND.
  split; [|repeat split; assumption].
  constructor; cbn [set_note_beats s_key_presses s_channels s_notes s_base s_configs s_samples s_note_beats s_first_beat]; try assumption; try apply Q.
  all: try (unfold h'; apply nth_set_same; assumption).
  all: unfold h'; rewrite nth_set_other by (let X := fresh in intro X; first [tauto | symmetry in X; tauto]); apply Q.
Qed.

(** ** Key events *)
Lemma sim_key r value : sim r (hkey_event r value) (key_event value).
Proof.
  intros h s F G q s' R E. pose proof R as (Q & _). unfold key_event in E.
  set (op := Z.land (Z.shiftr value 3) 15) in *. set (ch := Z.land value 7) in *.
  destruct (py_get (s_channels s) ch) as [c|] eqn:Ec; [|discriminate]. cbn [bind] in E.
  set (found := find_config (s_configs s) (s_base s) c op 0) in *.
  unfold hkey_event. fold op ch. step (rp_state _ _ _ _ Q). step (rp_configs _ _ _ _ Q).
  by_ (hfind_ok _ _ _ _ _ _ op Q Ec _ _ 0%Z (rp_gs _ _ _ _ Q)). fold found.
  assert (L : len (q_gs q) = len (s_configs s)) by (unfold len; now rewrite (Forall2_len _ _ _ (rp_gs _ _ _ _ Q))).
  rewrite L.
  (* the instrument *)
  set (p1 := if (len (s_configs s) =? found)%Z then if op_true op
        then (set_configs s (s_configs s ++ [mkconfig found (s_base s) c op]), found) else (s, (-1)%Z) else (s, found)) in *.
  destruct p1 as [s1 cid] eqn:Ep1. unfold p1 in Ep1.
  match type of E with context [let! _ := ?m in _] => idtac end.
  match goal with |- context [hbind (if (_ =? found)%Z then ?a else ?b) ?k] =>
    assert (ST1 : exists h1 F1 G1 q1, (if (len (s_configs s) =? found)%Z then a else b) h = Ok (cid, h1)
      /\ repq h1 r s1 F1 G1 q1 /\ evolves h F G h1 F1 G1 /\ grown q q1)
  end.
  { destruct (len (s_configs s) =? found)%Z.
    - destruct (op_true op).
      + injection Ep1 as <- <-. exact (new_instrument h r s F G q ch c op found R Ec).
      + injection Ep1 as <- <-. exists h, F, G, q. split; [reflexivity|]. split; [assumption|]. split; [apply evolves_refl|apply grown_refl].
    - injection Ep1 as <- <-. exists h, F, G, q. split; [reflexivity|]. split; [assumption|]. split; [apply evolves_refl|apply grown_refl]. }
  destruct ST1 as (h1 & F1 & G1 & q1 & M1 & R1 & V1 & W1). by_ M1. clear M1 Ep1 p1.
  pose proof R1 as (Q1 & _). step (rp_state _ _ _ _ Q1).
  (* the first beat *)
  rewrite (rp_first _ _ _ _ Q1), (rp_samples _ _ _ _ Q1).
  set (s2 := if op_true op && negb (first_beat_true (s_first_beat s1)) then set_first_beat s1 (Some (s_samples s1)) else s1) in *.
  match goal with |- context [hbind (if ?b then ?m else ret tt) ?k] =>
    assert (ST2 : exists h2 q2, (if b then m else ret tt) h1 = Ok (tt, h2) /\ repq h2 r s2 F1 G1 q2 /\ evolves h1 F1 G1 h2 F1 G1 /\ grown q1 q2)
  end.
  { unfold s2. destruct (op_true op && negb (first_beat_true (s_first_beat s1))).
    - destruct (sim_self r (set_first (Some (s_samples s1))) (fun s => set_first_beat s (Some (s_samples s1)))) with (h := h1) (s := s1) (F := F1) (G := G1) (q := q1)
        as (h' & q' & X1 & X2 & X3 & X4); auto; [now repeat split..|apply Q1|]. exists h', q'. auto.
    - exists h1, q1. split; [reflexivity|]. split; [assumption|]. split; [apply evolves_refl|apply grown_refl]. }
  destruct ST2 as (h2 & q2 & M2 & R2 & V2 & W2). by_ M2. clear M2.
  pose proof R2 as (Q2 & _). step (rp_state _ _ _ _ Q2). rewrite (rp_first _ _ _ _ Q2), (rp_samples _ _ _ _ Q2).
  (* the note *)
  match type of E with bind ?m _ = _ => destruct m as [s3|] eqn:E3; [|discriminate] end. cbn [bind] in E. injection E as <-.
  match goal with |- context [hbind (if ?b then ?m else ret tt) ?k] =>
    assert (ST3 : exists h3 G3, (if b then m else ret tt) h2 = Ok (tt, h3) /\ repq h3 r s3 F1 G3 q2 /\ evolves h2 F1 G1 h3 F1 G3
      /\ s_samples s3 = s_samples s2)
  end.
  { destruct (first_beat_true (s_first_beat s2)).
    - destruct (py_get (s_notes s2) ch) as [nc|] eqn:En; [|discriminate]. cbn [bind] in E3.
      destruct (py_get (s_key_presses s2) ch) as [kp|] eqn:Ek; [|discriminate]. cbn [bind] in E3.
      destruct (py_get_both _ _ _ _ _ (rp_ns _ _ _ _ Q2) En) as (k & nr & S1 & S2 & N1 & N2 & RN & P1).
      set (nt := note_new cid nc (s_samples s2)) in *.
      pose proof (repq_alloc h2 (ONote nt) _ _ _ _ _ R2) as R2'. set (ha := h2 ++ [ONote nt]) in *.
      pose proof (rep_bounds _ _ _ _ _ (ex_intro _ q2 R2)) as BD.
      destruct (append_note ha r s2 F1 G1 q2 ch kp (length h2) nt R2' Ek) as (h3 & G3 & kps & p & X1 & X2 & X3 & X4 & X5 & X6 & X7).
      { apply get_new. }
      { intro I. assert (length h2 < length h2) by (apply BD, in_app_iff; now left). lia. }
      rewrite X3 in E3. cbn [bind] in E3. injection E3 as <-.
      assert (LA : length ha = S (length h2)) by (unfold ha; rewrite app_length; cbn; lia).
      exists h3, G3. split; [|split; [exact X4|split; [|reflexivity]]].
      + by_ (f_item _ _ _ _ _ (rp_notes _ _ _ _ Q2) P1). by_ (f_nc _ _ _ RN). by_ (f_alloc h2 (ONote nt)). fold ha.
        by_ X1. exact X2.
      + apply evolves_store.
        * lia.
        * intros i Li N. rewrite X6 by assumption. now apply nth_error_app1.
        * auto.
        * intros i I. apply X7 in I as [I| ->]; [now left|]. now right.
    - injection E3 as <-. exists h2, G1. split; [reflexivity|]. split; [assumption|]. split; [apply evolves_refl|reflexivity]. }
  destruct ST3 as (h3 & G3 & M3 & R3 & V3 & SS). by_ M3. clear M3 E3.
  pose proof R3 as (Q3 & _).
  assert (V13 : evolves h F G h3 F1 G3) by (eapply evolves_trans; [exact V1|eapply evolves_trans; eassumption]).
  assert (W13 : grown q q2) by (eapply grown_trans; eassumption).
  destruct (0 <=? cid)%Z.
  - step (rp_beats _ _ _ _ Q3). destruct (add_beat h3 r s3 F1 G3 q2 (s_samples s3) R3) as [R4 V4].
    rewrite <- SS. eexists _, F1, G3, q2. split; [reflexivity|]. split; [exact R4|]. split; [eapply evolves_trans; eassumption|assumption].
  - exists h3, F1, G3, q2. split; [reflexivity|]. auto.
Qed.
