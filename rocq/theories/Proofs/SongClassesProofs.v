(** The record classes of the song format: constructors, instances, what is written. *)
From Coq Require Import Lia ZifyBool.
From Verif.Model Require Import Py Dataclass Dao.
From Verif.Spec Require Import Text SongFile SongClasses.
From Verif.Proofs Require Import PyLemmas TextProofs DocumentProofs.
Open Scope string_scope.
Open Scope list_scope.
Open Scope Z_scope.

Fixpoint pyval_all (P : pyval -> Prop) (Hn : P VNone) (Hi : forall n, P (VInt n)) (Hb : forall b, P (VBool b))
  (Hs : forall s, P (VStr s)) (Hl : forall l, Forall P l -> P (VList l))
  (Ho : forall l, Forall (fun mv => P (snd mv)) l -> P (VObj l)) (v : pyval) : P v :=
  let rec := pyval_all P Hn Hi Hb Hs Hl Ho in
  match v with
  | VNone => Hn | VInt n => Hi n | VBool b => Hb b | VStr s => Hs s
  | VList l => Hl l ((fix go l := match l return Forall P l with [] => Forall_nil _ | w :: r => Forall_cons w (rec w) (go r) end) l)
  | VObj l => Ho l ((fix go l := match l return Forall (fun mv => P (snd mv)) l with
                     | [] => Forall_nil _ | w :: r => Forall_cons w (rec (snd w)) (go r) end) l)
  end.

Lemma write_tag t v : Forall (fun k => tag k = t) (write t v).
Proof.
  revert v. apply pyval_all; try (intros; solve [repeat constructor]).
  intros l H. rewrite write_list. apply Forall_flat_map. exact H.
Qed.

(** ** Taking turns *)
Section Filtered.
  Variable P : xml -> bool.
  Definition some (m : list xml) : bool := existsb P m.
  Definition uniform (m : list xml) : Prop := forallb P m = true \/ existsb P m = false.
  Definition single (cs : list (list xml)) : Prop := (length (filter some cs) <= 1)%nat.
  Lemma none_filter m : existsb P m = false -> filter P m = [].
  Proof. induction m as [|x m IH]; [reflexivity|]. cbn. intro H. apply orb_false_iff in H as [-> H]. auto. Qed.
  Lemma none_tl m : existsb P m = false -> existsb P (tl m) = false.
  Proof. destruct m; [easy|]. cbn. intro H. now apply orb_false_iff in H. Qed.
  Lemma none_firstn n m : existsb P m = false -> existsb P (firstn n m) = false.
  Proof.
    revert m. induction n as [|n IH]; intros m H; [reflexivity|]. destruct m as [|x m]; [reflexivity|].
    cbn in *. apply orb_false_iff in H as [-> H]. cbn. auto.
  Qed.
  Lemma uniform_tl m : uniform m -> uniform (tl m).
  Proof.
    intros [H|H]; [left|right; now apply none_tl]. destruct m; [easy|]. cbn in H. now apply andb_true_iff in H.
  Qed.
  Lemma some_tl m : some (tl m) = true -> some m = true.
  Proof. destruct m; [easy|]. cbn. intros ->. apply orb_true_r. Qed.
  Lemma single_tl cs : single cs -> single (map (@tl xml) cs).
  Proof.
    unfold single. enough (E : (length (filter some (map (@tl xml) cs)) <= length (filter some cs))%nat) by lia.
    induction cs as [|m cs IH]; [reflexivity|]. cbn [map filter].
    destruct (some (tl m)) eqn:E; [rewrite (some_tl _ E); cbn [length]; lia|].
    destruct (some m); cbn [length]; lia.
  Qed.
  Lemma nobody cs : filter some cs = [] -> Forall (fun m => existsb P m = false) cs.
  Proof.
    induction cs as [|m cs IH]; intro H; [constructor|]. cbn in H. unfold some in H at 1.
    destruct (existsb P m) eqn:E; [discriminate|]. constructor; auto.
  Qed.
  Definition heads (ls : list (list xml)) : list xml := flat_map (fun l => match l with [] => [] | x :: _ => [x] end) ls.
  Lemma nobody_robin n : forall cs, Forall (fun m => existsb P m = false) cs -> filter P (robin n cs) = [].
  Proof.
    induction n as [|n IH]; intros cs H; [reflexivity|]. cbn [robin]. rewrite filter_app. rewrite IH.
    - rewrite app_nil_r. clear IH. induction H as [|m cs E H IH]; [reflexivity|]. cbn [flat_map]. rewrite filter_app, IH.
      destruct m; [reflexivity|]. cbn in *. apply orb_false_iff in E as [-> _]. reflexivity.
    - clear IH. induction H; constructor; auto using none_tl.
  Qed.
  Lemma nobody_concat (f : list xml -> list xml) cs :
    (forall m, existsb P m = false -> existsb P (f m) = false) ->
    Forall (fun m => existsb P m = false) cs -> List.concat (map (fun m => filter P (f m)) cs) = [].
  Proof. intros F H. induction H as [|m cs E H IH]; [reflexivity|]. cbn. now rewrite none_filter, IH by auto. Qed.
  Lemma turn n cs : Forall uniform cs -> single cs ->
    filter P (heads cs) ++ List.concat (map (fun m => filter P (firstn n m)) (map (@tl xml) cs))
    = List.concat (map (fun m => filter P (firstn (S n) m)) cs).
  Proof.
    intros U. induction U as [|m cs U Us IH]; intro S; [reflexivity|].
    unfold single in S. cbn [filter] in S. unfold some in S at 1. cbn [heads flat_map map List.concat]. fold (heads cs).
    destruct (existsb P m) eqn:E.
    - cbn [length] in S. assert (N : filter some cs = []) by (apply length_zero_iff_nil; lia).
      apply nobody in N. rewrite filter_app.
      assert (Hd : filter P (heads cs) = []).
      { clear - N. induction N as [|w cs E H IH]; [reflexivity|]. cbn [heads flat_map]. rewrite filter_app. fold (heads cs).
        rewrite IH. destruct w; [reflexivity|]. cbn in *. apply orb_false_iff in E as [-> _]. reflexivity. }
      rewrite Hd, app_nil_r.
      rewrite (nobody_concat (firstn (Datatypes.S n)) cs) by auto using none_firstn.
      rewrite (nobody_concat (firstn n) (map (@tl xml) cs)).
      2: intros; now apply none_firstn.
      2: { clear - N. induction N; constructor; auto using none_tl. }
      rewrite !app_nil_r. destruct m as [|x m]; [discriminate|]. cbn [tl firstn filter].
      destruct U as [U|U]; [|congruence]. cbn in U. apply andb_true_iff in U as [-> _]. reflexivity.
    - rewrite filter_app. rewrite (none_filter (firstn _ m)) by now apply none_firstn.
      rewrite (none_filter (firstn n (tl m))) by now apply none_firstn, none_tl. cbn [app].
      rewrite <- IH by exact S. f_equal.
      destruct m as [|x m]; [reflexivity|]. cbn in *. apply orb_false_iff in E as [-> _]. reflexivity.
  Qed.
  Lemma robin_filter n : forall cs, Forall uniform cs -> single cs ->
    filter P (robin n cs) = List.concat (map (fun m => filter P (firstn n m)) cs).
  Proof.
    induction n as [|n IH]; intros cs U S.
    - cbn. induction cs; [reflexivity|]. cbn. apply IHcs; [now inversion U|].
      unfold single in *. cbn in S. destruct (some a); cbn in S; lia.
    - cbn [robin]. rewrite filter_app, IH.
      + rewrite <- turn by assumption. reflexivity.
      + clear - U. induction U; constructor; auto using uniform_tl.
      + now apply single_tl.
  Qed.
  Lemma longest m cs : In m cs -> (length m <= fold_right Nat.max O (map (@length xml) cs))%nat.
  Proof. induction cs as [|w cs IH]; [easy|]. intros [->|H]; cbn; [|apply IH in H]; lia. Qed.
  Lemma interleave_filter cs : Forall uniform cs -> single cs ->
    filter P (interleave cs) = List.concat (map (filter P) cs).
  Proof.
    intros U S. unfold interleave. rewrite robin_filter by assumption. f_equal. apply map_ext_in. intros m H.
    now rewrite firstn_all2 by now apply longest.
  Qed.
  Lemma arrange_filter l : forall run, Forall uniform (run ++ map snd l) -> single (run ++ map snd l) ->
    filter P (arrange l run) = List.concat (map (filter P) (run ++ map snd l)).
  Proof.
    induction l as [|[q xs] l IH]; intros run U S.
    - cbn in *. rewrite app_nil_r in *. now apply interleave_filter.
    - cbn [arrange map snd] in *. destruct q.
      + replace (run ++ xs :: map snd l) with ((run ++ [xs]) ++ map snd l) in * by now rewrite <- app_assoc.
        now apply IH.
      + apply Forall_app in U as [U1 U2]. inversion U2 as [|? ? Ux Ul]; subst.
        unfold single in S. rewrite filter_app, app_length in S. cbn [filter] in S.
        rewrite !filter_app, map_app, List.concat_app. cbn [map List.concat]. f_equal; [|f_equal].
        * apply interleave_filter; [assumption|]. unfold single. lia.
        * apply (IH []); [exact Ul|]. unfold single. cbn [app]. destruct (some xs); cbn [length] in S; lia.
  Qed.
End Filtered.
Lemma in_robin n : forall cs k, In k (robin n cs) -> exists m, In m cs /\ In k m.
Proof.
  induction n as [|n IH]; intros cs k H; [destruct H|]. cbn [robin] in H. apply in_app_iff in H as [H|H].
  - apply in_flat_map in H as (m & Hm & H). exists m. split; [exact Hm|]. destruct m; [destruct H|].
    destruct H as [->|[]]. now left.
  - apply IH in H as (m & Hm & H). apply in_map_iff in Hm as (w & <- & Hw). exists w. split; [exact Hw|].
    destruct w; [destruct H|]. now right.
Qed.
Lemma in_arrange l : forall run k, In k (arrange l run) -> exists m, In m (run ++ map snd l) /\ In k m.
Proof.
  induction l as [|[q xs] l IH]; intros run k H.
  - cbn in *. rewrite app_nil_r. now apply in_robin in H.
  - cbn [arrange map snd] in *. destruct q.
    + apply IH in H. rewrite <- app_assoc in H. exact H.
    + rewrite !in_app_iff in H. destruct H as [H|[H|H]].
      * apply in_robin in H as (m & Hm & H). exists m. rewrite in_app_iff. auto.
      * exists xs. rewrite in_app_iff. cbn. auto.
      * apply IH in H as (m & Hm & H). exists m. rewrite in_app_iff. cbn. auto.
Qed.
Lemma arrange_plain l : (length (filter fst l) <= 1)%nat -> arrange l [] = List.concat (map snd l).
Proof.
  enough (E : forall run, (length (filter (@fst bool (list xml)) l) + length run <= 1)%nat ->
    arrange l run = List.concat run ++ List.concat (map snd l)) by (intros; rewrite E; [reflexivity|cbn; lia]).
  induction l as [|[q xs] l IH]; intros run H.
  - cbn [arrange map snd List.concat filter length] in *. destruct run as [|r [|]];
      [reflexivity|cbn [List.concat app]; now rewrite interleave_one, !app_nil_r|cbn in H; lia].
  - cbn [arrange filter map snd List.concat fst] in *. destruct q.
    + cbn in H. destruct run; [|cbn in H; lia]. cbn [app]. rewrite IH by (cbn; lia). cbn. now rewrite app_nil_r.
    + rewrite (IH []) by (cbn; lia). cbn [List.concat app]. f_equal.
      destruct run as [|r [|]]; [reflexivity|cbn [List.concat app]; now rewrite interleave_one, app_nil_r|cbn in H; lia].
Qed.

(** ** The tables *)
Definition xml_attribute (a : string) : bool := existsb (String.eqb a) xml_attributes.
Definition plain_eqb (v w : pyval) : bool :=
  match v, w with
  | VNone, VNone => true | VInt a, VInt b => a =? b | VStr s, VStr r => String.eqb s r
  | VList [], VList [] => true | _, _ => false
  end.
Lemma plain_eq v w : plain_eqb v w = true -> v = w.
Proof.
  destruct v as [| | | |[|]|], w as [| | | |[|]|]; cbn; try discriminate; intro H; try reflexivity.
  - now apply Z.eqb_eq in H as ->.
  - now apply String.eqb_eq in H as ->.
Qed.
Definition field_ok (c : string) (f : fdecl) : bool :=
  let m := fd_meta f in let a := fm_attr m in
  (if xml_attribute a then match fm_kind m with PAttribute => String.eqb (fm_xml m) a | _ => false end
   else match fm_kind m with PElement => String.eqb (fm_xml m) (element_name a) | _ => false end)
  && Bool.eqb (fd_init f) (match given_for a (preset c) with Some _ => false | None => true end)
  && plain_eqb (fd_default f) (unset c a).
Fixpoint distinct (l : list string) : bool :=
  match l with [] => true | a :: r => negb (existsb (String.eqb a) r) && distinct r end.
Lemma distinct_nodup l : distinct l = true -> NoDup l.
Proof.
  induction l as [|a l IH]; intro H; [constructor|]. cbn in H. apply andb_true_iff in H as [H1 H2].
  constructor; [|auto]. intro Ia. apply negb_true_iff in H1. assert (E : existsb (String.eqb a) l = true).
  { apply existsb_exists. exists a. split; [exact Ia|apply String.eqb_refl]. }
  congruence.
Qed.
Definition element_names (fs : list fdecl) : list string :=
  map element_name (filter (fun a => negb (xml_attribute a)) (attributes_of fs)).
Definition turning (fs : list fdecl) : list fdecl :=
  filter (fun f => match fm_kind (fd_meta f) with PElement => fm_seq (fd_meta f) | _ => false end) fs.
Definition class_ok (k : string * list fdecl) : bool :=
  forallb (field_ok (fst k)) (snd k) && distinct (attributes_of (snd k)) && distinct (element_names (snd k))
  && ((length (turning (snd k)) <=? 1)%nat || existsb (String.eqb "xypad_device") (attributes_of (snd k)))
  && forallb (fun p => existsb (String.eqb (fst p)) (attributes_of (snd k))) (preset (fst k)).
Lemma all_ok : forallb class_ok song_classes = true.
Proof. vm_compute. reflexivity. Qed.

Record facts (c : string) (fs : list fdecl) : Prop := {
  f_fields : forall f, In f fs -> field_ok c f = true;
  f_attrs : NoDup (attributes_of fs);
  f_names : NoDup (element_names fs);
  f_turning : (length (turning fs) <= 1)%nat \/ In "xypad_device" (attributes_of fs);
  f_preset : forall a, In a (map fst (preset c)) -> In a (attributes_of fs) }.
Lemma eqb_in a l : existsb (String.eqb a) l = true <-> In a l.
Proof.
  rewrite existsb_exists. split.
  - intros (b & H & E). now apply String.eqb_eq in E as ->.
  - intro H. exists a. split; [exact H|apply String.eqb_refl].
Qed.
Lemma class_facts c fs : In (c, fs) song_classes -> facts c fs.
Proof.
  intro H. pose proof all_ok as A. rewrite forallb_forall in A. apply A in H. clear A. unfold class_ok in H.
  cbn [fst snd] in H. rewrite !andb_true_iff in H. destruct H as ((((F & N) & X) & T) & Pr).
  constructor.
  - now apply forallb_forall.
  - now apply distinct_nodup.
  - now apply distinct_nodup.
  - apply orb_true_iff in T as [T|T]; [left; now apply Nat.leb_le|right; now apply eqb_in].
  - intros a Ha. apply in_map_iff in Ha as (p & <- & Hp). rewrite forallb_forall in Pr. now apply eqb_in, Pr.
Qed.
Lemma xml_attribute_in a : xml_attribute a = true <-> In a xml_attributes. Proof. apply eqb_in. Qed.
Lemma field_attr c f : field_ok c f = true -> In (fm_attr (fd_meta f)) xml_attributes ->
  fm_kind (fd_meta f) = PAttribute /\ fm_xml (fd_meta f) = fm_attr (fd_meta f).
Proof.
  intros H Ha. apply xml_attribute_in in Ha. unfold field_ok in H. rewrite Ha, !andb_true_iff in H.
  destruct H as ((H & _) & _). destruct (fm_kind (fd_meta f)); [discriminate|]. split; [reflexivity|].
  now apply String.eqb_eq.
Qed.
Lemma field_elem c f : field_ok c f = true -> ~ In (fm_attr (fd_meta f)) xml_attributes ->
  fm_kind (fd_meta f) = PElement /\ fm_xml (fd_meta f) = element_name (fm_attr (fd_meta f)).
Proof.
  intros H Ha. rewrite <- xml_attribute_in in Ha. apply not_true_is_false in Ha. unfold field_ok in H.
  rewrite Ha, !andb_true_iff in H. destruct H as ((H & _) & _).
  destruct (fm_kind (fd_meta f)); [|discriminate]. split; [reflexivity|]. now apply String.eqb_eq.
Qed.
Lemma field_init c f : field_ok c f = true ->
  fd_init f = (match given_for (fm_attr (fd_meta f)) (preset c) with Some _ => false | None => true end)
  /\ fd_default f = unset c (fm_attr (fd_meta f)).
Proof.
  unfold field_ok. rewrite !andb_true_iff. intros ((_ & E) & D). split; [now apply eqb_prop|now apply plain_eq].
Qed.

(** ** What is written for an instance *)
Section Elements.
  Definition comps (E : list (string * pyval)) : list (list xml) := map (fun p => write (fst p) (snd p)) E.
  Definition called (x : string) (k : xml) : bool := String.eqb (tag k) x.
  Lemma called_own x v : filter (called x) (write x v) = write x v.
  Proof.
    pose proof (write_tag x v) as T. induction T as [|k ks E T IH]; [reflexivity|]. cbn. unfold called at 1.
    rewrite E, String.eqb_refl. now f_equal.
  Qed.
  Lemma called_other x y v : x <> y -> existsb (called x) (write y v) = false.
  Proof.
    intro N. pose proof (write_tag y v) as T. induction T as [|k ks E T IH]; [reflexivity|]. cbn. unfold called at 1.
    rewrite E, IH, orb_false_r. apply String.eqb_neq. congruence.
  Qed.
  Lemma comps_uniform x E : Forall (uniform (called x)) (comps E).
  Proof.
    induction E as [|[y v] E IH]; [constructor|]. constructor; [|exact IH]. cbn [fst snd].
    destruct (string_dec x y) as [->|N]; [left|right; now apply called_other].
    apply forallb_forall. intros k Hk. pose proof (write_tag y v) as T. rewrite Forall_forall in T.
    unfold called. rewrite (T k Hk). apply String.eqb_refl.
  Qed.
  Lemma comps_absent x E : ~ In x (map fst E) -> Forall (fun m => existsb (called x) m = false) (comps E).
  Proof.
    induction E as [|[y v] E IH]; intro H; [constructor|]. cbn in H. constructor.
    - apply called_other. intros ->. apply H. now left.
    - apply IH. intro. apply H. now right.
  Qed.
  Lemma comps_single x E : NoDup (map fst E) -> single (called x) (comps E).
  Proof.
    unfold single. induction E as [|[y v] E IH]; intro N; [cbn; lia|]. inversion N as [|? ? Ny Nd]; subst.
    cbn [comps map filter fst snd]. fold (comps E). destruct (string_dec x y) as [->|D].
    - enough (Z : filter (some (called y)) (comps E) = []) by (rewrite Z; destruct (some _ _); cbn; lia).
      pose proof (comps_absent y E Ny) as A. clear - A. induction A as [|m cs H A IH]; [reflexivity|].
      cbn. unfold some at 1. now rewrite H.
    - unfold some at 1. rewrite called_other by exact D. now apply IH.
  Qed.
  Lemma comps_pick x v E : NoDup (map fst E) -> In (x, v) E ->
    List.concat (map (filter (called x)) (comps E)) = write x v.
  Proof.
    induction E as [|[y w] E IH]; intros N H; [destruct H|]. inversion N as [|? ? Ny Nd]; subst.
    cbn [comps map List.concat fst snd]. fold (comps E). destruct H as [H|H].
    - injection H as -> ->. rewrite called_own.
      pose proof (nobody_concat (called x) (fun m => m) (comps E) (fun m H => H) (comps_absent x E Ny)) as Z. cbv beta in Z.
      change (map (filter (called x)) (comps E)) with (map (fun m => filter (called x) m) (comps E)). rewrite Z. apply app_nil_r.
    - rewrite (none_filter (called x)).
      + now apply IH.
      + apply called_other. intros ->. apply Ny. now apply (in_map fst) in H.
  Qed.
End Elements.
Definition elements (l : list (fmeta * pyval)) : list (string * pyval) :=
  flat_map (fun mv : fmeta * pyval => match fm_kind (fst mv) with PElement => [(fm_xml (fst mv), snd mv)] | _ => [] end) l.
Lemma kids_comps l : map snd (kid_fields l) = comps (elements l).
Proof.
  induction l as [|mv l IH]; [reflexivity|]. unfold kid_fields, elements in *. cbn [flat_map]. unfold comps in *.
  rewrite !map_app, IH. destruct (fm_kind (fst mv)); reflexivity.
Qed.
Lemma kids_turning l fs : map fst l = map fd_meta fs -> length (filter fst (kid_fields l)) = length (turning fs).
Proof.
  revert fs. induction l as [|[m v] l IH]; intros [|f fs] H; try discriminate; [reflexivity|].
  cbn [map fst] in H. injection H as -> H. unfold kid_fields, turning in *. cbn [flat_map fst filter].
  rewrite filter_app, app_length, (IH fs H). destruct (fm_kind (fd_meta f)); [|reflexivity].
  cbn [filter fst snd]. destruct (fm_seq (fd_meta f)); reflexivity.
Qed.
Lemma holds_in l a v : holds l a = Some v -> exists m, In (m, v) l /\ fm_attr m = a.
Proof.
  unfold holds. destruct (find _ l) as [[m w]|] eqn:E; [|discriminate]. cbn. intro H. injection H as ->.
  apply find_some in E as [E1 E2]. exists m. split; [exact E1|]. now apply String.eqb_eq in E2.
Qed.
Lemma in_holds l m v : NoDup (map (fun mv : fmeta * pyval => fm_attr (fst mv)) l) -> In (m, v) l -> holds l (fm_attr m) = Some v.
Proof.
  unfold holds. induction l as [|[k w] l IH]; intros N H; [destruct H|]. cbn [find fst].
  inversion N as [|? ? Nk Nd]; subst. destruct H as [H|H].
  - injection H as -> ->. now rewrite String.eqb_refl.
  - destruct (String.eqb_spec (fm_attr k) (fm_attr m)) as [E|E]; [|now apply IH].
    exfalso. apply Nk. rewrite E. now apply (in_map (fun mv : fmeta * pyval => fm_attr (fst mv))) in H.
Qed.

Section Instance.
  Variables (c : string) (fs : list fdecl) (l : list (fmeta * pyval)).
  Hypothesis Hc : In (c, fs) song_classes.
  Hypothesis Hl : map fst l = map fd_meta fs.
  Let Fc := class_facts c fs Hc.
  Lemma instance_attrs : map (fun mv : fmeta * pyval => fm_attr (fst mv)) l = attributes_of fs.
  Proof. unfold attributes_of. rewrite <- (map_map fst fm_attr), Hl, map_map. reflexivity. Qed.
  Lemma instance_field m v : In (m, v) l -> exists f, In f fs /\ m = fd_meta f.
  Proof.
    intro H. apply (in_map fst) in H. rewrite Hl in H. apply in_map_iff in H as (f & E & H). exists f. auto.
  Qed.
  Lemma instance_nodup : NoDup (map (fun mv : fmeta * pyval => fm_attr (fst mv)) l).
  Proof. rewrite instance_attrs. apply Fc. Qed.
  Lemma elements_names : map fst (elements l) = element_names fs.
  Proof.
    unfold element_names, attributes_of. pose proof (f_fields c fs Fc) as F. clear Fc Hc. revert l Hl F.
    induction fs as [|f r IH]; intros [|[m v] l] H F; try discriminate; [reflexivity|].
    cbn [map fst] in H. injection H as -> H. unfold elements in *. cbn [flat_map map fst snd filter].
    rewrite map_app, (IH l H) by (intros; apply F; now right).
    destruct (xml_attribute (fm_attr (fd_meta f))) eqn:E.
    - apply xml_attribute_in in E. apply (field_attr c) in E; [|apply F; now left]. destruct E as [-> _]. reflexivity.
    - assert (Ne : ~ In (fm_attr (fd_meta f)) xml_attributes) by (rewrite <- xml_attribute_in; congruence).
      apply (field_elem c) in Ne; [|apply F; now left]. destruct Ne as [-> E2]. cbn. now rewrite E2.
  Qed.
  Lemma elements_nodup : NoDup (map fst (elements l)).
  Proof. rewrite elements_names. apply Fc. Qed.
  Lemma holds_element a v : holds l a = Some v -> ~ In a xml_attributes -> In (element_name a, v) (elements l).
  Proof.
    intros H Ha. apply holds_in in H as (m & H & <-). destruct (instance_field m v H) as (f & Hf & ->).
    destruct (field_elem c f (f_fields c fs Fc f Hf) Ha) as [K X]. unfold elements. apply in_flat_map.
    exists (fd_meta f, v). split; [exact H|]. cbn [fst snd]. rewrite K, X. now left.
  Qed.
  Lemma element_holds x v : In (x, v) (elements l) ->
    exists a, holds l a = Some v /\ ~ In a xml_attributes /\ x = element_name a.
  Proof.
    unfold elements. intro H. apply in_flat_map in H as ((m & w) & H & Hx). cbn [fst snd] in Hx.
    destruct (instance_field m w H) as (f & Hf & ->).
    destruct (fm_kind (fd_meta f)) eqn:K; [|destruct Hx]. destruct Hx as [Hx|[]]. injection Hx as <- <-.
    exists (fm_attr (fd_meta f)). split; [exact (in_holds l _ w instance_nodup H)|].
    assert (Ne : ~ In (fm_attr (fd_meta f)) xml_attributes).
    { intro Ha. apply (field_attr c) in Ha; [|apply Fc; exact Hf]. rewrite K in Ha. destruct Ha. discriminate. }
    split; [exact Ne|]. now apply (field_elem c f (f_fields c fs Fc f Hf)).
  Qed.
  Lemma written_kids a v : holds l a = Some v -> ~ In a xml_attributes ->
    named (element_name a) (arrange (kid_fields l) []) = write (element_name a) v.
  Proof.
    intros H Ha. unfold named. change (fun k => String.eqb (tag k) (element_name a)) with (called (element_name a)).
    rewrite arrange_filter; cbn [app]; rewrite kids_comps.
    - apply comps_pick; [apply elements_nodup|now apply holds_element].
    - apply comps_uniform.
    - apply comps_single, elements_nodup.
  Qed.
  Lemma written_only k : In k (arrange (kid_fields l) []) ->
    exists a v, holds l a = Some v /\ ~ In a xml_attributes /\ tag k = element_name a.
  Proof.
    intro H. apply in_arrange in H as (m & Hm & H). cbn [app] in Hm. rewrite kids_comps in Hm.
    unfold comps in Hm. apply in_map_iff in Hm as ((x & v) & <- & Hx). cbn [fst snd] in H.
    pose proof (write_tag x v) as T. rewrite Forall_forall in T. apply T in H.
    destruct (element_holds x v Hx) as (a & Ea & Na & ->). exists a, v. auto.
  Qed.
  Lemma written_order : holds l "xypad_device" = None ->
    arrange (kid_fields l) []
    = List.concat (map (fun a => if xml_attribute a then [] else named (element_name a) (arrange (kid_fields l) []))
                       (map (fun mv => fm_attr (fst mv)) l)).
  Proof.
    intro Hx. rewrite arrange_plain at 1.
    - rewrite kids_comps. unfold comps, elements. rewrite map_map.
      rewrite <- flat_map_concat_map, <- flat_map_concat_map.
      assert (A : forall mv, In mv l -> (if xml_attribute (fm_attr (fst mv)) then []
          else named (element_name (fm_attr (fst mv))) (arrange (kid_fields l) []))
          = flat_map (fun p : string * pyval => write (fst p) (snd p))
              (match fm_kind (fst mv) with PElement => [(fm_xml (fst mv), snd mv)] | _ => [] end)).
      { intros [m v] H. cbn [fst snd]. destruct (instance_field m v H) as (f & Hf & ->).
        destruct (xml_attribute (fm_attr (fd_meta f))) eqn:E.
        - apply xml_attribute_in in E. apply (field_attr c) in E; [|apply Fc; exact Hf]. destruct E as [-> _]. reflexivity.
        - assert (Ne : ~ In (fm_attr (fd_meta f)) xml_attributes) by (rewrite <- xml_attribute_in; congruence).
          rewrite (written_kids _ v (in_holds l _ v instance_nodup H) Ne).
          apply (field_elem c) in Ne; [|apply Fc; exact Hf]. destruct Ne as [-> ->]. cbn [flat_map fst snd].
          now rewrite app_nil_r. }
      revert A. generalize (arrange (kid_fields l) []) as ks. intros ks A.
      clear - A. induction l as [|mv r IH]; [reflexivity|]. cbn [flat_map]. rewrite flat_map_app.
      rewrite <- (A mv (or_introl eq_refl)), <- IH by (intros; apply A; now right). reflexivity.
    - rewrite (kids_turning l fs Hl). destruct (f_turning c fs Fc) as [T|T]; [exact T|].
      exfalso. rewrite <- instance_attrs in T. apply in_map_iff in T as ((m & v) & E & H). cbn [fst] in E.
      pose proof (in_holds l m v instance_nodup H) as Z. rewrite E, Hx in Z. discriminate.
  Qed.
End Instance.

(** ** XML attributes *)
Definition attr_of (p : string * pyval) : list (string * string) :=
  if xml_attribute (fst p) then match snd p with VNone => [] | v => [(fst p, text_of v)] end else [].
Definition pairs (l : list (fmeta * pyval)) : list (string * pyval) := map (fun mv => (fm_attr (fst mv), snd mv)) l.
Lemma attrs_pairs c fs l : In (c, fs) song_classes -> map fst l = map fd_meta fs ->
  write_attrs l = flat_map attr_of (pairs l).
Proof.
  intros Hc Hl. pose proof (instance_field fs l Hl) as F. pose proof (f_fields c fs (class_facts c fs Hc)) as G.
  clear Hl Hc. induction l as [|[m v] r IH]; [reflexivity|].
  destruct (F m v (or_introl eq_refl)) as (f & Hf & ->). cbn [pairs map flat_map fst snd].
  fold (pairs r). rewrite <- IH by (intros; apply (F m v0); now right).
  unfold attr_of at 1. cbn [fst snd]. destruct (xml_attribute (fm_attr (fd_meta f))) eqn:E.
  - apply xml_attribute_in in E. apply (field_attr c) in E; [|now apply G]. destruct E as [K X].
    destruct (fd_meta f) as [[[a x] k] q]. cbn in K, X. subst. destruct v; reflexivity.
  - assert (Ne : ~ In (fm_attr (fd_meta f)) xml_attributes) by (rewrite <- xml_attribute_in; congruence).
    apply (field_elem c) in Ne; [|now apply G]. destruct Ne as [K X].
    destruct (fd_meta f) as [[[a x] k] q]. cbn in K. subst. reflexivity.
Qed.
Lemma attr_of_key p q : In q (attr_of p) -> fst q = fst p /\ In (fst p) xml_attributes /\ snd p <> VNone.
Proof.
  unfold attr_of. destruct (xml_attribute (fst p)) eqn:E; [|easy]. apply xml_attribute_in in E.
  destruct (snd p) eqn:V; [easy| | | | |]; intros [<-|[]]; (split; [reflexivity|split; [exact E|discriminate]]).
Qed.
Lemma attrs_pick a v L : NoDup (map fst L) -> In (a, v) L ->
  filter (fun p => String.eqb (fst p) a) (flat_map attr_of L) = attr_of (a, v).
Proof.
  assert (Off : forall L, ~ In a (map fst L) -> filter (fun p => String.eqb (fst p) a) (flat_map attr_of L) = []).
  { clear. induction L as [|p L IH]; intro H; [reflexivity|]. cbn [flat_map]. rewrite filter_app, IH.
    - rewrite app_nil_r. destruct (filter _ (attr_of p)) as [|q] eqn:E; [reflexivity|]. exfalso. apply H. left.
      assert (Q : In q (filter (fun p => String.eqb (fst p) a) (attr_of p))) by (rewrite E; now left).
      apply filter_In in Q as [Q1 Q2]. apply attr_of_key in Q1 as [Q1 _]. apply String.eqb_eq in Q2. congruence.
    - intro. apply H. now right. }
  induction L as [|p L IH]; intros N H; [destruct H|]. inversion N as [|? ? Np Nd]; subst.
  cbn [flat_map]. rewrite filter_app. destruct H as [->|H].
  - rewrite (Off L Np), app_nil_r. unfold attr_of. cbn [fst snd].
    destruct (xml_attribute a); [|reflexivity]. destruct v; cbn; try reflexivity; now rewrite String.eqb_refl.
  - rewrite (IH Nd H). destruct (filter _ (attr_of p)) as [|q] eqn:E; [reflexivity|]. exfalso. apply Np.
    assert (Q : In q (filter (fun p => String.eqb (fst p) a) (attr_of p))) by (rewrite E; now left).
    apply filter_In in Q as [Q1 Q2]. apply attr_of_key in Q1 as [Q1 _]. apply String.eqb_eq in Q2.
    rewrite <- Q1, Q2. now apply (in_map fst) in H.
Qed.
Lemma attr_absent a L : (forall v, In (a, v) L -> v = VNone) -> ~ In a (map fst (flat_map attr_of L)).
Proof.
  intros H Ha. apply in_map_iff in Ha as (q & <- & Q). apply in_flat_map in Q as ((b & v) & Hp & Q).
  apply attr_of_key in Q as (E & _ & V). cbn [fst snd] in *. apply V, H. now rewrite E.
Qed.
Lemma holds_pairs l a v : NoDup (map (fun mv : fmeta * pyval => fm_attr (fst mv)) l) ->
  holds l a = Some v <-> In (a, v) (pairs l).
Proof.
  intro N. split; intro H.
  - apply holds_in in H as (m & H & <-). apply in_map_iff. exists (m, v). auto.
  - apply in_map_iff in H as ((m & w) & E & H). cbn in E. injection E as <- <-. now apply in_holds.
Qed.
Lemma pairs_names l : map fst (pairs l) = map (fun mv : fmeta * pyval => fm_attr (fst mv)) l.
Proof. unfold pairs. now rewrite map_map. Qed.

Lemma made_write v t : made v -> says t v (write t v).
Proof.
  intro M. revert t. induction M as [|v S|l Hl IH|c fs l Hc Hl Hm IH Ha]; intro t.
  - constructor.
  - destruct S as [n|b|s]; cbn [write].
    + constructor. constructor. apply int_value_str.
    + constructor. destruct b; constructor.
    + constructor. constructor.
  - rewrite write_list, flat_map_concat_map. constructor.
    clear Hl. induction l as [|v l IHl]; [constructor|]. cbn [map]. constructor; [apply IH; now left|].
    apply IHl. intros. apply IH. now right.
  - rewrite write_obj. pose proof (instance_nodup c fs l Hc Hl) as N. constructor.
    + intros a v H Na. rewrite (written_kids c fs l Hc Hl a v H Na). now apply (IH a).
    + intros k Hk. exact (written_only c fs l Hc Hl k Hk).
    + intro Hx. exact (written_order c fs l Hc Hl Hx).
    + intros a Hx. rewrite (attrs_pairs c fs l Hc Hl). pose proof (pairs_names l) as Pn.
      destruct (holds l a) as [v|] eqn:H.
      * pose proof (Ha a v H Hx) as Sv. apply (holds_pairs l a v N) in H.
        pose proof (attrs_pick a v (pairs l) ltac:(now rewrite Pn) H) as Pk.
        destruct Sv as [->|Sv].
        -- apply attr_absent. intros w Hw. apply (holds_pairs l a _ N) in H, Hw. congruence.
        -- assert (E : attr_of (a, v) = [(a, text_of v)]).
           { unfold attr_of. cbn [fst snd]. apply xml_attribute_in in Hx. rewrite Hx. destruct Sv; reflexivity. }
           rewrite E in Pk. destruct Sv as [n|b|s]; (eexists; split; [|exact Pk]).
           ++ constructor. apply int_value_str.
           ++ destruct b; constructor.
           ++ constructor.
      * apply attr_absent. intros w Hw. apply (holds_pairs l a _ N) in Hw. congruence.
    + intros p. rewrite (attrs_pairs c fs l Hc Hl). intro H. apply in_flat_map in H as (q & _ & H).
      apply attr_of_key in H as (-> & H & _). exact H.
Qed.

(** ** Constructors *)
Lemma take_arg_given kw a : match take_arg kw a with
  | Some (v, kw') => given_for a kw = Some v /\ exists k1 k2, kw = k1 ++ (a, v) :: k2 /\ kw' = k1 ++ k2
  | None => given_for a kw = None /\ ~ In a (map fst kw) end.
Proof.
  induction kw as [|[b v] kw IH]; cbn [take_arg given_for]; [split; [reflexivity|easy]|].
  destruct (String.eqb_spec b a) as [->|N].
  - split; [reflexivity|]. exists [], kw. auto.
  - destruct (take_arg kw a) as [[w r]|].
    + destruct IH as (G & k1 & k2 & -> & ->). split; [exact G|]. exists ((b, v) :: k1), k2. auto.
    + destruct IH as [G H]. split; [exact G|]. cbn. intros [E|E]; [congruence|auto].
Qed.
Lemma given_remove a b v k1 k2 : a <> b -> given_for a (k1 ++ (b, v) :: k2) = given_for a (k1 ++ k2).
Proof.
  intro N. induction k1 as [|[d w] k1 IH]; cbn [app given_for].
  - destruct (String.eqb_spec b a); [congruence|reflexivity].
  - destruct (String.eqb d a); [reflexivity|exact IH].
Qed.
Definition settable (fs : list fdecl) : list string := map (fun f => fm_attr (fd_meta f)) (filter fd_init fs).
Definition filled (kw : list (string * pyval)) (f : fdecl) : fmeta * pyval :=
  (fd_meta f, if fd_init f then match given_for (fm_attr (fd_meta f)) kw with Some v => v | None => fd_default f end
              else fd_default f).
Lemma fill_ok fs : forall kw, NoDup (attributes_of fs) -> NoDup (map fst kw) ->
  (forall k, In k (map fst kw) -> In k (settable fs)) -> fill_fields fs [] kw = Ok (map (filled kw) fs).
Proof.
  induction fs as [|f fs IH]; intros kw N K H.
  - destruct kw as [|p]; [reflexivity|]. destruct (H (fst p)). now left.
  - inversion N as [|? ? Nf Nd]; subst. cbn [fill_fields map]. unfold settable in H. cbn [filter] in H.
    assert (Same : forall kw', (forall b, In b (attributes_of fs) -> given_for b kw' = given_for b kw) ->
      map (filled kw') fs = map (filled kw) fs).
    { intros kw' E. apply map_ext_in. intros g Hg. unfold filled.
      rewrite E; [reflexivity|]. now apply (in_map (fun f => fm_attr (fd_meta f))). }
    destruct (fd_init f) eqn:I; cbn [negb].
    + pose proof (take_arg_given kw (fm_attr (fd_meta f))) as T. unfold filled at 1. rewrite I.
      destruct (take_arg kw (fm_attr (fd_meta f))) as [[v kw']|].
      * destruct T as (G & k1 & k2 & -> & ->). rewrite G, IH.
        -- cbn [bind]. do 2 f_equal. apply Same. intros b Hb. symmetry. apply given_remove. intros ->. now apply Nf.
        -- exact Nd.
        -- rewrite map_app in *. cbn [map fst] in K. now apply NoDup_remove_1 in K.
        -- intros k Hk. rewrite map_app in *. cbn [map fst] in K. apply NoDup_remove_2 in K.
           destruct (H k) as [E|Hs]; [|subst; rewrite ?map_app in *; tauto|exact Hs].
           rewrite in_app_iff in *. cbn [map In]. tauto.
      * destruct T as [G T]. rewrite G, IH; [reflexivity|exact Nd|exact K|].
        intros k Hk. destruct (H k Hk) as [E|Hs]; [cbn in E; subst; now elim T|exact Hs].
    + rewrite IH; [|exact Nd|exact K|exact H]. cbn [bind]. unfold filled at 2. now rewrite I.
Qed.
Lemma fill_bad fs : forall kw, (exists k, In k (map fst kw) /\ ~ In k (settable fs)) -> fill_fields fs [] kw = Err TypeError.
Proof.
  induction fs as [|f fs IH]; intros kw (k & Hk & Ns).
  - destruct kw; [destruct Hk|reflexivity].
  - cbn [fill_fields]. unfold settable in Ns. cbn [filter] in Ns. destruct (fd_init f) eqn:I; cbn [negb].
    + cbn [map In] in Ns. pose proof (take_arg_given kw (fm_attr (fd_meta f))) as T.
      destruct (take_arg kw (fm_attr (fd_meta f))) as [[v kw']|].
      * destruct T as (_ & k1 & k2 & -> & ->). rewrite IH; [reflexivity|]. exists k.
        rewrite map_app, in_app_iff in *. cbn [map In fst] in Hk. tauto.
      * rewrite IH; [reflexivity|]. exists k. tauto.
    + rewrite IH; [reflexivity|]. exists k. tauto.
Qed.
Lemma fill_pos fs : forall pos kw, NoDup (attributes_of fs) -> (length pos <= length (settable fs))%nat ->
  (forall k, In k (map fst kw) -> ~ In k (firstn (length pos) (settable fs))) ->
  fill_fields fs pos kw = fill_fields fs [] (combine (settable fs) pos ++ kw).
Proof.
  induction fs as [|f fs IH]; intros pos kw N L H.
  - destruct pos; [reflexivity|cbn in L; lia].
  - inversion N as [|? ? Nf Nd]; subst. unfold settable in *. cbn [fill_fields filter] in *.
    destruct (fd_init f) eqn:I; cbn [negb]; [|now rewrite (IH pos kw)].
    cbn [map length] in *. destruct pos as [|v pos]; [reflexivity|]. cbn [combine app take_arg].
    rewrite String.eqb_refl. cbn [length firstn] in H, L.
    pose proof (take_arg_given kw (fm_attr (fd_meta f))) as T. destruct (take_arg kw (fm_attr (fd_meta f))) as [[w kw']|].
    + exfalso. destruct T as (_ & k1 & k2 & -> & _). apply (H (fm_attr (fd_meta f))); [|now left].
      rewrite map_app, in_app_iff. right. now left.
    + rewrite (IH pos kw Nd); [reflexivity|lia|]. intros k Hk Hi. apply (H k Hk). now right.
Qed.
Lemma fill_many fs : forall pos kw, (length (settable fs) < length pos)%nat -> fill_fields fs pos kw = Err TypeError.
Proof.
  induction fs as [|f fs IH]; intros pos kw L; [destruct pos; [cbn in L; lia|reflexivity]|].
  unfold settable in *. cbn [fill_fields filter] in *. destruct (fd_init f); cbn [negb map length] in *; [|now rewrite IH].
  destruct pos as [|v pos]; [cbn in L; lia|]. cbn [length] in L. destruct (take_arg kw _) as [[? ?]|]; [reflexivity|].
  rewrite IH by lia. reflexivity.
Qed.
Lemma settable_takes c fs : In (c, fs) song_classes -> settable fs = takes c fs.
Proof.
  intro Hc. pose proof (f_fields c fs (class_facts c fs Hc)) as F. clear Hc.
  unfold settable, takes, attributes_of. induction fs as [|f fs IH]; [reflexivity|]. cbn [filter map].
  destruct (field_init c f (F f (or_introl eq_refl))) as [-> _]. destruct (given_for _ (preset c)); cbn [map];
    (rewrite IH by (intros; apply F; now right)); reflexivity.
Qed.
Lemma holds_map (g : fdecl -> pyval) fs a : NoDup (attributes_of fs) -> In a (attributes_of fs) ->
  exists f, In f fs /\ fm_attr (fd_meta f) = a /\ holds (map (fun f => (fd_meta f, g f)) fs) a = Some (g f).
Proof.
  intros N H. apply in_map_iff in H as (f & <- & Hf). exists f. split; [exact Hf|]. split; [reflexivity|].
  apply in_holds; [now rewrite map_map|]. apply in_map_iff. now exists f.
Qed.
Lemma set_holds a v l b : holds (map (fun mv : fmeta * pyval => if String.eqb (fm_attr (fst mv)) a then (fst mv, v) else mv) l) b
  = if String.eqb b a then option_map (fun _ => v) (holds l b) else holds l b.
Proof.
  unfold holds. induction l as [|[m w] l IH]; [now destruct (String.eqb b a)|]. cbn [map find fst].
  destruct (String.eqb_spec (fm_attr m) a) as [E|E]; cbn [fst].
  - destruct (String.eqb_spec (fm_attr m) b) as [E'|E'].
    + replace (String.eqb b a) with true by (symmetry; apply String.eqb_eq; congruence). reflexivity.
    + exact IH.
  - destruct (String.eqb_spec (fm_attr m) b) as [E'|E']; [|exact IH].
    destruct (String.eqb_spec b a); [congruence|reflexivity].
Qed.
