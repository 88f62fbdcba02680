(** The exported grid: placing events, cell contents, ordering. *)
From Coq Require Import ZArith List Bool String Lia ZifyBool Sorting.Sorted.
From Verif.Model Require Import Py PyFloat Config Note State Ticks Song Serializer Extract.
From Verif.Spec Require Import Ranges Text Tracker.
From Verif.Proofs Require Import PyLemmas TextProofs TickProofs.
Import ListNotations.
Open Scope Z_scope.

Ltac Zify.zify_post_hook ::= Z.div_mod_to_equations.

(** * Texts *)
Lemma hex02_text id : 0 <= id -> hex_text id (hex02 id).
Proof.
  intro H. pose proof (log2_fuel id H) as L. unfold hex02, hex_upper.
  set (fuel := S (Z.to_nat (Z.log2 id))) in *.
  pose proof (hex_digits_value fuel id "" (conj H L) ltac:(unfold fuel; lia)) as V.
  destruct (hex_digits_length fuel id "" (conj H L) ltac:(unfold fuel; lia)) as (d & Len & P & Q).
  cbn [String.length digits_value] in *. rewrite Nat.add_0_r in Len.
  destruct (hex_digits fuel id "") as [|c r]; [discriminate|]. unfold hex_text.
  destruct (Nat.ltb_spec (String.length (String c r)) 2) as [SL|SL].
  - assert (d = 0%nat) as -> by lia. cbn [String.length] in Len. assert (String.length r = 0%nat) as L0 by lia.
    destruct r; [|discriminate]. repeat split; [|cbn; lia|cbn; lia].
    unfold hex_value. cbn [digits_value] in *. change (position "0" hex_digits_upper) with (Some 0).
    cbv iota. exact V.
  - repeat split; [exact V|lia|]. intros L3. rewrite Len.
    replace (Z.of_nat (S d) - 1) with (Z.of_nat d) by lia. apply P. lia.
Qed.

Definition name_text (n : note) : string :=
  if is_off n then "Off"%string else pitch_name (shown_pitch (n_octave n) (n_note n)).
Definition name_check : bool :=
  forallb (fun o => forallb (fun k =>
    match lookup note_lookup_xrns k with
    | Ok nm => String.eqb (nm ++ str_int (if k =? 14 then o + 1 else o)) (pitch_name (shown_pitch o k))
    | Err _ => false
    end) (map Z.of_nat (seq 0 16))) (map Z.of_nat (seq 0 8)).
Lemma name_checked : name_check = true.
Proof. vm_compute. reflexivity. Qed.
Lemma xrns_name n : note_in_range n -> xrns_note n = Ok (name_text n).
Proof.
  intros (_ & Ho & Hk & _). unfold width in *. unfold xrns_note, name_text, is_off.
  destruct (n_config_id n <? 0); [reflexivity|].
  pose proof name_checked as C. unfold name_check in C.
  apply (sweep 8) with (b := n_octave n) in C; [|lia]. cbv beta in C.
  apply (sweep 16) with (b := n_note n) in C; [|lia]. cbv beta in C.
  destruct (lookup note_lookup_xrns (n_note n)) as [nm|]; [|discriminate]. cbn [bind].
  apply String.eqb_eq in C. now rewrite C.
Qed.

Definition line_of (n : note) : line := mkline (name_text n) (instr_text n) (pan_text n).
Definition column_of (n : note) : x_note_column := mkxnc (name_text n) (instr_text n) (pan_text n).
Lemma column_displays n : displays n (column_of n).
Proof.
  unfold displays, column_of. cbn [xn_note xn_instrument xn_panning]. split; [reflexivity|]. split.
  - unfold instr_text, is_off. destruct (Z.leb_spec 0 (n_config_id n)).
    + split; [lia|]. now apply hex02_text.
    + lia.
  - unfold pan_text, pan_shown. destruct (n_right n), (n_left n); reflexivity.
Qed.

(** * The pattern pool *)
Definition pat_ok (p : pattern) : Prop :=
  p_lines_per_track p = 64 /\ List.length (p_tracks p) = 8%nat /\ p_master p = [[]] /\ p_send p = [[]].
Definition pool_ok (p : pool) : Prop := pp_tracks p = 8 /\ pp_lines p = 64 /\ Forall pat_ok (pp_patterns p).

Definition empty_pattern : pattern := pattern_new 8 64.
(** Track [c] of pattern [i], empty when the pattern does not exist. *)
Definition track (pats : list pattern) (i c : nat) : ptrack := nth c (p_tracks (nth i pats empty_pattern)) [].

Lemma empty_ok : pat_ok empty_pattern.
Proof. repeat split. Qed.
Lemma pool_new_ok : pool_ok (pool_new 8 64).
Proof. repeat split. constructor. Qed.

Lemma grow_eq : forall fuel pattern p, 0 <= pattern -> pool_ok p ->
  (Z.to_nat (pattern + 1) <= fuel + List.length (pp_patterns p))%nat ->
  grow fuel pattern p = mkpool (pp_patterns p ++ repeat empty_pattern (Z.to_nat (pattern + 1) - List.length (pp_patterns p))) 8 64.
Proof.
  induction fuel as [|k IH]; intros pattern p Hp Ok L; cbn [grow].
  - replace (_ - _)%nat with 0%nat by lia. cbn [repeat]. rewrite app_nil_r.
    destruct p as [ps t l]. destruct Ok as (E1 & E2 & _). cbn in *. now subst.
  - destruct (Z.leb_spec (len (pp_patterns p)) pattern) as [G|G]; unfold len in G.
    + rewrite IH; cbn [pp_patterns].
      * destruct Ok as (E1 & E2 & _). rewrite E1, E2. f_equal. rewrite <- app_assoc. f_equal.
        rewrite app_length. cbn [List.length].
        replace (Z.to_nat (pattern + 1) - List.length (pp_patterns p))%nat
          with (S (Z.to_nat (pattern + 1) - (List.length (pp_patterns p) + 1))) by lia. reflexivity.
      * assumption.
      * destruct Ok as (E1 & E2 & F). rewrite E1, E2. repeat split. cbn [pp_patterns]. apply Forall_app.
        split; [assumption|]. constructor; [apply empty_ok|constructor].
      * rewrite app_length. cbn [List.length]. lia.
    + replace (_ - _)%nat with 0%nat by lia. cbn [repeat]. rewrite app_nil_r.
      destruct p as [ps t l]. destruct Ok as (E1 & E2 & _). cbn in *. now subst.
Qed.

Lemma nth_set_nth {A} (d x : A) : forall l k j, (k < List.length l)%nat ->
  nth j (set_nth k x l) d = if (j =? k)%nat then x else nth j l d.
Proof.
  induction l as [|y l IH]; intros [|k] [|j] H; cbn in *; try lia; try reflexivity.
  apply IH. lia.
Qed.
Lemma nth_pad {A} (d : A) l k i : nth i (l ++ repeat d k) d = nth i l d.
Proof.
  destruct (Nat.lt_ge_cases i (List.length l)).
  - now apply app_nth1.
  - rewrite app_nth2 by assumption. rewrite (nth_overflow l) by assumption.
    generalize (i - List.length l)%nat as j. induction k as [|k IH]; intros [|j]; cbn; auto.
Qed.
Lemma set_nth_forall {A} (P : A -> Prop) x : forall l k, P x -> Forall P l -> Forall P (set_nth k x l).
Proof. induction l as [|y l IH]; intros [|k] Hx H; cbn; auto; inversion H; subst; auto. Qed.

Lemma add_note_ok p pi ch ln nm ins pan : pool_ok p -> 0 <= pi -> 0 <= ch < 8 ->
  exists p', add_note p pi ch ln nm ins pan = Ok p' /\ pool_ok p'
    /\ List.length (pp_patterns p') = Nat.max (List.length (pp_patterns p)) (Z.to_nat (pi + 1))
    /\ forall i c, track (pp_patterns p') i c =
         if (i =? Z.to_nat pi)%nat && (c =? Z.to_nat ch)%nat
         then dict_set Z.eqb (track (pp_patterns p) i c) ln (mkline nm ins pan)
         else track (pp_patterns p) i c.
Proof.
  intros Pk Hp Hc. unfold add_note. rewrite grow_eq; [|assumption..|lia]. cbn [pp_patterns pp_tracks pp_lines].
  set (n := List.length (pp_patterns p)). set (pats := pp_patterns p ++ _).
  assert (LP : List.length pats = Nat.max n (Z.to_nat (pi + 1))).
  { unfold pats. rewrite app_length, repeat_length. fold n. lia. }
  assert (FP : Forall pat_ok pats).
  { unfold pats. apply Forall_app. split; [apply Pk|]. apply Forall_forall. intros x Hx.
    apply repeat_spec in Hx as ->. apply empty_ok. }
  assert (NP : forall i, nth i pats empty_pattern = nth i (pp_patterns p) empty_pattern) by (intro; apply nth_pad).
  rewrite (py_get_in _ _ empty_pattern) by (unfold len; lia). cbn [bind].
  set (pat := nth (Z.to_nat pi) pats empty_pattern).
  assert (PP : pat_ok pat) by (rewrite Forall_forall in FP; apply FP; apply nth_In; lia).
  destruct PP as (P1 & P2 & P3 & P4).
  rewrite (py_get_in (p_tracks pat) ch ([] : ptrack)) by (unfold len; lia). cbn [bind].
  rewrite py_set_in by (unfold len; lia). cbn [bind].
  rewrite py_set_in by (unfold len; lia). cbn [bind].
  eexists. split; [reflexivity|]. cbn [pp_patterns pp_tracks pp_lines].
  split; [|split].
  - repeat split. cbn [pp_patterns]. apply set_nth_forall; [|assumption].
    repeat split; cbn [p_lines_per_track p_tracks p_master p_send]; auto. now rewrite set_nth_length.
  - now rewrite set_nth_length.
  - intros i c. unfold track. rewrite nth_set_nth by lia. rewrite <- NP.
    destruct (Nat.eqb_spec i (Z.to_nat pi)) as [->|]; cbn [andb]; [|reflexivity].
    cbn [p_tracks]. fold pat. rewrite nth_set_nth by lia.
    destruct (Nat.eqb_spec c (Z.to_nat ch)) as [->|]; reflexivity.
Qed.

(** * Placing events *)
Section Place.
  Variable tpn : Z.
  Hypothesis tpn_pos : 0 < tpn.
  Definition row (n : note) : Z := n_sample n / tpn.

  Lemma row_nonneg n : note_in_range n -> 0 <= row n.
  Proof. intros (_ & _ & _ & _ & H). apply Z.div_pos; lia. Qed.

  Lemma place_note_ok ch p n : pool_ok p -> 0 <= ch < 8 -> note_in_range n ->
    exists p', place_note tpn ch p n = Ok p' /\ pool_ok p'
      /\ List.length (pp_patterns p') = Nat.max (List.length (pp_patterns p)) (Z.to_nat (row n / 64 + 1))
      /\ forall i c, track (pp_patterns p') i c =
         if (i =? Z.to_nat (row n / 64))%nat && (c =? Z.to_nat ch)%nat
         then dict_set Z.eqb (track (pp_patterns p) i c) (row n mod 64) (line_of n)
         else track (pp_patterns p) i c.
  Proof.
    intros Pk Hc Hn. unfold place_note, floor_div. destruct (Z.eqb_spec tpn 0); [lia|]. cbn [bind].
    rewrite xrns_name by assumption. cbn [bind]. pose proof (row_nonneg n Hn).
    change (n_sample n / tpn) with (row n). change line_count with 64.
    apply add_note_ok; [assumption|lia|assumption].
  Qed.

  (** The lines of pattern [i] after the events [l], from [d]. *)
  Definition fill (i : nat) (d : ptrack) (l : list note) : ptrack :=
    fold_left (fun d n => if (i =? Z.to_nat (row n / 64))%nat
                          then dict_set Z.eqb d (row n mod 64) (line_of n) else d) l d.
  (** Number of patterns after the events [l], from [k]. *)
  Definition need (k : nat) (l : list note) : nat :=
    fold_left (fun k n => Nat.max k (Z.to_nat (row n / 64 + 1))) l k.

  Lemma place_list_ok ch : 0 <= ch < 8 -> forall l p, pool_ok p -> Forall note_in_range l ->
    exists p', foldM (place_note tpn ch) l p = Ok p' /\ pool_ok p'
      /\ List.length (pp_patterns p') = need (List.length (pp_patterns p)) l
      /\ forall i c, track (pp_patterns p') i c =
         if (c =? Z.to_nat ch)%nat then fill i (track (pp_patterns p) i c) l
         else track (pp_patterns p) i c.
  Proof.
    intro Hc. induction l as [|n l IH]; intros p Pk F.
    - exists p. repeat split; try apply Pk. intros i c. cbn [fill fold_left]. destruct (c =? _)%nat; reflexivity.
    - inversion F; subst. destruct (place_note_ok ch p n) as (p1 & E1 & K1 & L1 & T1); auto.
      destruct (IH p1) as (p2 & E2 & K2 & L2 & T2); auto.
      exists p2. cbn [foldM]. rewrite E1. cbn [bind]. split; [assumption|]. split; [assumption|].
      split; [rewrite L2, L1; reflexivity|].
      intros i c. rewrite T2, T1. destruct (Nat.eqb_spec c (Z.to_nat ch)) as [->|].
      + rewrite andb_true_r. reflexivity.
      + rewrite andb_false_r. reflexivity.
  Qed.

  Lemma place_channels_ok s (log : Z -> list note) : forall chs p,
    (forall ch, In ch chs -> 0 <= ch < 8 /\ key_presses s ch = Ok (log ch) /\ Forall note_in_range (log ch)) ->
    NoDup chs -> pool_ok p ->
    exists p', foldM (place_channel s tpn) chs p = Ok p' /\ pool_ok p'
      /\ List.length (pp_patterns p') = need (List.length (pp_patterns p)) (flat_map log chs)
      /\ forall i c, 0 <= c -> track (pp_patterns p') i (Z.to_nat c) =
         if in_dec Z.eq_dec c chs then fill i (track (pp_patterns p) i (Z.to_nat c)) (log c)
         else track (pp_patterns p) i (Z.to_nat c).
  Proof.
    induction chs as [|ch chs IH]; intros p H N Pk.
    - exists p. repeat split; apply Pk.
    - inversion N; subst. destruct (H ch (or_introl eq_refl)) as (Hc & El & Fl).
      cbn [foldM]. unfold place_channel at 1. rewrite El. cbn [bind].
      destruct (place_list_ok ch Hc (log ch) p Pk Fl) as (p1 & E1 & K1 & L1 & T1). rewrite E1. cbn [bind].
      destruct (IH p1) as (p2 & E2 & K2 & L2 & T2); auto.
      { intros c Hc'. apply H. now right. }
      exists p2. split; [assumption|]. split; [assumption|]. split.
      + rewrite L2, L1. cbn [flat_map]. unfold need. now rewrite fold_left_app.
      + intros i c Hc0. rewrite T2 by assumption. rewrite T1.
        destruct (in_dec Z.eq_dec c chs) as [I|I]; destruct (in_dec Z.eq_dec c (ch :: chs)) as [J|J].
        * destruct (Nat.eqb_spec (Z.to_nat c) (Z.to_nat ch)); [|reflexivity].
          assert (c = ch) by lia. subst. contradiction.
        * destruct J. now right.
        * destruct J as [->|J]; [|contradiction]. now rewrite Nat.eqb_refl.
        * destruct (Nat.eqb_spec (Z.to_nat c) (Z.to_nat ch)); [|reflexivity].
          assert (c = ch) by lia. subst. destruct J. now left.
  Qed.

  (** * What the filled track holds *)
  Lemma dict_get_set (d : ptrack) k v j :
    dict_get Z.eqb (dict_set Z.eqb d k v) j = if k =? j then Some v else dict_get Z.eqb d j.
  Proof.
    induction d as [|[k' v'] d IH]; cbn [dict_set dict_get]; [reflexivity|].
    destruct (Z.eqb_spec k' k) as [->|].
    - cbn [dict_get]. destruct (k =? j); reflexivity.
    - cbn [dict_get]. rewrite IH. destruct (Z.eqb_spec k' j) as [->|]; [|reflexivity].
      destruct (Z.eqb_spec k j); [lia|reflexivity].
  Qed.
  Lemma fill_snoc i d l n : fill i d (l ++ [n]) =
    if (i =? Z.to_nat (row n / 64))%nat then dict_set Z.eqb (fill i d l) (row n mod 64) (line_of n) else fill i d l.
  Proof. unfold fill. now rewrite fold_left_app. Qed.
  Lemma last_event_snoc l n r : last_event tpn (l ++ [n]) r =
    if row n =? r then Some n else last_event tpn l r.
  Proof.
    unfold last_event. rewrite filter_app. cbn [filter]. fold (row n).
    destruct (row n =? r); [|now rewrite app_nil_r]. rewrite rev_app_distr. reflexivity.
  Qed.
  Lemma fill_get l : Forall note_in_range l -> forall i j, 0 <= j < 64 ->
    dict_get Z.eqb (fill i [] l) j = option_map line_of (last_event tpn l (64 * Z.of_nat i + j)).
  Proof.
    induction l as [|n l IH] using rev_ind; intros F i j Hj; [reflexivity|].
    apply Forall_app in F as [F Fn]. apply Forall_inv in Fn.
    rewrite fill_snoc, last_event_snoc. pose proof (row_nonneg n Fn) as R.
    destruct (Nat.eqb_spec i (Z.to_nat (row n / 64))) as [->|Ni].
    - rewrite dict_get_set. destruct (Z.eqb_spec (row n mod 64) j) as [<-|Nj].
      + replace (row n =? _) with true by lia. reflexivity.
      + rewrite IH by assumption. replace (row n =? _) with false by lia. reflexivity.
    - rewrite IH by assumption. replace (row n =? _) with false by lia. reflexivity.
  Qed.

  (** Keys of a filled track come from events. *)
  Lemma dict_set_keys (d : ptrack) k v x : In x (map fst (dict_set Z.eqb d k v)) <-> x = k \/ In x (map fst d).
  Proof.
    induction d as [|[k' v'] d IH]; cbn [dict_set map fst In]; [intuition|].
    destruct (Z.eqb_spec k' k) as [->|]; cbn [map fst In]; [intuition|]. rewrite IH. intuition.
  Qed.
  Lemma fill_keys l i x : In x (map fst (fill i [] l)) ->
    exists n, In n l /\ i = Z.to_nat (row n / 64) /\ x = row n mod 64.
  Proof.
    induction l as [|n l IH] using rev_ind; [intros []|]. rewrite fill_snoc.
    destruct (Nat.eqb_spec i (Z.to_nat (row n / 64))) as [->|Ni]; intro H.
    - apply dict_set_keys in H as [->|H].
      + exists n. rewrite in_app_iff. cbn. auto.
      + destruct (IH H) as (m & Hm & E). exists m. rewrite in_app_iff. auto.
    - destruct (IH H) as (m & Hm & E). exists m. rewrite in_app_iff. auto.
  Qed.
  Lemma dict_set_sorted (d : ptrack) k v : StronglySorted Z.lt (map fst d) -> (forall x, In x (map fst d) -> x <= k) ->
    StronglySorted Z.lt (map fst (dict_set Z.eqb d k v)).
  Proof.
    induction d as [|[k' v'] d IH]; cbn [dict_set map fst]; intros S B; [repeat constructor|].
    inversion S as [|? ? S' F]; subst. destruct (Z.eqb_spec k' k) as [->|]; cbn [map fst]; [assumption|].
    constructor.
    - apply IH; [assumption|]. intros x Hx. apply B. now right.
    - apply Forall_forall. intros x Hx. apply dict_set_keys in Hx as [->|Hx].
      + specialize (B k' (or_introl eq_refl)). lia.
      + rewrite Forall_forall in F. auto.
  Qed.
  Lemma fill_sorted l i : Forall note_in_range l -> StronglySorted (fun a b => n_sample a <= n_sample b) l ->
    StronglySorted Z.lt (map fst (fill i [] l)).
  Proof.
    induction l as [|n l IH] using rev_ind; intros F S; [constructor|].
    apply Forall_app in F as [F Fn]. apply Forall_inv in Fn.
    assert (S1 : StronglySorted (fun a b => n_sample a <= n_sample b) l /\ forall m, In m l -> n_sample m <= n_sample n).
    { clear -S. induction l as [|m l IH]; [split; [constructor|intros m []]|].
      cbn [app] in S. inversion S as [|? ? S' F]; subst. destruct (IH S') as [A B].
      rewrite Forall_forall in F. split.
      - constructor; [assumption|]. apply Forall_forall. intros x Hx. apply F. rewrite in_app_iff. auto.
      - intros x [<-|Hx]; [|auto]. apply F. rewrite in_app_iff. cbn. auto. }
    destruct S1 as [S1 B]. rewrite fill_snoc.
    destruct (Nat.eqb_spec i (Z.to_nat (row n / 64))) as [->|Ni]; [|auto].
    apply dict_set_sorted; [auto|]. intros x Hx. apply fill_keys in Hx as (m & Hm & E & ->).
    pose proof (row_nonneg n Fn). rewrite Forall_forall in F. pose proof (row_nonneg m (F m Hm)).
    assert (row m <= row n) by (apply Z.div_le_mono; [assumption|now apply B]). lia.
  Qed.

  (** * How many patterns *)
  Lemma need_spec l k : Forall note_in_range l ->
    (k <= need k l)%nat /\ (forall n, In n l -> row n < 64 * Z.of_nat (need k l))
    /\ (need k l = k \/ exists n, In n l /\ 64 * (Z.of_nat (need k l) - 1) <= row n).
  Proof.
    unfold need. revert k. induction l as [|n l IH]; intros k F; cbn [fold_left].
    - repeat split; [lia|intros n []|now left].
    - inversion F as [|? ? Fn F']; subst. pose proof (row_nonneg n Fn).
      destruct (IH (Nat.max k (Z.to_nat (row n / 64 + 1))) F') as (A & B & C).
      repeat split; [lia| |].
      + intros m [<-|Hm]; [lia|]. now apply B.
      + destruct C as [C|(m & Hm & C)].
        * destruct (Nat.le_gt_cases (Z.to_nat (row n / 64 + 1)) k).
          -- left. lia.
          -- right. exists n. split; [now left|]. lia.
        * right. exists m. split; [now right|assumption].
  Qed.
End Place.

(** * Rendered tracks *)
Lemma render_track_find (t : ptrack) j :
  find (fun ln => xl_index ln =? j) (render_ptrack t)
  = option_map (fun v => mkxline j [mkxnc (l_note v) (l_instrument v) (l_pan v)]) (dict_get Z.eqb t j).
Proof.
  induction t as [|[k v] t IH]; [reflexivity|]. unfold render_ptrack in *. cbn [map find xl_index dict_get].
  destruct (Z.eqb_spec k j) as [->|]; [reflexivity|]. exact IH.
Qed.
Lemma render_track_index (t : ptrack) : map xl_index (render_ptrack t) = map fst t.
Proof. unfold render_ptrack. rewrite map_map. apply map_ext. now intros [k v]. Qed.
