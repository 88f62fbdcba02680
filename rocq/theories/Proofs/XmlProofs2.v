(** The texts of a song document. *)
From Coq Require Import Lia.
From Verif.Model Require Import Py Song Serializer Dataclass Document XmlText.
From Verif.Spec Require Import Text Tracker SongFile XmlReader SongText.
From Verif.Proofs Require Import PyLemmas TextProofs DocumentProofs XmlProofs.
Open Scope string_scope.
Open Scope list_scope.

(** Texts made of a few letters. *)
Lemma position_in c l n : position c l = Some n -> In c l.
Proof.
  revert n. induction l as [|x l IH]; intros n; cbn [position]; [discriminate|].
  destruct (Ascii.eqb_spec x c) as [->|]; [now left|]. destruct (position c l) as [m|]; [|discriminate].
  intros _. right. now apply (IH m).
Qed.
Lemma digits_in base l s : forall acc n, digits_value base l s acc = Some n -> forallb (fun c => existsb (Ascii.eqb c) l) (list_ascii_of_string s) = true.
Proof.
  induction s as [|c s IH]; intros acc n H; [reflexivity|]. cbn [digits_value] in H.
  destruct (position c l) as [d|] eqn:P; [|discriminate]. cbn [list_ascii_of_string forallb]. apply andb_true_iff. split.
  - apply existsb_exists. exists c. split; [exact (position_in _ _ _ P)|apply Ascii.eqb_refl].
  - exact (IH _ _ H).
Qed.
Lemma letters_clean l s : every_char clean_char (string_of_list_ascii l) = true ->
  forallb (fun c => existsb (Ascii.eqb c) l) (list_ascii_of_string s) = true -> every_char clean_char s = true.
Proof.
  unfold every_char. rewrite list_ascii_of_string_of_list_ascii, !forallb_forall. intros L H c I.
  specialize (H c I). apply existsb_exists in H as (d & D & E). apply Ascii.eqb_eq in E as ->. auto.
Qed.
Lemma hex_clean t n : hex_value t = Some n -> every_char clean_char t = true.
Proof.
  unfold hex_value. destruct t as [|c t]; [discriminate|]. intro H. apply digits_in in H. revert H.
  apply letters_clean. reflexivity.
Qed.
Lemma nat_clean s n : nat_value s = Some n -> every_char clean_char s = true.
Proof.
  assert (D : forall s n, digits_value 10 dec_digits_list s 0 = Some n -> every_char clean_char s = true).
  { intros s' n' H. apply digits_in in H. revert H. apply letters_clean. reflexivity. }
  intro H. apply (D s n). unfold nat_value in H. destruct s as [|c s]; [discriminate|].
  destruct (Ascii.eqb_spec c "0") as [->|N].
  - destruct s; [exact H|discriminate].
  - destruct c as [[] [] [] [] [] [] [] []]; try exact H. congruence.
Qed.
Lemma int_clean s n : int_value s = Some n -> every_char clean_char s = true.
Proof.
  unfold int_value. destruct s as [|c s]; [discriminate|]. intro H.
  destruct (Ascii.eqb_spec c "-") as [->|N].
  - destruct (nat_value s) as [m|] eqn:E; [|discriminate]. rewrite every_cons. now rewrite (nat_clean s m E).
  - apply (nat_clean _ n). destruct c as [[] [] [] [] [] [] [] []]; try exact H. congruence.
Qed.
Lemma str_clean n : every_char clean_char (str_int n) = true.
Proof. exact (int_clean _ n (int_value_str n)). Qed.

(** Documents. *)
Lemma ok_leaf t s : name_ok t = true -> every_char clean_char s = true -> tree_ok (leaf t s) = true.
Proof. intros T S. cbn [tree_ok leaf forallb]. now rewrite T, S. Qed.
Lemma ok_node t a k : name_ok t = true -> forallb attr_ok a = true -> forallb tree_ok k = true -> tree_ok (Node t a "" k) = true.
Proof. intros T A K. cbn [tree_ok]. rewrite T, A, K. now destruct k. Qed.
Lemma ok_branch t k : name_ok t = true -> forallb tree_ok k = true -> tree_ok (branch t k) = true.
Proof. intros. now apply ok_node. Qed.
Lemma ok_typed t k : name_ok t = true -> forallb tree_ok k = true -> tree_ok (typed t k) = true.
Proof.
  intros T K. apply ok_node; [exact T| |exact K]. cbn [forallb]. unfold attr_ok. cbn [fst snd]. unfold name_ok in T.
  apply andb_true_iff in T as [_ T]. rewrite (every_imp is_name is_char t name_char T). reflexivity.
Qed.
Lemma ok_map {A} (f : A -> xml) l : (forall x, In x l -> tree_ok (f x) = true) -> forallb tree_ok (map f l) = true.
Proof. intro H. apply forallb_forall. intros x I. apply in_map_iff in I as (y & <- & I). auto. Qed.
Lemma ok_app l l' : forallb tree_ok l = true -> forallb tree_ok l' = true -> forallb tree_ok (l ++ l') = true.
Proof. intros. now rewrite forallb_app, H, H0. Qed.
Lemma ok_cons x l : tree_ok x = true -> forallb tree_ok l = true -> forallb tree_ok (x :: l) = true.
Proof. intros. cbn [forallb]. now rewrite H, H0. Qed.
Lemma ok_opt t o : name_ok t = true -> (forall s, o = Some s -> every_char clean_char s = true) -> forallb tree_ok (opt_leaf t o) = true.
Proof. intros T H. destruct o as [s|]; [|reflexivity]. apply ok_cons; [|reflexivity]. apply ok_leaf; auto. Qed.
Lemma ok_flag b : every_char clean_char (flag b) = true.
Proof. now destruct b. Qed.
Ltac ok := repeat first
  [ assumption | reflexivity | apply ok_cons | apply ok_app | apply ok_leaf | apply ok_branch | apply ok_typed
  | apply str_clean | apply ok_flag ].

Lemma ok_globals g : every_char clean_char (g_song_name g) = true -> every_char clean_char (g_artist g) = true ->
  tree_ok (globals_doc str_int g) = true.
Proof. intros N A. unfold globals_doc. ok. apply ok_map. intros n _. ok. Qed.
Lemma ok_strack u extra t : name_ok u = true -> name_ok (xt_mixer t) = true -> forallb tree_ok extra = true ->
  every_char clean_char (xt_name t) = true -> every_char clean_char (xt_state t) = true ->
  (forall s, xt_color t = Some s -> every_char clean_char s = true) ->
  tree_ok (strack_doc u extra t) = true.
Proof. intros U M E N S C. unfold strack_doc. ok. now apply ok_opt. Qed.
Lemma ok_column c : every_char clean_char (xn_note c) = true ->
  (forall s, xn_instrument c = Some s -> every_char clean_char s = true) ->
  (forall s, xn_panning c = Some s -> every_char clean_char s = true) -> tree_ok (column_doc c) = true.
Proof. intros N I P. unfold column_doc. ok; now apply ok_opt. Qed.
Lemma given_in o s : o = Some s -> In s (given o).
Proof. intros ->. now left. Qed.
Lemma ok_line il : Forall (fun s => every_char clean_char s = true) (line_strings (snd il)) ->
  tree_ok (line_doc str_int (x_line_of il)) = true.
Proof.
  destruct il as [k l]. cbn [snd]. intro F. rewrite Forall_forall in F. unfold line_strings in F. unfold line_doc, x_line_of. cbn [xl_index xl_note_columns].
  apply ok_node; [reflexivity| |].
  - cbn [forallb]. unfold attr_ok. cbn [fst snd].
    rewrite (every_imp clean_char is_char _ (fun c H => proj1 (proj1 (andb_true_iff _ _) H)) (str_clean k)). reflexivity.
  - apply ok_cons; [|reflexivity]. apply ok_branch; [reflexivity|]. cbn [map]. apply ok_cons; [|reflexivity].
    apply ok_column; cbn [xn_note xn_instrument xn_panning snd].
    + apply F. now left.
    + intros s E. apply F. right. apply in_app_iff. left. now apply given_in.
    + intros s E. apply F. right. apply in_app_iff. right. now apply given_in.
Qed.
Lemma ok_pattern p : Forall (fun s => every_char clean_char s = true)
    (flat_map (fun t : ptrack => flat_map (fun il => line_strings (snd il)) t) (p_tracks p)) ->
  tree_ok (pattern_doc str_int (render_pattern p)) = true.
Proof.
  intro F. unfold pattern_doc, render_pattern. cbn [xp_tracks xp_master xp_send]. ok.
  - apply ok_map. intros x I. apply in_map_iff in I as (t & <- & T). unfold ptrack_doc, render_ptrack. ok.
    rewrite map_map. apply ok_map. intros il L. destruct il as [k l]. apply (ok_line (k, l)). rewrite Forall_forall in *. intros s I.
    apply F. apply in_flat_map. exists t. split; [exact T|]. apply in_flat_map. now exists (k, l).
  - apply ok_map. intros; ok.
  - apply ok_map. intros; ok.
Qed.
Lemma colors_clean l : forall cs x, Forall (fun s => every_char clean_char s = true) cs ->
  In x (render_tracks l cs) ->
  (exists t, In t l /\ xt_name x = t_name t /\ xt_state x = t_state t /\ xt_mixer x = "TrackMixerDevice")
  /\ (forall s, xt_color x = Some s -> every_char clean_char s = true).
Proof.
  induction l as [|t l IH]; intros cs x F I; [destruct I|].
  cbn [render_tracks] in I. destruct cs as [|c cs].
  - destruct I as [<-|I].
    + split; [exists t; cbn; auto 6|discriminate].
    + destruct (IH [] x F I) as ((t' & T & R) & C). split; [|exact C]. exists t'. split; [now right|exact R].
  - inversion F as [|? ? F1 F2]; subst. destruct I as [<-|I].
    + split; [exists t; cbn; auto 6|]. cbn [xt_color]. intros s E. now injection E as <-.
    + destruct (IH cs x F2 I) as ((t' & T & R) & C). split; [|exact C]. exists t'. split; [now right|exact R].
Qed.
Lemma song_ok sg : Forall clean (song_strings sg) -> tree_ok (song_doc str_int (render sg)) = true.
Proof.
  intro F. assert (G : forall s, In s (song_strings sg) -> every_char clean_char s = true).
  { rewrite Forall_forall in F. intros s I. now apply clean_every, F. }
  clear F. unfold song_strings in G.
  assert (TR : forall t, In t (ts_tracks (sg_tracks sg) ++ ts_master (sg_tracks sg) ++ ts_send (sg_tracks sg)) ->
     every_char clean_char (t_name t) = true /\ every_char clean_char (t_state t) = true).
  { intros t I. split; apply G; apply in_app_iff; right; apply in_app_iff; left; apply in_flat_map; exists t; (split; [exact I|]); cbn; auto. }
  unfold song_doc, render. cbn [xs_globals xs_instruments xs_tracks xs_master xs_send xs_patterns xs_sequence].
  apply ok_node; [reflexivity|reflexivity|].
  apply ok_cons; [|apply ok_cons; [|apply ok_cons; [|apply ok_cons; [|apply ok_cons; [|reflexivity]]]]].
  2: apply ok_branch; [reflexivity|].
  3: (apply ok_branch; [reflexivity|]; apply ok_app; [|apply ok_app]).
  6: (apply ok_branch; [reflexivity|]; apply ok_cons; [|reflexivity]; apply ok_branch; [reflexivity|]).
  7: (apply ok_branch; [reflexivity|]; apply ok_cons; [|reflexivity]; apply ok_branch; [reflexivity|]).
  - apply ok_globals; apply G; cbn; auto.
  - apply ok_map. intros; ok.
  - apply ok_map. intros x I. 
    assert (TC : Forall (fun s => every_char clean_char s = true) track_colors).
    { apply Forall_forall. intros s Hs. cbn in Hs. repeat destruct Hs as [<-|Hs]; try reflexivity. destruct Hs. }
    destruct (colors_clean _ _ _ TC I) as ((t & T & E1 & E2 & E3) & C).
    destruct (TR t) as [T1 T2]; [apply in_app_iff; now left|].
    apply ok_strack; rewrite ?E1, ?E2, ?E3; ok.
  - apply ok_map. intros x I. apply in_map_iff in I as (t & <- & T). destruct (TR t) as [T1 T2]; [apply in_app_iff; right; apply in_app_iff; now left|].
    apply ok_strack; cbn [render_master xt_mixer xt_name xt_state xt_color]; ok. intros s E. injection E as <-. reflexivity.
  - apply ok_map. intros x I. apply in_map_iff in I as (t & <- & T). destruct (TR t) as [T1 T2]; [apply in_app_iff; right; apply in_app_iff; now right|].
    apply ok_strack; cbn [render_send xt_mixer xt_name xt_state xt_color]; ok. intros s E. injection E as <-. reflexivity.
  - rewrite map_map. apply ok_map. intros p I. apply ok_pattern. rewrite Forall_forall. intros s Hs. apply G.
    apply in_app_iff; right. apply in_app_iff. right. apply in_flat_map. now exists p.
  - apply ok_map. intros n _. ok.
Qed.
