(** Runs of the script seen file by file. *)
From Coq Require Import Lia.
From Verif.Model Require Import Py Command Core Config PyFloat Note State Ticks Song Serializer Dataclass Dao Document XmlText Zip Json Extract History
  Main MainBytes Argparse Script.
From Verif.Spec Require Import Cli ZipReader ByteDisk CommandLine Batch.
From Verif.Proofs Require Import PyLemmas.
From Verif.Props Require Import Arguments.
Open Scope string_scope.
Open Scope list_scope.
Open Scope Z_scope.

(** ** Actions on one file *)
Definition about (m : string) (a : MainBytes.action) : bool :=
  match a with Say _ => false | Truncate n | Put n _ _ => if string_dec m n then true else false end.
Definition fstep (x : option (list Z)) (a : MainBytes.action) : option (list Z) :=
  match a with
  | Say _ => x
  | Truncate _ => Some []
  | Put _ o b => match x with Some c => Some (overwrite c (Z.to_nat o) b) | None => None end
  end.
Notation on m l := (filter (about m) l).
Lemma act_at D a m : act D a m = if about m a then fstep (D m) a else D m.
Proof.
  destruct a as [e|n|n o b]; cbn [act about fstep]; [reflexivity|..].
  - unfold store. destruct (string_dec m n); reflexivity.
  - destruct (string_dec m n) as [->|N].
    + destruct (D n) eqn:E; [|exact E]. unfold store. destruct (string_dec n n); [reflexivity|congruence].
    + destruct (D n); [|reflexivity]. unfold store. destruct (string_dec m n); [congruence|reflexivity].
Qed.
Lemma after_at : forall l D m, disk_after l D m = fold_left fstep (on m l) (D m).
Proof.
  unfold disk_after. induction l as [|a l IH]; intros D m; [reflexivity|].
  cbn [fold_left filter]. rewrite IH, act_at. destruct (about m a); reflexivity.
Qed.
Lemma stopped_at l D D' m : stopped l D D' -> on m l = [] -> D' m = D m.
Proof.
  induction 1 as [l D|n o p r l D|a l D D' S IH]; intro E; [reflexivity|..].
  - rewrite act_at. cbn [filter about] in *. destruct (string_dec m n); [discriminate E|reflexivity].
  - cbn [filter] in E. destruct (about m a) eqn:A; [discriminate E|]. rewrite IH by exact E. rewrite act_at, A. reflexivity.
Qed.

(** ** The actions of a run on one file: none, or first an emptying of an output; what
    is written then begins with P (an archive) or with an opening bracket. *)
Definition head_ok (b : list Z) : Prop := exists c r, b = c :: r /\ (c = 80 \/ c = 91).
Fixpoint sane (empty : bool) (l : list MainBytes.action) : Prop :=
  match l with
  | [] => True
  | Say _ :: l => sane empty l
  | Truncate _ :: l => sane true l
  | Put _ o b :: l => ((o = 0 /\ head_ok b) \/ (empty = false /\ 0 < o)) /\ sane false l
  end.
Lemma sane_app n : forall a e b, sane e a -> sane true b -> sane e (a ++ Truncate n :: b).
Proof.
  induction a as [|x a IH]; intros e b A B; [exact B|]. destruct x as [y|y|y o d]; cbn [app sane] in *; auto.
  destruct A as [A1 A2]. auto.
Qed.
Definition good (instr track : option string) (m : string) (l : list MainBytes.action) : Prop :=
  on m l = []
  \/ (exists r, on m l = Truncate m :: r /\ sane true r)
     /\ ((instr = Some m /\ file_name m) \/ (track = Some m /\ m <> "")).
Definition truncs (l : list MainBytes.action) : list string :=
  flat_map (fun a => match a with Truncate n => [n] | _ => [] end) l.
Lemma truncs_app a b : truncs (a ++ b) = truncs a ++ truncs b.
Proof. apply flat_map_app. Qed.
Lemma truncs_say l : truncs (map Say l) = [].
Proof. induction l; [reflexivity|exact IHl]. Qed.
Lemma truncs_cons e l : truncs (Say e :: l) = truncs l.
Proof. reflexivity. Qed.
Lemma on_say m l : on m (map Say l) = [].
Proof. induction l; [reflexivity|exact IHl]. Qed.
Lemma good_nil i t m l : on m l = [] -> good i t m l.
Proof. left. assumption. Qed.
Lemma good_app i t m a b : good i t m a -> good i t m b -> good i t m (a ++ b).
Proof.
  intros [A|((r & A & SA) & P)] [B|((q & B & SB) & Q)]; unfold good; rewrite filter_app, A; cbn [app].
  - left. exact B.
  - right. split; [|exact Q]. exists q. auto.
  - right. split; [|exact P]. exists r. rewrite B, app_nil_r. auto.
  - right. split; [|exact P]. exists (r ++ on m b). split; [reflexivity|]. rewrite B. now apply sane_app.
Qed.
Lemma good_say i t m e l : good i t m l -> good i t m (Say e :: l).
Proof. exact (fun H => H). Qed.
Lemma good_iff i t m l : good i t m l -> (on m l = [] <-> ~ In m (truncs l)).
Proof.
  intros G. split.
  - intros E I. unfold truncs in I. apply in_flat_map in I as (a & Ia & Ma).
    destruct a as [e|n|n o b]; cbn in Ma; try contradiction. destruct Ma as [->|[]].
    assert (In (Truncate m) (on m l)) as X; [|rewrite E in X; exact X].
    apply filter_In. split; [exact Ia|]. cbn. destruct (string_dec m m); congruence.
  - intros N. destruct G as [E|((r & E & _) & _)]; [exact E|]. exfalso. apply N. unfold truncs. apply in_flat_map.
    exists (Truncate m). split; [|left; reflexivity]. assert (In (Truncate m) (on m l)) as X by (rewrite E; left; reflexivity).
    apply filter_In in X. apply X.
Qed.

Lemma truthy_ne n : truthy (Some n) = true -> n <> "".
Proof. unfold truthy. destruct (String.eqb_spec n ""); [discriminate|auto]. Qed.

Lemma text_head s txt : instruments_text s = Ok txt -> head_ok (utf8 txt).
Proof.
  unfold instruments_text. destruct (mapM config_json (s_configs s)) as [js|e]; [|discriminate]. cbn [bind]. intros E.
  apply (f_equal (fun r => match r with Ok x => x | Err _ => "" end)) in E. subst txt.
  exists 91. destruct js as [|j js]; cbn [dumps append utf8]; (eexists; split; [reflexivity|right; reflexivity]).
Qed.
Lemma len_nonneg {A} (l : list A) : 0 <= len l.
Proof. unfold len. lia. Qed.
Lemma zip_sane n now b ws e : zip_writes now b = (ws, e) -> sane true (map (fun x => Put n (fst x) (snd x)) ws).
Proof.
  assert (H : forall r, head_ok (80 :: r)) by (intro r; exists 80, r; auto).
  unfold zip_writes. destruct (year now <? 1980); [|destruct (65535 <? dosdate now)]; intros E; injection E as <- _.
  - cbn [map fst snd sane]. split; [|exact I]. left. split; [reflexivity|apply H].
  - cbn [map fst snd sane]. split; [|exact I]. left. split; [reflexivity|apply H].
  - pose proof (len_nonneg b). cbn [map fst snd sane].
    repeat apply conj; try exact I; first [left; split; [reflexivity|apply H] | right; split; [reflexivity|lia]].
Qed.

Section Runs.
  Variable g : list Z -> res (list Z).
  Variable w : string -> bool.
  Variable ierr : option exn.

  Lemma good_instr i t m n s : truthy (Some n) = true -> i = Some n -> good i t m (fst (instruments_bytes w n s)).
  Proof.
    intros T ->. apply truthy_ne in T. unfold instruments_bytes.
    destruct (instruments_text s) as [txt|e] eqn:E; [|apply good_nil; reflexivity].
    unfold smart_open. destruct (truthy (Some n) && negb (n =? "-"))%string eqn:B.
    - destruct (w n); [|apply good_nil; reflexivity]. cbn [fst]. apply good_say. unfold put_text. cbn [app].
      unfold good. cbn [filter about]. destruct (string_dec m n) as [->|N].
      + right. rewrite on_say. split; [eexists; split; [reflexivity|]|].
        { cbn [sane]. split; [|exact I]. left. split; [reflexivity|]. exact (text_head _ _ E). }
        left. split; [reflexivity|]. split; [exact T|].
        apply andb_true_iff in B as (_ & B). intros ->. discriminate B.
      + left. apply on_say.
    - cbn. apply good_nil. reflexivity.
  Qed.
  Lemma good_tracks i t m n s tpn now : truthy (Some n) = true -> t = Some n -> good i t m (fst (tracks_bytes w now s n tpn)).
  Proof.
    intros T ->. apply truthy_ne in T. unfold tracks_bytes.
    destruct (build_song s tpn) as [sg|e]; [|apply good_nil; reflexivity].
    destruct (w n); [|apply good_nil; reflexivity].
    assert (G : forall ws, on m (map (fun x => Put n (fst x) (snd x)) ws ++ [Say (Close (HFile n "wb"))])
                = if string_dec m n then map (fun x => Put n (fst x) (snd x)) ws else []).
    { intros ws. rewrite filter_app. cbn [filter about]. rewrite app_nil_r.
      induction ws as [|x ws IH]; [destruct (string_dec m n); reflexivity|]. cbn [map filter about]. rewrite IH.
      destruct (string_dec m n); reflexivity. }
    destruct (song_text sg) as [txt|e].
    - destruct (zip_writes now (utf8 txt)) as [ws e] eqn:Z. cbn [fst]. apply good_say. unfold good. cbn [filter about].
      rewrite G. destruct (string_dec m n) as [->|N]; [|left; reflexivity].
      right. split; [eexists; split; [reflexivity|]|right; auto]. exact (zip_sane n _ _ _ _ Z).
    - cbn [fst app]. apply good_say. unfold good. cbn [filter about].
      destruct (string_dec m n) as [->|N]; [|left; reflexivity].
      right. split; [eexists; split; [reflexivity|exact I]|]. right. auto.
  Qed.
  Lemma good_body i t m now f c n : good i t m (fst (body_bytes g w ierr now f c i t n)).
  Proof.
    unfold body_bytes.
    destruct (match c with Some b => _ | None => _ end) as [cmds|e]; [|apply good_nil; reflexivity].
    destruct (process_vgm_file cmds) as [s|e]; [|apply good_nil; reflexivity].
    destruct (choose_ticks s n) as [eff [tk|e]]; [|apply good_nil; cbn [fst filter about]; apply on_say].
    match goal with |- context [seq_acts ?a ?b] => set (A := a); set (B := b) end.
    assert (GA : good i t m (fst A)).
    { unfold A. destruct (truthy i) eqn:T; [|apply good_nil; reflexivity]. destruct i as [x|]; [|discriminate T].
      apply good_instr; [exact T|reflexivity]. }
    assert (GB : good i t m (fst (B tt))).
    { unfold B. destruct (truthy t) eqn:T; [|apply good_nil; reflexivity]. destruct t as [x|]; [|discriminate T].
      apply good_tracks; [exact T|reflexivity]. }
    assert (GS : good i t m (fst (seq_acts A B))).
    { unfold seq_acts. destruct A as [ea [|e|e]]; try exact GA. destruct (B tt) as [eb r]. cbn [fst] in *. now apply good_app. }
    destruct (seq_acts A B) as [out r]. cbn [fst] in *. apply good_say. apply good_app; [apply good_nil, on_say|].
    apply good_say. exact GS.
  Qed.
  Lemma good_main i t m D now f n : good i t m (fst (main_bytes g D w ierr now f i t n)).
  Proof.
    unfold main_bytes. destruct (smart_open (Some f) "rb") as [[x md| |]|e]; try (apply good_nil; reflexivity).
    - destruct (D x) as [b|]; [|apply good_nil; reflexivity].
      pose proof (good_body i t m now f (Some b) n) as G. destruct (body_bytes g w ierr now f (Some b) i t n) as [eff r].
      cbn [fst] in *. apply good_say. apply good_app; [exact G|]. apply good_nil, on_say.
    - pose proof (good_body i t m now f None n) as G. destruct (body_bytes g w ierr now f None i t n) as [eff r].
      cbn [fst] in *. apply good_app; [exact G|]. apply good_nil, on_say.
  Qed.

  (** Which files are opened does not depend on the time. *)
  Lemma truncs_tracks now now' s n tpn : truncs (fst (tracks_bytes w now s n tpn)) = truncs (fst (tracks_bytes w now' s n tpn)).
  Proof.
    unfold tracks_bytes. destruct (build_song s tpn) as [sg|e]; [|reflexivity]. destruct (w n); [|reflexivity].
    destruct (song_text sg) as [txt|e]; [|reflexivity].
    assert (P : forall ws, truncs (map (fun x => Put n (fst x) (snd x)) ws ++ [Say (Close (HFile n "wb"))]) = []).
    { intros ws. rewrite truncs_app. cbn. rewrite app_nil_r. induction ws; [reflexivity|assumption]. }
    destruct (zip_writes now (utf8 txt)) as [a x], (zip_writes now' (utf8 txt)) as [b y]. cbn [fst].
    change (n :: truncs (map (fun x => Put n (fst x) (snd x)) a ++ [Say (Close (HFile n "wb"))])
            = n :: truncs (map (fun x => Put n (fst x) (snd x)) b ++ [Say (Close (HFile n "wb"))])).
    rewrite !P. reflexivity.
  Qed.
  Lemma truncs_body i t now now' f c n :
    truncs (fst (body_bytes g w ierr now f c i t n)) = truncs (fst (body_bytes g w ierr now' f c i t n)).
  Proof.
    unfold body_bytes.
    destruct (match c with Some b => _ | None => _ end) as [cmds|e]; [|reflexivity].
    destruct (process_vgm_file cmds) as [s|e]; [|reflexivity].
    destruct (choose_ticks s n) as [eff [tk|e]]; [|reflexivity].
    match goal with |- context [seq_acts ?a (fun _ => if truthy t then match t with Some x => tracks_bytes w now s x tk | None => _ end else _)] => destruct a as [ea [|e|e]] end;
      cbn [seq_acts]; try reflexivity.
    destruct (truthy t); [|reflexivity]. destruct t as [x|]; [|reflexivity].
    pose proof (truncs_tracks now now' s x tk) as T.
    destruct (tracks_bytes w now s x tk) as [o r], (tracks_bytes w now' s x tk) as [o' r']. cbn [fst] in *.
    rewrite !truncs_cons, !truncs_app, !truncs_cons, !truncs_app, T. reflexivity.
  Qed.
  Lemma truncs_main i t D now now' f n :
    truncs (fst (main_bytes g D w ierr now f i t n)) = truncs (fst (main_bytes g D w ierr now' f i t n)).
  Proof.
    unfold main_bytes. destruct (smart_open (Some f) "rb") as [[x md| |]|e]; try reflexivity.
    - destruct (D x) as [b|]; [|reflexivity]. pose proof (truncs_body i t now now' f (Some b) n) as T.
      destruct (body_bytes g w ierr now f (Some b) i t n) as [a r], (body_bytes g w ierr now' f (Some b) i t n) as [a' r'].
      cbn [fst] in *.
      change (truncs (a ++ map Say (closing (HFile x md))) = truncs (a' ++ map Say (closing (HFile x md)))).
      rewrite !truncs_app, T. reflexivity.
    - pose proof (truncs_body i t now now' f None n) as T.
      destruct (body_bytes g w ierr now f None i t n) as [a r], (body_bytes g w ierr now' f None i t n) as [a' r'].
      cbn [fst] in *. rewrite !truncs_app, T. reflexivity.
  Qed.

  (** ** The script *)
  Lemma script_cases ws : (forall D now, actions g w ierr D (ws, now) = ([], match parse_args ws with Exit n => n | _ => 2 end))
    \/ exists f i t n, accepted ws f i t n /\ forall D now,
         fst (actions g w ierr D (ws, now)) = fst (main_bytes g D w ierr now f i t n).
  Proof.
    destruct (parse_args ws) as [[[f|] i t n]|k] eqn:P.
    - right. exists f, i, t, n. split; [apply C79_command_line; exact P|]. intros D now.
      unfold actions, script_bytes. cbn [fst snd]. rewrite P. cbn [a_file a_instrument a_track a_ticks].
      destruct (main_bytes g D w ierr now f i t n) as [x [|e|e]]; reflexivity.
    - left. intros. unfold actions, script_bytes. cbn [fst snd]. rewrite P. reflexivity.
    - left. intros. unfold actions, script_bytes. cbn [fst snd]. rewrite P. reflexivity.
  Qed.
  Lemma script_good D c m : on m (fst (actions g w ierr D c)) = []
    \/ (exists r, on m (fst (actions g w ierr D c)) = Truncate m :: r /\ sane true r) /\ writes c m.
  Proof.
    destruct c as [ws now]. destruct (script_cases ws) as [E|(f & i & t & n & A & E)]; rewrite E; [left; reflexivity|].
    destruct (good_main i t m D now f n) as [G|(G & H)]; [left; exact G|right]. split; [exact G|].
    exists f, i, t, n. auto.
  Qed.
  Lemma script_quiet D c m : ~ writes c m -> on m (fst (actions g w ierr D c)) = [].
  Proof. intros N. destruct (script_good D c m) as [G|(_ & H)]; [exact G|contradiction]. Qed.
  Lemma script_times D ws now now' m :
    on m (fst (actions g w ierr D (ws, now))) = [] -> on m (fst (actions g w ierr D (ws, now'))) = [].
  Proof.
    destruct (script_cases ws) as [E|(f & i & t & n & A & E)]; rewrite !E; [auto|]. intros H.
    apply (good_iff i t); [apply good_main|]. rewrite (truncs_main i t D now' now f n).
    apply (good_iff i t); [apply good_main|exact H].
  Qed.
  (** Only the input matters. *)
  Lemma script_input D D' c : (forall f, reads c f -> D f = D' f) -> actions g w ierr D c = actions g w ierr D' c.
  Proof.
    destruct c as [ws now]. intros H. unfold actions, script_bytes. cbn [fst snd].
    destruct (parse_args ws) as [[[f|] i t n]|k] eqn:P; [|reflexivity..]. cbn [a_file a_instrument a_track a_ticks].
    assert (M : main_bytes g D w ierr now f i t n = main_bytes g D' w ierr now f i t n); [|rewrite M; reflexivity].
    unfold main_bytes. unfold smart_open.
    destruct (truthy (Some f) && negb (f =? "-"))%string eqn:B; [|reflexivity].
    rewrite (H f); [reflexivity|]. split.
    - apply andb_true_iff in B as (B1 & B2). split; [now apply truthy_ne|]. intros ->. discriminate B2.
    - exists i, t, n. apply C79_command_line. exact P.
  Qed.
  (** What a run leaves in a file does not depend on what was there. *)
  Lemma fold_trunc r x y : fold_left fstep (Truncate r :: y) x = fold_left fstep y (Some []).
  Proof. reflexivity. Qed.
  Lemma script_result D c m x y : on m (fst (actions g w ierr D c)) <> [] ->
    fold_left fstep (on m (fst (actions g w ierr D c))) x = fold_left fstep (on m (fst (actions g w ierr D c))) y.
  Proof. intros N. destruct (script_good D c m) as [G|((r & G & _) & _)]; [contradiction|]. rewrite G. reflexivity. Qed.

  (** ** A successful run has opened all its outputs *)
  Lemma fine_instr s n : truthy (Some n) = true -> file_name n -> snd (instruments_bytes w n s) = Fine ->
    In n (truncs (fst (instruments_bytes w n s))).
  Proof.
    intros T F. unfold instruments_bytes. destruct (instruments_text s) as [txt|e]; [|discriminate].
    unfold smart_open. rewrite T. destruct F as [_ F]. destruct (String.eqb_spec n "-"); [contradiction|]. cbn [andb negb].
    destruct (w n); [|discriminate]. intros _. cbn [fst put_text app]. rewrite truncs_cons. left. reflexivity.
  Qed.
  Lemma fine_tracks now s n tk : snd (tracks_bytes w now s n tk) = Fine -> In n (truncs (fst (tracks_bytes w now s n tk))).
  Proof.
    unfold tracks_bytes. destruct (build_song s tk) as [sg|e]; [|discriminate]. destruct (w n); [|discriminate].
    destruct (match song_text sg with Ok _ => _ | Err _ => _ end) as [ws r]. cbn [fst snd]. intros _. rewrite truncs_cons. left. reflexivity.
  Qed.
  Lemma fine_body i t now f c n m : (i = Some m /\ file_name m) \/ (t = Some m /\ m <> "") ->
    snd (body_bytes g w ierr now f c i t n) = Fine -> In m (truncs (fst (body_bytes g w ierr now f c i t n))).
  Proof.
    intros H. unfold body_bytes.
    destruct (match c with Some b => _ | None => _ end) as [cmds|e]; [|discriminate].
    destruct (process_vgm_file cmds) as [s|e]; [|discriminate].
    destruct (choose_ticks s n) as [eff [tk|e]]; [|discriminate].
    match goal with |- context [seq_acts ?a ?b] => set (A := a); set (B := b) end.
    assert (Q : snd (seq_acts A B) = Fine -> In m (truncs (fst (seq_acts A B)))).
    { destruct A as [ea ra] eqn:EA. unfold seq_acts. destruct ra as [|e|e]; [|discriminate|discriminate].
      destruct (B tt) as [eb rb] eqn:EB. cbn [fst snd]. intros ->. rewrite truncs_app. apply in_or_app.
      destruct H as [(-> & F)|(-> & N)].
      - left. unfold A in EA. assert (T : truthy (Some m) = true) by (destruct F as [N _]; unfold truthy; destruct (String.eqb_spec m ""); [contradiction|reflexivity]).
        rewrite T in EA. pose proof (fine_instr s m T F) as X. rewrite EA in X. exact (X eq_refl).
      - right. unfold B in EB. assert (T : truthy (Some m) = true) by (unfold truthy; destruct (String.eqb_spec m ""); [contradiction|reflexivity]).
        rewrite T in EB. pose proof (fine_tracks now s m tk) as X. rewrite EB in X. exact (X eq_refl). }
    destruct (seq_acts A B) as [out r]. cbn [fst snd] in *. intros R. rewrite truncs_cons, truncs_app, truncs_say, truncs_cons. exact (Q R).
  Qed.
  Lemma fine_main i t now D f n m : (i = Some m /\ file_name m) \/ (t = Some m /\ m <> "") ->
    snd (main_bytes g D w ierr now f i t n) = Fine -> In m (truncs (fst (main_bytes g D w ierr now f i t n))).
  Proof.
    intros H. unfold main_bytes. destruct (smart_open (Some f) "rb") as [[x md| |]|e]; try discriminate.
    - destruct (D x) as [b|]; [|discriminate]. pose proof (fine_body i t now f (Some b) n m H) as Q.
      destruct (body_bytes g w ierr now f (Some b) i t n) as [eff r]. cbn [fst snd] in *. intros R.
      rewrite truncs_cons, truncs_app. apply in_or_app. left. exact (Q R).
    - pose proof (fine_body i t now f None n m H) as Q.
      destruct (body_bytes g w ierr now f None i t n) as [eff r]. cbn [fst snd] in *. intros R.
      rewrite truncs_app. apply in_or_app. left. exact (Q R).
  Qed.
  Lemma script_fine D c m : writes c m -> snd (actions g w ierr D c) = 0 -> on m (fst (actions g w ierr D c)) <> [].
  Proof.
    destruct c as [ws now]. intros (f & i & t & n & A & H). apply C79_command_line in A. cbn [fst] in A.
    unfold actions, script_bytes. cbn [fst snd]. rewrite A. cbn [a_file a_instrument a_track a_ticks].
    pose proof (fine_main i t now D f n m H) as Q. pose proof (good_main i t m D now f n) as G.
    destruct (main_bytes g D w ierr now f i t n) as [acts [|e|e]]; try discriminate. cbn [fst snd] in *. intros _ E.
    apply (proj1 (good_iff i t m acts G) E). exact (Q eq_refl).
  Qed.
  (** ** What does not begin like a recording is refused *)
  Lemma refused D c f x : reads c f -> D f = Some x -> x = [] \/ head_ok x ->
    snd (actions g w ierr D c) = 1 /\ forall m, on m (fst (actions g w ierr D c)) = [].
  Proof.
    destruct c as [ws now]. intros ([N1 N2] & i & t & n & A) E H. apply C79_command_line in A. cbn [fst] in A.
    assert (R : fst (reader g clocks_empty (mkfile x 0)) = Ok None).
    { unfold reader, fread. cbn [fpos fbytes]. rewrite dropZ_skipn. change (skipn (Z.to_nat 0) x) with x. destruct H as [->|(c & r & -> & H)]; [reflexivity|].
      assert (M : exists q, takeZ 4 (c :: r) = c :: q) by (rewrite takeZ_firstn; eexists; reflexivity). destruct M as (q & M). rewrite M.
      assert (M2 : exists q', takeZ 2 (c :: q) = c :: q') by (rewrite takeZ_firstn; eexists; reflexivity). destruct M2 as (q' & M2). rewrite M2.
      assert (B1 : bytes_eqb (c :: q') [31; 139] = false) by (cbn [bytes_eqb]; destruct H as [-> | ->]; reflexivity).
      assert (B2 : bytes_eqb (c :: q) magic = false) by (unfold magic; cbn [bytes_eqb]; destruct H as [-> | ->]; reflexivity).
      rewrite B1, B2. reflexivity. }
    assert (M : main_bytes g D w ierr now f i t n
      = ([Say (OpenRead f); Say (Main.line (String.append "Opening file: " f)); Say (Close (HFile f "rb"))], Failed TypeError)).
    { unfold main_bytes, smart_open, truthy. destruct (String.eqb_spec f ""); [contradiction|]. destruct (String.eqb_spec f "-"); [contradiction|].
      cbn [negb andb]. rewrite E. unfold body_bytes. rewrite R. reflexivity. }
    unfold actions, script_bytes. cbn [fst snd]. rewrite A. cbn [a_file a_instrument a_track a_ticks]. rewrite M. split; reflexivity.
  Qed.
End Runs.

(** ** What can be in an output *)
Lemma head_over c o p b : head_ok c -> (o = 0 /\ head_ok (p ++ b)) \/ 0 < o -> head_ok (overwrite c (Z.to_nat o) p).
Proof.
  intros (x & r & -> & X) [(-> & H)|H]; unfold overwrite.
  - cbn [Z.to_nat firstn app]. destruct p as [|y p]; [exists x, r; auto|]. destruct H as (z & q & E & Z). injection E as -> _.
    exists z. eexists. split; [reflexivity|exact Z].
  - destruct (Z.to_nat o) as [|k] eqn:K; [lia|]. cbn [firstn app]. exists x. eexists. split; [reflexivity|exact X].
Qed.
Lemma stopped_sane m : forall l D D', stopped l D D' -> forall e, sane e (on m l) ->
  (if e : bool then D m = Some [] else exists x, D m = Some x /\ head_ok x) ->
  exists x, D' m = Some x /\ (x = [] \/ head_ok x).
Proof.
  induction 1 as [l D|n o p r l D|a l D D' S IH]; intros e H K.
  - destruct e; [eauto|]. destruct K as (x & K & X). eauto.
  - rewrite act_at. cbn [filter about] in *. destruct (string_dec m n) as [->|N].
    2:{ destruct e; [eauto|]. destruct K as (x & K & X). eauto. }
    cbn [sane] in H. destruct H as [H _]. cbn [fstep]. destruct e.
    + rewrite K. destruct H as [(-> & H)|(H & _)]; [|discriminate H]. eexists. split; [reflexivity|].
      unfold overwrite. cbn [Z.to_nat firstn app]. rewrite skipn_nil, app_nil_r. destruct p as [|y p]; [left; reflexivity|right].
      destruct H as (z & q & E & Z). injection E as -> _. exists z, p. auto.
    + destruct K as (x & K & X). rewrite K. eexists. split; [reflexivity|]. right. apply (head_over x o p r X).
      destruct H as [H|(_ & H)]; [left; exact H|right; exact H].
  - cbn [filter] in H. destruct (about m a) eqn:A.
    2:{ apply (IH e H). rewrite act_at, A. exact K. }
    destruct a as [x|x|x o b]; cbn [about] in A; [discriminate A|..]; destruct (string_dec m x) as [->|]; try discriminate A; cbn [sane] in H.
    + apply (IH true H). rewrite act_at. cbn [about fstep]. destruct (string_dec x x); [reflexivity|congruence].
    + destruct H as [H1 H2]. apply (IH false H2). rewrite act_at. cbn [about fstep]. destruct (string_dec x x); [|congruence].
      destruct e.
      * rewrite K. destruct H1 as [(-> & H)|(H & _)]; [|discriminate H]. eexists. split; [reflexivity|].
        unfold overwrite. cbn [Z.to_nat firstn app]. rewrite skipn_nil, app_nil_r. exact H.
      * destruct K as (y & K & Y). rewrite K. eexists. split; [reflexivity|]. apply (head_over y o b [] Y).
        rewrite app_nil_r. destruct H1 as [H1|(_ & H1)]; [left; exact H1|right; exact H1].
Qed.
Lemma stopped_written m : forall l D D', stopped l D D' -> (on m l = [] \/ exists r, on m l = Truncate m :: r /\ sane true r) ->
  D' m = D m \/ exists x, D' m = Some x /\ (x = [] \/ head_ok x).
Proof.
  induction 1 as [l D|n o p r l D|a l D D' S IH]; intros H.
  - left. reflexivity.
  - rewrite act_at. cbn [filter about] in *. destruct (string_dec m n) as [->|N]; [|left; reflexivity].
    destruct H as [H|(q & H & _)]; discriminate H.
  - cbn [filter] in H. destruct (about m a) eqn:A.
    2:{ destruct (IH H) as [I|I]; [|right; exact I]. left. rewrite I, act_at, A. reflexivity. }
    right. destruct H as [H|(q & H & Q)]; [discriminate H|]. injection H as -> H.
    apply (stopped_sane m l (act D (Truncate m)) D' S true); [rewrite H; exact Q|].
    rewrite act_at. rewrite A. reflexivity.
Qed.
