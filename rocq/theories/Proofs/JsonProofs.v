(** json.dumps is read back by the JSON reader. *)
From Coq Require Import ZArith List Bool String Ascii Lia ZifyBool.
From Verif.Model Require Import Py Config Json Extract.
From Verif.Spec Require Import Text JsonText Ranges.
From Verif.Proofs Require Import PyLemmas TextProofs TempoProofs.
Import ListNotations.
Open Scope Z_scope.

Lemma app_assoc_s (a b c : string) : ((a ++ b) ++ c = a ++ (b ++ c))%string.
Proof. induction a; cbn; [reflexivity|]. now rewrite IHa. Qed.
Lemma length_app_s (a b : string) : String.length (a ++ b) = (String.length a + String.length b)%nat.
Proof. induction a; cbn; [reflexivity|]. now rewrite IHa. Qed.

(** Texts json.dumps need not escape. *)
Fixpoint safe (s : string) : bool :=
  match s with
  | EmptyString => true
  | String c r => negb (Ascii.eqb c dquote) && negb ((nat_of_ascii c <? 32)%nat || Ascii.eqb c "\") && safe r
  end.
Lemma string_body_ok s r : safe s = true -> string_body (s ++ String dquote r) = Some (s, r).
Proof.
  induction s as [|c s IH]; intro H; [reflexivity|]. cbn [safe] in H.
  apply andb_true_iff in H as [H H3]. apply andb_true_iff in H as [H1 H2].
  apply negb_true_iff in H1, H2. cbn [append string_body]. rewrite H1, H2, IH by assumption. reflexivity.
Qed.

Lemma skip_tabs n s : skip (tabs n ++ s) = skip s.
Proof. induction n; [reflexivity|]. cbn [tabs]. rewrite app_assoc_s. exact IHn. Qed.
Lemma skip_nl n s : skip (nl_indent n ++ s) = skip s.
Proof. unfold nl_indent. rewrite app_assoc_s. change (skip (newline ++ tabs n ++ s)%string) with (skip (tabs n ++ s)). apply skip_tabs. Qed.

(** A text after which a number ends. *)
Definition ends (s : string) : Prop := match s with EmptyString => True | String c _ => number_char c = false end.
Fixpoint all_number (s : string) : bool :=
  match s with EmptyString => true | String c r => number_char c && all_number r end.
Lemma number_body_ok s r : all_number s = true -> ends r -> number_body (s ++ r) = (s, r).
Proof.
  intros H E. induction s as [|c s IH].
  - cbn [append]. destruct r as [|c r]; [reflexivity|]. cbn [number_body ends] in *. now rewrite E.
  - cbn [all_number] in H. apply andb_true_iff in H as [H1 H2]. cbn [append number_body]. now rewrite H1, IH.
Qed.
Lemma all_number_digits fuel n acc : all_number acc = true -> all_number (dec_digits fuel n acc) = true.
Proof.
  revert n acc. induction fuel as [|k IH]; intros n acc H; cbn [dec_digits]; [assumption|].
  assert (D : number_char (digit_ascii (n mod 10)) = true).
  { apply (sweep 10 (fun d => number_char (digit_ascii d))); [reflexivity|]. pose proof (Z.mod_pos_bound n 10). lia. }
  assert (C : all_number (String (digit_ascii (n mod 10)) acc) = true) by (cbn [all_number]; now rewrite D).
  destruct (n <? 10); [assumption|]. now apply IH.
Qed.
Lemma all_number_int n : all_number (str_int n) = true.
Proof.
  unfold str_int, str_nonneg. destruct (n <? 0); [cbn [all_number]; rewrite all_number_digits by reflexivity; reflexivity|].
  now apply all_number_digits.
Qed.
(** First characters. *)
Lemma number_char_cases c : number_char c = true ->
  is_space c = false /\ Ascii.eqb c dquote = false /\ Ascii.eqb c "[" = false /\ Ascii.eqb c "{" = false
  /\ Ascii.eqb c "t" = false /\ Ascii.eqb c "f" = false /\ Ascii.eqb c "]" = false /\ Ascii.eqb c "}" = false.
Proof.
  unfold number_char. intro H. apply existsb_exists in H as (d & Hd & E). apply Ascii.eqb_eq in E. subst d.
  cbn [list_ascii_of_string In] in Hd. decompose [or] Hd; try contradiction; subst; repeat split.
Qed.
Lemma str_int_head n : exists c r, str_int n = String c r /\ number_char c = true.
Proof.
  pose proof (all_number_int n) as A. pose proof (int_value_str n) as V.
  destruct (str_int n) as [|c r]; [discriminate|]. cbn [all_number] in A. apply andb_true_iff in A as [A _]. eauto.
Qed.

(** Induction over JSON values. *)
Section Ind.
  Variable P : json -> Prop.
  Hypothesis Pint : forall n, P (JInt n).
  Hypothesis Pbool : forall b, P (JBool b).
  Hypothesis Pstr : forall s, P (JStr s).
  Hypothesis Plist : forall l, Forall P l -> P (JList l).
  Hypothesis Pobj : forall l, Forall (fun kv => P (snd kv)) l -> P (JObj l).
  Fixpoint json_induction (j : json) : P j :=
    match j with
    | JInt n => Pint n
    | JBool b => Pbool b
    | JStr s => Pstr s
    | JList l => Plist l ((fix go (l : list json) : Forall P l := match l with [] => Forall_nil _ | x :: r => Forall_cons x (json_induction x) (go r) end) l)
    | JObj l => Pobj l ((fix go (l : list (string * json)) : Forall (fun kv => P (snd kv)) l := match l with [] => Forall_nil _ | x :: r => Forall_cons x (json_induction (snd x)) (go r) end) l)
    end.
End Ind.

(** Values whose texts need no escapes. *)
Fixpoint safe_json (j : json) : bool :=
  match j with
  | JInt _ | JBool _ => true
  | JStr s => safe s
  | JList l => forallb safe_json l
  | JObj l => forallb (fun kv : string * json => let (k, v) := kv in safe k && safe_json v) l
  end.
(** Fuel needed. *)
Fixpoint size (j : json) : nat :=
  match j with
  | JInt _ | JBool _ | JStr _ => 1
  | JList l => S (fold_right (fun x a => S (size x + a)) 0%nat l)
  | JObj l => S (fold_right (fun kv a => let (_, v) := kv : string * json in S (size v + a)) 0%nat l)
  end.

Definition item (level : nat) (kv : string * json) : string :=
  let (k, v) := kv in (quoted k ++ ": " ++ dumps (S level) v)%string.
Lemma dumps_list level x l : dumps level (JList (x :: l)) =
  ("[" ++ nl_indent (S level) ++ join ("," ++ nl_indent (S level)) (map (dumps (S level)) (x :: l)) ++ nl_indent level ++ "]")%string.
Proof. reflexivity. Qed.
Lemma dumps_obj level x l : dumps level (JObj (x :: l)) =
  ("{" ++ nl_indent (S level) ++ join ("," ++ nl_indent (S level)) (map (item level) (x :: l)) ++ nl_indent level ++ "}")%string.
Proof. reflexivity. Qed.

(** The text of a value starts with a visible character. *)
Lemma dumps_head level j : exists c r, dumps level j = String c r /\ is_space c = false
  /\ Ascii.eqb c "]" = false /\ Ascii.eqb c "}" = false.
Proof.
  destruct j as [n|b|s|l|l].
  - destruct (str_int_head n) as (c & r & E & H). exists c, r. apply number_char_cases in H. cbn [dumps]. intuition.
  - destruct b; cbn; eexists _, _; repeat split.
  - eexists _, _; repeat split.
  - destruct l; [eexists _, _; repeat split|]. rewrite dumps_list. eexists _, _; repeat split.
  - destruct l; [eexists _, _; repeat split|]. rewrite dumps_obj. eexists _, _; repeat split.
Qed.
Lemma skip_dumps level j s : skip (dumps level j ++ s) = (dumps level j ++ s)%string.
Proof. destruct (dumps_head level j) as (c & r & -> & H & _). cbn [append skip]. now rewrite H. Qed.

Lemma ends_nl n s : ends (nl_indent n ++ s).
Proof. reflexivity. Qed.

Definition reads (level : nat) (j : json) : Prop :=
  forall fuel r, (size j <= fuel)%nat -> ends r -> value fuel (dumps level j ++ r) = Some (j, r).

Lemma reads_list level l x close : Forall (reads (S level)) (x :: l) ->
  forall fuel r, (fold_right (fun x a => S (size x + a)) 0%nat (x :: l) <= fuel)%nat ->
  close = (nl_indent level ++ String "]" r)%string ->
  elements fuel (join ("," ++ nl_indent (S level)) (map (dumps (S level)) (x :: l)) ++ close) = Some (x :: l, r).
Proof.
  intros F fuel r Hf ->. revert x F fuel Hf. induction l as [|y l IH]; intros x F fuel Hf.
  - cbn [map join]. inversion F as [|? ? Rx _]; subst. cbn [fold_right] in Hf.
    destruct fuel as [|f]; [lia|]. cbn [elements]. rewrite Rx by (try lia; apply ends_nl).
    rewrite skip_nl. reflexivity.
  - inversion F as [|? ? Rx F']; subst. cbn [fold_right] in Hf. destruct fuel as [|f]; [lia|].
    change (join ("," ++ nl_indent (S level)) (map (dumps (S level)) (x :: y :: l)))
      with (dumps (S level) x ++ ("," ++ nl_indent (S level)) ++ join ("," ++ nl_indent (S level)) (map (dumps (S level)) (y :: l)))%string.
    rewrite !app_assoc_s. cbn [elements]. rewrite Rx by (try lia; reflexivity).
    change (skip ("," ++ ?z)%string) with ("," ++ z)%string. cbn [append]. change (Ascii.eqb "," ",") with true. cbn match.
    assert (SK : forall z, elements f (nl_indent (S level) ++ z) = elements f z).
    { intro z. destruct f; [reflexivity|]. cbn [elements]. destruct f; [reflexivity|]. cbn [value]. now rewrite skip_nl. }
    rewrite SK. rewrite IH; [reflexivity|assumption|cbn [fold_right] in *; lia].
Qed.
Lemma reads_obj level l x close : Forall (fun kv => reads (S level) (snd kv)) (x :: l) ->
  forallb (fun kv : string * json => safe (fst kv)) (x :: l) = true ->
  forall fuel r, (fold_right (fun kv a => let (_, v) := kv : string * json in S (size v + a)) 0%nat (x :: l) <= fuel)%nat ->
  close = (nl_indent level ++ String "}" r)%string ->
  members fuel (join ("," ++ nl_indent (S level)) (map (item level) (x :: l)) ++ close) = Some (x :: l, r).
Proof.
  intros F SF fuel r Hf ->. revert x F SF fuel Hf. induction l as [|y l IH]; intros [k v] F SF fuel Hf.
  - cbn [map join item]. inversion F as [|? ? Rx _]; subst. cbn [snd] in Rx. cbn [fold_right] in Hf.
    cbn [forallb fst] in SF. apply andb_true_iff in SF as [SK _].
    destruct fuel as [|f]; [lia|]. unfold quoted, quote. rewrite !app_assoc_s. cbn [members append].
    change (ascii_of_nat 34) with dquote. cbn [skip]. change (is_space dquote) with false. cbn match.
    rewrite Ascii.eqb_refl, string_body_ok by assumption.
    cbn [skip]. change (is_space ":") with false. cbn match.
    assert (V : forall z, value f (String " " z) = value f z) by (intro z; destruct f; reflexivity).
    rewrite V, Rx by (try lia; apply ends_nl). rewrite skip_nl. reflexivity.
  - inversion F as [|? ? Rx F']; subst. cbn [snd] in Rx. cbn [fold_right] in Hf. destruct fuel as [|f]; [lia|].
    cbn [forallb fst] in SF. apply andb_true_iff in SF as [SK SF].
    change (join ("," ++ nl_indent (S level)) (map (item level) ((k, v) :: y :: l)))
      with ((quoted k ++ ": " ++ dumps (S level) v) ++ ("," ++ nl_indent (S level)) ++ join ("," ++ nl_indent (S level)) (map (item level) (y :: l)))%string.
    unfold quoted, quote. rewrite !app_assoc_s. cbn [members append].
    change (ascii_of_nat 34) with dquote. cbn [skip]. change (is_space dquote) with false. cbn match.
    rewrite Ascii.eqb_refl, string_body_ok by assumption.
    cbn [skip]. change (is_space ":") with false. cbn match.
    assert (V : forall z, value f (String " " z) = value f z) by (intro z; destruct f; reflexivity).
    rewrite V, Rx by (try lia; reflexivity). cbn [skip]. change (is_space ",") with false. cbn match.
    change (Ascii.eqb "," ",") with true. cbn match.
    assert (SKP : forall z, members f (nl_indent (S level) ++ z) = members f z).
    { intro z. destruct f; [reflexivity|]. cbn [members]. now rewrite skip_nl. }
    rewrite SKP. rewrite IH; [reflexivity|assumption|assumption|cbn [fold_right] in *; lia].
Qed.

Lemma reads_all : forall j level, safe_json j = true -> reads level j.
Proof.
  intro j. induction j as [n|b|s|l IH|l IH] using json_induction; intros level SF fuel r Hf E.
  - destruct fuel as [|f]; [cbn in Hf; lia|]. cbn [value]. rewrite skip_dumps. cbn [dumps].
    destruct (str_int_head n) as (c & t & EQ & H). pose proof (number_char_cases c H) as (_ & A1 & A2 & A3 & A4 & A5 & _).
    pose proof (number_body_ok _ _ (all_number_int n) E) as NB. rewrite EQ in *. cbn [append] in *.
    rewrite A1, A2, A3, A4, A5, NB. pose proof (int_value_str n) as V. rewrite EQ in V. now rewrite V.
  - destruct fuel as [|f]; [cbn in Hf; lia|]. destruct b; reflexivity.
  - destruct fuel as [|f]; [cbn in Hf; lia|]. cbn [safe_json] in SF. cbn [value]. rewrite skip_dumps. cbn [dumps].
    unfold quoted, quote. rewrite !app_assoc_s. cbn [append]. change (ascii_of_nat 34) with dquote.
    rewrite Ascii.eqb_refl, string_body_ok by assumption. reflexivity.
  - destruct fuel as [|f]; [cbn in Hf; lia|]. destruct l as [|x l]; [reflexivity|].
    cbn [value]. rewrite skip_dumps, dumps_list. rewrite !app_assoc_s. cbn [append].
    change (Ascii.eqb "[" dquote) with false. change (Ascii.eqb "[" "[") with true. cbn match.
    set (body := (join _ _ ++ _)%string). rewrite skip_nl.
    assert (RD : Forall (reads (S level)) (x :: l)).
    { cbn [safe_json] in SF. clear -IH SF. induction (x :: l) as [|y m IHm]; constructor.
      - cbn [forallb] in SF. apply andb_true_iff in SF as [S1 _]. inversion IH; subst. auto.
      - cbn [forallb] in SF. apply andb_true_iff in SF as [_ S2]. inversion IH; subst. auto. }
    cbn [size] in Hf.
    assert (EL : elements f body = Some (x :: l, r)).
    { unfold body. eapply (reads_list level l x _ RD); [lia|]. reflexivity. }
    assert (EL2 : elements f (nl_indent (S level) ++ body) = Some (x :: l, r)).
    { destruct f as [|f']; [discriminate|]. cbn [elements] in *. destruct f' as [|f'']; [discriminate|].
      cbn [value] in *. now rewrite skip_nl. }
    assert (HD : exists c t, skip body = String c t /\ Ascii.eqb c "]" = false).
    { destruct (dumps_head (S level) x) as (c & t & Ex & Sp & N & _). unfold body.
      destruct l as [|y l]; cbn [map join]; rewrite Ex; cbn [append skip]; rewrite Sp; eauto. }
    destruct HD as (c & t & -> & ->). now rewrite EL2.
  - destruct fuel as [|f]; [cbn in Hf; lia|]. destruct l as [|x l]; [reflexivity|].
    cbn [value]. rewrite skip_dumps, dumps_obj. rewrite !app_assoc_s. cbn [append].
    change (Ascii.eqb "{" dquote) with false. change (Ascii.eqb "{" "[") with false. change (Ascii.eqb "{" "{") with true. cbn match.
    set (body := (join _ _ ++ _)%string). rewrite skip_nl.
    assert (RD : Forall (fun kv => reads (S level) (snd kv)) (x :: l) /\ forallb (fun kv : string * json => safe (fst kv)) (x :: l) = true).
    { cbn [safe_json] in SF. clear -IH SF. induction (x :: l) as [|[k v] m IHm]; [split; [constructor|reflexivity]|].
      cbn [forallb] in SF. apply andb_true_iff in SF as [S1 S2]. apply andb_true_iff in S1 as [S0 S1].
      inversion IH as [|? ? I1 I2]; subst. destruct (IHm I2 S2) as [A B]. split.
      - constructor; [apply I1; assumption|assumption].
      - cbn [forallb fst]. now rewrite S0, B. }
    destruct RD as [RD SK]. cbn [size] in Hf.
    assert (EL : members f body = Some (x :: l, r)).
    { unfold body. eapply (reads_obj level l x _ RD SK); [lia|]. reflexivity. }
    assert (EL2 : members f (nl_indent (S level) ++ body) = Some (x :: l, r)).
    { destruct f as [|f']; [discriminate|]. cbn [members] in *. now rewrite skip_nl. }
    assert (HD : exists t, skip body = String dquote t).
    { unfold body. destruct x as [k v]. destruct l as [|y l]; cbn [map join item]; unfold quoted, quote; rewrite !app_assoc_s; cbn [append skip];
      change (ascii_of_nat 34) with dquote; change (is_space dquote) with false; eauto. }
    destruct HD as (t & ->). change (Ascii.eqb dquote "}") with false. cbn match. now rewrite EL2.
Qed.

Lemma size_length : forall j level, (size j <= String.length (dumps level j))%nat.
Proof.
  intro j. induction j as [n|b|s|l IH|l IH] using json_induction; intro level.
  - destruct (str_int_head n) as (c & r & E & _). cbn [dumps size]. rewrite E. cbn. lia.
  - destruct b; cbn; lia.
  - cbn. lia.
  - destruct l as [|x l]; [cbn; lia|]. rewrite dumps_list. cbn [size]. rewrite !length_app_s.
    assert (G : forall l x, Forall (fun j => forall level, (size j <= String.length (dumps level j))%nat) (x :: l) ->
      (fold_right (fun x a => S (size x + a)) 0%nat (x :: l)
       <= S (String.length (join ("," ++ nl_indent (S level)) (map (dumps (S level)) (x :: l)))))%nat).
    { clear. induction l as [|y l IHl]; intros x F; inversion F as [|? ? Fx F']; subst.
      - cbn [fold_right map join]. specialize (Fx (S level)). lia.
      - specialize (IHl y F'). change (join ("," ++ nl_indent (S level)) (map (dumps (S level)) (x :: y :: l)))
          with (dumps (S level) x ++ ("," ++ nl_indent (S level)) ++ join ("," ++ nl_indent (S level)) (map (dumps (S level)) (y :: l)))%string.
        rewrite !length_app_s. change (fold_right (fun x a => S (size x + a)) 0%nat (x :: y :: l)) with (S (size x + fold_right (fun x a => S (size x + a)) 0%nat (y :: l))).
        specialize (Fx (S level)). change (String.length ",") with 1%nat. lia. }
    specialize (G l x IH). change (String.length "[") with 1%nat. change (String.length "]") with 1%nat. lia.
  - destruct l as [|x l]; [cbn; lia|]. rewrite dumps_obj. rewrite !length_app_s.
    set (sz := fun (kv : string * json) a => let (_, v) := kv in S (size v + a)).
    change (size (JObj (x :: l))) with (S (fold_right sz 0%nat (x :: l))).
    assert (G : forall l x, Forall (fun kv : string * json => forall level, (size (snd kv) <= String.length (dumps level (snd kv)))%nat) (x :: l) ->
      (fold_right sz 0%nat (x :: l)
       <= String.length (join ("," ++ nl_indent (S level)) (map (item level) (x :: l))))%nat).
    { clear. induction l as [|y l IHl]; intros [k v] F; inversion F as [|? ? Fx F']; subst; cbn [snd] in Fx.
      - cbn [fold_right map join item]. specialize (Fx (S level)). rewrite !length_app_s. unfold sz. change (String.length ": ") with 2%nat. lia.
      - specialize (IHl y F'). change (join ("," ++ nl_indent (S level)) (map (item level) ((k, v) :: y :: l)))
          with ((quoted k ++ ": " ++ dumps (S level) v) ++ ("," ++ nl_indent (S level)) ++ join ("," ++ nl_indent (S level)) (map (item level) (y :: l)))%string.
        rewrite !length_app_s. change (fold_right sz 0%nat ((k, v) :: y :: l)) with (S (size v + fold_right sz 0%nat (y :: l))).
        specialize (Fx (S level)). change (String.length ",") with 1%nat. lia. }
    specialize (G l x IH). change (String.length "{") with 1%nat. lia.
Qed.

Lemma json_text_ok j : safe_json j = true -> json_of_text (dumps 0 j ++ newline) = Some j.
Proof.
  intro H. unfold json_of_text. rewrite reads_all.
  - reflexivity.
  - assumption.
  - rewrite length_app_s. pose proof (size_length j 0). lia.
  - reflexivity.
Qed.
