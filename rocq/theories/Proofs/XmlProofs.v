(** Reading back the text of an XML document. *)
From Coq Require Import Lia.
From Verif.Model Require Import Py Dataclass XmlText.
From Verif.Spec Require Import Text XmlReader.
Open Scope string_scope.

Lemma sapp_assoc (a b c : string) : (a ++ b) ++ c = a ++ b ++ c.
Proof. induction a; cbn; congruence. Qed.
Lemma sapp_nil (a : string) : a ++ "" = a.
Proof. induction a; cbn; congruence. Qed.
Lemma snoc_app a c b : snoc a c ++ b = a ++ String c b.
Proof. unfold snoc. now rewrite sapp_assoc. Qed.
Lemma chars_app a b : list_ascii_of_string (a ++ b) = (list_ascii_of_string a ++ list_ascii_of_string b)%list.
Proof. induction a; cbn; congruence. Qed.

Definition every_char (P : ascii -> bool) (s : string) : bool := forallb P (list_ascii_of_string s).
Lemma every_cons P c s : every_char P (String c s) = P c && every_char P s.
Proof. reflexivity. Qed.
Lemma every_app P a b : every_char P (a ++ b) = every_char P a && every_char P b.
Proof. unfold every_char. now rewrite chars_app, forallb_app. Qed.

(** ** Line ends *)
Definition not_cr (c : ascii) : bool := negb (Ascii.eqb c CR).
Lemma line_ends_id s : every_char not_cr s = true -> line_ends s = s.
Proof.
  induction s as [|c s IH]; [reflexivity|]. rewrite every_cons, andb_true_iff. intros [A B]. cbn [line_ends].
  unfold not_cr in A. destruct (Ascii.eqb c CR); [discriminate|]. now rewrite IH.
Qed.

(** ** Escaping *)
Definition special (c : ascii) : option string :=
  if Ascii.eqb c "&" then Some "amp" else if Ascii.eqb c ">" then Some "gt" else if Ascii.eqb c "<" then Some "lt" else None.
Definition clean_char (c : ascii) : bool := is_char c && not_cr c.
Lemma clean_every s : clean s <-> every_char clean_char s = true.
Proof.
  unfold clean, every_char, clean_char, not_cr. rewrite forallb_forall. split; intros H c I; specialize (H c I).
  - destruct H as [-> N]. cbn. destruct (Ascii.eqb_spec c CR); [contradiction|reflexivity].
  - apply andb_true_iff in H as [A B]. split; [exact A|]. intros ->. discriminate.
Qed.
Ltac is_special c :=
  destruct (Ascii.eqb_spec c "&") as [->|?];
  [|destruct (Ascii.eqb_spec c ">") as [->|?]; [|destruct (Ascii.eqb_spec c "<") as [->|?]]].
Lemma eqb_ne c d : c <> d -> Ascii.eqb c d = false.
Proof. apply Ascii.eqb_neq. Qed.
Lemma events_char m c r : is_char c = true -> 
  events m (String c r) = match m with
      | MText t =>
          if Ascii.eqb c "<" then option_map (cons (Chars t)) (events MOpen r)
          else if Ascii.eqb c "&" then events (MRef (InText t) "") r
          else events (MText (snoc t c)) r
      | MRef p n =>
          if Ascii.eqb c ";" then
            match reference n, p with
            | Some a, InText t => events (MText (snoc t a)) r
            | Some a, InValue tag l name q v => events (MValue tag l name q (snoc v a)) r
            | None, _ => None
            end
          else events (MRef p (snoc n c)) r
      | MOpen =>
          if Ascii.eqb c "/" then events (MEnd "") r
          else if Ascii.eqb c "?" then events MDecl r
          else if is_name c then events (MTag (String c "")) r else None
      | MDecl => if Ascii.eqb c "?" then events MDeclEnd r else events MDecl r
      | MDeclEnd => if Ascii.eqb c ">" then events (MText "") r else if Ascii.eqb c "?" then events MDeclEnd r else events MDecl r
      | MTag n =>
          if is_name c then events (MTag (snoc n c)) r
          else if is_space c then events (MBlank n []) r
          else if Ascii.eqb c "/" then events (MSlash n []) r
          else if Ascii.eqb c ">" then option_map (cons (Start n [])) (events (MText "") r) else None
      | MBlank n l =>
          if is_space c then events (MBlank n l) r
          else if Ascii.eqb c "/" then events (MSlash n l) r
          else if Ascii.eqb c ">" then option_map (cons (Start n l)) (events (MText "") r)
          else if is_name c then events (MName n l (String c "")) r else None
      | MName n l a =>
          if is_name c then events (MName n l (snoc a c)) r
          else if Ascii.eqb c "=" then events (MEquals n l a) r else None
      | MEquals n l a =>
          if Ascii.eqb c """" || Ascii.eqb c "'" then events (MValue n l a c "") r else None
      | MValue n l a q v =>
          if Ascii.eqb c q then events (MAfter n (l ++ [(a, v)])) r
          else if Ascii.eqb c "<" then None
          else if Ascii.eqb c "&" then events (MRef (InValue n l a q v) "") r
          else events (MValue n l a q (snoc v (if is_space c then " "%char else c))) r
      | MAfter n l =>
          if is_space c then events (MBlank n l) r
          else if Ascii.eqb c "/" then events (MSlash n l) r
          else if Ascii.eqb c ">" then option_map (cons (Start n l)) (events (MText "") r) else None
      | MSlash n l =>
          if Ascii.eqb c ">" then option_map (fun e => Start n l :: End n :: e) (events (MText "") r) else None
      | MEnd n =>
          if is_name c then events (MEnd (snoc n c)) r
          else if Ascii.eqb c ">" then option_map (cons (End n)) (events (MText "") r) else None
      end.
Proof. intro H. cbn [events]. rewrite H. reflexivity. Qed.

Lemma text_events s : forall acc rest, every_char clean_char s = true ->
  events (MText acc) (escape s ++ rest) = events (MText (acc ++ s)) rest.
Proof.
  induction s as [|c s IH]; intros acc rest H; [now rewrite sapp_nil|].
  rewrite every_cons, andb_true_iff in H. destruct H as [C H]. apply andb_true_iff in C as [C _].
  cbn [escape]. rewrite sapp_assoc. rewrite <- snoc_app, <- IH by assumption.
  is_special c; try reflexivity.
  cbn [append]. rewrite events_char by assumption. now rewrite !eqb_ne by assumption.
Qed.
(** Attribute values. *)
Definition code (q : option ascii) (c : ascii) : string :=
  if Ascii.eqb c "&" then "&amp;" else if Ascii.eqb c ">" then "&gt;" else if Ascii.eqb c "<" then "&lt;"
  else if Ascii.eqb c LF then "&#10;" else if Ascii.eqb c CR then "&#13;" else if Ascii.eqb c TAB then "&#9;"
  else match q with Some d => if Ascii.eqb c d then "&quot;" else String c "" | None => String c "" end.
Fixpoint encode (q : option ascii) (s : string) : string :=
  match s with EmptyString => "" | String c r => code q c ++ encode q r end.
Lemma replace_app d b x y : replace_char d b (x ++ y) = replace_char d b x ++ replace_char d b y.
Proof. induction x as [|c x IH]; [reflexivity|]. cbn [append replace_char]. now rewrite IH, sapp_assoc. Qed.
Lemma encode_none s : replace_char "009" "&#9;" (replace_char "013" "&#13;" (replace_char "010" "&#10;" (escape s))) = encode None s.
Proof.
  induction s as [|c s IH]; [reflexivity|]. cbn [escape]. rewrite !replace_app, IH. cbn [encode]. f_equal. clear IH.
  unfold code. is_special c; try reflexivity.
  destruct (Ascii.eqb_spec c LF) as [->|N1]; [reflexivity|]. destruct (Ascii.eqb_spec c CR) as [->|N2]; [reflexivity|].
  destruct (Ascii.eqb_spec c TAB) as [->|N3]; [reflexivity|].
  cbn [replace_char append]. rewrite (eqb_ne c "010") by exact N1. cbn [append replace_char].
  rewrite (eqb_ne c "013") by exact N2. cbn [append replace_char]. rewrite (eqb_ne c "009") by exact N3. reflexivity.
Qed.
Lemma encode_quot s : replace_char quote "&quot;" (encode None s) = encode (Some quote) s.
Proof.
  induction s as [|c s IH]; [reflexivity|]. cbn [encode]. rewrite replace_app, IH. f_equal. clear IH.
  unfold code. is_special c; try reflexivity.
  destruct (Ascii.eqb_spec c LF) as [->|N1]; [reflexivity|]. destruct (Ascii.eqb_spec c CR) as [->|N2]; [reflexivity|].
  destruct (Ascii.eqb_spec c TAB) as [->|N3]; [reflexivity|].
  cbn [replace_char]. destruct (Ascii.eqb c quote); reflexivity.
Qed.
Lemma has_app d x y : has_char d (x ++ y) = has_char d x || has_char d y.
Proof. induction x as [|c x IH]; [reflexivity|]. cbn [append has_char]. now rewrite IH, orb_assoc. Qed.
Lemma has_encode d s : d = quote \/ d = "'"%char -> has_char d (encode None s) = has_char d s.
Proof.
  intro D. induction s as [|c s IH]; [reflexivity|]. cbn [encode has_char]. rewrite has_app, IH. f_equal.
  assert (SP : forall x t, has_char d t = false -> x <> quote -> x <> "'"%char -> has_char d t = Ascii.eqb x d).
  { intros x t -> N1 N2. symmetry. apply eqb_ne. destruct D as [->| ->]; assumption. }
  unfold code. is_special c; try (apply SP; [destruct D as [->| ->]; reflexivity|discriminate|discriminate]).
  destruct (Ascii.eqb_spec c LF) as [->|N1]; [apply SP; [destruct D as [->| ->]; reflexivity|discriminate|discriminate]|].
  destruct (Ascii.eqb_spec c CR) as [->|N2]; [apply SP; [destruct D as [->| ->]; reflexivity|discriminate|discriminate]|].
  destruct (Ascii.eqb_spec c TAB) as [->|N3]; [apply SP; [destruct D as [->| ->]; reflexivity|discriminate|discriminate]|].
  cbn [has_char]. now rewrite orb_false_r.
Qed.
(** The three forms of quoteattr. *)
Lemma quoteattr_cases s :
  (quoteattr s = String quote (encode None s ++ String quote "") /\ has_char quote s = false)
  \/ (quoteattr s = "'" ++ encode None s ++ "'" /\ has_char "'" s = false)
  \/ quoteattr s = String quote (encode (Some quote) s ++ String quote "").
Proof.
  unfold quoteattr. cbv zeta. rewrite encode_none, encode_quot, !has_encode by auto.
  destruct (has_char quote s); [|left; auto]. right. destruct (has_char "'" s); [right|left]; auto.
Qed.
Lemma value_events q e s n l a : forall v rest, q = quote \/ q = "'"%char -> every_char is_char s = true ->
  (e = Some q /\ q = quote) \/ (e = None /\ has_char q s = false) ->
  events (MValue n l a q v) (encode e s ++ rest) = events (MValue n l a q (v ++ s)) rest.
Proof.
  induction s as [|c s IH]; intros v rest Q H E; [now rewrite sapp_nil|].
  rewrite every_cons, andb_true_iff in H. destruct H as [C H].
  assert (E' : (e = Some q /\ q = quote) \/ (e = None /\ has_char q s = false)).
  { destruct E as [E|[E1 E2]]; [now left|right]. split; [exact E1|]. cbn [has_char] in E2. now apply orb_false_iff in E2 as [_ E2]. }
  assert (CQ : e = None -> Ascii.eqb c q = false).
  { intros ->. destruct E as [[E _]|[_ E2]]; [discriminate|]. cbn [has_char] in E2. now apply orb_false_iff in E2 as [E2 _]. }
  cbn [encode]. rewrite sapp_assoc. rewrite <- snoc_app, <- IH by assumption.
  unfold code. is_special c; try (destruct Q as [->| ->]; reflexivity).
  destruct (Ascii.eqb_spec c LF) as [->|N1]; [destruct Q as [->| ->]; reflexivity|].
  destruct (Ascii.eqb_spec c CR) as [->|N2]; [destruct Q as [->| ->]; reflexivity|].
  destruct (Ascii.eqb_spec c TAB) as [->|N3]; [destruct Q as [->| ->]; reflexivity|].
  assert (SP : is_space c = true -> c = " "%char).
  { unfold is_space. cbn [existsb]. rewrite !orb_true_iff. intros [A|[A|[A|[A|A]]]]; [|..]; try discriminate; apply Ascii.eqb_eq in A; congruence. }
  assert (PL : Ascii.eqb c q = false -> events (MValue n l a q v) (String c "" ++ encode e s ++ rest)
                 = events (MValue n l a q (snoc v c)) (encode e s ++ rest)).
  { intro NQ. cbn [append]. rewrite events_char by assumption. rewrite NQ, (eqb_ne c "<"), (eqb_ne c "&") by assumption.
    destruct (is_space c); [now rewrite (SP eq_refl)|reflexivity]. }
  destruct e as [d|].
  - destruct E as [[E1 E2]|[E1 _]]; [|discriminate]. injection E1 as ->. subst q.
    destruct (Ascii.eqb_spec c quote) as [->|NQ]; [reflexivity|]. now apply PL.
  - apply PL. now apply CQ.
Qed.
Lemma quote_events s n l a rest : every_char is_char s = true ->
  events (MEquals n l a) (quoteattr s ++ rest) = events (MAfter n (l ++ [(a, s)])) rest.
Proof.
  intro H. destruct (quoteattr_cases s) as [[-> N]|[[-> N]| ->]]; cbn [append]; rewrite ?sapp_assoc.
  - change (events (MEquals n l a) (String quote (encode None s ++ String quote "" ++ rest)))
      with (events (MValue n l a quote "") (encode None s ++ String quote "" ++ rest)).
    rewrite value_events; auto.
  - change (events (MEquals n l a) (String "'" (encode None s ++ "'" ++ rest)))
      with (events (MValue n l a "'" "") (encode None s ++ "'" ++ rest)).
    rewrite value_events; auto.
  - change (events (MEquals n l a) (String quote (encode (Some quote) s ++ String quote "" ++ rest)))
      with (events (MValue n l a quote "") (encode (Some quote) s ++ String quote "" ++ rest)).
    rewrite value_events; auto.
Qed.

(** ** Names *)
Definition name_ok (s : string) : bool := negb (String.eqb s "") && every_char is_name s.
Lemma name_char c : is_name c = true -> is_char c = true.
Proof.
  unfold is_name, is_char, between. intro H. apply orb_true_iff. right. apply Nat.leb_le.
  rewrite !orb_true_iff, !andb_true_iff, !Nat.leb_le in H.
  destruct H as [[[H|H]|H]|H]; try lia. cbn [existsb] in H. rewrite !orb_true_iff in H.
  destruct H as [H|[H|[H|H]]]; try discriminate; apply Ascii.eqb_eq in H as ->; cbn; lia.
Qed.
Lemma name_cr c : is_name c = true -> not_cr c = true.
Proof. intro H. unfold not_cr. destruct (Ascii.eqb_spec c CR) as [->|]; [discriminate|reflexivity]. Qed.
Lemma name_not c d : is_name c = true -> is_name d = false -> Ascii.eqb c d = false.
Proof. intros A B. apply eqb_ne. congruence. Qed.
Lemma tag_events s : forall acc rest, every_char is_name s = true ->
  events (MTag acc) (s ++ rest) = events (MTag (acc ++ s)) rest.
Proof.
  induction s as [|c s IH]; intros acc rest H; [now rewrite sapp_nil|].
  rewrite every_cons, andb_true_iff in H. destruct H as [C H]. cbn [append].
  rewrite events_char by now apply name_char. rewrite C. rewrite IH by assumption. now rewrite snoc_app.
Qed.
Lemma end_events s : forall acc rest, every_char is_name s = true ->
  events (MEnd acc) (s ++ rest) = events (MEnd (acc ++ s)) rest.
Proof.
  induction s as [|c s IH]; intros acc rest H; [now rewrite sapp_nil|].
  rewrite every_cons, andb_true_iff in H. destruct H as [C H]. cbn [append].
  rewrite events_char by now apply name_char. rewrite C. rewrite IH by assumption. now rewrite snoc_app.
Qed.
Lemma name_events s n l : forall acc rest, every_char is_name s = true ->
  events (MName n l acc) (s ++ rest) = events (MName n l (acc ++ s)) rest.
Proof.
  induction s as [|c s IH]; intros acc rest H; [now rewrite sapp_nil|].
  rewrite every_cons, andb_true_iff in H. destruct H as [C H]. cbn [append].
  rewrite events_char by now apply name_char. rewrite C. rewrite IH by assumption. now rewrite snoc_app.
Qed.
Lemma name_split s : name_ok s = true -> exists c r, s = String c r /\ is_name c = true /\ every_char is_name r = true.
Proof.
  unfold name_ok. rewrite andb_true_iff. intros [A B]. destruct s as [|c r]; [discriminate|].
  rewrite every_cons, andb_true_iff in B. exists c, r. tauto.
Qed.

(** ** Tags *)
Definition attr_ok (a : string * string) : bool := name_ok (fst a) && every_char is_char (snd a).
(** After the tag name the reader is in [MTag], after an attribute in [MAfter]. *)
Definition tag_mode (n : string) (l : list (string * string)) : mode :=
  match l with [] => MTag n | _ => MAfter n l end.
Lemma concat_cons x l : String.concat "" (x :: l) = x ++ String.concat "" l.
Proof. destruct l; cbn [String.concat]; [now rewrite sapp_nil|reflexivity]. Qed.
Lemma attr_events n : forall ls l rest, forallb attr_ok ls = true ->
  events (tag_mode n l) (attributes_text ls ++ rest) = events (tag_mode n (l ++ ls)) rest.
Proof.
  unfold attributes_text. induction ls as [|[a v] ls IH]; intros l rest H; [now rewrite app_nil_r|].
  cbn [forallb] in H. apply andb_true_iff in H as [A H]. apply andb_true_iff in A as [A V]. cbn [fst snd] in *.
  cbn [map]. rewrite concat_cons, !sapp_assoc. cbn [fst snd].
  assert (B : forall r, events (tag_mode n l) (" " ++ r) = events (MBlank n l) r) by (destruct l; reflexivity).
  rewrite B. destruct (name_split a A) as (c & r & -> & C & R). cbn [append].
  rewrite events_char by now apply name_char.
  assert (SP : is_space c = false).
  { unfold is_space. cbn [existsb]. rewrite !(name_not c) by (assumption || reflexivity). reflexivity. }
  rewrite SP, !(name_not c), C by (assumption || reflexivity).
  rewrite name_events by assumption. cbn [append].
  assert (EQ : forall x, events (MName n l (String c r)) (String "=" x) = events (MEquals n l (String c r)) x) by reflexivity.
  rewrite EQ.
  rewrite quote_events by assumption.
  replace (MAfter n (l ++ [(String c r, v)])) with (tag_mode n (l ++ [(String c r, v)])) by (destruct l; reflexivity).
  rewrite IH by assumption. now rewrite <- app_assoc.
Qed.
Lemma open_events t a acc rest : name_ok t = true -> forallb attr_ok a = true ->
  events (MText acc) ("<" ++ t ++ attributes_text a ++ rest) = option_map (cons (Chars acc)) (events (tag_mode t a) rest).
Proof.
  intros T A. destruct (name_split t T) as (c & r & -> & C & R). cbn [append].
  change (events (MText acc) (String "<" (String c (r ++ attributes_text a ++ rest))))
    with (option_map (cons (Chars acc)) (events MOpen (String c (r ++ attributes_text a ++ rest)))).
  f_equal. rewrite events_char by now apply name_char. rewrite !(name_not c), C by (assumption || reflexivity).
  rewrite tag_events by assumption. cbn [append]. exact (attr_events (String c r) a [] rest A).
Qed.

(** ** Elements *)
Fixpoint tree_ok (x : xml) : bool :=
  match x with
  | Node t a s k => name_ok t && forallb attr_ok a && every_char clean_char s
      && match k with [] => true | _ => String.eqb s "" end && forallb tree_ok k
  end.
Definition gap (level : nat) : string := newline ++ blanks level.
Fixpoint element_events (level : nat) (x : xml) {struct x} : list event :=
  match x with
  | Node t a s k =>
      Start t a ::
      match s, k with
      | EmptyString, [] => []
      | _, [] => [Chars s]
      | _, _ => (fix each (l : list xml) : list event :=
                   match l with [] => [] | k :: r => Chars (gap (S level)) :: element_events (S level) k ++ each r end) k
                ++ [Chars (gap level)]
      end ++ [End t]
  end.
Lemma xml_nested_ind (P : xml -> Prop) :
  (forall t a s k, Forall P k -> P (Node t a s k)) -> forall x, P x.
Proof.
  intro H. fix IH 1. intros [t a s k]. apply H. induction k as [|x k IHk]; constructor; [apply IH|exact IHk].
Qed.
Definition kids_events (level : nat) (l : list xml) : list event :=
  flat_map (fun k => Chars (gap level) :: element_events level k) l.
Definition kids_text (level : nat) (l : list xml) : string :=
  String.concat "" (map (fun k => gap level ++ element_text level k) l).
Lemma element_text_eq level t a s k : element_text level (Node t a s k) =
  "<" ++ t ++ attributes_text a ++
  match s, k with
  | EmptyString, [] => "/>"
  | _, _ => ">" ++ escape s ++ kids_text (S level) k ++ match k with [] => "" | _ => gap level end ++ "</" ++ t ++ ">"
  end.
Proof.
  cbn [element_text]. unfold kids_text.
  assert (E : forall l, (fix each (l : list xml) : string :=
             match l with [] => "" | k :: r => newline ++ blanks (S level) ++ element_text (S level) k ++ each r end) l
     = String.concat "" (map (fun k => gap (S level) ++ element_text (S level) k) l)).
  { induction l as [|x l IH]; [reflexivity|]. cbn [map]. rewrite concat_cons, <- IH. unfold gap. now rewrite !sapp_assoc. }
  now rewrite E.
Qed.
Lemma element_events_eq level t a s k : element_events level (Node t a s k) =
  (Start t a :: match s, k with
      | EmptyString, [] => []
      | _, [] => [Chars s]
      | _, _ => kids_events (S level) k ++ [Chars (gap level)]
      end ++ [End t])%list.
Proof.
  cbn [element_events]. unfold kids_events.
  assert (E : forall l, (fix each (l : list xml) : list event :=
                   match l with [] => [] | k :: r => Chars (gap (S level)) :: element_events (S level) k ++ each r end) l
     = flat_map (fun k => Chars (gap (S level)) :: element_events (S level) k) l).
  { induction l as [|x l IH]; [reflexivity|]. cbn [flat_map app]. now rewrite <- IH. }
  now rewrite E.
Qed.
Lemma blank_events s : forall acc rest, every_char is_space s = true ->
  events (MText acc) (s ++ rest) = events (MText (acc ++ s)) rest.
Proof.
  induction s as [|c s IH]; intros acc rest H; [now rewrite sapp_nil|].
  rewrite every_cons, andb_true_iff in H. destruct H as [C H]. cbn [append].
  rewrite events_char by (unfold is_char; now rewrite C).
  destruct (Ascii.eqb_spec c "<") as [->|N1]; [discriminate|]. destruct (Ascii.eqb_spec c "&") as [->|N2]; [discriminate|].
  rewrite IH by assumption. now rewrite snoc_app.
Qed.
Lemma gap_space level : every_char is_space (gap level) = true.
Proof. unfold gap. rewrite every_app. induction level as [|k IH]; [reflexivity|]. cbn [blanks]. rewrite every_app. exact IH. Qed.
Lemma map_option_map {A B C} (f : A -> B) (g : B -> C) (o : option A) : option_map g (option_map f o) = option_map (fun x => g (f x)) o.
Proof. now destruct o. Qed.
Lemma close_events t acc rest : name_ok t = true ->
  events (MText acc) ("</" ++ t ++ ">" ++ rest) = option_map (fun e => Chars acc :: End t :: e) (events (MText "") rest).
Proof.
  intro T. unfold name_ok in T. apply andb_true_iff in T as [_ T].
  change (events (MText acc) ("</" ++ t ++ ">" ++ rest)) with (option_map (cons (Chars acc)) (events (MEnd "") (t ++ ">" ++ rest))).
  rewrite end_events by assumption. cbn [append].
  change (events (MEnd t) (String ">" rest)) with (option_map (cons (End t)) (events (MText "") rest)).
  now rewrite map_option_map.
Qed.
Theorem element_reads x : forall level acc rest, tree_ok x = true ->
  events (MText acc) (element_text level x ++ rest)
  = option_map (fun e => Chars acc :: element_events level x ++ e)%list (events (MText "") rest).
Proof.
  induction x as [t a s k IH] using xml_nested_ind. intros level acc rest OK. cbn [tree_ok] in OK.
  apply andb_true_iff in OK as [OK OKK]. apply andb_true_iff in OK as [OK KS]. apply andb_true_iff in OK as [OK SC].
  apply andb_true_iff in OK as [TN AT].
  assert (KE : forall l acc rest, Forall (fun x => forall level acc rest, tree_ok x = true ->
      events (MText acc) (element_text level x ++ rest)
      = option_map (fun e => Chars acc :: element_events level x ++ e)%list (events (MText "") rest)) l ->
      forallb tree_ok l = true -> l <> [] ->
      events (MText acc) (kids_text (S level) l ++ rest)
      = option_map (fun e => match kids_events (S level) l with
                             | Chars w :: m => Chars (acc ++ w) :: m ++ e
                             | _ => []
                             end)%list (events (MText "") rest)).
  { clear IH OKK KS. induction l as [|x l IHl]; intros acc' rest' F O NE; [congruence|]. cbn [forallb] in O. apply andb_true_iff in O as [O1 O2].
    inversion F as [|? ? F1 F2]; subst. unfold kids_text. cbn [map]. rewrite concat_cons, !sapp_assoc.
    rewrite blank_events by apply gap_space. rewrite F1 by assumption. cbn [kids_events flat_map app].
    destruct l as [|y l].
    - cbn [map String.concat append flat_map app]. destruct (events (MText "") rest'); cbn [option_map]; [|reflexivity].
      now rewrite app_nil_r.
    - fold (kids_text (S level) (y :: l)). rewrite IHl by (assumption || discriminate).
      rewrite map_option_map. destruct (events (MText "") rest'); cbn [option_map]; [|reflexivity].
      cbn [kids_events flat_map app append]. rewrite <- !app_assoc. cbn [app]. rewrite <- !app_assoc. reflexivity. }
  rewrite element_text_eq, element_events_eq, !sapp_assoc. rewrite open_events by assumption.
  assert (ST : forall r, events (tag_mode t a) (">" ++ r) = option_map (cons (Start t a)) (events (MText "") r)) by (destruct a; reflexivity).
  destruct s as [|c s]; [destruct k as [|x k]|].
  - assert (SL : forall r, events (tag_mode t a) ("/>" ++ r) = option_map (fun e => Start t a :: End t :: e) (events (MText "") r)) by (destruct a; reflexivity).
    rewrite SL, map_option_map. reflexivity.
  - assert (NIL : forall y, "" ++ y = y) by reflexivity. rewrite ?sapp_assoc, ST. cbn [escape]. rewrite NIL.
    rewrite ?sapp_assoc. rewrite KE by (assumption || discriminate).
    rewrite blank_events by apply gap_space. rewrite ?sapp_assoc.
    rewrite close_events by assumption. rewrite !map_option_map.
    destruct (events (MText "") rest); cbn [option_map]; [|reflexivity].
    cbn [kids_events flat_map app append]. rewrite <- !app_assoc. reflexivity.
  - destruct k as [|x k]; [|discriminate]. rewrite ?sapp_assoc, ST.
    assert (NIL : forall y, "" ++ y = y) by reflexivity.
    rewrite text_events by assumption. unfold kids_text. cbn [map String.concat]. rewrite !NIL.
    rewrite close_events by assumption. rewrite !map_option_map. reflexivity.
Qed.

(** ** Putting the events together *)
Lemma all_space_app a b : all_space (a ++ b) = all_space a && all_space b.
Proof. exact (every_app is_space a b). Qed.
Definition put (stack : list frame) (done : option xml) (x : xml) : list frame * option xml :=
  match stack with
  | [] => ([], Some x)
  | (t, l, s, k) :: up => ((t, l, s, (k ++ [x])%list) :: up, done)
  end.
Lemma assemble_element x : forall level stack done e, tree_ok x = true -> (stack = [] -> done = None) ->
  assemble stack done (element_events level x ++ e) = let (st, d) := put stack done x in assemble st d e.
Proof.
  induction x as [t a s k IH] using xml_nested_ind. intros level stack done e OK ND.
  cbn [tree_ok] in OK. apply andb_true_iff in OK as [OK OKK]. apply andb_true_iff in OK as [OK KS]. clear OK.
  assert (ST : forall r, assemble stack done (Start t a :: r) = assemble ((t, a, "", []) :: stack) done r).
  { intro r. cbn [assemble]. destruct stack; [|reflexivity]. now rewrite ND. }
  assert (EN : forall w y, close (t, a, w, y) = Some (Node t a s k) ->
     assemble ((t, a, w, y) :: stack) done (End t :: e) = let (st, d) := put stack done (Node t a s k) in assemble st d e).
  { intros w y C. cbn [assemble]. rewrite String.eqb_refl, C. destruct stack as [|[[[t' l'] s'] k'] up]; reflexivity. }
  assert (CH : forall w y z r, assemble ((t, a, w, y) :: stack) done (Chars z :: r) = assemble ((t, a, w ++ z, y) :: stack) done r) by reflexivity.
  assert (KE : forall l w y r, Forall (fun x => forall level stack done e, tree_ok x = true -> (stack = [] -> done = None) ->
        assemble stack done (element_events level x ++ e) = let (st, d) := put stack done x in assemble st d e) l ->
      forallb tree_ok l = true -> all_space w = true ->
      exists w', all_space w' = true /\
        assemble ((t, a, w, y) :: stack) done (kids_events (S level) l ++ r) = assemble ((t, a, w', (y ++ l)%list) :: stack) done r).
  { clear. induction l as [|x l IHl]; intros w y r F O W.
    - exists w. rewrite app_nil_r. split; [exact W|reflexivity].
    - inversion F as [|? ? F1 F2]; subst. cbn [forallb] in O. apply andb_true_iff in O as [O1 O2].
      destruct (IHl (w ++ gap (S level)) (y ++ [x])%list r F2 O2) as (w' & W' & E).
      { rewrite all_space_app, W. exact (gap_space (S level)). }
      exists w'. split; [exact W'|]. rewrite <- app_assoc in E. cbn [app] in E. rewrite <- E.
      cbn [kids_events flat_map]. fold (kids_events (S level) l). rewrite <- app_assoc. cbn [app].
      change (assemble ((t, a, w, y) :: stack) done (Chars (gap (S level)) :: element_events (S level) x ++ kids_events (S level) l ++ r))
        with (assemble ((t, a, w ++ gap (S level), y) :: stack) done (element_events (S level) x ++ kids_events (S level) l ++ r)).
      rewrite F1 by (assumption || discriminate). reflexivity. }
  rewrite element_events_eq. cbn [app]. rewrite ST, <- app_assoc. cbn [app].
  destruct k as [|x k].
  - destruct s as [|c s]; cbn [app]; [|rewrite CH]; apply EN; reflexivity.
  - apply String.eqb_eq in KS as ->. rewrite <- app_assoc. cbn [app].
    destruct (KE (x :: k) "" [] (Chars (gap level) :: End t :: e) IH OKK eq_refl) as (w' & W' & E). rewrite E, CH.
    apply EN. cbn [app close]. rewrite all_space_app, W'. now rewrite (gap_space level : all_space (gap level) = true).
Qed.

(** ** The whole document *)
Lemma every_imp (P Q : ascii -> bool) s : (forall c, P c = true -> Q c = true) -> every_char P s = true -> every_char Q s = true.
Proof. unfold every_char. rewrite !forallb_forall. auto. Qed.
Lemma escape_cr s : every_char clean_char s = true -> every_char not_cr (escape s) = true.
Proof.
  induction s as [|c s IH]; [reflexivity|]. rewrite every_cons, andb_true_iff. intros [C H].
  cbn [escape]. rewrite every_app, IH by assumption. apply andb_true_iff in C as [_ C].
  is_special c; try reflexivity. rewrite every_cons, C. reflexivity.
Qed.
Lemma encode_cr e s : every_char not_cr (encode e s) = true.
Proof.
  induction s as [|c s IH]; [reflexivity|]. cbn [encode]. rewrite every_app, IH, andb_true_r. unfold code.
  is_special c; try reflexivity.
  destruct (Ascii.eqb_spec c LF) as [->|N1]; [reflexivity|]. destruct (Ascii.eqb_spec c CR) as [->|N2]; [reflexivity|].
  destruct (Ascii.eqb_spec c TAB) as [->|N3]; [reflexivity|].
  assert (P : every_char not_cr (String c "") = true) by (rewrite every_cons; unfold not_cr; now rewrite (eqb_ne c CR N2)).
  destruct e as [d|]; [|exact P]. destruct (Ascii.eqb c d); [reflexivity|exact P].
Qed.
Lemma quote_cr s : every_char not_cr (quoteattr s) = true.
Proof.
  destruct (quoteattr_cases s) as [[-> _]|[[-> _]| ->]]; rewrite ?every_cons, ?every_app, ?encode_cr; reflexivity.
Qed.
Lemma name_ok_cr s : name_ok s = true -> every_char not_cr s = true.
Proof. unfold name_ok. rewrite andb_true_iff. intros [_ H]. revert H. apply every_imp. exact name_cr. Qed.
Lemma attributes_cr l : forallb attr_ok l = true -> every_char not_cr (attributes_text l) = true.
Proof.
  unfold attributes_text. induction l as [|[n v] l IH]; [reflexivity|]. cbn [forallb map fst snd]. rewrite andb_true_iff. intros [A H].
  rewrite concat_cons, !every_app, quote_cr, IH by assumption. apply andb_true_iff in A as [A _]. cbn [fst] in A.
  now rewrite (name_ok_cr n A).
Qed.
Lemma gap_cr level : every_char not_cr (gap level) = true.
Proof. unfold gap. rewrite every_app. induction level as [|k IH]; [reflexivity|]. cbn [blanks]. rewrite every_app. exact IH. Qed.
Lemma element_cr x : forall level, tree_ok x = true -> every_char not_cr (element_text level x) = true.
Proof.
  induction x as [t a s k IH] using xml_nested_ind. intros level OK.
  cbn [tree_ok] in OK. apply andb_true_iff in OK as [OK OKK]. apply andb_true_iff in OK as [OK _].
  apply andb_true_iff in OK as [OK TX]. apply andb_true_iff in OK as [TN AT].
  assert (KC : forall l, Forall (fun x => forall level, tree_ok x = true -> every_char not_cr (element_text level x) = true) l ->
     forallb tree_ok l = true -> every_char not_cr (kids_text (S level) l) = true).
  { unfold kids_text. induction l as [|x l IHl]; [reflexivity|]. intros F O. inversion F as [|? ? F1 F2]; subst.
    cbn [forallb] in O. apply andb_true_iff in O as [O1 O2]. cbn [map]. rewrite concat_cons, !every_app, gap_cr, F1, IHl by assumption. reflexivity. }
  rewrite element_text_eq, !every_app, (name_ok_cr t TN), attributes_cr by assumption.
  assert (R : every_char not_cr (">" ++ escape s ++ kids_text (S level) k ++ match k with [] => "" | _ => gap level end ++ "</" ++ t ++ ">") = true).
  { rewrite !every_app, escape_cr, KC, (name_ok_cr t TN) by assumption. destruct k; [reflexivity|]. now rewrite gap_cr. }
  destruct s; [destruct k; [reflexivity|]|]; now rewrite R.
Qed.
Lemma read_document x : tree_ok x = true -> read_xml (document_text x) = Some x.
Proof.
  intro OK. unfold read_xml, document_text. rewrite line_ends_id.
  - assert (D : forall r, events (MText "") (declaration ++ newline ++ r) = option_map (cons (Chars "")) (events (MText newline) r)) by reflexivity.
    rewrite D, element_reads by assumption. rewrite map_option_map.
    change (events (MText "") newline) with (Some [Chars newline]). cbn [option_map].
    change (assemble [] None (Chars "" :: Chars newline :: element_events 0 x ++ [Chars newline]))
      with (assemble [] None (element_events 0 x ++ [Chars newline])).
    rewrite assemble_element by (assumption || reflexivity). reflexivity.
  - rewrite !every_app, element_cr by assumption. reflexivity.
Qed.
