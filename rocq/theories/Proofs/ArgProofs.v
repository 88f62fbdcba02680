(** How argparse classifies single words. *)
From Coq Require Import Lia.
From Verif.Model Require Import Py Main Argparse.
From Verif.Spec Require Import Text CommandLine.
Open Scope string_scope.

(** ** Strings *)
Lemma begins_cons c a s : begins (String c a) s <-> exists r, s = String c r /\ begins a r.
Proof.
  split.
  - intros (r & ->). exists (a ++ r). split; [reflexivity|]. now exists r.
  - intros (r & -> & (t & ->)). now exists t.
Qed.
Lemma begins_nil s : begins "" s.
Proof. now exists s. Qed.
Lemma prefix_begins a : forall s, prefix a s = true <-> begins a s.
Proof.
  induction a as [|c a IH]; intro s.
  - split; [intro; apply begins_nil|]. now destruct s.
  - destruct s as [|d s].
    + split; [discriminate|]. intros (r & E). discriminate.
    + cbn [prefix]. destruct (ascii_dec c d) as [->|N].
      * rewrite IH. rewrite begins_cons. split.
        -- intro H. now exists s.
        -- intros (r & E & H). now injection E as ->.
      * split; [discriminate|]. rewrite begins_cons. intros (r & E & _). injection E as -> _. congruence.
Qed.
Lemma prefix_false a s : prefix a s = false <-> ~ begins a s.
Proof. rewrite <- prefix_begins. now destruct (prefix a s). Qed.
Lemma app_assoc_s (a b c : string) : (a ++ b) ++ c = a ++ b ++ c.
Proof. induction a; cbn; congruence. Qed.
Lemma app_nil_s (a : string) : a ++ "" = a.
Proof. induction a; cbn; congruence. Qed.

Fixpoint no_eq (s : string) : Prop :=
  match s with EmptyString => True | String c r => c <> "="%char /\ no_eq r end.
Lemma partition_none w : forall n, partition_eq w = (n, None) -> n = w /\ no_eq w.
Proof.
  induction w as [|c w IH]; intros n H; cbn in H.
  - injection H as <-. now split.
  - destruct (Ascii.eqb_spec c "="); [discriminate|]. destruct (partition_eq w) as [a b]. injection H as <- ->.
    destruct (IH a eq_refl) as [-> N]. now split.
Qed.
Lemma partition_some w : forall n v, partition_eq w = (n, Some v) -> w = n ++ "=" ++ v /\ no_eq n.
Proof.
  induction w as [|c w IH]; intros n v H; cbn in H; [discriminate|].
  destruct (Ascii.eqb_spec c "=") as [->|N].
  - injection H as <- <-. now split.
  - destruct (partition_eq w) as [a b]. injection H as <- ->. destruct (IH a v eq_refl) as [-> E]. now split.
Qed.
Lemma partition_app n v : no_eq n -> partition_eq (n ++ "=" ++ v) = (n, Some v).
Proof.
  induction n as [|c n IH]; cbn [no_eq]; intro H; [reflexivity|]. destruct H as [H1 H2].
  cbn [append partition_eq]. destruct (Ascii.eqb_spec c "="); [contradiction|]. cbn [append] in IH. now rewrite (IH H2).
Qed.
Lemma partition_id n : no_eq n -> partition_eq n = (n, None).
Proof.
  induction n as [|c n IH]; cbn [no_eq]; intro H; [reflexivity|]. destruct H as [H1 H2].
  cbn [partition_eq]. destruct (Ascii.eqb_spec c "="); [contradiction|]. now rewrite (IH H2).
Qed.
Lemma begins_no_eq a s : begins a s -> no_eq s -> no_eq a.
Proof.
  intros (r & ->). induction a as [|c a IH]; cbn; [trivial|]. intros [H1 H2]. split; [assumption|now apply IH].
Qed.
Lemma long_no_eq k : no_eq (long_name k).
Proof. destruct k; cbn; repeat split; discriminate. Qed.
Lemma short_no_eq k : no_eq (short_name k).
Proof. destruct k; cbn; repeat split; discriminate. Qed.
Lemma names_no_eq n k : names n k -> no_eq n.
Proof. intros [->|[H _]]; [apply short_no_eq|]. exact (begins_no_eq _ _ H (long_no_eq k)). Qed.

(** ** The options *)
Definition act (k : key) : action :=
  match k with Help => AHelp | Instrument => AInstrument | Track => ATrack | Ticks => ATicks end.
Definition keys : list key := [Help; Instrument; Track; Ticks].
Lemma keys_all k : In k keys.
Proof. destruct k; cbn; auto. Qed.
Definition hits (n : string) : list key := filter (fun k => prefix n (long_name k)) keys.
Lemma hits_in n k : In k (hits n) <-> begins n (long_name k).
Proof. unfold hits. rewrite filter_In, prefix_begins. pose proof (keys_all k). tauto. Qed.
Lemma hits_nodup n : NoDup (hits n).
Proof. apply NoDup_filter. unfold keys. repeat constructor; cbn; intuition discriminate. Qed.
Lemma hits_one n k : hits n = [k] <-> begins n (long_name k) /\ forall k', begins n (long_name k') -> k' = k.
Proof.
  split.
  - intro E. split; [apply hits_in; rewrite E; now left|]. intros k' H. apply hits_in in H. rewrite E in H. destruct H; [auto|contradiction].
  - intros [H U]. apply hits_in in H. pose proof (hits_nodup n) as ND.
    assert (ALL : forall k', In k' (hits n) -> k' = k) by (intros k' H'; apply U; now apply hits_in).
    destruct (hits n) as [|a [|b l]]; [contradiction| |].
    + f_equal. apply ALL. now left.
    + exfalso. inversion ND as [|? ? N _]. apply N. left. transitivity k; [|symmetry]; apply ALL; cbn; auto.
Qed.
Lemma hits_many n a b l : hits n = a :: b :: l -> exists k k', k <> k' /\ begins n (long_name k) /\ begins n (long_name k').
Proof.
  intro E. pose proof (hits_nodup n) as ND. rewrite E in ND. inversion ND as [|? ? N _].
  exists a, b. split; [intros ->; apply N; now left|]. split; apply hits_in; rewrite E; cbn; auto.
Qed.

Lemma prefix_cons c a d s : prefix (String c a) (String d s) = if ascii_dec c d then prefix a s else false.
Proof. reflexivity. Qed.
Lemma eqb_cons c a d s : String.eqb (String c a) (String d s) = if Ascii.eqb c d then String.eqb a s else false.
Proof. reflexivity. Qed.
(** A word that starts with two dashes. *)
Definition exact_long (n : string) (k : key) : Prop := n = long_name k.
Lemma find_long n' :
  (exists k, "--" ++ n' = long_name k /\ find_option ("--" ++ n') = Some (act k) /\ hits ("--" ++ n') = [k])
  \/ (find_option ("--" ++ n') = None /\ forall k, "--" ++ n' <> long_name k).
Proof.
  unfold find_option. cbn [option_strings dict_get append]. rewrite !eqb_cons.
  change (Ascii.eqb "-" "-") with true. change (Ascii.eqb "h" "-") with false.
  change (Ascii.eqb "i" "-") with false. change (Ascii.eqb "t" "-") with false. cbv iota.
  destruct (String.eqb_spec "help" n') as [<-|N1]; [left; exists Help; repeat split|].
  destruct (String.eqb_spec "instrument" n') as [<-|N2]; [left; exists Instrument; repeat split|].
  destruct (String.eqb_spec "track" n') as [<-|N3]; [left; exists Track; repeat split|].
  destruct (String.eqb_spec "ticks-per-note" n') as [<-|N4]; [left; exists Ticks; repeat split|].
  right. split; [reflexivity|]. intros k E. destruct k; injection E as E; congruence.
Qed.
Definition sep_of (arg : option string) : option string := match arg with Some _ => Some "=" | None => None end.
Lemma long_tuples w n' arg : second_dash w = true -> partition_eq w = ("--" ++ n', arg) ->
  option_tuples w = map (fun k => mkopt (Some (act k)) (long_name k) (sep_of arg) arg) (hits ("--" ++ n')).
Proof.
  intros S P. destruct w as [|c0 [|c1 r]]; try discriminate. cbn [second_dash] in S.
  unfold option_tuples. rewrite S, P. unfold hits, keys. fold (sep_of arg).
  cbn [filter option_strings fst snd append long_name]. 
  repeat match goal with |- context [prefix (String "-" (String "-" ?n)) (String "-" (String ?c ?s))] =>
    change (prefix (String "-" (String "-" n)) (String "-" (String c s))) with
      (if ascii_dec "-" c then prefix n s else false) end.
  repeat match goal with |- context [ascii_dec "-" ?c] => 
    let H := fresh in destruct (ascii_dec "-" c) as [H|H]; [try discriminate H|try (exfalso; apply H; reflexivity)] end.
  destruct (prefix n' "help"), (prefix n' "instrument"), (prefix n' "track"), (prefix n' "ticks-per-note"); reflexivity.
Qed.
Definition rest_class (w : string) : word_class :=
  if negative_number w then WArgument else if has_space w then WArgument else WOption (mkopt None w None None).
Lemma long_class w n' arg : second_dash w = true -> w <> "--" -> partition_eq w = ("--" ++ n', arg) ->
  match hits ("--" ++ n') with
  | [] => parse_optional w = rest_class w
  | [k] => parse_optional w = WOption (mkopt (Some (act k)) (long_name k) (sep_of arg) arg)
  | _ => parse_optional w = WAmbiguous
  end.
Proof.
  intros S NW P. pose proof (long_tuples w n' arg S P) as T. cbn [append] in *.
  destruct arg as [v|].
  - destruct (partition_some _ _ _ P) as [E NE]. cbn [append] in E.
    subst w. unfold parse_optional. cbn [Ascii.eqb Bool.eqb negb].
    assert (F : find_option (String "-" (String "-" (n' ++ String "=" v))) = None).
    { destruct (find_long (n' ++ String "=" v)) as [(k & EK & _)|[F _]]; [|exact F]. exfalso.
      pose proof (long_no_eq k) as NK. rewrite <- EK in NK. cbn [append no_eq] in NK. destruct NK as (_ & _ & NK).
      clear -NK. induction n' as [|c n' IH]; cbn in NK; destruct NK; [congruence|auto]. }
    rewrite F, P, T.
    destruct (find_long n') as [(k & EK & FK & HK)|[F' _]].
    + cbn [append] in FK, HK. rewrite FK, HK. cbn [append] in EK. now rewrite EK.
    + cbn [append] in F'. rewrite F'. destruct (hits _) as [|a [|b l]]; reflexivity.
  - destruct (partition_none _ _ P) as [E NE]. cbn [append] in E. subst w.
    unfold parse_optional. cbn [Ascii.eqb Bool.eqb negb]. cbn [append] in *.
    destruct (find_long n') as [(k & EK & FK & HK)|[F' _]].
    + cbn [append] in FK, HK, EK. rewrite FK, HK. cbn [sep_of]. now rewrite EK.
    + cbn [append] in F'. rewrite F', P, T. destruct (hits _) as [|a [|b l]]; reflexivity.
Qed.

(** A word that starts with one dash. *)
Lemma find_short c r : c <> "-"%char ->
  find_option (String "-" (String c r)) =
  if String.eqb (String c r) "h" then Some AHelp else if String.eqb (String c r) "i" then Some AInstrument
  else if String.eqb (String c r) "t" then Some ATrack else if String.eqb (String c r) "tn" then Some ATicks else None.
Proof.
  intro N. unfold find_option. cbn [option_strings dict_get].
  rewrite !(String.eqb_sym _ (String "-" (String c r))).
  rewrite !(eqb_cons "-"). cbn [Ascii.eqb Bool.eqb]. rewrite !(eqb_cons c).
  rewrite (proj2 (Ascii.eqb_neq c "-") N).
  destruct (Ascii.eqb c "h"); [destruct (String.eqb r ""); try reflexivity|];
  destruct (Ascii.eqb c "i"); try (destruct (String.eqb r ""); try reflexivity);
  destruct (Ascii.eqb c "t"); try (destruct (String.eqb r ""); try reflexivity);
  try (destruct (String.eqb r "n"); reflexivity); reflexivity.
Qed.
Definition letter (c : ascii) : option key :=
  if ascii_dec c "h" then Some Help else if ascii_dec c "i" then Some Instrument
  else if ascii_dec c "t" then Some Track else None.
Lemma eqb_false c d : c <> d -> Ascii.eqb c d = false.
Proof. apply Ascii.eqb_neq. Qed.
Lemma short_tuples c d r : c <> "-"%char -> ~ (c = "t"%char /\ d = "n"%char /\ r = "") ->
  option_tuples (String "-" (String c (String d r)))
  = match letter c with
    | Some k => [mkopt (Some (act k)) (short_name k) (Some "") (Some (String d r))]
    | None => []
    end.
Proof.
  intros N T. unfold option_tuples. rewrite (eqb_false c "-" N).
  assert (E : forall x, String.eqb (String "-" x) (String "-" (String c "")) = String.eqb x (String c "")) by reflexivity.
  cbn [option_strings flat_map fst snd]. rewrite !E.
  assert (P : forall x, prefix (String "-" (String c (String d r))) (String "-" x) = prefix (String c (String d r)) x) by reflexivity.
  rewrite !P, !prefix_cons.
  destruct (ascii_dec c "-") as [?|_]; [contradiction|].
  rewrite !eqb_cons. rewrite !(Ascii.eqb_sym _ c), (eqb_false c "-" N).
  change (String.eqb "" "") with true. change (String.eqb "n" "") with false.
  change (prefix (String d r) "") with false.
  unfold letter.
  destruct (ascii_dec c "h") as [->|H]; [reflexivity|]. rewrite (eqb_false c "h" H).
  destruct (ascii_dec c "i") as [->|I]; [reflexivity|]. rewrite (eqb_false c "i" I).
  destruct (ascii_dec c "t") as [->|U].
  - destruct (ascii_dec d "n") as [->|D]; [|reflexivity].
    destruct r as [|x r]; [exfalso; apply T; auto|reflexivity].
  - rewrite (eqb_false c "t" U). reflexivity.
Qed.
Lemma find_longer c d r : c <> "-"%char -> ~ (c = "t"%char /\ d = "n"%char /\ r = "") ->
  find_option (String "-" (String c (String d r))) = None.
Proof.
  intros N T. rewrite find_short by assumption. rewrite !eqb_cons. change (String.eqb (String d r) "") with false.
  destruct (Ascii.eqb c "h"), (Ascii.eqb c "i"); try reflexivity;
  (destruct (Ascii.eqb_spec c "t") as [->|U]; [|reflexivity]);
  (destruct (Ascii.eqb_spec d "n") as [->|D]; [|reflexivity]);
  (destruct r; [exfalso; apply T; auto|reflexivity]).
Qed.
Lemma short_class c r : c <> "-"%char ->
  let w := String "-" (String c r) in
  match letter c with
  | None => parse_optional w = rest_class w
  | Some k =>
      (r = "" /\ parse_optional w = WOption (mkopt (Some (act k)) w None None))
      \/ (exists v, r = String "=" v /\ parse_optional w = WOption (mkopt (Some (act k)) (short_name k) (Some "=") (Some v)))
      \/ (k = Track /\ r = "n" /\ parse_optional w = WOption (mkopt (Some ATicks) w None None))
      \/ (exists v, k = Track /\ r = "n=" ++ v
          /\ parse_optional w = WOption (mkopt (Some ATicks) "-tn" (Some "=") (Some v)))
      \/ (r <> "" /\ ~ begins "=" r /\ (k = Track -> r <> "n" /\ ~ begins "n=" r)
          /\ parse_optional w = WOption (mkopt (Some (act k)) (short_name k) (Some "") (Some r)))
  end.
Proof.
  intros N w. 
  assert (LC : forall k, letter c = Some k -> k <> Ticks /\ short_name k = String "-" (String c "")
      /\ find_option (String "-" (String c "")) = Some (act k) /\ (k = Track -> c = "t"%char) /\ (c = "t"%char -> k = Track)).
  { unfold letter. intro k. destruct (ascii_dec c "h") as [->|]; [injection 1 as <-; repeat split; discriminate|].
    destruct (ascii_dec c "i") as [->|]; [injection 1 as <-; repeat split; discriminate|].
    destruct (ascii_dec c "t") as [->|]; [injection 1 as <-; repeat split; discriminate|]. discriminate. }
  assert (LN : letter c = None -> c <> "h"%char /\ c <> "i"%char /\ c <> "t"%char).
  { unfold letter. destruct (ascii_dec c "h"); [discriminate|]. destruct (ascii_dec c "i"); [discriminate|].
    destruct (ascii_dec c "t"); [discriminate|]. auto. }
  destruct (letter c) as [k|] eqn:L.
  - destruct (LC k eq_refl) as (_ & SN & FO & KT & TK). clear LC LN.
    assert (CE : c <> "="%char) by (intros ->; discriminate L).
    destruct r as [|d r].
    { left. split; [reflexivity|]. unfold w, parse_optional. cbn [Ascii.eqb Bool.eqb negb]. now rewrite FO. }
    right. destruct (ascii_dec d "=") as [->|DE].
    { left. exists r. split; [reflexivity|]. unfold w, parse_optional. cbn [Ascii.eqb Bool.eqb negb].
      rewrite find_longer; [|assumption|intros (_ & D & _); discriminate].
      assert (P : partition_eq (String "-" (String c (String "=" r))) = (String "-" (String c ""), Some r)).
      { cbn [partition_eq]. rewrite (eqb_false c "=" CE). reflexivity. }
      rewrite P, FO, SN. reflexivity. }
    right. destruct (ascii_dec c "t") as [->|CT].
    + specialize (TK eq_refl). subst k. clear KT.
      destruct (ascii_dec d "n") as [->|DN].
      * destruct r as [|e r]; [left; repeat split; reflexivity|]. right.
        destruct (ascii_dec e "=") as [->|EE].
        -- left. exists r. split; [reflexivity|]. split; [reflexivity|]. unfold w. reflexivity.
        -- right. split; [discriminate|]. split; [rewrite begins_cons; intros (? & Q & _); discriminate|].
           split.
           { intros _. split; [discriminate|]. rewrite begins_cons. intros (x & Q & H). injection Q as <-.
             rewrite begins_cons in H. destruct H as (y & Q & _). congruence. }
           unfold w, parse_optional. cbn [Ascii.eqb Bool.eqb negb].
           rewrite find_longer; [|discriminate|intros (_ & _ & Q); discriminate].
           assert (TT : option_tuples (String "-" (String "t" (String "n" (String e r))))
             = [mkopt (Some (act Track)) (short_name Track) (Some "") (Some (String "n" (String e r)))]).
           { rewrite short_tuples; [reflexivity|discriminate|]. intros (_ & _ & Q); discriminate. }
           rewrite TT. destruct (partition_eq _) as [n [v|]] eqn:P; [|reflexivity].
           cbn [partition_eq Ascii.eqb Bool.eqb] in P. rewrite (eqb_false e "=" EE) in P.
           destruct (partition_eq r) as [a b]. injection P as <- <-.
           rewrite find_longer; [reflexivity|discriminate|intros (_ & _ & Q); discriminate].
      * right. right. split; [discriminate|]. split; [rewrite begins_cons; intros (? & Q & _); congruence|].
        split.
        { intros _. split; [congruence|]. rewrite begins_cons. intros (x & Q & H). congruence. }
        unfold w, parse_optional. cbn [Ascii.eqb Bool.eqb negb].
        assert (NT : forall r, ~ ("t"%char = "t"%char /\ d = "n"%char /\ r = "")) by (intros ? (_ & Q & _); congruence).
        rewrite find_longer; [|discriminate|apply NT]. rewrite short_tuples; [|discriminate|apply NT].
        destruct (partition_eq _) as [n [v|]] eqn:P; [|reflexivity].
        cbn [partition_eq Ascii.eqb Bool.eqb] in P. rewrite (eqb_false d "=" DE) in P.
        destruct (partition_eq r) as [a b]. injection P as <- <-.
        rewrite find_longer; [reflexivity|discriminate|apply NT].
    + right. right. split; [discriminate|]. split; [rewrite begins_cons; intros (? & Q & _); congruence|].
      split; [intro Q; exfalso; auto|].
      unfold w, parse_optional. cbn [Ascii.eqb Bool.eqb negb].
      assert (NT : forall r, ~ (c = "t"%char /\ d = "n"%char /\ r = "")) by (intros ? (Q & _); contradiction).
      rewrite find_longer; [|assumption|apply NT]. rewrite short_tuples by (assumption || apply NT). rewrite L.
      destruct (partition_eq _) as [n [v|]] eqn:P; [|reflexivity].
      cbn [partition_eq] in P. change (Ascii.eqb "-" "=") with false in P. rewrite (eqb_false c "=" CE), (eqb_false d "=" DE) in P.
      destruct (partition_eq r) as [a b]. injection P as <- <-.
      rewrite find_longer; [reflexivity|assumption|apply NT].
  - destruct (LN eq_refl) as (CH & CI & CT). clear LC LN.
    assert (FN : forall x, find_option (String "-" (String c x)) = None).
    { intro x. rewrite find_short by assumption. rewrite !eqb_cons.
      now rewrite (eqb_false c "h" CH), (eqb_false c "i" CI), (eqb_false c "t" CT). }
    assert (OT : option_tuples w = []).
    { unfold w. destruct r as [|d r].
      - unfold option_tuples. rewrite (eqb_false c "-" N). cbn [option_strings flat_map fst snd].
        assert (P : forall x, prefix (String "-" (String c "")) (String "-" x) = prefix (String c "") x) by reflexivity.
        assert (E : forall x, String.eqb (String "-" x) (String "-" (String c "")) = String.eqb x (String c "")) by reflexivity.
        rewrite !P, !E, !prefix_cons, !eqb_cons, !(Ascii.eqb_sym _ c).
        rewrite (eqb_false c "h" CH), (eqb_false c "i" CI), (eqb_false c "t" CT), (eqb_false c "-" N).
        destruct (ascii_dec c "h"); [contradiction|]. destruct (ascii_dec c "i"); [contradiction|].
        destruct (ascii_dec c "t"); [contradiction|]. destruct (ascii_dec c "-"); [contradiction|]. reflexivity.
      - rewrite short_tuples; [now rewrite L|assumption|]. intros (Q & _); contradiction. }
    unfold parse_optional. unfold w at 1. cbn [Ascii.eqb Bool.eqb negb]. unfold w at 1 2. rewrite FN. fold w. rewrite OT.
    destruct (partition_eq w) as [n [v|]] eqn:P; [|reflexivity].
    unfold w in P. cbn [partition_eq] in P. change (Ascii.eqb "-" "=") with false in P.
    destruct (Ascii.eqb c "=").
    + injection P as <- <-. reflexivity.
    + destruct (partition_eq r) as [a b]. injection P as <- <-. rewrite FN. reflexivity.
Qed.

(** ** Numbers and blanks *)
Lemma digits_nil : all_digits "".
Proof. intros c []. Qed.
Lemma digits_cons c s : all_digits (String c s) <-> is_digit c = true /\ all_digits s.
Proof.
  unfold all_digits, is_digit. cbn [list_ascii_of_string In]. split.
  - intro H. pose proof (H c (or_introl eq_refl)) as B. split; [|intros d D; apply H; now right].
    apply andb_true_iff. rewrite !Nat.leb_le. lia.
  - intros [B H] d [<-|D]; [|now apply H]. apply andb_true_iff in B. rewrite !Nat.leb_le in B. lia.
Qed.
Definition ending (e : string) : Prop := e = "" \/ e = String (ascii_of_nat 10) "".
Lemma at_end_ok e : at_end e = true <-> ending e.
Proof.
  unfold ending. destruct e as [|c [|d e]]; cbn [at_end].
  - intuition.
  - split.
    + intro H. right. apply Nat.eqb_eq in H. rewrite <- (ascii_nat_embedding c), H. reflexivity.
    + intros [E|E]; [discriminate|]. injection E as ->. reflexivity.
  - split; [discriminate|]. intros [E|E]; discriminate.
Qed.
Lemma digits_to_end_ok s : digits_to_end s = true <-> exists a e, ending e /\ s = a ++ e /\ a <> "" /\ all_digits a.
Proof.
  induction s as [|c s IH]; cbn [digits_to_end].
  - split; [discriminate|]. intros (a & e & _ & E & N & _). destruct a; [congruence|discriminate].
  - rewrite andb_true_iff, orb_true_iff, at_end_ok, IH. split.
    + intros [D [E|(a & e & E & -> & N & A)]].
      * exists (String c ""), s. split; [exact E|]. split; [reflexivity|]. split; [discriminate|]. apply digits_cons. split; [assumption|apply digits_nil].
      * exists (String c a), e. split; [exact E|]. split; [reflexivity|]. split; [discriminate|]. now apply digits_cons.
    + intros (a & e & E & Q & N & A). destruct a as [|d a]; [congruence|]. injection Q as <- ->.
      apply digits_cons in A as [A1 A2]. split; [assumption|]. destruct a as [|d a]; [now left|]. right.
      exists (String d a), e. split; [exact E|]. split; [reflexivity|]. split; [discriminate|assumption].
Qed.
Lemma point_digits_ok s : point_digits s = true <->
  exists a b e, ending e /\ s = a ++ "." ++ b ++ e /\ b <> "" /\ all_digits a /\ all_digits b.
Proof.
  induction s as [|c s IH]; cbn [point_digits].
  - split; [discriminate|]. intros (a & b & e & _ & E & _). destruct a; discriminate.
  - destruct (Ascii.eqb_spec c ".") as [->|NP].
    + rewrite digits_to_end_ok. split.
      * intros (b & e & E & -> & N & A). exists "", b, e. split; [exact E|]. split; [reflexivity|]. split; [assumption|]. split; [apply digits_nil|assumption].
      * intros (a & b & e & E & Q & N & A & B). destruct a as [|d a].
        -- injection Q as ->. exists b, e. auto.
        -- injection Q as <- _. apply digits_cons in A as [A _]. discriminate.
    + rewrite andb_true_iff, IH. split.
      * intros [D (a & b & e & E & -> & N & A & B)]. exists (String c a), b, e. split; [exact E|]. split; [reflexivity|]. split; [assumption|]. split; [now apply digits_cons|assumption].
      * intros (a & b & e & E & Q & N & A & B). destruct a as [|d a]; [injection Q as -> _; congruence|]. injection Q as <- ->.
        apply digits_cons in A as [A1 A2]. split; [assumption|]. exists a, b, e. auto.
Qed.
Lemma negative_ok w : negative_number w = true <-> negative_text w.
Proof.
  unfold negative_text, negative_number. destruct w as [|c s].
  { split; [discriminate|]. intros (a & e & _ & [(E & _)|(b & E & _)]); discriminate. }
  destruct (Ascii.eqb_spec c "-") as [->|N]; cbn [andb].
  - rewrite orb_true_iff, digits_to_end_ok, point_digits_ok. split.
    + intros [(a & e & E & -> & NA & A)|(a & b & e & E & -> & NB & A & B)].
      * exists a, e. split; [exact E|]. left. auto.
      * exists a, e. split; [exact E|]. right. exists b. auto.
    + intros (a & e & E & [(Q & NA & A)|(b & Q & NB & A & B)]).
      * left. injection Q as ->. exists a, e. auto.
      * right. injection Q as ->. exists a, b, e. auto.
  - split; [discriminate|]. intros (a & e & _ & [(E & _)|(b & E & _)]); injection E as -> _; congruence.
Qed.
Lemma space_ok w : has_space w = true <-> exists a b, w = a ++ " " ++ b.
Proof.
  induction w as [|c w IH]; cbn [has_space].
  - split; [discriminate|]. intros (a & b & E). destruct a; discriminate.
  - rewrite orb_true_iff, IH. split.
    + intros [E|(a & b & ->)]; [apply Ascii.eqb_eq in E as ->; now exists "", w|now exists (String c a), b].
    + intros (a & b & E). destruct a as [|d a]; [injection E as -> ->; now left|]. injection E as -> ->. right. exists a, b. reflexivity.
Qed.
Lemma rest_argument w : (negative_text w \/ exists a b, w = a ++ " " ++ b) -> rest_class w = WArgument.
Proof.
  unfold rest_class. intros [H|H].
  - now rewrite (proj2 (negative_ok w) H).
  - rewrite (proj2 (space_ok w) H). now destruct (negative_number w).
Qed.
Lemma rest_cases w : (rest_class w = WArgument /\ (negative_text w \/ exists a b, w = a ++ " " ++ b))
  \/ rest_class w = WOption (mkopt None w None None).
Proof.
  unfold rest_class. destruct (negative_number w) eqn:N; [left; split; [reflexivity|left; now apply negative_ok]|].
  destruct (has_space w) eqn:S; [left; split; [reflexivity|right; now apply space_ok]|now right].
Qed.

(** ** Classification of words *)
(** What happens when the word is met as an option. *)
Definition meaning (w : string) (c : consumed) : Prop :=
  exists o a, parse_optional w = WOption o /\ o_action o = Some a /\ consume_optional o a = c.
Lemma meaning_fun w c c' : meaning w c -> meaning w c' -> c = c'.
Proof. intros (o & a & A & B & C) (o' & a' & A' & B' & C'). congruence. Qed.

Lemma begins_dash w : begins "-" w <-> exists r, w = String "-" r.
Proof. rewrite begins_cons. split; [intros (r & E & _); eauto|intros (r & E); exists r; split; [assumption|apply begins_nil]]. Qed.
Lemma begins_two c w : begins (String "-" (String c "")) w <-> exists r, w = String "-" (String c r).
Proof.
  split; [intros (r & E); exists r; exact E|intros (r & E); now exists r].
Qed.
Lemma split_word w : second_dash w = true -> begins "-" w -> exists n' arg, partition_eq w = ("--" ++ n', arg).
Proof.
  intros S (r & ->). cbn [append] in *. destruct r as [|c r]; [discriminate|]. cbn [second_dash] in S.
  apply Ascii.eqb_eq in S as ->. cbn [partition_eq Ascii.eqb Bool.eqb]. destruct (partition_eq r) as [a b]. exists a, b. reflexivity.
Qed.
Lemma parts_of w n' arg : partition_eq w = ("--" ++ n', arg) ->
  w = "--" ++ n' \/ begins (("--" ++ n') ++ "=") w.
Proof.
  intro P. destruct arg as [v|].
  - right. destruct (partition_some _ _ _ P) as [-> _]. exists v. rewrite (app_assoc_s ("--" ++ n') "=" v). reflexivity.
  - left. symmetry. exact (proj1 (partition_none _ _ P)).
Qed.
Lemma looks_hits w n' arg : partition_eq w = ("--" ++ n', arg) -> ~ looks_like_option w -> hits ("--" ++ n') = [].
Proof.
  intros P N. destruct (hits ("--" ++ n')) as [|k l] eqn:E; [reflexivity|]. exfalso. apply N.
  right. right. right. exists ("--" ++ n'), k. split; [apply hits_in; rewrite E; now left|].
  split; [now exists n'|]. now apply parts_of with arg.
Qed.
Lemma hits_looks w n' arg : partition_eq w = ("--" ++ n', arg) -> hits ("--" ++ n') = [] -> ~ looks_like_option w.
Proof.
  intros P E [H|[H|[H|(n & k & B & D & W)]]].
  1-3: apply begins_two in H as (r & ->); cbn in P; destruct (partition_eq r); discriminate.
  assert (NE : no_eq n) by exact (begins_no_eq _ _ B (long_no_eq k)).
  assert (PN : exists x, partition_eq w = (n, x)).
  { destruct W as [->|(v & ->)]; [exists None; now apply partition_id|]. exists (Some v). rewrite app_assoc_s. now apply partition_app. }
  destruct PN as (x & PN). rewrite PN in P.
  assert (Q : n = "--" ++ n') by congruence. rewrite Q in B. apply hits_in in B. rewrite E in B. contradiction.
Qed.
Lemma letter_looks c r : letter c <> None -> looks_like_option (String "-" (String c r)).
Proof.
  unfold letter, looks_like_option. destruct (ascii_dec c "h") as [->|]; [left; apply begins_two; eauto|].
  destruct (ascii_dec c "i") as [->|]; [right; left; apply begins_two; eauto|].
  destruct (ascii_dec c "t") as [->|]; [right; right; left; apply begins_two; eauto|]. congruence.
Qed.
Lemma no_letter_looks c r : c <> "-"%char -> letter c = None -> ~ looks_like_option (String "-" (String c r)).
Proof.
  intros N L [H|[H|[H|(n & k & B & (m & ->) & W)]]].
  1-3: apply begins_two in H as (x & E); injection E as -> _; discriminate.
  destruct W as [E|(v & E)]; injection E as E _; congruence.
Qed.

Lemma argument_class w : argument w -> parse_optional w = WArgument.
Proof.
  intros [H|[->|[H R]]].
  - destruct w as [|c r]; [reflexivity|]. unfold parse_optional.
    destruct (Ascii.eqb_spec c "-") as [->|]; [|reflexivity]. exfalso. apply H. apply begins_dash. eauto.
  - reflexivity.
  - destruct w as [|c r]; [reflexivity|].
    destruct (Ascii.eqb_spec c "-") as [->|N].
    2:{ unfold parse_optional. now rewrite (eqb_false c "-" N). }
    destruct r as [|d r]; [reflexivity|].
    destruct (ascii_dec d "-") as [->|D].
    + destruct (split_word (String "-" (String "-" r)) eq_refl) as (n' & arg & P); [apply begins_dash; eauto|].
      pose proof (looks_hits _ _ _ P H) as E.
      assert (NW : String "-" (String "-" r) <> "--").
      { intros Q. injection Q as ->. apply H. right. right. right. exists "--", Help. split; [now exists "help"|]. split; [now exists ""|now left]. }
      pose proof (long_class (String "-" (String "-" r)) _ _ eq_refl NW P) as C. rewrite E in C. rewrite C. now apply rest_argument.
    + pose proof (short_class d r D) as C. cbv zeta in C. destruct (letter d) as [k|] eqn:L.
      * exfalso. apply H. apply letter_looks. congruence.
      * rewrite C. now apply rest_argument.
Qed.

(** The value forms. *)
Lemma takes_act k : k <> Help -> takes_argument (act k) = true.
Proof. now destruct k. Qed.
Lemma explicit_value k dd sep v : k <> Help -> consume_explicit false (act k) dd sep v = CValue (act k) v.
Proof. intro H. destruct v; cbn [consume_explicit]; now rewrite (takes_act k H). Qed.
Lemma meaning_bare w k : k <> Help -> names w k -> meaning w (CFollow false (act k)).
Proof.
  intros NK [->|H].
  - destruct k; [congruence|..]; eexists _, _; repeat split.
  - apply hits_one in H as E. destruct H as [B _].
    assert (W : w <> "--" /\ exists n', w = "--" ++ n').
    { destruct w as [|c w]; [vm_compute in E; discriminate|].
      assert (c = "-"%char) as -> by (destruct k; apply begins_cons in B as (x & Q & _); now injection Q as <-).
      destruct w as [|d w]; [vm_compute in E; discriminate|].
      assert (d = "-"%char) as ->.
      { apply begins_cons in B as (x & Q & B). apply begins_cons in B as (y & Q' & _). subst x. destruct k; injection Q as <-; reflexivity. }
      split; [intro Q; injection Q as ->; vm_compute in E; discriminate|]. now exists w. }
    destruct W as [NW (n' & ->)].
    assert (NE : no_eq ("--" ++ n')) by exact (begins_no_eq _ _ B (long_no_eq k)).
    pose proof (long_class ("--" ++ n') n' None eq_refl NW (partition_id _ NE)) as C. rewrite E in C.
    eexists _, _. split; [exact C|]. split; reflexivity.
Qed.
Lemma names_dd n k : names n k -> n = short_name k \/ (hits n = [k] /\ n <> "--" /\ exists n', n = "--" ++ n').
Proof.
  intros [->|H]; [now left|right]. apply hits_one in H as E. split; [exact E|]. destruct H as [B _].
  destruct n as [|c w]; [vm_compute in E; discriminate|].
  assert (c = "-"%char) as -> by (destruct k; apply begins_cons in B as (x & Q & _); now injection Q as <-).
  destruct w as [|d w]; [vm_compute in E; discriminate|].
  assert (d = "-"%char) as ->.
  { apply begins_cons in B as (x & Q & B). apply begins_cons in B as (y & Q' & _). subst x. destruct k; injection Q as <-; reflexivity. }
  split; [intro Q; injection Q as ->; vm_compute in E; discriminate|]. now exists w.
Qed.
Lemma meaning_joined w k v : k <> Help -> joined w k v -> meaning w (CValue (act k) v).
Proof.
  intros NK J. destruct J as [n k v H|v N1 N2|v N1 N2 N3 N4].
  - pose proof (names_no_eq _ _ H) as NE. destruct (names_dd _ _ H) as [->|(E & NW & n' & ->)].
    + destruct k; [congruence|..].
      * eexists _, _. split; [reflexivity|]. split; [reflexivity|]. now apply (explicit_value Instrument).
      * eexists _, _. split; [reflexivity|]. split; [reflexivity|]. now apply (explicit_value Track).
      * eexists _, _. split; [reflexivity|]. split; [reflexivity|]. now apply (explicit_value Ticks).
    + assert (NW' : ("--" ++ n') ++ "=" ++ v <> "--") by (destruct n'; discriminate).
      pose proof (long_class (("--" ++ n') ++ "=" ++ v) n' (Some v) eq_refl NW' (partition_app _ _ NE)) as C.
      rewrite E in C. eexists _, _. split; [exact C|]. split; [reflexivity|].
      unfold consume_optional. cbn [o_arg]. now apply explicit_value.
  - pose proof (short_class "i" v ltac:(discriminate)) as C. cbv zeta in C. cbn [append]. change (letter "i") with (Some Instrument) in C.
    destruct C as [(-> & _)|[(x & -> & _)|[(Q & _)|[(x & Q & _)|(_ & _ & _ & C)]]]]; try congruence.
    + exfalso. apply N2. now exists x.
    + eexists _, _. split; [exact C|]. split; [reflexivity|]. apply (explicit_value Instrument). discriminate.
  - pose proof (short_class "t" v ltac:(discriminate)) as C. cbv zeta in C. cbn [append]. change (letter "t") with (Some Track) in C.
    destruct C as [(-> & _)|[(x & -> & _)|[(_ & Q & _)|[(x & _ & Q & _)|(_ & _ & _ & C)]]]]; try congruence.
    + exfalso. apply N2. now exists x.
    + exfalso. apply N4. exists x. exact Q.
    + eexists _, _. split; [exact C|]. split; [reflexivity|]. apply (explicit_value Track). discriminate.
Qed.

(** Every word but -- is of one of these kinds. *)
Lemma explicit_leads a dd sep e : forall h, takes_argument a = false ->
  (exists x, consume_explicit h a dd sep e = CFollow true x) \/ consume_explicit h a dd sep e = CHelp
  \/ consume_explicit h a dd sep e = CError.
Proof.
  revert a dd sep. induction e as [|c e IH]; intros a dd sep h T; cbn [consume_explicit]; rewrite T; [auto|].
  destruct dd; [auto|]. destruct (sep || Ascii.eqb c "-")%bool; [auto|].
  destruct (find_option _) as [a'|]; [|auto].
  destruct e as [|d e]; [left; eauto|].
  assert (G : (exists x, consume_explicit true a' false false (String d e) = CFollow true x)
    \/ consume_explicit true a' false false (String d e) = CHelp
    \/ consume_explicit true a' false false (String d e) = CError).
  { destruct (takes_argument a') eqn:T'; [|now apply IH]. right. left. cbn [consume_explicit]. now rewrite T'. }
  destruct d as [[] [] [] [] [] [] [] []]; try exact G.
  destruct (takes_argument a'); auto.
Qed.
Lemma dd_error v : consume_explicit false AHelp true true v = CError.
Proof. now destruct v. Qed.
Lemma word_cases w : w <> "--" ->
  (parse_optional w = WArgument /\ argument w)
  \/ (parse_optional w = WAmbiguous /\ ambiguous w)
  \/ (exists o, parse_optional w = WOption o /\ o_action o = None)
  \/ (exists k v, k <> Help /\ joined w k v /\ meaning w (CValue (act k) v))
  \/ (exists k, names w k /\ meaning w (CFollow false (act k)))
  \/ (begins "-h" w /\ (meaning w CHelp \/ exists a, meaning w (CFollow true a)))
  \/ meaning w CError.
Proof.
  intro NW.
  destruct w as [|c r].
  { left. split; [reflexivity|]. left. intros (x & E). discriminate. }
  destruct (ascii_dec c "-") as [->|C].
  2:{ left. split; [unfold parse_optional; now rewrite (eqb_false c "-" C)|]. left. rewrite begins_dash. intros (x & E).
      injection E as -> _. congruence. }
  destruct r as [|d r]; [left; split; [reflexivity|right; now left]|].
  assert (RC : ~ looks_like_option (String "-" (String d r)) ->
     parse_optional (String "-" (String d r)) = rest_class (String "-" (String d r)) ->
     (parse_optional (String "-" (String d r)) = WArgument /\ argument (String "-" (String d r)))
     \/ (exists o, parse_optional (String "-" (String d r)) = WOption o /\ o_action o = None)).
  { intros NL E. rewrite E. destruct (rest_cases (String "-" (String d r))) as [[-> H]| ->].
    - left. split; [reflexivity|]. right. right. now split.
    - right. eexists. split; reflexivity. }
  destruct (ascii_dec d "-") as [->|D].
  - destruct (split_word (String "-" (String "-" r)) eq_refl) as (n' & arg & P); [apply begins_dash; eauto|].
    pose proof (long_class (String "-" (String "-" r)) _ _ eq_refl NW P) as C.
    destruct (hits ("--" ++ n')) as [|k [|k' l]] eqn:E.
    + destruct (RC (hits_looks _ _ _ P E) C) as [H|H]; auto.
    + apply hits_one in E as B. destruct arg as [v|].
      * destruct (partition_some _ _ _ P) as [W _].
        assert (M : k <> Help -> meaning (String "-" (String "-" r)) (CValue (act k) v)).
        { intro K. eexists _, _. split; [exact C|]. split; [reflexivity|]. unfold consume_optional. cbn [o_arg].
          now apply explicit_value. }
        destruct k.
        { do 6 right. eexists _, _. split; [exact C|]. split; [reflexivity|]. unfold consume_optional. cbn [o_arg].
          change (consume_explicit false AHelp true true v = CError). apply dd_error. }
        all: do 3 right; left; eexists _, v; split; [|split; [|apply M]]; try discriminate.
        all: rewrite W; apply joined_eq; right; exact B.
      * destruct (partition_none _ _ P) as [W _].
        do 4 right. left. exists k. split; [rewrite <- W; right; exact B|].
        eexists _, _. split; [exact C|]. split; reflexivity.
    + right. left. split; [exact C|]. exists ("--" ++ n'). split; [now exists n'|].
      split; [now apply parts_of with arg|]. exact (hits_many _ _ _ _ E).
  - pose proof (short_class d r D) as C. cbv zeta in C. destruct (letter d) as [k|] eqn:L.
    2:{ destruct (RC (no_letter_looks d r D L) C) as [H|H]; auto. }
    assert (SN : short_name k = String "-" (String d "") /\ (k = Help -> d = "h"%char) /\ k <> Ticks).
    { unfold letter in L. destruct (ascii_dec d "h") as [->|]; [injection L as <-; repeat split; discriminate|].
      destruct (ascii_dec d "i") as [->|]; [injection L as <-; repeat split; discriminate|].
      destruct (ascii_dec d "t") as [->|]; [injection L as <-; repeat split; discriminate|]. discriminate. }
    destruct SN as (SN & KH & KT).
    assert (EX : forall sep v, parse_optional (String "-" (String d r))
          = WOption (mkopt (Some (act k)) (short_name k) (Some sep) (Some v)) ->
        (k <> Help /\ meaning (String "-" (String d r)) (CValue (act k) v))
        \/ (k = Help /\ ((meaning (String "-" (String d r)) CHelp \/ exists a, meaning (String "-" (String d r)) (CFollow true a))
             \/ meaning (String "-" (String d r)) CError))).
    { intros sep v P. assert (K : k = Help \/ k <> Help) by (destruct k; auto; right; discriminate).
      destruct K as [->|K].
      - right. split; [reflexivity|].
        set (dd := second_dash (short_name Help)). 
        destruct (explicit_leads AHelp dd (negb (String.eqb sep "")) v false eq_refl) as [(x & Q)|[Q|Q]].
        + left. right. exists x. eexists _, _. split; [exact P|]. split; [reflexivity|]. exact Q.
        + left. left. eexists _, _. split; [exact P|]. split; [reflexivity|]. exact Q.
        + right. eexists _, _. split; [exact P|]. split; [reflexivity|]. exact Q.
      - left. split; [assumption|]. eexists _, _. split; [exact P|]. split; [reflexivity|].
        unfold consume_optional. cbn [o_arg]. now apply explicit_value. }
    destruct C as [(-> & C)|[(v & -> & C)|[(-> & -> & C)|[(v & -> & -> & C)|(R1 & R2 & R3 & C)]]]].
    + do 4 right. left. exists k. split; [left; now symmetry|]. eexists _, _. split; [exact C|]. split; reflexivity.
    + destruct (EX _ _ C) as [[K M]|[K [M|M]]].
      * do 3 right. left. exists k, v. split; [assumption|]. split; [|assumption].
        change (joined (String "-" (String d "") ++ "=" ++ v) k v). rewrite <- SN. apply joined_eq. now left.
      * do 5 right. left. split; [rewrite (KH K); apply begins_two; eauto|assumption].
      * do 6 right. assumption.
    + do 4 right. left. exists Ticks. 
      assert (d = "t"%char) as -> by (injection SN as <-; reflexivity).
      split; [left; reflexivity|]. eexists _, _. split; [exact C|]. split; reflexivity.
    + assert (d = "t"%char) as -> by (injection SN as <-; reflexivity).
      do 3 right. left. exists Ticks, v. split; [discriminate|]. split.
      * change (joined ("-tn" ++ "=" ++ v) Ticks v). apply joined_eq. now left.
      * eexists _, _. split; [exact C|]. split; [reflexivity|]. apply (explicit_value Ticks). discriminate.
    + destruct (EX _ _ C) as [[K M]|[K [M|M]]].
      * do 3 right. left. exists k, r. split; [assumption|]. split; [|assumption].
        destruct k; [congruence| | |congruence].
        -- injection SN as <-. apply joined_instrument; assumption.
        -- injection SN as <-. destruct (R3 eq_refl). now apply joined_track.
      * do 5 right. left. split; [rewrite (KH K); apply begins_two; eauto|assumption].
      * do 6 right. assumption.
Qed.

(** ** int() *)
Lemma blank_nil : blank "".
Proof. intros c []. Qed.
Lemma blank_cons c s : blank (String c s) <-> is_blank c = true /\ blank s.
Proof.
  unfold blank, is_blank. cbn [list_ascii_of_string In]. split.
  - intro H. pose proof (H c (or_introl eq_refl)) as B. split; [|intros d D; apply H; now right].
    apply orb_true_iff. rewrite andb_true_iff, !Nat.leb_le, Nat.eqb_eq. lia.
  - intros [B H] d [<-|D]; [|now apply H]. apply orb_true_iff in B. rewrite andb_true_iff, !Nat.leb_le, Nat.eqb_eq in B. lia.
Qed.
Lemma digit_blank c : is_digit c = true -> is_blank c = false.
Proof.
  unfold is_digit, is_blank. intro H. apply andb_true_iff in H. rewrite !Nat.leb_le in H.
  apply orb_false_iff. rewrite andb_false_iff, Nat.eqb_neq, !Nat.leb_gt. lia.
Qed.
Lemma skip_nil s : skip_blanks s = "" <-> blank s.
Proof.
  induction s as [|c s IH]; cbn [skip_blanks]; [split; [intro; apply blank_nil|reflexivity]|].
  rewrite blank_cons. destruct (is_blank c); [tauto|]. split; [discriminate|]. intros [? _]. discriminate.
Qed.
Lemma skip_split s : exists a, s = a ++ skip_blanks s /\ blank a /\ forall c r, skip_blanks s = String c r -> is_blank c = false.
Proof.
  induction s as [|c s IH]; cbn [skip_blanks]; [exists ""; repeat split; try discriminate; apply blank_nil|].
  destruct (is_blank c) eqn:B.
  - destruct IH as (a & E & A & N). exists (String c a). split; [cbn [append]; congruence|]. split; [now apply blank_cons|exact N].
  - exists "". split; [reflexivity|]. split; [apply blank_nil|]. intros d r E. now injection E as <- _.
Qed.
Lemma skip_app a s : blank a -> skip_blanks (a ++ s) = skip_blanks s.
Proof.
  induction a as [|c a IH]; intro H; [reflexivity|]. apply blank_cons in H as [B H]. cbn [append skip_blanks]. rewrite B. auto.
Qed.
Inductive scan : bool -> string -> string -> Prop :=
| scan_end b : blank b -> scan true b ""
| scan_digit ad c r ds : is_digit c = true -> scan true r ds -> scan ad (String c r) (String c ds)
| scan_under r ds : scan false r ds -> scan true (String "_" r) ds.
Lemma int_digits_ok s : forall ad v c z, int_digits s ad v c = Some z <->
  exists ds, scan ad s ds /\ (c + Z.of_nat (String.length ds) <= 4300)%Z /\ z = decimal_value ds v.
Proof.
  induction s as [|x s IH]; intros ad v c z; cbn [int_digits].
  - destruct ad; cbn [andb].
    + destruct (Z.leb_spec c 4300).
      * split.
        -- intro E. injection E as <-. exists "". split; [constructor; apply blank_nil|]. split; [cbn; lia|reflexivity].
        -- intros (ds & S & _ & ->). inversion S; subst. reflexivity.
      * split; [discriminate|]. intros (ds & S & L & _). inversion S; subst. cbn in L. lia.
    + split; [discriminate|]. intros (ds & S & _). inversion S.
  - destruct (is_digit x) eqn:D.
    + rewrite IH. split.
      * intros (ds & S & L & ->). exists (String x ds). split; [now constructor|]. split; [cbn [String.length]; lia|reflexivity].
      * intros (ds & S & L & ->). inversion S; subst.
        -- exfalso. match goal with B : blank _ |- _ => apply blank_cons in B as [B _]; rewrite (digit_blank _ D) in B; discriminate end.
        -- exists ds0. split; [assumption|]. split; [cbn [String.length] in L; lia|reflexivity].
        -- discriminate.
    + destruct (Ascii.eqb_spec x "_") as [->|U].
      * destruct ad.
        -- rewrite IH. split.
           ++ intros (ds & S & L). exists ds. split; [now constructor|exact L].
           ++ intros (ds & S & L). inversion S; subst.
              ** match goal with B : blank _ |- _ => apply blank_cons in B as [B _]; discriminate end.
              ** discriminate.
              ** exists ds. auto.
        -- split; [discriminate|]. intros (ds & S & _). inversion S; subst. discriminate.
      * split.
        -- destruct (skip_blanks _) eqn:SB; [|discriminate]. apply skip_nil in SB.
           destruct ad; cbn [andb]; [|discriminate]. destruct (Z.leb_spec c 4300); [|discriminate].
           intro E. injection E as <-. exists "". split; [now constructor|]. split; [cbn; lia|reflexivity].
        -- intros (ds & S & L & ->). inversion S; subst.
           ++ rewrite (proj2 (skip_nil _)) by assumption. cbn [andb]. cbn in L. destruct (Z.leb_spec c 4300); [reflexivity|lia].
           ++ congruence.
           ++ congruence.
Qed.
Lemma scan_app d : forall ad s ds, d <> "" -> all_digits d -> scan true s ds -> scan ad (d ++ s) (d ++ ds).
Proof.
  induction d as [|c d IH]; intros ad s ds N A S; [congruence|]. apply digits_cons in A as [A1 A2]. cbn [append].
  constructor; [assumption|]. destruct d as [|e d]; [exact S|]. apply IH; [discriminate|assumption|assumption].
Qed.
Lemma scan_groups body ds b : digit_groups body ds -> blank b -> scan false (body ++ b) ds.
Proof.
  intros G B. induction G as [d N A|d s ds N A G IH].
  - rewrite <- (app_nil_s d) at 2. apply scan_app; auto. now constructor.
  - rewrite !app_assoc_s. apply scan_app; auto. now constructor.
Qed.
Lemma scan_inv ad s ds : scan ad s ds ->
  if ad then (exists d b, all_digits d /\ blank b /\ s = d ++ b /\ ds = d)
             \/ (exists d body ds' b, all_digits d /\ blank b /\ digit_groups body ds' /\ s = d ++ "_" ++ body ++ b /\ ds = d ++ ds')
  else exists body b, blank b /\ digit_groups body ds /\ s = body ++ b.
Proof.
  induction 1 as [b B|ad c r ds D S IH|r ds S IH].
  - left. exists "", b. split; [apply digits_nil|]. auto.
  - cbn [append] in *. destruct IH as [(d & b & A & B & -> & ->)|(d & body & ds' & b & A & B & G & -> & ->)].
    + assert (AC : all_digits (String c d)) by now apply digits_cons. destruct ad.
      * left. exists (String c d), b. auto.
      * exists (String c d), b. split; [assumption|]. split; [|reflexivity]. constructor; [discriminate|assumption].
    + assert (AC : all_digits (String c d)) by now apply digits_cons. destruct ad.
      * right. exists (String c d), body, ds', b. auto.
      * exists (String c d ++ "_" ++ body), b. split; [assumption|].
        split; [change (String c (d ++ ds')) with (String c d ++ ds'); constructor; [discriminate|assumption|assumption]|].
        cbn [append]. now rewrite app_assoc_s.
  - destruct IH as (body & b & B & G & ->). right. exists "", body, ds, b. split; [apply digits_nil|]. auto.
Qed.
Lemma scan_first s ds : scan false s ds -> exists c r, s = String c r /\ is_digit c = true.
Proof. intro S. inversion S; subst; eauto. Qed.
Lemma int_of_text_ok s n : int_of_text s = Some n <-> int_text s n.
Proof.
  split.
  - unfold int_of_text. destruct (skip_split s) as (a & E & A & N). destruct (skip_blanks s) as [|c r] eqn:SB; [discriminate|].
    assert (G : forall sign t z, sign = "" \/ sign = "+" \/ sign = "-" -> String c r = sign ++ t -> int_digits t false 0 0 = Some z ->
       int_text s (if string_dec sign "-" then - z else z)%Z).
    { intros sign t z SG Q I. apply int_digits_ok in I as (ds & S & L & ->). apply scan_inv in S as (body & b & B & G & ->).
      rewrite E, Q. refine (int_text_of a sign body ds b A B G _ SG). lia. }
    destruct (Ascii.eqb_spec c "+") as [->|NP].
    { intro I. exact (G "+" r n (or_intror (or_introl eq_refl)) eq_refl I). }
    destruct (Ascii.eqb_spec c "-") as [->|NM].
    { destruct (int_digits r false 0 0) as [z|] eqn:I; [|discriminate]. intro Q. injection Q as <-.
      exact (G "-" r z (or_intror (or_intror eq_refl)) eq_refl I). }
    intro I. exact (G "" (String c r) n (or_introl eq_refl) eq_refl I).
  - intro T. destruct T as [a sign body ds b A B G L SG]. unfold int_of_text. rewrite skip_app by assumption.
    pose proof (scan_groups _ _ _ G B) as S. destruct (scan_first _ _ S) as (c & r & E & D).
    assert (I : int_digits (body ++ b) false 0 0 = Some (decimal_value ds 0)).
    { apply int_digits_ok. exists ds. split; [assumption|]. split; [lia|reflexivity]. }
    destruct SG as [->|[->| ->]].
    + cbn [append]. rewrite E. cbn [skip_blanks]. rewrite (digit_blank _ D).
      destruct (Ascii.eqb_spec c "+") as [->|]; [discriminate|]. destruct (Ascii.eqb_spec c "-") as [->|]; [discriminate|].
      rewrite <- E, I. reflexivity.
    + change (skip_blanks ("+" ++ body ++ b)) with (String "+" (body ++ b)). cbn [Ascii.eqb Bool.eqb]. rewrite I. reflexivity.
    + change (skip_blanks ("-" ++ body ++ b)) with (String "-" (body ++ b)). cbn [Ascii.eqb Bool.eqb]. rewrite I. reflexivity.
Qed.
