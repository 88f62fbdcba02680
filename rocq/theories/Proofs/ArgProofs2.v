(** The loop over the words of the command line. *)
From Coq Require Import Lia.
From Verif.Model Require Import Py Main Argparse.
From Verif.Spec Require Import Text CommandLine.
From Verif.Proofs Require Import ArgProofs.
Open Scope string_scope.

(** ** Words and tokens *)
Inductive shape : list token -> Prop :=
| shape_nil : shape []
| shape_arg w r : shape r -> shape (TArg w :: r)
| shape_opt w o r : shape r -> shape (TOpt w o :: r)
| shape_dash l : shape (TDash :: map TArg l).
Lemma shape_args l : shape (map TArg l).
Proof. induction l; cbn; constructor; assumption. Qed.
Lemma tokens_shape ws : forall ts, tokens ws = Some ts -> shape ts.
Proof.
  induction ws as [|w ws IH]; intros ts H; cbn [tokens] in H; [injection H as <-; constructor|].
  destruct (String.eqb w "--"); [injection H as <-; constructor|].
  destruct (parse_optional w); [| |discriminate]; destruct (tokens ws) as [r|]; try discriminate; injection H as <-;
    constructor; now apply IH.
Qed.

(** What the items of a line do to the arguments gathered so far. *)
Definition put (it : item) (ns : arguments) : arguments :=
  match it with
  | IFile f => mkargs (Some f) (a_instrument ns) (a_track ns) (a_ticks ns)
  | IInstrument f => mkargs (a_file ns) (Some f) (a_track ns) (a_ticks ns)
  | ITrack f => mkargs (a_file ns) (a_instrument ns) (Some f) (a_ticks ns)
  | ITicks n => mkargs (a_file ns) (a_instrument ns) (a_track ns) (Some n)
  end.
Fixpoint fill (ns : arguments) (its : list item) : option arguments :=
  match its with
  | [] => match a_file ns with Some _ => Some ns | None => None end
  | it :: r => match it, a_file ns with IFile _, Some _ => None | _, _ => fill (put it ns) r end
  end.
Lemma take_ok k v ns : k <> Help ->
  match take_option (act k) (Some v) ns with
  | Taken ns' => exists it, value k v it /\ ns' = put it ns /\ a_file ns' = a_file ns /\ (forall f, it <> IFile f)
  | Leaves n => n = 2%Z /\ forall it, ~ value k v it
  end.
Proof.
  destruct k; [congruence|..]; intros _; cbn [act take_option].
  - exists (IInstrument v). repeat split; [constructor|discriminate].
  - exists (ITrack v). repeat split; [constructor|discriminate].
  - destruct (int_of_text v) as [n|] eqn:E.
    + exists (ITicks n). repeat split; [constructor; now apply int_of_text_ok|discriminate].
    + split; [reflexivity|]. intros it H. inversion H as [| |? n I]; subst. apply int_of_text_ok in I. congruence.
Qed.
Lemma value_unique k v it it' : value k v it -> value k v it' -> it = it'.
Proof.
  intros H H'. inversion H; subst; inversion H'; subst; try reflexivity.
  match goal with A : int_text _ ?x, B : int_text _ ?y |- _ => apply int_of_text_ok in A, B; congruence end.
Qed.
Lemma value_key k v it : value k v it -> k <> Help /\ forall f, it <> IFile f.
Proof. intro H. inversion H; split; discriminate. Qed.

(** The line relation on tokens. *)
Inductive tline : list token -> list item -> Prop :=
| t_nil : tline [] []
| t_file w r its : tline r its -> tline (TArg w :: r) (IFile w :: its)
| t_joined w o a k v it r its : o_action o = Some a -> consume_optional o a = CValue (act k) v -> value k v it ->
    tline r its -> tline (TOpt w o :: r) (it :: its)
| t_follow w o a k v it r its : o_action o = Some a -> consume_optional o a = CFollow false (act k) -> value k v it ->
    tline r its -> tline (TOpt w o :: TArg v :: r) (it :: its)
| t_dashes w r : tline (TDash :: map TArg (w :: r)) (map IFile (w :: r))
| t_end w : tline [TArg w; TDash] [IFile w].

Lemma act_inj k k' : act k = act k' -> k = k'.
Proof. destruct k, k'; cbn; congruence. Qed.
Lemma dd_not_argument : ~ argument "--".
Proof.
  intros [H|[H|[H _]]]; [|discriminate|].
  - apply H. now exists "-".
  - apply H. right. right. right. exists "--", Help. split; [now exists "help"|]. split; [now exists ""|now left].
Qed.
Lemma argument_token w r ts : argument w -> tokens r = Some ts -> tokens (w :: r) = Some (TArg w :: ts).
Proof.
  intros A T. cbn [tokens]. destruct (String.eqb_spec w "--") as [->|_]; [exfalso; now apply dd_not_argument|].
  rewrite (argument_class _ A), T. reflexivity.
Qed.
Lemma meaning_dd c : ~ meaning "--" c \/ exists o, parse_optional "--" = WOption o.
Proof. left. intros (o & a & P & _). discriminate P. Qed.
Lemma meaning_token w c r ts : meaning w c -> tokens r = Some ts ->
  exists o a, tokens (w :: r) = Some (TOpt w o :: ts) /\ o_action o = Some a /\ consume_optional o a = c.
Proof.
  intros (o & a & P & A & C) T. exists o, a. split; [|now split]. cbn [tokens].
  destruct (String.eqb_spec w "--") as [->|_]; [discriminate P|]. rewrite P, T. reflexivity.
Qed.
Lemma args_after_dd r : tokens ("--" :: r) = Some (TDash :: map TArg r).
Proof. reflexivity. Qed.
Lemma line_tline ws its : line ws its -> exists ts, tokens ws = Some ts /\ tline ts its.
Proof.
  induction 1 as [|w r its A L (ts & T & TL)|w k v it r its J V L (ts & T & TL)|w k v it r its N A V L (ts & T & TL)|w r|w A].
  - exists []. split; [reflexivity|constructor].
  - exists (TArg w :: ts). split; [now apply argument_token|now constructor].
  - destruct (value_key _ _ _ V) as [K _].
    destruct (meaning_token _ _ r ts (meaning_joined _ _ _ K J) T) as (o & a & E & OA & C).
    exists (TOpt w o :: ts). split; [exact E|]. now apply t_joined with a k v.
  - destruct (value_key _ _ _ V) as [K _].
    destruct (meaning_token _ _ (v :: r) (TArg v :: ts) (meaning_bare _ _ K N) (argument_token _ _ _ A T)) as (o & a & E & OA & C).
    exists (TOpt w o :: TArg v :: ts). split; [exact E|]. now apply t_follow with a k.
  - exists (TDash :: map TArg (w :: r)). split; [reflexivity|constructor].
  - exists [TArg w; TDash]. split; [|apply t_end]. now apply argument_token.
Qed.
(** Back from tokens to words. *)
Lemma tokens_cons w r ts : tokens (w :: r) = Some ts ->
  (w = "--" /\ ts = TDash :: map TArg r)
  \/ (w <> "--" /\ argument w /\ exists t, tokens r = Some t /\ ts = TArg w :: t)
  \/ (w <> "--" /\ exists o t, parse_optional w = WOption o /\ tokens r = Some t /\ ts = TOpt w o :: t).
Proof.
  cbn [tokens]. destruct (String.eqb_spec w "--") as [->|N]; [intro E; injection E as <-; now left|].
  destruct (parse_optional w) as [|o|] eqn:P; [| |discriminate].
  - destruct (tokens r) as [t|]; [|discriminate]. intro E. injection E as <-. right. left. split; [assumption|]. split; [|eauto].
    destruct (word_cases w N) as [[_ A]|[[Q _]|[(o & Q & _)|[(k & v & _ & _ & M)|[(k & _ & M)|[(_ & [M|(a & M)])|M]]]]]];
      try assumption; try congruence; destruct M as (o & x & Q & _); congruence.
  - destruct (tokens r) as [t|]; [|discriminate]. intro E. injection E as <-. right. right. eauto 6.
Qed.
Lemma option_word w o a c : w <> "--" -> parse_optional w = WOption o -> o_action o = Some a -> consume_optional o a = c ->
  meaning w c.
Proof. intros. exists o, a. auto. Qed.
Lemma meaning_names w k h : w <> "--" -> meaning w (CFollow h (act k)) -> k <> Help -> h = false -> names w k.
Proof.
  intros N M K ->.
  destruct (word_cases w N) as [[Q _]|[[Q _]|[(o & Q & Q')|[(k' & v & _ & _ & M')|[(k' & NM & M')|[(_ & [M'|(x & M')])|M']]]]]].
  1-3: destruct M as (o' & x & P & A & _); congruence.
  all: pose proof (meaning_fun _ _ _ M M') as E; try discriminate.
  injection E as E. apply act_inj in E as ->. assumption.
Qed.
Lemma meaning_is_joined w k v : w <> "--" -> meaning w (CValue (act k) v) -> joined w k v.
Proof.
  intros N M.
  destruct (word_cases w N) as [[Q _]|[[Q _]|[(o & Q & Q')|[(k' & v' & _ & J & M')|[(k' & NM & M')|[(_ & [M'|(x & M')])|M']]]]]].
  1-3: destruct M as (o' & x & P & A & _); congruence.
  all: pose proof (meaning_fun _ _ _ M M') as E; try discriminate.
  injection E as E ->. apply act_inj in E as ->. assumption.
Qed.
Lemma map_TArg_inj l : forall l', map TArg l = map TArg l' -> l = l'.
Proof. induction l as [|a l IH]; intros [|b l'] E; try discriminate; [reflexivity|]. injection E as -> E. f_equal. auto. Qed.
Lemma tline_line ts its : tline ts its -> forall ws, tokens ws = Some ts -> line ws its.
Proof.
  induction 1 as [|w r its TL IH|w o a k v it r its OA C V TL IH|w o a k v it r its OA C V TL IH|w r|w]; intros ws T;
    destruct ws as [|x ws]; try discriminate T; try (cbn in T; discriminate T); [constructor|..];
    destruct (tokens_cons _ _ _ T) as [(-> & E)|[(N & A & t & T' & E)|(N & o' & t & P & T' & E)]]; try discriminate E.
  - injection E as <- <-. constructor; auto.
  - injection E as <- <- <-. apply line_joined with k v; auto. apply meaning_is_joined; [assumption|]. exists o, a. auto.
  - injection E as <- <- E. destruct ws as [|y ws]; [cbn in T'; congruence|].
    destruct (tokens_cons _ _ _ T') as [(-> & E')|[(N' & A' & t' & T'' & E')|(N' & o' & t' & P' & T'' & E')]]; try congruence.
    assert (v = y /\ r = t') as [-> ->] by (split; congruence).
    apply line_follow with k; auto. destruct (value_key _ _ _ V). apply meaning_names with false; auto. exists o, a. auto.
  - injection E as E. change (TArg w :: map TArg r) with (map TArg (w :: r)) in E. apply map_TArg_inj in E. subst ws. constructor.
  - injection E as <- E. subst t. destruct ws as [|y ws]; [discriminate T'|].
    destruct (tokens_cons _ _ _ T') as [(-> & E')|[(N' & A' & t' & T'' & E')|(N' & o' & t' & P' & T'' & E')]]; try discriminate.
    injection E' as E'. destruct ws; [|discriminate]. now constructor.
Qed.

(** ** The loop *)
Definition at_option (k : nat) (ns : arguments) (ts : list token) (extras : bool) : parsed :=
  match ts with
  | TOpt w o :: r =>
      match o_action o with
      | None => parse_loop k r ns true
      | Some a =>
          match consume_optional o a with
          | CError => Exit 2
          | CHelp => Exit 0
          | CValue a v => match take_option a (Some v) ns with Taken ns => parse_loop k r ns extras | Leaves n => Exit n end
          | CFollow helped a =>
              if takes_argument a then
                match r with
                | TArg v :: r' =>
                    if helped then Exit 0
                    else match take_option a (Some v) ns with Taken ns => parse_loop k r' ns extras | Leaves n => Exit n end
                | _ => Exit 2
                end
              else Exit 0
          end
      end
  | _ => Exit (-1)
  end.
Lemma loop_step k ts ns extras : parse_loop (S k) ts ns extras =
  if has_option ts then
    match ts with
    | TOpt _ _ :: _ => at_option k ns ts extras
    | _ => match take_positional ns ts with
           | Some (ns, ts) => parse_loop k ts ns extras
           | None => at_option k ns (skip_to_option ts) true
           end
    end
  else
    let '(ns, ts) := match take_positional ns ts with Some x => x | None => (ns, ts) end in
    match a_file ns with
    | None => Exit 2
    | Some _ => match ts with [] => if extras then Exit 2 else Parsed ns | _ => Exit 2 end
    end.
Proof. reflexivity. Qed.

Lemma extras_rejected k : forall ts ns a, parse_loop k ts ns true <> Parsed a.
Proof.
  induction k as [|k IH]; intros ts ns a; [discriminate|].
  assert (AO : forall ns ts, at_option k ns ts true <> Parsed a).
  { clear ns ts. intros ns ts. unfold at_option. destruct ts as [|[w|w o|] r]; try discriminate.
    destruct (o_action o); [|apply IH]. destruct (consume_optional o a0); try discriminate.
    - destruct (take_option a1 (Some v) ns); [apply IH|discriminate].
    - destruct (takes_argument a1); [|discriminate]. destruct r as [|[v| |] r]; try discriminate.
      destruct helped; [discriminate|]. destruct (take_option a1 (Some v) ns); [apply IH|discriminate]. }
  rewrite loop_step. destruct (has_option ts).
  - destruct ts as [|[w|w o|] r]; [|..|]; try (apply AO);
      destruct (take_positional ns _) as [[ns' ts']|]; try (apply IH); apply AO.
  - destruct (match take_positional ns ts with Some x => x | None => (ns, ts) end) as [ns' ts'].
    destruct (a_file ns'); [|discriminate]. destruct ts'; discriminate.
Qed.

Lemma no_option_args l : has_option (map TArg l) = false.
Proof. induction l; cbn; auto. Qed.
Lemma skip_shape ts : shape ts -> has_option ts = true -> skip_dashes ts = ts.
Proof. intros S H. inversion S; subst; try reflexivity. exfalso. cbn in H. pose proof (no_option_args l) as N. unfold has_option in N. congruence. Qed.

Lemma fill_files l ns : a_file ns <> None -> fill ns (map IFile l) <> None -> l = [].
Proof. destruct l as [|f l]; [reflexivity|]. intros N. cbn [map fill]. now destruct (a_file ns). Qed.

Lemma shape_inv_opt w o r : shape (TOpt w o :: r) -> shape r.
Proof. inversion 1; assumption. Qed.
Lemma shape_inv_arg w r : shape (TArg w :: r) -> shape r.
Proof. inversion 1; assumption. Qed.

Lemma follow_false o a h a' : o_action o = Some a -> consume_optional o a = CFollow h a' -> 
  exists k, a' = act k.
Proof. intros _ _. destruct a'; [exists Help|exists Instrument|exists Track|exists Ticks]; reflexivity. Qed.
Lemma act_of a : exists k, a = act k.
Proof. destruct a; [exists Help|exists Instrument|exists Track|exists Ticks]; reflexivity. Qed.

Theorem loop_parsed fuel : forall ts ns ex a, shape ts -> (length ts < fuel)%nat ->
  (parse_loop fuel ts ns ex = Parsed a <-> ex = false /\ exists its, tline ts its /\ fill ns its = Some a).
Proof.
  induction fuel as [|k IH]; intros ts ns ex a SH LT; [lia|].
  destruct ex.
  { split; [intro H; exfalso; exact (extras_rejected _ _ _ _ H)|intros [? _]; discriminate]. }
  rewrite loop_step.
  (* one option *)
  assert (AO : forall w o r, ts = TOpt w o :: r ->
    (at_option k ns ts false = Parsed a <-> false = false /\ exists its, tline ts its /\ fill ns its = Some a)).
  { intros w o r ->. cbn [length] in LT. pose proof (shape_inv_opt _ _ _ SH) as SR. unfold at_option.
    destruct (o_action o) as [x|] eqn:OA.
    2:{ split; [intro H; exfalso; exact (extras_rejected _ _ _ _ H)|]. intros (_ & its & TL & _). inversion TL; congruence. }
    destruct (consume_optional o x) as [| |y v|h y] eqn:C.
    - split; [discriminate|]. intros (_ & its & TL & _). inversion TL; subst; congruence.
    - split; [discriminate|]. intros (_ & its & TL & _). inversion TL; subst; congruence.
    - destruct (act_of y) as [q ->]. destruct (take_option (act q) (Some v) ns) as [ns'|n] eqn:TO.
      + assert (Q : q <> Help) by (intros ->; discriminate TO).
        pose proof (take_ok q v ns Q) as TK. rewrite TO in TK. destruct TK as (it & V & -> & AF & NF).
        rewrite (IH r (put it ns) false a SR ltac:(lia)). split.
        * intros (_ & its & TL & F). split; [reflexivity|]. exists (it :: its). split; [now apply t_joined with x q v|].
          cbn [fill]. destruct it; [now specialize (NF f)|..]; exact F.
        * intros (_ & its & TL & F). split; [reflexivity|]. inversion TL; subst; try congruence.
          assert (k0 = q /\ v0 = v) as [-> ->] by (assert (CValue (act k0) v0 = CValue (act q) v) as E by congruence;
            injection E as E ->; apply act_inj in E; auto).
          assert (it0 = it) as -> by (match goal with H : value _ _ it0 |- _ => exact (value_unique _ _ _ _ H V) end).
          exists its0. split; [assumption|]. cbn [fill] in F. destruct it; [now specialize (NF f)|..]; exact F.
      + split; [discriminate|]. intros (_ & its & TL & _). inversion TL; subst; try congruence.
        assert (k0 = q /\ v0 = v) as [-> ->] by (assert (CValue (act k0) v0 = CValue (act q) v) as E by congruence;
            injection E as E ->; apply act_inj in E; auto).
        match goal with H : value _ _ _ |- _ => rename H into H4 end. destruct (value_key _ _ _ H4) as [Q _]. pose proof (take_ok q v ns Q) as TK. rewrite TO in TK. destruct TK as [_ TK].
        exfalso. exact (TK _ H4).
    - destruct (act_of y) as [q ->].
      assert (NO : (forall v r', r = TArg v :: r' -> h = true \/ q = Help) ->
         ~ (false = false /\ exists its, tline (TOpt w o :: r) its /\ fill ns its = Some a)).
      { intros NR (_ & its & TL & _). inversion TL; subst; try congruence.
        assert (CFollow h (act q) = CFollow false (act k0)) as E by congruence. injection E as -> E. apply act_inj in E as ->.
        match goal with H : value _ _ _ |- _ => destruct (value_key _ _ _ H) end. destruct (NR _ _ eq_refl); congruence. }
      destruct (takes_argument (act q)) eqn:TA.
      2:{ split; [discriminate|]. intro H. exfalso. revert H. apply NO. intros. right. destruct q; try discriminate. reflexivity. }
      assert (Q : q <> Help) by (intros ->; discriminate TA).
      destruct r as [|[v|w' o'|] r'].
      + split; [discriminate|]. intro H. exfalso. revert H. apply NO. discriminate.
      + destruct h.
        { split; [discriminate|]. intro H. exfalso. revert H. apply NO. auto. }
        cbn [length] in LT. pose proof (shape_inv_arg _ _ SR) as SR'.
        pose proof (take_ok q v ns Q) as TK. destruct (take_option (act q) (Some v) ns) as [ns'|n].
        * destruct TK as (it & V & -> & AF & NF).
          rewrite (IH r' (put it ns) false a SR' ltac:(lia)). split.
          -- intros (_ & its & TL & F). split; [reflexivity|]. exists (it :: its). split; [now apply t_follow with x q|].
             cbn [fill]. destruct it; [now specialize (NF f)|..]; exact F.
          -- intros (_ & its & TL & F). split; [reflexivity|]. inversion TL; subst; try congruence.
             assert (CFollow false (act q) = CFollow false (act k0)) as E by congruence. injection E as E. apply act_inj in E as <-.
             assert (it0 = it) as -> by (match goal with H : value _ _ it0 |- _ => exact (value_unique _ _ _ _ H V) end).
             exists its0. split; [assumption|]. cbn [fill] in F. destruct it; [now specialize (NF f)|..]; exact F.
        * split; [discriminate|]. intros (_ & its & TL & _). inversion TL; subst; try congruence.
          assert (CFollow false (act q) = CFollow false (act k0)) as E by congruence. injection E as E. apply act_inj in E as <-.
          destruct TK as [_ TK]. exfalso. match goal with H : value _ _ _ |- _ => exact (TK _ H) end.
      + split; [discriminate|]. intro H. exfalso. revert H. apply NO. discriminate.
      + split; [discriminate|]. intro H. exfalso. revert H. apply NO. discriminate. }
  destruct (has_option ts) eqn:HO.
  - destruct ts as [|[w|w o|] r]; [discriminate| | |].
    + pose proof (shape_inv_arg _ _ SH) as SR. cbn [length] in LT.
      assert (HR : has_option r = true) by exact HO.
      unfold take_positional. cbn [skip_dashes]. destruct (a_file ns) as [f|] eqn:AF.
      * split.
        { intro H. exfalso. revert H. destruct (skip_to_option (TArg w :: r)) as [|[x|x o|] r']; try discriminate.
          unfold at_option. destruct (o_action o); [|apply extras_rejected]. destruct (consume_optional o a0); try discriminate.
          - destruct (take_option a1 (Some v) ns); [apply extras_rejected|discriminate].
          - destruct (takes_argument a1); [|discriminate]. destruct r' as [|[v| |] r']; try discriminate.
            destruct helped; [discriminate|]. destruct (take_option a1 (Some v) ns); [apply extras_rejected|discriminate]. }
        intros (_ & its & TL & F). exfalso. inversion TL; subst; cbn [fill] in F; rewrite AF in F; discriminate.
      * rewrite (skip_shape r SR HR). rewrite (IH r _ false a SR ltac:(lia)). split.
        -- intros (_ & its & TL & F). split; [reflexivity|]. exists (IFile w :: its). split; [now constructor|].
           cbn [fill]. rewrite AF. exact F.
        -- intros (_ & its & TL & F). split; [reflexivity|]. inversion TL; subst.
           ++ exists its0. split; [assumption|]. cbn [fill] in F. rewrite AF in F. exact F.
           ++ discriminate HR.
    + eapply AO. reflexivity.
    + exfalso. inversion SH; subst. cbn in HO. rewrite no_option_args in HO. discriminate.
  - (* only arguments left *)
    unfold take_positional. destruct (a_file ns) as [f|] eqn:AF.
    + rewrite AF. destruct ts as [|t r].
      * split.
        -- intro E. injection E as <-. split; [reflexivity|]. exists []. split; [constructor|]. cbn. now rewrite AF.
        -- intros (_ & its & TL & F). inversion TL; subst. cbn in F. rewrite AF in F. congruence.
      * split; [discriminate|]. intros (_ & its & TL & F). exfalso.
        inversion TL; subst; try discriminate HO; cbn [fill map] in F; rewrite AF in F; discriminate.
    + (* the file is missing *)
      assert (NF : ~ exists x : arguments, False) by (intros (x & [])).
      destruct ts as [|[w|w o|] r]; [|pose proof (shape_inv_arg _ _ SH) as SR|discriminate|].
      * cbn [skip_dashes]. rewrite AF. split; [discriminate|]. intros (_ & its & TL & F). inversion TL; subst. cbn in F. rewrite AF in F. discriminate.
      * cbn [skip_dashes]. cbn [a_file]. destruct (skip_dashes r) as [|t' r'] eqn:SD.
        -- assert (R : r = [] \/ r = [TDash]).
           { inversion SR; subst; try discriminate; auto. cbn [skip_dashes] in SD. destruct l; [auto|discriminate]. }
           split.
           ++ intro E. injection E as <-. split; [reflexivity|]. exists [IFile w]. split.
              ** destruct R as [->| ->]; [repeat constructor|apply t_end].
              ** cbn [fill put]. rewrite AF. reflexivity.
           ++ intros (_ & its & TL & F).
              assert (its = [IFile w]) as ->.
              { destruct R as [->| ->].
                - inversion TL; subst. match goal with H : tline [] _ |- _ => inversion H end. reflexivity.
                - inversion TL; subst; [|reflexivity]. match goal with H : tline [TDash] _ |- _ => inversion H end. }
              cbn [fill put] in F. rewrite AF in F. cbn [a_file] in F. congruence.
        -- split; [discriminate|]. intros (_ & its & TL & F). exfalso.
           inversion TL; subst; [|discriminate SD]. cbn [fill] in F. rewrite AF in F.
           assert (G : exists w' its', its0 = IFile w' :: its').
           { match goal with H : tline r _ |- _ => inversion H; subst end; try discriminate; cbn [map]; eauto. }
           destruct G as (w' & its' & ->). cbn [fill put a_file] in F. discriminate.
      * assert (exists l, r = map TArg l) as [l ->] by (inversion SH; eauto). cbn [skip_dashes].
        destruct l as [|w l]; cbn [map skip_dashes].
        -- rewrite AF. split; [discriminate|]. intros (_ & its & TL & _). inversion TL.
        -- cbn [a_file]. destruct l as [|w' l]; cbn [map skip_dashes].
           ++ split.
              ** intro E. injection E as <-. split; [reflexivity|]. exists [IFile w]. split; [apply (t_dashes w [])|].
                 cbn [fill put]. rewrite AF. reflexivity.
              ** intros (_ & its & TL & F). inversion TL; subst. destruct r; [|discriminate]. cbn [map fill put] in F. rewrite AF in F. cbn [a_file] in F. congruence.
           ++ split; [discriminate|]. intros (_ & its & TL & F). exfalso. inversion TL; subst. destruct r; [discriminate|].
              cbn [map fill put] in F. rewrite AF in F. cbn [a_file] in F. discriminate.
Qed.

(** ** The arguments gathered *)
Definition pick_i (it : item) : option string := match it with IInstrument x => Some x | _ => None end.
Definition pick_t (it : item) : option string := match it with ITrack x => Some x | _ => None end.
Definition pick_n (it : item) : option Z := match it with ITicks x => Some x | _ => None end.
Lemma fill_ok its : forall ns a, fill ns its = Some a <->
  (exists f, (match a_file ns with Some g => files its = [] /\ f = g | None => files its = [f] end)
     /\ a = mkargs (Some f) (last_given pick_i its (a_instrument ns)) (last_given pick_t its (a_track ns))
              (last_given pick_n its (a_ticks ns))).
Proof.
  induction its as [|it its IH]; intros ns a; cbn [fill files last_given].
  - destruct ns as [[g|] i t n]; cbn [a_file a_instrument a_track a_ticks].
    + split; [intro E; injection E as <-; now exists g|]. intros (f & (_ & ->) & ->). reflexivity.
    + split; [discriminate|]. intros (f & E & _). discriminate.
  - destruct it as [f|x|x|x]; cbn [pick_i pick_t pick_n].
    + destruct ns as [[g|] i t n]; cbn [a_file a_instrument a_track a_ticks put].
      * split; [discriminate|]. intros (? & (E & _) & _). discriminate.
      * rewrite IH. cbn [a_file a_instrument a_track a_ticks]. split.
        -- intros (h & (E & ->) & ->). exists f. rewrite E. auto.
        -- intros (h & E & ->). injection E as -> E. exists h. auto.
    + destruct ns as [[g|] i t n]; cbn [a_file a_instrument a_track a_ticks put]; rewrite IH; reflexivity.
    + destruct ns as [[g|] i t n]; cbn [a_file a_instrument a_track a_ticks put]; rewrite IH; reflexivity.
    + destruct ns as [[g|] i t n]; cbn [a_file a_instrument a_track a_ticks put]; rewrite IH; reflexivity.
Qed.

(** ** How it ends *)
Definition helping (o : opt) : Prop := exists a, o_action o = Some a /\
  (consume_optional o a = CHelp \/ (exists x, consume_optional o a = CFollow true x) \/ consume_optional o a = CFollow false AHelp).
Lemma explicit_takes e : forall h a dd sep y v, consume_explicit h a dd sep e = CValue y v -> takes_argument y = true.
Proof.
  intros h a dd sep y v. destruct (takes_argument a) eqn:T.
  - destruct e; cbn [consume_explicit]; rewrite T; destruct h; try discriminate; intro E; injection E as <- _; exact T.
  - destruct (explicit_leads a dd sep e h T) as [(x & ->)|[->| ->]]; discriminate.
Qed.
Lemma value_takes o a y v : consume_optional o a = CValue y v -> takes_argument y = true.
Proof. unfold consume_optional. destruct (o_arg o); [apply explicit_takes|discriminate]. Qed.
Lemma take_leaves a v ns n : takes_argument a = true -> take_option a (Some v) ns = Leaves n -> n = 2%Z.
Proof.
  destruct a; try discriminate; intros _; cbn [take_option]; try discriminate.
  destruct (int_of_text v); [discriminate|]. congruence.
Qed.
Lemma skip_to ts : has_option ts = true -> exists w o r pre, skip_to_option ts = TOpt w o :: r /\ ts = (pre ++ TOpt w o :: r)%list
  /\ has_option pre = false.
Proof.
  induction ts as [|[w|w o|] r IH]; cbn [has_option existsb orb skip_to_option]; intro H; [discriminate|..].
  - destruct (IH H) as (x & o & r' & pre & E & F & G). exists x, o, r', (TArg w :: pre). rewrite E, F at 1. auto.
  - exists w, o, r, []. auto.
  - destruct (IH H) as (x & o & r' & pre & E & F & G). exists x, o, r', (TDash :: pre). rewrite E, F at 1. auto.
Qed.
Lemma skip_dashes_suffix ts : exists pre, ts = (pre ++ skip_dashes ts)%list.
Proof.
  induction ts as [|[w|w o|] r [pre IH]]; try (now exists []). exists (TDash :: pre). cbn [skip_dashes app]. congruence.
Qed.
Lemma skip_length ts : (length (skip_dashes ts) <= length ts)%nat.
Proof. destruct (skip_dashes_suffix ts) as [pre E]. rewrite E at 2. rewrite app_length. lia. Qed.

Theorem loop_exit fuel : forall ts ns ex n, (length ts < fuel)%nat -> parse_loop fuel ts ns ex = Exit n ->
  n = 2%Z \/ (n = 0%Z /\ exists w o, In (TOpt w o) ts /\ helping o).
Proof.
  induction fuel as [|k IH]; intros ts ns ex n LT; [lia|].
  assert (AO : forall w o r ns ex, at_option k ns (TOpt w o :: r) ex = Exit n -> (length (TOpt w o :: r) <= k)%nat ->
     n = 2%Z \/ (n = 0%Z /\ exists x p, In (TOpt x p) (TOpt w o :: r) /\ helping p)).
  { clear ts ns ex LT. intros w o r ns ex E L. cbn [length] in L. unfold at_option in E.
    assert (SUB : forall r' ns' ex', (length r' < k)%nat -> (forall t, In t r' -> In t r) -> parse_loop k r' ns' ex' = Exit n ->
       n = 2%Z \/ (n = 0%Z /\ exists x p, In (TOpt x p) (TOpt w o :: r) /\ helping p)).
    { intros r' ns' ex' L' I P. destruct (IH _ _ _ _ L' P) as [->|[-> (x & p & H & HP)]]; [now left|]. right. split; [reflexivity|].
      exists x, p. split; [right; now apply I|exact HP]. }
    destruct (o_action o) as [a|] eqn:OA; [|apply (SUB r ns true); auto; lia].
    destruct (consume_optional o a) as [| |y v|h y] eqn:C.
    - left. congruence.
    - right. split; [congruence|]. exists w, o. split; [now left|]. exists a. auto.
    - destruct (take_option y (Some v) ns) as [ns'|m] eqn:T; [apply (SUB r ns' ex); auto; lia|].
      injection E as <-. left. exact (take_leaves _ _ _ _ (value_takes _ _ _ _ C) T).
    - destruct (takes_argument y) eqn:TA.
      + destruct r as [|[v| |] r']; try (left; congruence). destruct h.
        * right. split; [congruence|]. exists w, o. split; [now left|]. exists a. eauto.
        * destruct (take_option y (Some v) ns) as [ns'|m] eqn:T.
          -- apply (SUB r' ns' ex); [cbn in L; lia|intros; now right|exact E].
          -- injection E as <-. left. exact (take_leaves _ _ _ _ TA T).
      + right. split; [congruence|]. exists w, o. split; [now left|]. exists a. split; [assumption|]. destruct y; try discriminate.
        destruct h; eauto. }
  rewrite loop_step. destruct (has_option ts) eqn:HO.
  - assert (G : match take_positional ns ts with Some (ns, ts) => parse_loop k ts ns ex | None => at_option k ns (skip_to_option ts) true end = Exit n ->
       n = 2%Z \/ (n = 0%Z /\ exists w o, In (TOpt w o) ts /\ helping o)).
    { destruct (take_positional ns ts) as [[ns' ts']|] eqn:TP.
      - intro E. unfold take_positional in TP. destruct (a_file ns); [discriminate|].
        destruct (skip_dashes_suffix ts) as [pre EP]. destruct (skip_dashes ts) as [|[w| |] r]; try discriminate.
        injection TP as _ <-. destruct (skip_dashes_suffix r) as [pre' EP'].
        assert (L : (length (skip_dashes r) < k)%nat).
        { rewrite EP in LT. rewrite app_length in LT. cbn [length] in LT. pose proof (skip_length r). lia. }
        destruct (IH _ _ _ _ L E) as [->|[-> (x & p & H & HP)]]; [now left|]. right. split; [reflexivity|].
        exists x, p. split; [|exact HP]. rewrite EP. apply in_or_app. right. right. rewrite EP'. apply in_or_app. now right.
      - destruct (skip_to ts HO) as (w & o & r & pre & E & F & _). rewrite E. intro P.
        assert (L : (length (TOpt w o :: r) <= k)%nat) by (rewrite F in LT; rewrite app_length in LT; lia).
        destruct (AO _ _ _ _ _ P L) as [->|[-> (x & p & H & HP)]]; [now left|]. right. split; [reflexivity|].
        exists x, p. split; [|exact HP]. rewrite F. apply in_or_app. now right. }
    destruct ts as [|[w|w o|] r]; try exact G. intro P. apply (AO _ _ _ _ _ P). cbn [length] in *. lia.
  - destruct (match take_positional ns ts with Some x => x | None => (ns, ts) end) as [ns' ts']. intro E. left.
    destruct (a_file ns'); [|congruence]. destruct ts'; [|congruence]. destruct ex; congruence.
Qed.
Lemma token_word ws : forall ts w o, tokens ws = Some ts -> In (TOpt w o) ts ->
  exists pre post, ws = (pre ++ w :: post)%list /\ ~ In "--" pre /\ w <> "--" /\ parse_optional w = WOption o.
Proof.
  induction ws as [|x ws IH]; intros ts w o T I; [injection T as <-; contradiction|].
  destruct (tokens_cons _ _ _ T) as [(-> & ->)|[(N & A & t & T' & ->)|(N & o' & t & P & T' & ->)]].
  - exfalso. destruct I as [I|I]; [discriminate|]. apply in_map_iff in I as (? & I & _). discriminate.
  - destruct I as [I|I]; [discriminate|]. destruct (IH _ _ _ T' I) as (pre & post & -> & B & C).
    exists (x :: pre), post. split; [reflexivity|]. split; [intros [->|H]; [congruence|auto]|exact C].
  - destruct I as [I|I].
    + injection I as -> ->. exists [], ws. repeat split; auto.
    + destruct (IH _ _ _ T' I) as (pre & post & -> & B & C).
      exists (x :: pre), post. split; [reflexivity|]. split; [intros [->|H]; [congruence|auto]|exact C].
Qed.
Lemma helping_word w o : w <> "--" -> parse_optional w = WOption o -> helping o -> help_word w.
Proof.
  intros N P (a & OA & H).
  destruct (word_cases w N) as [[Q _]|[[Q _]|[(o' & Q & Q')|[(k' & v' & _ & J & M')|[(k' & NM & M')|[(B & _)|M']]]]]].
  1-3: congruence.
  2:{ destruct H as [H|[(x & H)|H]]; pose proof (meaning_fun _ _ _ (option_word _ _ _ _ N P OA H) M') as E; try discriminate.
      injection E as E. destruct k'; try discriminate. now right. }
  2:{ now left. }
  all: exfalso; destruct H as [H|[(x & H)|H]]; pose proof (meaning_fun _ _ _ (option_word _ _ _ _ N P OA H) M') as E; discriminate.
Qed.

(** Help that is reached. *)
Inductive helped : list token -> Prop :=
| h_here w o r : o_action o = Some AHelp -> consume_optional o AHelp = CFollow false AHelp -> helped (TOpt w o :: r)
| h_arg w r : helped r -> helped (TArg w :: r)
| h_unknown w o r : o_action o = None -> helped r -> helped (TOpt w o :: r)
| h_joined w o a k v it r : o_action o = Some a -> consume_optional o a = CValue (act k) v -> value k v it ->
    helped r -> helped (TOpt w o :: r)
| h_follow w o a k v it r : o_action o = Some a -> consume_optional o a = CFollow false (act k) -> value k v it ->
    helped r -> helped (TOpt w o :: TArg v :: r).
Lemma helped_skip ts : helped ts -> has_option ts = true /\ skip_dashes ts = ts
  /\ exists w o r, skip_to_option ts = TOpt w o :: r /\ helped (TOpt w o :: r) /\ (length (TOpt w o :: r) <= length ts)%nat.
Proof.
  induction 1 as [w o r A C|w r H (IH1 & IH2 & w' & o & r' & IH3 & IH4 & IH5)|w o r A H IH|w o a k v it r A C V H IH|w o a k v it r A C V H IH].
  - split; [reflexivity|]. split; [reflexivity|]. exists w, o, r. split; [reflexivity|]. split; [now constructor|lia].
  - split; [exact IH1|]. split; [reflexivity|]. exists w', o, r'. split; [exact IH3|]. split; [exact IH4|]. cbn [length] in *. lia.
  - split; [reflexivity|]. split; [reflexivity|]. exists w, o, r. split; [reflexivity|]. split; [now apply h_unknown|lia].
  - split; [reflexivity|]. split; [reflexivity|]. exists w, o, r. split; [reflexivity|]. split; [now apply h_joined with a k v it|lia].
  - split; [reflexivity|]. split; [reflexivity|]. exists w, o, (TArg v :: r). split; [reflexivity|]. split; [now apply h_follow with a k it|lia].
Qed.
Theorem loop_helped fuel : forall ts ns ex, helped ts -> (length ts < fuel)%nat -> parse_loop fuel ts ns ex = Exit 0.
Proof.
  induction fuel as [|k IH]; intros ts ns ex H LT; [lia|].
  assert (AO : forall w o r ns ex, helped (TOpt w o :: r) -> (length (TOpt w o :: r) <= k)%nat -> at_option k ns (TOpt w o :: r) ex = Exit 0).
  { clear ts ns ex H LT. intros w o r ns ex H L. cbn [length] in L. unfold at_option.
    inversion H as [w0 o0 r0 A C|w0 r0 H0|w0 o0 r0 A H0|w0 o0 a q v it r0 A C V H0|w0 o0 a q v it r0 A C V H0]; subst.
    - rewrite A, C. reflexivity.
    - rewrite A. apply IH; [assumption|lia].
    - rewrite A, C. destruct (value_key _ _ _ V) as [K _]. pose proof (take_ok q v ns K) as TK.
      destruct (take_option (act q) (Some v) ns); [apply IH; [assumption|lia]|]. destruct TK as [_ TK]. exfalso. exact (TK _ V).
    - rewrite A, C. destruct (value_key _ _ _ V) as [K _]. rewrite (takes_act q K). pose proof (take_ok q v ns K) as TK. cbn [length] in L.
      destruct (take_option (act q) (Some v) ns); [apply IH; [assumption|lia]|]. destruct TK as [_ TK]. exfalso. exact (TK _ V). }
  rewrite loop_step. destruct (helped_skip ts H) as (HO & SD & w & o & r & ST & HS & LS). rewrite HO.
  destruct ts as [|[x|x p|] r']; [discriminate| | |inversion H].
  - unfold take_positional. destruct (a_file ns).
    + rewrite ST. apply AO; [assumption|]. cbn [length] in *. lia.
    + cbn [skip_dashes]. inversion H as [|? ? H1| | |]; subst. destruct (helped_skip r' H1) as (_ & SD' & _). rewrite SD'. apply IH; [assumption|cbn [length] in LT; lia].
  - apply AO; [exact H|]. cbn [length] in *. lia.
Qed.
Lemma tokens_total ws : (forall w, In w ws -> ambiguous w -> w = "--") -> exists ts, tokens ws = Some ts.
Proof.
  induction ws as [|w ws IH]; intro H; [now exists []|]. cbn [tokens].
  destruct (String.eqb_spec w "--") as [->|N]; [eauto|].
  destruct IH as [ts ->]; [intros; apply H; [now right|assumption]|].
  destruct (parse_optional w) eqn:P; cbn [option_map]; eauto. exfalso. apply N. apply H; [now left|].
  destruct (word_cases w N) as [[Q _]|[[_ A]|[(o & Q & _)|[(k & v & _ & _ & M)|[(k & _ & M)|[(_ & [M|(a & M)])|M]]]]]];
      try assumption; try congruence; destruct M as (o & x & Q & _); congruence.
Qed.
Lemma line_helped pre its : line pre its -> ~ In "--" pre -> forall h post ts,
  names h Help -> tokens post = Some ts -> exists tl, tokens (pre ++ h :: post) = Some tl /\ helped tl.
Proof.
  induction 1 as [|w r its A L IH|w k v it r its J V L IH|w k v it r its N A V L IH|w r|w A]; intros ND h post ts NH T; cbn [app].
  - assert (NE : h <> "--").
    { intros ->. destruct NH as [NH|[_ U]]; [discriminate|]. assert (Track = Help) by (apply U; now exists "track"). discriminate. }
    assert (M : meaning h (CFollow false AHelp)).
    { destruct (names_dd _ _ NH) as [->|(E & NW & n' & ->)]; [eexists _, _; repeat split|].
      assert (NE' : no_eq ("--" ++ n')) by exact (names_no_eq _ _ NH).
      pose proof (long_class ("--" ++ n') n' None eq_refl NW (partition_id _ NE')) as C. rewrite E in C.
      eexists _, _. split; [exact C|]. split; reflexivity. }
    destruct M as (o & a & P & OA & C). exists (TOpt h o :: ts). split.
    + cbn [tokens]. destruct (String.eqb_spec h "--"); [contradiction|]. rewrite P, T. reflexivity.
    + assert (a = AHelp) as ->.
      { unfold consume_optional in C. destruct (o_arg o) as [v|]; [|congruence].
        destruct (takes_argument a) eqn:TA; [|destruct a; try discriminate; reflexivity].
        destruct v; cbn [consume_explicit] in C; rewrite TA in C; discriminate. }
      now constructor.
  - destruct (IH ltac:(intro; apply ND; now right) h post ts NH T) as (tl & E & H).
    exists (TArg w :: tl). split; [now apply argument_token|now constructor].
  - destruct (IH ltac:(intro; apply ND; now right) h post ts NH T) as (tl & E & H). destruct (value_key _ _ _ V) as [K _].
    destruct (meaning_token _ _ _ _ (meaning_joined _ _ _ K J) E) as (o & a & E' & OA & C).
    exists (TOpt w o :: tl). split; [exact E'|]. now apply h_joined with a k v it.
  - destruct (IH ltac:(intro; apply ND; right; now right) h post ts NH T) as (tl & E & H). destruct (value_key _ _ _ V) as [K _].
    destruct (meaning_token _ _ _ _ (meaning_bare _ _ K N) (argument_token _ _ _ A E)) as (o & a & E' & OA & C).
    exists (TOpt w o :: TArg v :: tl). split; [exact E'|]. now apply h_follow with a k it.
  - exfalso. apply ND. now left.
  - exfalso. apply ND. right. now left.
Qed.
