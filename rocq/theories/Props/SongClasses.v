(** C104: the record classes of the song format, as a library. *)
From Coq Require Import Lia.
From Verif.Model Require Import Py Dataclass Dao.
From Verif.Spec Require Import Text SongFile SongClasses.
From Verif.Proofs Require Import PyLemmas DocumentProofs SongClassesProofs.
Open Scope string_scope.
Open Scope list_scope.
Open Scope Z_scope.

(** C104: a constructor called with keywords takes exactly the class's attributes
    that have no fixed value (TypeError otherwise), whatever the order; the instance
    has the values given and otherwise None, an empty list in the classes that only
    hold lists, or the fixed value. *)
Theorem C104_constructor : forall c fs kw, In (c, fs) song_classes -> NoDup (map fst kw) ->
  ((forall k, In k (map fst kw) -> In k (takes c fs)) ->
     exists l, new fs [] kw = Ok (VObj l) /\ map fst l = map fd_meta fs /\
       forall a, In a (attributes_of fs) ->
         holds l a = Some (match given_for a kw with Some v => v | None => unset c a end)) /\
  ((exists k, In k (map fst kw) /\ ~ In k (takes c fs)) -> new fs [] kw = Err TypeError).
Proof.
  intros c fs kw Hc N. rewrite <- (settable_takes c fs Hc). split.
  - intro H. pose proof (f_attrs c fs (class_facts c fs Hc)) as Nd.
    exists (map (filled kw) fs). unfold new. rewrite (fill_ok fs kw Nd N H). cbn [bind]. split; [reflexivity|].
    split; [now rewrite map_map|]. intros a Ha.
    destruct (holds_map (fun f => snd (filled kw f)) fs a Nd Ha) as (f & Hf & Ea & E).
    change (map (filled kw) fs) with (map (fun f => (fd_meta f, snd (filled kw f))) fs). rewrite E. f_equal.
    unfold filled. cbn [snd]. destruct (field_init c f (f_fields c fs (class_facts c fs Hc) f Hf)) as [Ei Ed].
    rewrite Ea in *. destruct (fd_init f) eqn:I.
    + destruct (given_for a kw); [reflexivity|exact Ed].
    + destruct (given_for a kw) as [v|] eqn:G; [|exact Ed]. exfalso.
      assert (Hk : In a (settable fs)).
      { apply H. clear - G. induction kw as [|[b w] kw IH]; [discriminate|]. cbn in *.
        destruct (String.eqb_spec b a); [now left|right; now apply IH]. }
      rewrite (settable_takes c fs Hc) in Hk. unfold takes in Hk. apply filter_In in Hk as [_ Hk].
      destruct (given_for a (preset c)); discriminate.
  - intro H. unfold new. now rewrite fill_bad.
Qed.
Print Assumptions C104_constructor.

(** C104: positional arguments are the takable attributes in the order of the
    declarations; too many are a TypeError. *)
Theorem C104_positional : forall c fs pos kw, In (c, fs) song_classes ->
  ((length pos <= length (takes c fs))%nat ->
   (forall k, In k (map fst kw) -> ~ In k (firstn (length pos) (takes c fs))) ->
   new fs pos kw = new fs [] (combine (takes c fs) pos ++ kw)) /\
  ((length (takes c fs) < length pos)%nat -> new fs pos kw = Err TypeError).
Proof.
  intros c fs pos kw Hc. rewrite <- (settable_takes c fs Hc). unfold new. split.
  - intros L H. now rewrite (fill_pos fs pos kw (f_attrs c fs (class_facts c fs Hc)) L H).
  - intro L. now rewrite fill_many.
Qed.
Print Assumptions C104_positional.

(** C104: assigning an attribute changes that attribute and no other. *)
Theorem C104_assign : forall l a v, exists l', set_field a v (VObj l) = VObj l' /\ map fst l' = map fst l /\
  forall b, holds l' b = if String.eqb b a then option_map (fun _ => v) (holds l b) else holds l b.
Proof.
  intros l a v. eexists. split; [reflexivity|]. split.
  - rewrite map_map. apply map_ext. intros [m w]. cbn. now destruct (String.eqb (fm_attr m) a).
  - intro b. apply set_holds.
Qed.
Print Assumptions C104_assign.

(** C104: whatever is built from the classes is written completely: every attribute
    as elements named after it, None as nothing, lists item by item in order, numbers
    as numerals, flags as true or false; nothing else is written, and (but for the
    devices) in the order of the declarations.  With C61/C81 for the text. *)
Theorem C104_written : forall v t, made v -> says t v (write t v).
Proof. intros v t H. now apply made_write. Qed.
Print Assumptions C104_written.

Definition kw_line : list (string * pyval) := [("note", VStr "C-4"); ("instrument", VStr "01")].
Example C104_takes_example : takes "SequencerTrack" SequencerTrack_fields <> attributes_of SequencerTrack_fields
  /\ takes "Pattern" Pattern_fields = ["name"; "number_of_lines"; "tracks"; "type"].
Proof. split; vm_compute; [discriminate|reflexivity]. Qed.
Example C104_example : exists o, new PatternLineNoteColumnNode_fields [] kw_line = Ok o /\ made o /\
  write "NoteColumn" o = [Node "NoteColumn" [] "" [Node "Note" [] "C-4" []; Node "Instrument" [] "01" []]].
Proof.
  eexists. split; [reflexivity|]. split; [|reflexivity].
  apply (made_object "PatternLineNoteColumnNode" PatternLineNoteColumnNode_fields); [|reflexivity| |].
  - unfold song_classes. cbn [In]. do 24 right. now left.
  - intros a v H. unfold holds in H. destruct (find _ _) as [[m w]|] eqn:E; [|discriminate]. injection H as <-.
    apply find_some in E as [E _]. cbn [In] in E.
    repeat (destruct E as [E|E]; [injection E as <- <-; repeat constructor|]). destruct E.
  - intros a v H _. unfold holds in H. destruct (find _ _) as [[m w]|] eqn:E; [|discriminate]. injection H as <-.
    apply find_some in E as [E _]. cbn [In] in E.
    repeat (destruct E as [E|E]; [injection E as <- <-; (left; reflexivity) || (right; constructor)|]). destruct E.
Qed.
Example C104_wrong_keyword : new Pattern_fields [] [("nome", VStr "x")] = Err TypeError
  /\ new SequencerTrack_fields [] [("type", VStr "x")] = Err TypeError.
Proof. split; reflexivity. Qed.
