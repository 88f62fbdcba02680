(** C92, C93, C94: several runs of the script. *)
From Coq Require Import Lia Permutation.
From Verif.Model Require Import Py Command Core Config PyFloat Note State Ticks Song Serializer Dataclass Dao Document XmlText
  Zip Json Extract History Main MainBytes Argparse Script.
From Verif.Spec Require Import VgmFormat Ym2151 Rhythm Cli Whole ZipReader SongArchive ByteDisk CommandLine Batch.
From Verif.Proofs Require Import PyLemmas BatchProofs.
From Verif.Props Require Import Reader Chip Cli Arguments Archive Bytes Script.
Open Scope string_scope.
Open Scope list_scope.
Open Scope Z_scope.

(** ** C92: repeating a run *)

(** What a run does and prints, and its exit status, depend on no file but its input;
    what it leaves in a file it writes does not depend on what was there; it leaves all
    other files alone. *)
Theorem C92_input_only : forall g w ierr D D' c,
  (forall f, reads c f -> D f = D' f) ->
  actions g w ierr D c = actions g w ierr D' c
  /\ forall m, alone g w ierr D c m = alone g w ierr D' c m
       \/ (alone g w ierr D c m = D m /\ alone g w ierr D' c m = D' m).
Proof.
  intros g w ierr D D' c H. pose proof (script_input g w ierr D D' c H) as E. split; [exact E|]. intros m.
  unfold alone. rewrite <- E, !after_at.
  destruct (script_good g w ierr D c m) as [G|((r & G & _) & _)]; rewrite G; [right; split; reflexivity|left; reflexivity].
Qed.
Print Assumptions C92_input_only.

Lemma attempts_keep g w ierr ws D D' : attempts g w ierr ws D D' ->
  (forall now f, reads (ws, now) f -> ~ writes (ws, now) f) ->
  (forall now f, reads (ws, now) f -> D' f = D f)
  /\ (forall now m, on m (fst (actions g w ierr D (ws, now))) = [] -> D' m = D m).
Proof.
  intros A N. induction A as [D|D now D1 D2 S A IH]; [auto|].
  assert (R : forall now f, reads (ws, now) f -> D1 f = D f).
  { intros now' f Rf. apply (stopped_at _ _ _ f S). apply script_quiet. exact (N now f Rf). }
  destruct IH as [IH1 IH2]. split.
  - intros now' f Rf. rewrite (IH1 now' f Rf). exact (R now' f Rf).
  - intros now' m E. rewrite (IH2 now' m).
    + apply (stopped_at _ _ _ m S). exact (script_times g w ierr D ws now' now m E).
    + rewrite (script_input g w ierr D1 D (ws, now') (R now')). exact E.
Qed.
(** Any number of attempts, at any times, each killed at any moment (or complete): if
    the input is not among the outputs, the next run, if it is let, does exactly what it
    would have done at first, and leaves every file as it would have then. *)
Theorem C92_retry : forall g w ierr ws D D' now,
  (forall f, reads (ws, now) f -> ~ writes (ws, now) f) ->
  attempts g w ierr ws D D' ->
  actions g w ierr D' (ws, now) = actions g w ierr D (ws, now)
  /\ forall m, alone g w ierr D' (ws, now) m = alone g w ierr D (ws, now) m.
Proof.
  intros g w ierr ws D D' now N A. destruct (attempts_keep _ _ _ _ _ _ A (fun _ => N)) as [K1 K2].
  pose proof (script_input g w ierr D' D (ws, now) (K1 now)) as E. split; [exact E|]. intros m.
  unfold alone. rewrite E, !after_at.
  destruct (script_good g w ierr D (ws, now) m) as [G|((r & G & _) & _)]; rewrite G; [|reflexivity].
  exact (K2 now m G).
Qed.
Print Assumptions C92_retry.
(** In particular a second run with the same clock changes nothing. *)
Theorem C92_again : forall g w ierr c D,
  (forall f, reads c f -> ~ writes c f) ->
  let D' := alone g w ierr D c in
  actions g w ierr D' c = actions g w ierr D c /\ forall m, alone g w ierr D' c m = D' m.
Proof.
  intros g w ierr [ws now] D N D'.
  assert (A : attempts g w ierr ws D D') by (eapply attempt; [apply stopped_end|apply no_attempt]).
  exact (C92_retry g w ierr ws D D' now N A).
Qed.
Print Assumptions C92_again.

(** ** C93: runs in any order, and at the same time *)
Section Parallel.
  Variable g : list Z -> res (list Z).
  Variable w : string -> bool.
  Variable ierr : option exn.
  Variable D0 : storage.

  (** What a run has done so far, as if it were alone. *)
  Inductive own (c : command) : status -> storage -> Prop :=
  | own_waiting : own c Waiting D0
  | own_running d r : d ++ r = fst (actions g w ierr D0 c) -> own c (Running r) (disk_after d D0)
  | own_killed Dk : stopped (fst (actions g w ierr D0 c)) D0 Dk -> own c Killed Dk.
  Definition agrees (D : storage) (p : command * status) : Prop :=
    exists Dc, own (fst p) (snd p) Dc /\ forall m, writes (fst p) m -> D m = Dc m.

  Lemma own_about c a r d m : d ++ a :: r = fst (actions g w ierr D0 c) -> about m a = true -> writes c m.
  Proof.
    intros E A. destruct (script_good g w ierr D0 c m) as [G|(_ & H)]; [|exact H]. exfalso.
    rewrite <- E, filter_app in G. cbn [filter] in G. rewrite A in G. destruct (on m d); discriminate G.
  Qed.
  Lemma stopped_prefix d l D D' : stopped l (disk_after d D) D' -> stopped (d ++ l) D D'.
  Proof.
    revert D. induction d as [|a d IH]; intros D H; [exact H|]. cbn [app]. apply stopped_later. apply IH. exact H.
  Qed.
  Lemma pairs_apart (l : list command) p c q : ForallOrdPairs (fun c c' => forall m, writes c m -> ~ writes c' m) l ->
    l = p ++ c :: q -> forall c' m, In c' p \/ In c' q -> writes c' m -> ~ writes c m.
  Proof.
    intros F. revert p. induction F as [|a l A F IH]; intros p E; [destruct p; discriminate E|].
    destruct p as [|b p]; cbn [app] in E; injection E as <- E.
    - subst l. intros c' m [[]|I] W W'. rewrite Forall_forall in A. exact (A c' I m W' W).
    - subst l. intros c' m [[<-|I]|I] W W'.
      + rewrite Forall_forall in A. exact (A c ltac:(apply in_or_app; right; left; reflexivity) m W W').
      + exact (IH p eq_refl c' m (or_introl I) W W').
      + exact (IH p eq_refl c' m (or_intror I) W W').
  Qed.

  Definition nobody (l : list command) (D : storage) : Prop :=
    forall m, (forall c, In c l -> ~ writes c m) -> D m = D0 m.

  (** Another run's action: it touches only that run's outputs. *)
  Lemma agrees_other D D' p c : agrees D p -> (forall m, writes (fst p) m -> ~ writes c m) ->
    (forall m, ~ writes c m -> D' m = D m) -> agrees D' p.
  Proof.
    intros (Dc & O & H) N S. exists Dc. split; [exact O|]. intros m W. rewrite S; auto.
  Qed.
  Lemma step_ok l p D p' D' : apart l -> map fst p = l -> moves g w ierr p D p' D' ->
    Forall (agrees D) p -> nobody l D ->
    map fst p' = l /\ Forall (agrees D') p' /\ nobody l D'.
  Proof.
    intros (AR & AW) L M F NB.
    assert (Split : forall a c s b, p = a ++ (c, s) :: b -> l = map fst a ++ c :: map fst b).
    { intros a c s b ->. rewrite map_app in L. symmetry. exact L. }
    assert (Others : forall a c s b, p = a ++ (c, s) :: b -> forall x, In x a \/ In x b -> forall m, writes (fst x) m -> ~ writes c m).
    { intros a c s b E x I m. apply (pairs_apart l (map fst a) c (map fst b) AW (Split _ _ _ _ E)).
      destruct I as [I|I]; [left|right]; apply in_map; exact I. }
    assert (Here : forall a c s b, p = a ++ (c, s) :: b -> In c l).
    { intros a c s b E. rewrite (Split _ _ _ _ E). apply in_or_app. right. left. reflexivity. }
    destruct M as [a c b D|a c x r b D|a c r b D|a c n o y z r b D].
    - split; [rewrite map_app in *; exact L|]. split; [|exact NB].
      apply Forall_app in F as (Fa & F). inversion F as [|? ? (Dc & O & H) Fb]; subst. apply Forall_app. split; [exact Fa|].
      constructor; [|exact Fb]. cbn [fst snd] in *. inversion O; subst. exists D0. split; [|exact H].
      assert (E : actions g w ierr D c = actions g w ierr D0 c).
      { apply script_input. intros f Rf. apply NB. intros c' I'. exact (AR c c' f (Here _ _ _ _ eq_refl) I' Rf). }
      rewrite E. exact (own_running c [] _ eq_refl).
    - split; [rewrite map_app in *; exact L|].
      apply Forall_app in F as (Fa & F). inversion F as [|? ? (Dc & O & H) Fb]; subst. cbn [fst snd] in *.
      inversion O as [|d r' E|]; subst.
      assert (S : forall m, ~ writes c m -> act D x m = D m).
      { intros m N. rewrite act_at. destruct (about m x) eqn:A; [|reflexivity]. destruct (N (own_about c x r d m E A)). }
      split.
      + apply Forall_app. split; [|constructor].
        * apply Forall_forall. intros y I. apply (agrees_other D _ y c); [now apply (proj1 (Forall_forall _ _) Fa)| |exact S].
          exact (Others _ _ _ _ eq_refl y (or_introl I)).
        * exists (disk_after (d ++ [x]) D0). split; [apply own_running; rewrite <- app_assoc; exact E|].
          intros m W. unfold disk_after in *. rewrite fold_left_app. cbn [fold_left fst] in *. rewrite !act_at, (H m W). reflexivity.
        * apply Forall_forall. intros y I. apply (agrees_other D _ y c); [now apply (proj1 (Forall_forall _ _) Fb)| |exact S].
          exact (Others _ _ _ _ eq_refl y (or_intror I)).
      + intros m N. rewrite S; [exact (NB m N)|]. apply N. exact (Here _ _ _ _ eq_refl).
    - split; [rewrite map_app in *; exact L|]. split; [|exact NB].
      apply Forall_app in F as (Fa & F). inversion F as [|? ? (Dc & O & H) Fb]; subst. apply Forall_app. split; [exact Fa|].
      constructor; [|exact Fb]. cbn [fst snd] in *. inversion O as [|d r' E|]; subst. exists (disk_after d D0). split; [|exact H].
      apply own_killed. cbn [fst]. rewrite <- E. apply stopped_prefix. apply stopped_here.
    - split; [rewrite map_app in *; exact L|].
      apply Forall_app in F as (Fa & F). inversion F as [|? ? (Dc & O & H) Fb]; subst. cbn [fst snd] in *.
      inversion O as [|d r' E|]; subst.
      assert (S : forall m, ~ writes c m -> act D (Put n o y) m = D m).
      { intros m N. rewrite act_at. destruct (about m (Put n o y)) eqn:A; [|reflexivity].
        destruct (N (own_about c (Put n o (y ++ z)) r d m E A)). }
      split.
      + apply Forall_app. split; [|constructor].
        * apply Forall_forall. intros v I. apply (agrees_other D _ v c); [now apply (proj1 (Forall_forall _ _) Fa)| |exact S].
          exact (Others _ _ _ _ eq_refl v (or_introl I)).
        * exists (act (disk_after d D0) (Put n o y)). split.
          -- apply own_killed. cbn [fst]. rewrite <- E. apply stopped_prefix. apply stopped_within.
          -- cbn [fst]. intros m W. rewrite !act_at, (H m W). reflexivity.
        * apply Forall_forall. intros v I. apply (agrees_other D _ v c); [now apply (proj1 (Forall_forall _ _) Fb)| |exact S].
          exact (Others _ _ _ _ eq_refl v (or_intror I)).
      + intros m N. rewrite S; [exact (NB m N)|]. apply N. exact (Here _ _ _ _ eq_refl).
  Qed.
  Lemma schedule_ok l p D p' D' : apart l -> schedule g w ierr p D p' D' -> map fst p = l ->
    Forall (agrees D) p -> nobody l D ->
    map fst p' = l /\ Forall (agrees D') p' /\ nobody l D'.
  Proof.
    intros A S. induction S as [p D|p D p1 D1 p2 D2 M S IH]; intros L F N; [auto|].
    destruct (step_ok l p D p1 D1 A L M F N) as (L1 & F1 & N1). exact (IH L1 F1 N1).
  Qed.
End Parallel.

(** Runs that are apart, started in any order, their actions interleaved in any way,
    any of them killed at any moment: a run that got to its end has done exactly what it
    would have done alone, and its outputs are those; a run not yet started has changed
    nothing; a run that was killed has left its outputs as a kill would alone (see C86);
    a run under way has done some first part of its actions; all other files are as
    before. *)
Theorem C93_parallel : forall g w ierr l D p D',
  apart l -> schedule g w ierr (map (fun c => (c, Waiting)) l) D p D' ->
  map fst p = l
  /\ (forall c, In (c, Running []) p -> forall m, writes c m -> D' m = alone g w ierr D c m)
  /\ (forall c, In (c, Waiting) p -> forall m, writes c m -> D' m = D m)
  /\ (forall c, In (c, Killed) p -> exists Dk, stopped (fst (actions g w ierr D c)) D Dk /\ forall m, writes c m -> D' m = Dk m)
  /\ (forall c r, In (c, Running r) p -> exists d, d ++ r = fst (actions g w ierr D c)
        /\ forall m, writes c m -> D' m = disk_after d D m)
  /\ (forall m, (forall c, In c l -> ~ writes c m) -> D' m = D m).
Proof.
  intros g w ierr l D p D' A S.
  destruct (schedule_ok g w ierr D l _ D p D' A S) as (L & F & N).
  - rewrite map_map. apply map_id.
  - apply Forall_forall. intros x I. apply in_map_iff in I as (c & <- & _). exists D. split; [constructor|reflexivity].
  - intros m _. reflexivity.
  - rewrite Forall_forall in F. split; [exact L|]. split; [|split; [|split; [|split; [|exact N]]]].
    + intros c I m W. destruct (F _ I) as (Dc & O & H). cbn [fst snd] in *. inversion O as [|d r E|]; subst.
      rewrite app_nil_r in E. rewrite (H m W). unfold alone. rewrite E. reflexivity.
    + intros c I m W. destruct (F _ I) as (Dc & O & H). cbn [fst snd] in *. inversion O; subst. exact (H m W).
    + intros c I. destruct (F _ I) as (Dc & O & H). cbn [fst snd] in *. inversion O; subst. exists Dc. split; assumption.
    + intros c r I. destruct (F _ I) as (Dc & O & H). cbn [fst snd] in *. inversion O as [|d r' E|]; subst. exists d. split; assumption.
Qed.
Print Assumptions C93_parallel.

(** One after the other, the same. *)
Lemma in_turn_other g w ierr l : forall D m, (forall c, In c l -> ~ writes c m) -> in_turn g w ierr l D m = D m.
Proof.
  induction l as [|c l IH]; intros D m N; [reflexivity|]. unfold in_turn in *. cbn [fold_left].
  rewrite IH by (intros; apply N; right; assumption). unfold alone. rewrite after_at, script_quiet; [reflexivity|].
  apply N. left. reflexivity.
Qed.
Lemma in_turn_writes g w ierr D l : forall E, apart l ->
  (forall c f, In c l -> reads c f -> E f = D f) -> (forall c m, In c l -> writes c m -> E m = D m) ->
  forall c m, In c l -> writes c m -> in_turn g w ierr l E m = alone g w ierr D c m.
Proof.
  induction l as [|c0 l IH]; intros E (AR & AW) HR HW c m I W; [destruct I|].
  inversion AW as [|? ? A1 A2]; subst. rewrite Forall_forall in A1.
  unfold in_turn. cbn [fold_left]. change (in_turn g w ierr l (alone g w ierr E c0) m = alone g w ierr D c m).
  assert (K : forall m, ~ writes c0 m -> alone g w ierr E c0 m = E m).
  { intros m' N. unfold alone. rewrite after_at, script_quiet by exact N. reflexivity. }
  destruct I as [<-|I].
  - rewrite in_turn_other.
    + unfold alone. rewrite (script_input g w ierr E D c0) by (intros f Rf; exact (HR c0 f (or_introl eq_refl) Rf)).
      rewrite !after_at, (HW c0 m (or_introl eq_refl) W). reflexivity.
    + intros c' I' W'. exact (A1 c' I' m W W').
  - apply IH; [split| | |exact I|exact W].
    + intros c1 c2 f I1 I2. apply AR; right; assumption.
    + exact A2.
    + intros c' f I' Rf. rewrite K; [exact (HR c' f (or_intror I') Rf)|].
      exact (AR c' c0 f (or_intror I') (or_introl eq_refl) Rf).
    + intros c' m' I' W'. rewrite K; [exact (HW c' m' (or_intror I') W')|]. intros W0. exact (A1 c' I' m' W0 W').
Qed.
Theorem C93_in_turn : forall g w ierr l D, apart l ->
  (forall c m, In c l -> writes c m -> in_turn g w ierr l D m = alone g w ierr D c m)
  /\ (forall m, (forall c, In c l -> ~ writes c m) -> in_turn g w ierr l D m = D m).
Proof.
  intros g w ierr l D A. split; [|intros m N; now apply in_turn_other].
  intros c m. apply in_turn_writes; auto.
Qed.
Print Assumptions C93_in_turn.

(** The order of the runs does not matter. *)
Lemma writes_dec c m : {writes c m} + {~ writes c m}.
Proof.
  destruct (parse_args (fst c)) as [[[f|] i t n]|k] eqn:P.
  - assert (A : accepted (fst c) f i t n) by (apply C79_command_line; exact P).
    assert (X : {(i = Some m /\ file_name m) \/ (t = Some m /\ m <> "")} + {~ ((i = Some m /\ file_name m) \/ (t = Some m /\ m <> ""))}).
    { assert (O : forall a b : option string, {a = b} + {a <> b}) by (decide equality; apply string_dec).
      unfold file_name. destruct (O i (Some m)), (O t (Some m)), (string_dec m ""), (string_dec m "-"); tauto. }
    destruct X as [X|X]; [left|right].
    + exists f, i, t, n. auto.
    + intros (f' & i' & t' & n' & A' & B). destruct (C79_one_reading _ _ _ _ _ _ _ _ _ A A') as (<- & <- & <- & <-). auto.
  - right. intros (f' & i' & t' & n' & A' & _). apply C79_command_line in A'. rewrite P in A'. discriminate.
  - right. intros (f' & i' & t' & n' & A' & _). apply C79_command_line in A'. rewrite P in A'. discriminate.
Qed.
Lemma pairs_perm (R : command -> command -> Prop) l l' : (forall a b, R a b -> R b a) -> Permutation l l' ->
  ForallOrdPairs R l -> ForallOrdPairs R l'.
Proof.
  intros S P. induction P as [|x l l' P IH|x y l|l l' l'' P1 IH1 P2 IH2]; intros F; auto.
  - inversion F; subst. constructor; [|auto]. eapply Permutation_Forall; eassumption.
  - inversion F as [|? ? A1 F1]; subst. inversion F1 as [|? ? A2 F2]; subst. inversion A1; subst.
    constructor; [constructor; auto|]. constructor; auto.
Qed.
Theorem C93_any_order : forall g w ierr l l' D, apart l -> Permutation l l' ->
  forall m, in_turn g w ierr l D m = in_turn g w ierr l' D m.
Proof.
  intros g w ierr l l' D A P m.
  assert (A' : apart l').
  { destruct A as (A1 & A2). split.
    - intros c c' f I I'. apply A1; eapply Permutation_in; try eassumption; now apply Permutation_sym.
    - eapply pairs_perm; [|exact P|exact A2]. intros a b H x Wb Wa. exact (H x Wa Wb). }
  destruct (C93_in_turn g w ierr l D A) as (B1 & B2), (C93_in_turn g w ierr l' D A') as (B1' & B2').
  destruct (Exists_dec (fun c => writes c m) l (fun c => writes_dec c m)) as [E|E].
  - apply Exists_exists in E as (c & I & W). rewrite (B1 c m I W), (B1' c m (Permutation_in _ P I) W). reflexivity.
  - assert (N : forall c, In c l -> ~ writes c m) by (intros c I W; apply E; apply Exists_exists; eauto).
    rewrite (B2 m N), (B2' m); [reflexivity|]. intros c I. apply N. eapply Permutation_in; [apply Permutation_sym; exact P|exact I].
Qed.
Print Assumptions C93_any_order.

(** ** C94: an output with the name of an input *)

(** Nothing stops a run from being told to write over its own input, or another run's.
    Whenever a run ends or is killed, each file is as it was, or a run that is to read it
    fails with status 1 and changes nothing: a recording that an output was written over
    is lost, but never half read. *)
Theorem C94_whole_or_lost : forall g w ierr D c D' f,
  stopped (fst (actions g w ierr D c)) D D' ->
  D' f = D f
  \/ forall c', reads c' f -> snd (actions g w ierr D' c') = 1
       /\ (forall D'', stopped (fst (actions g w ierr D' c')) D' D'' -> forall m, D'' m = D' m).
Proof.
  intros g w ierr D c D' f S.
  destruct (stopped_written f _ D D' S) as [E|(x & E & X)].
  - destruct (script_good g w ierr D c f) as [G|(G & _)]; [left; exact G|right; exact G].
  - left. exact E.
  - right. intros c' R. destruct (refused g w ierr D' c' f x R E X) as [A B]. split; [exact A|].
    intros D'' S' m. exact (stopped_at _ _ _ m S' (B m)).
Qed.
Print Assumptions C94_whole_or_lost.
(** A run that succeeds has written all its outputs, whatever was in these files: what
    was there is gone, and if it was the run's input, the run cannot be repeated. *)
Theorem C94_input_lost : forall g w ierr D c f,
  writes c f -> snd (actions g w ierr D c) = 0 ->
  forall c', reads c' f -> snd (actions g w ierr (alone g w ierr D c) c') = 1
    /\ forall m, alone g w ierr (alone g w ierr D c) c' m = alone g w ierr D c m.
Proof.
  intros g w ierr D c f W Z c' R. pose proof (script_fine g w ierr D c f W Z) as N.
  destruct (script_good g w ierr D c f) as [G|((r & G & S) & _)]; [contradiction|].
  assert (X : exists x, alone g w ierr D c f = Some x /\ (x = [] \/ head_ok x)).
  { unfold alone. rewrite after_at, G. change (fold_left fstep (Truncate f :: r) (D f)) with (fold_left fstep r (Some [])).
    destruct (stopped_sane f (fst (actions g w ierr D c)) (store D f []) _ (stopped_end _ _) true) as (x & E & H).
    - rewrite G. exact S.
    - unfold store. destruct (string_dec f f); [reflexivity|congruence].
    - rewrite after_at, G in E. exists x. split; [exact E|exact H]. }
  destruct X as (x & E & X). destruct (refused g w ierr _ c' f x R E X) as [A B]. split; [exact A|].
  intros m. unfold alone at 1. rewrite after_at, (B m). reflexivity.
Qed.
Print Assumptions C94_input_lost.

(** ** The hypotheses are met *)
Definition cmd1 : command := (["-i"; "i.json"; "a.vgm"; "-t"; "s.xrns"; "-tn"; "20"], noon).
Definition cmd2 : command := (["a.vgm"; "-t"; "r.xrns"; "-tn"; "40"], noon).
Lemma cmd1_reads f : reads cmd1 f <-> f = "a.vgm".
Proof.
  assert (A : accepted (fst cmd1) "a.vgm" (Some "i.json") (Some "s.xrns") (Some 20)) by (apply C79_command_line; vm_compute; reflexivity).
  split.
  - intros (_ & i & t & n & B). destruct (C79_one_reading _ _ _ _ _ _ _ _ _ A B) as (<- & _). reflexivity.
  - intros ->. split; [split; discriminate|]. eauto.
Qed.
Lemma cmd1_writes m : writes cmd1 m <-> m = "i.json" \/ m = "s.xrns".
Proof.
  assert (A : accepted (fst cmd1) "a.vgm" (Some "i.json") (Some "s.xrns") (Some 20)) by (apply C79_command_line; vm_compute; reflexivity).
  split.
  - intros (f & i & t & n & B & C). destruct (C79_one_reading _ _ _ _ _ _ _ _ _ A B) as (_ & <- & <- & _).
    destruct C as [(C & _)|(C & _)]; injection C as <-; auto.
  - intros [-> | ->]; (eexists _, _, _, _; split; [exact A|]); [left|right]; (split; [reflexivity|]); [split|]; discriminate.
Qed.
Lemma cmd2_reads f : reads cmd2 f <-> f = "a.vgm".
Proof.
  assert (A : accepted (fst cmd2) "a.vgm" None (Some "r.xrns") (Some 40)) by (apply C79_command_line; vm_compute; reflexivity).
  split.
  - intros (_ & i & t & n & B). destruct (C79_one_reading _ _ _ _ _ _ _ _ _ A B) as (<- & _). reflexivity.
  - intros ->. split; [split; discriminate|]. eauto.
Qed.
Lemma cmd2_writes m : writes cmd2 m <-> m = "r.xrns".
Proof.
  assert (A : accepted (fst cmd2) "a.vgm" None (Some "r.xrns") (Some 40)) by (apply C79_command_line; vm_compute; reflexivity).
  split.
  - intros (f & i & t & n & B & C). destruct (C79_one_reading _ _ _ _ _ _ _ _ _ A B) as (_ & <- & <- & _).
    destruct C as [(C & _)|(C & _)]; [discriminate C|injection C as <-; auto].
  - intros ->. eexists _, _, _, _. split; [exact A|]. right. split; [reflexivity|discriminate].
Qed.
Example C92_met : (forall f, reads cmd1 f -> ~ writes cmd1 f) /\ snd (actions no_gzip (fun _ => true) None disk cmd1) = 0.
Proof.
  split; [|exact (proj2 C86_sample)]. intros f R W. apply cmd1_reads in R. apply cmd1_writes in W. subst f. destruct W; discriminate.
Qed.
Example C93_met : apart [cmd1; cmd2].
Proof.
  split.
  - intros c c' f I I' R W. assert (f = "a.vgm").
    { destruct I as [<-|[<-|[]]]; [now apply cmd1_reads|now apply cmd2_reads]. }
    subst f. destruct I' as [<-|[<-|[]]]; [apply cmd1_writes in W; destruct W; discriminate|apply cmd2_writes in W; discriminate].
  - repeat constructor. intros m W W'. apply cmd1_writes in W. apply cmd2_writes in W'. subst m. destruct W; discriminate.
Qed.
(** The first run is started, then the second, which ends before the first goes on. *)
Example C93_schedule : exists r, schedule no_gzip (fun _ => true) None [(cmd1, Waiting); (cmd2, Waiting)] disk
  [(cmd1, Running (fst (actions no_gzip (fun _ => true) None disk cmd1))); (cmd2, Running [])] r.
Proof.
  set (X := actions no_gzip (fun _ => true) None disk cmd1). set (Y := actions no_gzip (fun _ => true) None disk cmd2).
  assert (Q : forall l D, exists r, schedule no_gzip (fun _ => true) None [(cmd1, Running (fst X)); (cmd2, Running l)] D
            [(cmd1, Running (fst X)); (cmd2, Running [])] r).
  { induction l as [|a l IH]; intros D; [eexists; constructor|]. destruct (IH (act D a)) as (r & R). exists r.
    eapply move; [|exact R]. exact (acts _ _ _ [(cmd1, Running (fst X))] cmd2 a l [] D). }
  destruct (Q (fst Y) disk) as (r & R). exists r.
  eapply move; [exact (starts _ _ _ [] cmd1 [(cmd2, Waiting)] disk)|].
  eapply move; [exact (starts _ _ _ [(cmd1, Running (fst X))] cmd2 [] disk)|]. exact R.
Qed.
(** Where the input is written over: the run succeeds, the next one fails. *)
Definition cmd3 : command := (["a.vgm"; "-t"; "a.vgm"; "-tn"; "20"], noon).
Example C94_met : writes cmd3 "a.vgm" /\ reads cmd3 "a.vgm" /\ snd (actions no_gzip (fun _ => true) None disk cmd3) = 0.
Proof.
  assert (A : accepted (fst cmd3) "a.vgm" None (Some "a.vgm") (Some 20)) by (apply C79_command_line; vm_compute; reflexivity).
  split; [|split].
  - eexists _, _, _, _. split; [exact A|]. right. split; [reflexivity|discriminate].
  - split; [split; discriminate|]. eauto.
  - pose proof (C86_exports _ _ _ _ _ no_gzip disk (fun _ => true) None noon sample_file (map op_command sample_ops) 20 A disk_ok) as P.
    cbv zeta in P. specialize (P ltac:(split; discriminate) eq_refl sample_readable ltac:(constructor; lia) C83_noon).
    apply (proj1 (proj2 P)). split; [discriminate|]. intros o _ _. split; [reflexivity|]. split; [unfold float_limit; lia|lia].
Qed.
