(** The CSV export with a negative tick length: rows run downwards. *)
From Coq Require Import ZArith List Bool String Lia ZifyBool Sorting.Sorted.
From Verif.Model Require Import Py PyFloat Config Note State Ticks Song Extract Csv.
From Verif.Spec Require Import Ranges Text Tracker Sheet.
From Verif.Proofs Require Import PyLemmas TextProofs TempoProofs CsvProofs.
Import ListNotations.
Open Scope Z_scope.

Definition event_row (tpn : Z) (chs : list (list note)) (r : Z) : Prop := exists n, In n (concat chs) /\ n_sample n / tpn = r.
Definition event_below (tpn : Z) (chs : list (list note)) (r : Z) : Prop := exists n, In n (concat chs) /\ n_sample n / tpn < r.
Definition time_below (tpn : Z) (chs : list (list note)) (i t : Z) : Prop :=
  (exists n, In n (concat chs) /\ n_sample n = t /\ n_sample n / tpn < i)
  /\ forall n, In n (concat chs) -> n_sample n / tpn < i -> t <= n_sample n.
Definition down_good (tpn : Z) (chs : list (list note)) (nr : list string) (tr i : Z) (r : list string) : Prop :=
  exists t fr, time_below tpn chs i t /\ csv_fraction t tpn = Ok fr /\ r = csv_row t fr i (cells_at tpn chs nr tr i).

Lemma div_neg_le tpn a b : tpn < 0 -> a <= b -> b / tpn <= a / tpn.
Proof.
  intros T H. rewrite <- (Z.div_opp_opp a tpn), <- (Z.div_opp_opp b tpn) by lia. apply Z.div_le_mono; lia.
Qed.
Lemma below_pop tpn row chs i t : i <= row -> time_below tpn (map (pop tpn row) chs) i t -> time_below tpn chs i t.
Proof.
  intros Hi ((n & Hn & E & L) & M). split.
  - exists n. split; [eapply in_pops; eassumption|auto].
  - intros m Hm Lm. apply M; [|assumption]. apply in_pops_other; [assumption|lia].
Qed.
Lemma down_pop tpn row chs nr i r : List.length nr = List.length chs -> i <= row ->
  down_good tpn (map (pop tpn row) chs) (zipw (show tpn row) chs nr) row i r -> down_good tpn chs nr row i r.
Proof.
  intros L Hi (t & fr & N & F & E). exists t, fr. split; [eapply below_pop; eassumption|]. split; [assumption|].
  rewrite E. f_equal. unfold cells_at. destruct (Z.eqb_spec i row) as [->|D].
  - apply zipw_pop.
  - apply zipw_last; try assumption. now rewrite zipw_length.
Qed.
Lemma down_flush tpn tr row chs nr i r : List.length chs = 8%nat -> List.length nr = List.length chs -> i <= row < tr ->
  down_good tpn chs blank_row row i r -> down_good tpn chs nr tr i r.
Proof.
  intros L8 L Hi (t & fr & N & F & E). exists t, fr. split; [assumption|]. split; [assumption|].
  rewrite E. f_equal. unfold cells_at. destruct (Z.eqb_spec i tr); [lia|].
  assert (LB : List.length blank_row = List.length chs) by now rewrite L8.
  destruct (Z.eqb_spec i row) as [->|D]; apply zipw_ext; try assumption.
  - intros l y y' _ Hy. apply repeat_spec in Hy. subst y. unfold cell_of, cell_text. reflexivity.
  - reflexivity.
Qed.

Lemma Forall2_imp {A B} (P Q : A -> B -> Prop) (R : A -> Prop) a b : (forall x y, R x -> P x y -> Q x y) ->
  (forall x, In x a -> R x) -> Forall2 P a b -> Forall2 Q a b.
Proof.
  intros H I F. induction F; constructor; [apply H; [apply I; now left|assumption]|]. apply IHF. intros; apply I; now right.
Qed.

Lemma csv_loop_down tpn : tpn < 0 -> forall fuel chs tr nr,
  List.length chs = 8%nat -> List.length nr = List.length chs ->
  Forall (Forall note_in_range) chs -> Forall sorted_log chs ->
  (forall n, In n (concat chs) -> n_sample n / tpn <= tr /\ exists fr, csv_fraction (n_sample n) tpn = Ok fr) ->
  (List.length (concat chs) <= fuel)%nat ->
  exists rs rows, csv_loop tpn fuel chs tr nr = (rows, Ok tt)
    /\ StronglySorted Z.gt rs
    /\ (forall r, In r rs <-> (r = tr \/ event_row tpn chs r) /\ event_below tpn chs r)
    /\ Forall2 (down_good tpn chs nr tr) rs rows.
Proof.
  intro T. induction fuel as [|fuel IH]; intros chs tr nr L8 L R SO H F.
  - assert (E : concat chs = []) by (destruct (concat chs); [reflexivity|cbn in F; lia]).
    assert (M : min_sample chs = None).
    { destruct (min_sample chs) as [m|] eqn:M; [|reflexivity].
      destruct (min_sample_some _ _ SO M) as (_ & l & n & r & Hl & -> & _).
      assert (In n (concat chs)) as I by (apply in_concat; exists (n :: r); split; [assumption|now left]).
      rewrite E in I. destruct I. }
    cbn [csv_loop]. rewrite M. exists [], []. split; [reflexivity|]. split; [constructor|]. split; [|constructor].
    intro r. split; [intros []|]. intros (_ & n & I & _). rewrite E in I. destruct I.
  - cbn [csv_loop]. destruct (min_sample chs) as [m|] eqn:M.
    + destruct (min_sample_some _ _ SO M) as (LB & l0 & n0 & r0 & Hl0 & -> & E0).
      assert (I0 : In n0 (concat chs)) by (apply in_concat; exists (n0 :: r0); split; [assumption|now left]).
      unfold floor_div. destruct (Z.eqb_spec tpn 0) as [|_]; [lia|].
      set (cr := m / tpn).
      destruct (H n0 I0) as [G0 (fr & FR)]. rewrite E0 in G0, FR. fold cr in G0.
      assert (GE : forall n, In n (concat chs) -> n_sample n / tpn <= cr).
      { intros n Hn. apply div_neg_le; [assumption|]. now apply LB. }
      assert (STEP : forall nr0, List.length nr0 = List.length chs -> exists rs rows,
        csv_loop tpn fuel (map (pop tpn cr) chs) cr (zipw (show tpn cr) chs nr0) = (rows, Ok tt)
        /\ StronglySorted Z.gt rs
        /\ (forall r, In r rs <-> (r = cr \/ event_row tpn chs r) /\ event_below tpn chs r)
        /\ Forall2 (down_good tpn chs nr0 cr) rs rows).
      { intros nr0 L0. destruct (IH (map (pop tpn cr) chs) cr (zipw (show tpn cr) chs nr0)) as (rs & rows & E & SR & IR & G).
        - now rewrite map_length.
        - rewrite zipw_length, map_length by assumption. reflexivity.
        - apply Forall_forall. intros l Hl. apply in_map_iff in Hl as (l1 & <- & Hl). rewrite Forall_forall in R.
          apply Forall_forall. intros n Hn. apply pop_in in Hn. specialize (R l1 Hl). rewrite Forall_forall in R. auto.
        - apply Forall_forall. intros l Hl. apply in_map_iff in Hl as (l1 & <- & Hl). rewrite Forall_forall in SO.
          apply pop_sorted. auto.
        - intros n Hn. apply in_pops in Hn. split; [now apply GE|now apply H].
        - pose proof (pops_less tpn cr chs n0 r0 Hl0 ltac:(unfold cr; now rewrite E0)). lia.
        - exists rs, rows. split; [exact E|]. split; [exact SR|].
          assert (TOP : forall r, In r rs -> r <= cr).
          { intros r Hr. apply IR in Hr as [[->|(n & I & <-)] _]; [lia|]. apply GE. eapply in_pops; eassumption. }
          split.
          + intro r. rewrite IR. split.
            * intros ([->|(n & I & Q)] & (n' & I' & Q')); (split; [|exists n'; split; [eapply in_pops; eassumption|assumption]]).
              -- now left.
              -- right. exists n. split; [eapply in_pops; eassumption|assumption].
            * intros (A & (n' & I' & Q')). assert (r <= cr) by (destruct A as [->|(n & I & <-)]; [lia|now apply GE]). split.
              -- destruct A as [A|(n & I & Q)]; [now left|]. destruct (Z.eq_dec r cr); [now left|]. right. exists n.
                 split; [apply in_pops_other; [assumption|lia]|assumption].
              -- exists n'. split; [apply in_pops_other; [assumption|lia]|assumption].
          + refine (Forall2_imp _ _ (fun r => r <= cr) _ _ _ TOP G). intros x y Hx. now apply down_pop. }
      destruct (Z.eqb_spec cr tr) as [EQ|NE]; cbn [negb].
      * rewrite take_row_ok by (try assumption; lia). rewrite EQ in *.
        destruct (STEP nr L) as (rs & rows & E & Q). rewrite E. exists rs, rows. split; [reflexivity|exact Q].
      * rewrite FR. cbn [bind]. rewrite take_row_ok; [|lia|now rewrite L8|assumption].
        destruct (STEP blank_row) as (rs & rows & E & SR & IR & G); [now rewrite L8|].
        rewrite E.
        assert (NB : blanks (Z.to_nat (cr - tr)) m fr tr cr = []) by (replace (Z.to_nat (cr - tr)) with 0%nat by lia; reflexivity).
        rewrite NB. cbn [app].
        assert (TOP : forall r, In r rs -> r <= cr).
        { intros r Hr. apply IR in Hr as [[->|(n & I & <-)] _]; [lia|]. now apply GE. }
        exists (tr :: rs), (csv_row m fr tr nr :: rows). split; [reflexivity|]. split; [|split].
        -- constructor; [assumption|]. apply Forall_forall. intros r Hr. specialize (TOP r Hr). lia.
        -- intro r. cbn [In]. rewrite IR. split.
           ++ intros [<-|([->|A] & B)].
              ** split; [now left|]. exists n0. split; [assumption|]. rewrite E0. fold cr. lia.
              ** split; [right; exists n0; split; [assumption|now rewrite E0]|assumption].
              ** split; [now right|assumption].
           ++ intros ([->|A] & B); [now left|]. right. split; [now right|assumption].
        -- constructor.
           ++ exists m, fr. split; [|split; [assumption|]].
              ** split; [exists n0; split; [assumption|]; split; [assumption|]; rewrite E0; fold cr; lia|]. intros n Hn _. now apply LB.
              ** f_equal. unfold cells_at. rewrite Z.eqb_refl. symmetry. apply zipw_keep; [assumption|].
                 intros l c Hl. unfold cell_of. rewrite last_event_none; [reflexivity|]. intros k Hk.
                 assert (In k (concat chs)) as I by (apply in_concat; eauto). specialize (GE k I). lia.
           ++ refine (Forall2_imp _ _ (fun r => r <= cr) _ _ _ TOP G). intros x y Hx. apply down_flush; auto. lia.
    + pose proof (min_sample_none _ M) as E. exists [], []. split; [reflexivity|]. split; [constructor|]. split; [|constructor].
      intro r. split; [intros []|]. intros (_ & n & I & _). rewrite E in I. destruct I.
Qed.
