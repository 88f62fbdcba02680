(** C100: exactly what the CSV sheet tells about a recording. *)
From Coq Require Import Lia ZifyBool Sorted.
From Verif.Model Require Import Py PyFloat Config Note State Ticks Song Serializer Extract Csv History Main CsvFile.
From Verif.Spec Require Import VgmFormat Ym2151 Ranges Text Tracker Sheet Decimal Cli Whole SheetTells.
From Verif.Proofs Require Import PyLemmas StateProofs KeyProofs ChipProofs TextProofs TempoProofs
  GridProofs SongProofs CsvProofs CsvProofs2 CsvProofs3 FractionProofs FractionProofs2 JsonProofs.
From Verif.Props Require Import Chip Song Csv Cli CsvFile Notes Editing Telling.
Local Open Scope Z_scope.

Lemma next_first h tpn i t : next_event h tpn i t <-> first_after tpn (map (notes h) chans) i t.
Proof.
  unfold next_event, first_after. rewrite all_concat. split; intros [(n & A & B & C) D]; (split; [exists n; subst; auto|exact D]).
Qed.
Lemma next_unique h tpn i t t' : next_event h tpn i t -> next_event h tpn i t' -> t = t'.
Proof.
  intros [(n & A & B & C) D] [(n' & A' & B' & C') D']. subst. pose proof (D n' A' C'). pose proof (D' n A C). lia.
Qed.
Lemma side_sides n n' : side (n_right n) (n_left n) = side (n_right n') (n_left n') <-> sides n = sides n'.
Proof. unfold side, sides. destruct (n_right n), (n_left n), (n_right n'), (n_left n'); split; intro; try reflexivity; discriminate. Qed.
Lemma text_alike n n' : note_in_range n -> note_in_range n' -> (event_text n = event_text n' <-> reads_alike n n').
Proof.
  intros R R'. pose proof (C91_sheet_tells n n' R R') as T. rewrite (note_str_text _ R), (note_str_text _ R') in T.
  unfold reads_alike. rewrite side_sides. unfold is_off in *.
  assert (OK : event_text n = event_text n' <-> Ok (event_text n) = Ok (event_text n')).
  { split; [congruence|]. intro X. now apply ok_inj in X. }
  rewrite OK, T. split.
  - intros [(A & B)|(A & B & C & D & F & G)].
    + split; [lia|]. intro. lia.
    + split; [lia|]. intros _. repeat (split; [assumption|]). assumption.
  - intros (A & B). destruct (Z.ltb_spec (n_config_id n) 0) as [L|L]; [left; lia|]. right.
    destruct (B eq_refl) as (B1 & B2 & B3 & B4 & B5). repeat (split; [assumption|]). assumption.
Qed.
Lemma text_not_empty n : note_in_range n -> event_text n <> ""%string.
Proof.
  intros (_ & _ & K & _). unfold width in K. unfold event_text. destruct (is_off n); [discriminate|]. intros X.
  apply (f_equal String.length) in X. rewrite length_app_s in X. rewrite (length_app_s "-") in X. cbn in X. lia.
Qed.
Lemma cell_alike e e' : (forall n, e = Some n -> note_in_range n) -> (forall n, e' = Some n -> note_in_range n) ->
  (cell_text e = cell_text e' <-> cells_alike e e').
Proof.
  intros R R'. destruct e as [n|], e' as [n'|]; cbn [cell_text cells_alike].
  - apply text_alike; auto.
  - split; [|tauto]. intro X. now apply text_not_empty in X; [|auto].
  - split; [|tauto]. intro X. symmetry in X. now apply text_not_empty in X; [|auto].
  - tauto.
Qed.
Lemma last_range h ch tpn i n : history_ok h -> (exists s, run_calls h state_init = Ok s) -> 0 <= ch < 8 ->
  last_event tpn (notes h ch) i = Some n -> note_in_range n.
Proof.
  intros H [s E] Hc X. apply last_event_in in X as [X _]. destruct (run_logs h s H E ch Hc) as (_ & R & _).
  rewrite Forall_forall in R. auto.
Qed.
Lemma small_logs (h : history) tpn : (forall n, In n (all_notes h) -> n_sample n < tpn * (2 ^ 1024 - 2 ^ 970)) ->
  forall n, In n (concat (map (notes h) chans)) -> n_sample n < tpn * (2 ^ 1024 - 2 ^ 970).
Proof. intros S n I. apply S. now rewrite all_concat. Qed.

Lemma list_ext {A} (a b : list A) : (forall k, nth_error a k = nth_error b k) -> a = b.
Proof.
  revert b. induction a as [|x a IH]; intros [|y b] X; [reflexivity|discriminate (X O)|discriminate (X O)|].
  pose proof (X O) as X0. injection X0 as ->. f_equal. apply IH. intro k. exact (X (S k)).
Qed.

Lemma sheet_rows_same h h' s s' tpn rows rows' r r' : history_ok h -> history_ok h' ->
  run_calls h state_init = Ok s -> run_calls h' state_init = Ok s' -> 0 < tpn ->
  (forall n, In n (all_notes h) -> n_sample n < tpn * (2 ^ 1024 - 2 ^ 970)) ->
  (forall n, In n (all_notes h') -> n_sample n < tpn * (2 ^ 1024 - 2 ^ 970)) ->
  csv_rows s tpn = Ok (rows, r) -> csv_rows s' tpn = Ok (rows', r') -> (rows = rows' <-> same_sheet tpn h h').
Proof.
  intros H H' E E' Ht SM SM' C C'.
  destruct (sheet_full h s tpn _ H E Ht (notes_logs h s H E) (small_logs h tpn SM)) as (d & D & L & G).
  destruct (sheet_full h' s' tpn _ H' E' Ht (notes_logs h' s' H' E') (small_logs h' tpn SM')) as (d' & D' & L' & G').
  rewrite D in C. rewrite D' in C'. injection C as <- <-. injection C' as <- <-.
  assert (Q : forall (g : history) (e : list (list string)), Z.of_nat (List.length e) = last_row tpn (map (notes g) chans) ->
      forall i t, 0 <= i -> next_event g tpn i t -> (Z.to_nat i < List.length e)%nat).
  { intros g e Le i t Hi [(n & A & B & F) _]. rewrite all_concat in A. pose proof (last_row_le tpn _ Ht n A). subst t. lia. }
  split.
  - intros R. injection R as <-. intros i Hi.
    assert (X : forall (a b : history) t,
       (forall k row, nth_error d k = Some row -> let i := Z.of_nat k in
          exists t fr, first_after tpn (map (notes a) chans) i t /\ csv_fraction t tpn = Ok fr
           /\ row = [str_int t; str_int (i mod 64); str_int (i / 64); str_int i; fr] ++ map (fun log => cell_text (last_event tpn log i)) (map (notes a) chans)) ->
       (forall k row, nth_error d k = Some row -> let i := Z.of_nat k in
          exists t fr, first_after tpn (map (notes b) chans) i t /\ csv_fraction t tpn = Ok fr
           /\ row = [str_int t; str_int (i mod 64); str_int (i / 64); str_int i; fr] ++ map (fun log => cell_text (last_event tpn log i)) (map (notes b) chans)) ->
       Z.of_nat (List.length d) = last_row tpn (map (notes a) chans) ->
       next_event a tpn i t -> next_event b tpn i t
         /\ map (fun ch => cell_text (last_event tpn (notes a ch) i)) chans = map (fun ch => cell_text (last_event tpn (notes b ch) i)) chans).
    { intros a b t Ga Gb La N. pose proof (Q a d La i t Hi N) as Lt.
      destruct (nth_error d (Z.to_nat i)) as [row|] eqn:K; [|apply nth_error_None in K; lia].
      destruct (Ga _ _ K) as (ta & fa & A1 & _ & A3). destruct (Gb _ _ K) as (tb & fb & B1 & _ & B3).
      rewrite Z2Nat.id in * by exact Hi. rewrite A3 in B3. pose proof (f_equal (skipn 5) B3) as B4. apply (f_equal (hd ""%string)) in B3.
      cbn [app skipn] in B4. cbn [app hd] in B3. apply str_int_inj in B3. subst tb. apply next_first in A1, B1. rewrite (next_unique _ _ _ _ _ N A1). split; [exact B1|].
      rewrite !map_map in B4. exact B4. }
    split.
    + intros t. split; intro N; [exact (proj1 (X h h' t G G' L N))|exact (proj1 (X h' h t G' G L' N))].
    + intros [t N] ch Hc. destruct (X h h' t G G' L N) as [_ M]. apply cell_alike.
      * intros n. apply (last_range h ch tpn i n H (ex_intro _ s E) Hc).
      * intros n. apply (last_range h' ch tpn i n H' (ex_intro _ s' E') Hc).
      * assert (I : In ch chans) by now apply chans_in. revert M I. clear. induction chans as [|c l IH]; [intros _ []|].
        intros M [->|I]; cbn [map] in M; injection M as M1 M2; [exact M1|auto].
  - intros S. f_equal.
    assert (LE : forall (a b : history) (da db : list (list string)), Z.of_nat (List.length da) = last_row tpn (map (notes a) chans) ->
       Z.of_nat (List.length db) = last_row tpn (map (notes b) chans) ->
       (forall i t, 0 <= i -> next_event a tpn i t -> next_event b tpn i t) ->
       (forall k row, nth_error da k = Some row -> exists t, next_event a tpn (Z.of_nat k) t) ->
       (List.length da <= List.length db)%nat).
    { intros a b da db La Lb I Ka. destruct (List.length da) as [|m] eqn:Z0; [lia|].
      destruct (nth_error da m) as [row|] eqn:K; [|apply nth_error_None in K; lia].
      destruct (Ka _ _ K) as [t N]. pose proof (I _ t (Zle_0_nat m) N) as N'. pose proof (Q b db Lb (Z.of_nat m) t ltac:(lia) N'). lia. }
    assert (N1 : forall k row, nth_error d k = Some row -> exists t, next_event h tpn (Z.of_nat k) t).
    { intros k row K. destruct (G _ _ K) as (t & _ & F & _). exists t. now apply next_first. }
    assert (N2 : forall k row, nth_error d' k = Some row -> exists t, next_event h' tpn (Z.of_nat k) t).
    { intros k row K. destruct (G' _ _ K) as (t & _ & F & _). exists t. now apply next_first. }
    assert (LL : List.length d = List.length d').
    { apply Nat.le_antisymm; [apply (LE h h' d d' L L'); [|exact N1]|apply (LE h' h d' d L' L); [|exact N2]];
        intros i t Hi; apply (S i Hi). }
    apply list_ext. intros k. destruct (nth_error d k) as [row|] eqn:K.
    + destruct (nth_error d' k) as [row'|] eqn:K'.
      2:{ apply nth_error_None in K'. assert (k < List.length d)%nat by (apply nth_error_Some; congruence). lia. }
      f_equal. destruct (G _ _ K) as (t & f & A1 & A2 & A3). destruct (G' _ _ K') as (t' & f' & B1 & B2 & B3).
      destruct (S (Z.of_nat k) (Zle_0_nat k)) as [T CA]. apply next_first in A1, B1.
      pose proof (next_unique _ _ _ _ _ (proj1 (T t) A1) B1). subst t'. rewrite A2 in B2. injection B2 as <-.
      rewrite A3, B3. f_equal. rewrite !map_map. apply map_ext_in. intros ch Hc. apply chans_in in Hc. apply cell_alike.
      * intros n. apply (last_range h ch tpn _ n H (ex_intro _ s E) Hc).
      * intros n. apply (last_range h' ch tpn _ n H' (ex_intro _ s' E') Hc).
      * exact (CA (ex_intro _ t A1) ch Hc).
    + symmetry. apply nth_error_None. apply nth_error_None in K. lia.
Qed.

(** Two CSV sheets with rows of the same length have the same text exactly if, row by row,
    the next event has the same time and the cells read alike. *)
Theorem C100_text : forall h h' s s' tpn rows rows' r r', history_ok h -> history_ok h' ->
  run_calls h state_init = Ok s -> run_calls h' state_init = Ok s' -> 0 < tpn ->
  (forall n, In n (all_notes h) -> n_sample n < tpn * (2 ^ 1024 - 2 ^ 970)) ->
  (forall n, In n (all_notes h') -> n_sample n < tpn * (2 ^ 1024 - 2 ^ 970)) ->
  csv_rows s tpn = Ok (rows, r) -> csv_rows s' tpn = Ok (rows', r') ->
  (csv_text rows = csv_text rows' <-> same_sheet tpn h h').
Proof.
  intros h h' s s' tpn rows rows' r r' H H' E E' Ht SM SM' C C'.
  rewrite <- (sheet_rows_same h h' s s' tpn rows rows' r r' H H' E E' Ht SM SM' C C'). split; [|congruence]. intros T.
  assert (B : forall (g : history) w, history_ok g -> run_calls g state_init = Ok w ->
     (forall n, In n (all_notes g) -> n_sample n < tpn * (2 ^ 1024 - 2 ^ 970)) ->
     forall ch l n, 0 <= ch < 8 -> key_presses w ch = Ok l -> In n l -> n_sample n < tpn * (2 ^ 1024 - 2 ^ 970)).
  { intros g w Hg Eg S ch l n Hc K I. apply S. rewrite all_concat. destruct (run_logs g w Hg Eg ch Hc) as (A & _). rewrite A in K. injection K as <-.
    apply in_concat. exists (notes g ch). split; [apply in_map; now apply chans_in|exact I]. }
  rewrite <- (C39_text_splits h s tpn rows r H E Ht (B h s H E SM) C), T.
  exact (C39_text_splits h' s' tpn rows' r' H' E' Ht (B h' s' H' E' SM') C').
Qed.
Print Assumptions C100_text.
(** The same for what the export writes, to a file or to standard output. *)
Theorem C100_export : forall h h' s s' tpn writable name, history_ok h -> history_ok h' ->
  run_calls h state_init = Ok s -> run_calls h' state_init = Ok s' -> 0 < tpn ->
  (forall n, In n (all_notes h) -> n_sample n < tpn * (2 ^ 1024 - 2 ^ 970)) ->
  (forall n, In n (all_notes h') -> n_sample n < tpn * (2 ^ 1024 - 2 ^ 970)) ->
  can_write writable name = true ->
  (do_csv writable s name tpn = do_csv writable s' name tpn <-> same_sheet tpn h h').
Proof.
  intros h h' s s' tpn w name H H' E E' Ht SM SM' W.
  destruct (sheet_full h s tpn _ H E Ht (notes_logs h s H E) (small_logs h tpn SM)) as (d & D & _).
  destruct (sheet_full h' s' tpn _ H' E' Ht (notes_logs h' s' H' E') (small_logs h' tpn SM')) as (d' & D' & _).
  rewrite <- (C100_text h h' s s' tpn _ _ _ _ H H' E E' Ht SM SM' D D').
  unfold do_csv. rewrite D, D'. generalize (csv_text (csv_header :: d)) (csv_text (csv_header :: d')). intros t t'.
  assert (X : exists msg rest target, forall u,
    match smart_open name "w" with
    | Err e => ([msg], Err e)
    | Ok (HFile n m) => if w n then (msg :: WriteText (HFile n m) u :: closing (HFile n m), Ok tt) else ([msg], Err OSError)
    | Ok h => (msg :: WriteText h u :: closing h, Ok tt)
    end = (msg :: WriteText target u :: rest, Ok tt)
    /\ msg = line ("Writing tracks to " ++ match name with Some n => n | None => "None" end ++ "...")).
  { unfold smart_open. destruct name as [n|]; cbn [truthy negb andb].
    - unfold can_write, target_of in W. destruct (String.eqb_spec n "") as [->|N1].
      + eexists _, _, _. intro u. split; reflexivity.
      + destruct (String.eqb_spec n "-") as [->|N2].
        * eexists _, _, _. intro u. split; reflexivity.
        * destruct (string_dec n ""); [contradiction|]. destruct (string_dec n "-"); [contradiction|].
          eexists _, _, _. intro u. cbn [negb andb]. rewrite W. split; reflexivity.
    - eexists _, _, _. intro u. split; reflexivity. }
  destruct X as (msg & rest & target & X). destruct (X t) as [X1 M]. destruct (X t') as [X2 _]. rewrite <- M, X1, X2.
  split; [|intros ->; reflexivity]. intros Q. exact (f_equal (fun o => match fst o with _ :: WriteText _ u :: _ => u | _ => t end) Q).
Qed.
Print Assumptions C100_export.

(** The tune, and a recording with the same sheet although a key-off is hidden by the key-on
    after it and what happens in the last row is different: the songs differ. *)
Definition draft : history :=
  [Apply 0x18 200; Apply 0x19 0x85; Apply 0x19 0x0A; Apply 0x1B 2; Apply 0x20 0xC7;
   Apply 0x28 0x3E; Apply 0x30 0xFC; Apply 0x60 0x7F; Apply 0xC8 0x1F; Beat 1000;
   Apply 0x08 0x78; Apply 0x28 0x45; Apply 0x20 0x47; Beat 300; Apply 0x08 0x00; Apply 0x08 0x78; Beat 200;
   Apply 0x08 0x01; Beat 15; Apply 0x08 0x7A; Beat 10].
Definition sheet_at (tpn : Z) (h : history) : list (list string) :=
  match csv_rows (state_of h) tpn with Ok (rows, _) => rows | Err _ => [] end.
Example C100_met : history_ok draft /\ run_calls draft state_init = Ok (state_of draft)
  /\ csv_rows (state_of draft) 20 = Ok (sheet_at 20 draft, Ok tt) /\ csv_rows tune_state 20 = Ok (sheet_at 20 tune, Ok tt)
  /\ List.length (sheet_at 20 draft) = 76%nat
  /\ csv_text (sheet_at 20 draft) = csv_text (sheet_at 20 tune)
  /\ render (song_at 20 draft) <> render (song_at 20 tune)
  /\ render (song_at 20 cover) = render (song_at 20 tune) /\ csv_text (sheet_at 20 cover) <> csv_text (sheet_at 20 tune).
Proof.
  split; [repeat constructor; cbn; unfold byte; lia|]. split; [vm_compute; reflexivity|]. split; [vm_compute; reflexivity|].
  split; [vm_compute; reflexivity|]. split; [vm_compute; reflexivity|]. split; [vm_compute; reflexivity|].
  split; [vm_compute; discriminate|]. split; [vm_compute; reflexivity|vm_compute; discriminate].
Qed.
Example C100_same : same_sheet 20 draft tune /\ ~ same_sheet 20 cover tune.
Proof.
  destruct C100_met as (H & E & C & C' & _ & T & _ & _ & N).
  assert (B : forall g : history, forallb (fun n => n_sample n <? 20 * (2 ^ 1024 - 2 ^ 970)) (all_notes g) = true ->
     forall n, In n (all_notes g) -> n_sample n < 20 * (2 ^ 1024 - 2 ^ 970)).
  { intros g F n I. rewrite forallb_forall in F. specialize (F n I). lia. }
  destruct C99_met as (Hc & Ec & _).
  assert (Cc : csv_rows (state_of cover) 20 = Ok (sheet_at 20 cover, Ok tt)) by (vm_compute; reflexivity).
  split.
  - refine (proj1 (C100_text draft tune _ _ 20 _ _ _ _ H tune_ok E tune_run eq_refl (B _ _) (B _ _) C C') T); vm_compute; reflexivity.
  - intros S. apply N.
    refine (proj2 (C100_text cover tune _ _ 20 _ _ _ _ Hc tune_ok Ec tune_run eq_refl (B _ _) (B _ _) Cc C') S); vm_compute; reflexivity.
Qed.
