(** C85: from the bytes of the input to the bytes of the output. *)
From Coq Require Import Lia ZifyBool.
From Verif.Model Require Import Py Command Core Config PyFloat Note State Ticks Song Serializer Dataclass Dao Document XmlText Zip
  Json Extract History Main MainBytes.
From Verif.Spec Require Import VgmFormat Ym2151 Ranges Rhythm Text JsonText Tracker View Cli Whole XmlReader SongFile SongText
  ZipReader SongArchive ByteDisk.
From Verif.Proofs Require Import PyLemmas CoreProofs JsonProofs StateProofs KeyProofs ChipProofs SongProofs ViewProofs XmlProofs XmlProofs2 CrcProofs ZipProofs ZipProofs2 ZipProofs3.
From Verif.Props Require Import Reader Chip Tempo Song Instruments Cli Whole SongText Archive.
Open Scope string_scope.
Open Scope list_scope.
Open Scope Z_scope.

(** ** Disks *)
Lemma store_same D n x : store D n x n = Some x.
Proof. unfold store. destruct (string_dec n n); [reflexivity|congruence]. Qed.
Lemma store_other D n x m : m <> n -> store D n x m = D m.
Proof. unfold store. destruct (string_dec m n); [congruence|reflexivity]. Qed.
Lemma act_put_other D n o b m : m <> n -> act D (Put n o b) m = D m.
Proof. intros N. cbn [act]. destruct (D n); [now apply store_other|reflexivity]. Qed.
Lemma disk_app a b D : disk_after (a ++ b) D = disk_after b (disk_after a D).
Proof. apply fold_left_app. Qed.
Lemma disk_says l : forall D, disk_after (map Say l) D = D.
Proof. induction l as [|e l IH]; intro D; [reflexivity|apply IH]. Qed.
Definition puts (n : string) (ws : list (Z * list Z)) : list action := map (fun w => Put n (fst w) (snd w)) ws.
Definition over (c : list Z) (w : Z * list Z) : list Z := overwrite c (Z.to_nat (fst w)) (snd w).
Lemma disk_puts n ws : forall D c, D n = Some c ->
  disk_after (puts n ws) D n = Some (fold_left over ws c) /\ forall m, m <> n -> disk_after (puts n ws) D m = D m.
Proof.
  induction ws as [|w ws IH]; intros D c E; [split; [exact E|reflexivity]|].
  destruct (IH (act D (Put n (fst w) (snd w))) (over c w)) as [A B].
  - cbn [act]. rewrite E. apply store_same.
  - split; [exact A|]. intros m N. change (disk_after (puts n (w :: ws)) D m) with (disk_after (puts n ws) (act D (Put n (fst w) (snd w))) m).
    rewrite B by assumption. now apply act_put_other.
Qed.
Lemma stopped_app a : forall b D D', stopped (a ++ b) D D' -> stopped a D D' \/ stopped b (disk_after a D) D'.
Proof.
  induction a as [|x a IH]; intros b D D' S; [now right|]. inversion S; subst.
  - left. constructor.
  - left. constructor.
  - destruct (IH b (act D x) D') as [A|A]; [assumption|left; now constructor|right; exact A].
Qed.
Lemma stopped_says l : forall D D', stopped (map Say l) D D' -> D' = D.
Proof.
  induction l as [|e l IH]; intros D D' S; inversion S; subst; [reflexivity|reflexivity|]. cbn [act] in *. now apply IH.
Qed.
Lemma stopped_end l : forall D, stopped l D (disk_after l D).
Proof. induction l as [|a l IH]; intro D; [constructor|]. apply stopped_later. apply IH. Qed.
Lemma stopped_puts n ws : forall D c D', D n = Some c -> stopped (puts n ws) D D' ->
  (exists c', D' n = Some c' /\ in_file c ws c') /\ forall m, m <> n -> D' m = D m.
Proof.
  induction ws as [|w ws IH]; intros D c D' E S.
  - inversion S; subst. split; [exists c; split; [exact E|constructor]|reflexivity].
  - destruct w as [o b]. cbn [puts map fst snd] in S. inversion S; subst.
    + split; [exists c; split; [exact E|constructor]|reflexivity].
    + split; [|intros m N; now apply act_put_other]. exists (overwrite c (Z.to_nat o) p).
      cbn [act]. rewrite E. split; [apply store_same|constructor].
    + destruct (IH (act D (Put n o b)) (overwrite c (Z.to_nat o) b) D') as [(c' & A & B) C].
      * cbn [act]. rewrite E. apply store_same.
      * assumption.
      * split; [exists c'; split; [exact A|now constructor]|]. intros m N. rewrite C by assumption. now apply act_put_other.
Qed.

(** ** The steps of a run *)
Definition instr_says (n : string) : action := Say (line ("Writing instruments to " ++ n ++ "...")).
Definition song_says (n : string) : action := Say (line ("Writing xrns " ++ n ++ "...")).
Inductive instr_acts (w : string -> bool) (txt : string) : option string -> list action -> outcome -> Prop :=
| ia_none o : not_asked o -> instr_acts w txt o [] Fine
| ia_stdout : instr_acts w txt (Some "-") [instr_says "-"; Say (WriteText HStdout txt)] Fine
| ia_file n : file_name n -> w n = true ->
    instr_acts w txt (Some n) [instr_says n; Truncate n; Put n 0 (utf8 txt); Say (Close (HFile n "w"))] Fine
| ia_denied n : file_name n -> w n = false -> instr_acts w txt (Some n) [instr_says n] (Failed OSError).
Inductive song_acts (w : string -> bool) (s : state) (t : Z) (now : clock) : option string -> list action -> outcome -> Prop :=
| sa_none o : not_asked o -> song_acts w s t now o [] Fine
| sa_fails n e : n <> "" -> build_song s t = Err e -> song_acts w s t now (Some n) [song_says n] (Failed e)
| sa_denied n sg : n <> "" -> build_song s t = Ok sg -> w n = false -> song_acts w s t now (Some n) [song_says n] (Failed OSError)
| sa_written n sg txt : n <> "" -> build_song s t = Ok sg -> w n = true -> song_text sg = Ok txt ->
    song_acts w s t now (Some n)
      (song_says n :: Truncate n :: puts n (fst (zip_writes now (utf8 txt))) ++ [Say (Close (HFile n "wb"))])
      (match snd (zip_writes now (utf8 txt)) with None => Fine | Some e => NoDate e end).
Inductive both_acts (a b : list action -> outcome -> Prop) : list action -> outcome -> Prop :=
| ba_first o e : a o (Failed e) -> both_acts a b o (Failed e)
| ba_both o o' r : a o Fine -> b o' r -> both_acts a b (o ++ o') r.

Lemma instr_acts_ok w n s txt : n <> "" -> instruments_text s = Ok txt ->
  instr_acts w txt (Some n) (fst (instruments_bytes w n s)) (snd (instruments_bytes w n s)).
Proof.
  intros N T. unfold instruments_bytes. rewrite T. destruct (string_dec n "-") as [->|D]; [apply ia_stdout|].
  rewrite smart_open_file by now split. destruct (w n) eqn:Wn; [now apply ia_file|now apply ia_denied].
Qed.
Lemma song_acts_ok h w now n s t : history_ok h -> run_calls h state_init = Ok s -> n <> "" ->
  song_acts w s t now (Some n) (fst (tracks_bytes w now s n t)) (snd (tracks_bytes w now s n t)).
Proof.
  intros H E N. unfold tracks_bytes. destruct (build_song s t) as [sg|e] eqn:B; [|now apply sa_fails].
  destruct (w n) eqn:Wn; [|now apply (sa_denied _ _ _ _ _ sg)].
  destruct (C81_exported h s t sg H E B) as (txt & _ & T & _). rewrite T.
  pose proof (sa_written w s t now n sg txt N B Wn T) as X. destruct (zip_writes now (utf8 txt)) as [ws e]. exact X.
Qed.
Lemma run_acts g c w ierr now name instr track tpn d cs rl : world_ok g c -> file_name name -> c name = Some d ->
  readable g d cs -> row_length (calls_of cs) tpn rl ->
  exists s txt pre out r, history_ok (calls_of cs) /\ run_calls (calls_of cs) state_init = Ok s
    /\ instruments_text s = Ok txt /\ choose_ticks s tpn = (pre, Ok rl)
    /\ main_bytes g c w ierr now name instr track tpn =
       (map Say (OpenRead name :: line ("Opening file: " ++ name) :: pre ++ [line ("Ticks per Note: " ++ str_int rl)])
         ++ out ++ [Say (Close (HFile name "rb"))], r)
    /\ both_acts (instr_acts w txt instr) (song_acts w s rl now track) out r.
Proof.
  intros W F E R RL. destruct (read_cases g c name d W E) as [(cs' & s & v & R' & V & P & H & Er)|(N & _)]; [|now destruct (N cs)].
  rewrite (readable_unique _ _ _ _ _ _ W E R R') in *. clear R.
  destruct (choose_ok _ s tpn H Er) as (pre & t & C & TL & P1 & P2 & _).
  destruct (instruments_ok _ s H Er) as [txt T].
  apply (row_length_of _ s _ _ H Er) in RL. rewrite (tick_length_unique _ _ _ _ TL RL) in *. clear TL.
  assert (A : exists ea ra, (if truthy instr then match instr with Some n => instruments_bytes w n s | None => ([], Fine) end else ([], Fine)) = (ea, ra)
     /\ instr_acts w txt instr ea ra).
  { destruct (truthy instr) eqn:TI.
    - destruct instr as [n|]; [|discriminate]. eexists _, _. split; [apply surjective_pairing|]. apply instr_acts_ok; [|exact T].
      intros ->. discriminate.
    - apply truthy_false in TI. eexists _, _. split; [reflexivity|now constructor]. }
  assert (B : exists ea ra, (if truthy track then match track with Some n => tracks_bytes w now s n rl | None => ([], Fine) end else ([], Fine)) = (ea, ra)
     /\ song_acts w s rl now track ea ra).
  { destruct (truthy track) eqn:TI.
    - destruct track as [n|]; [|discriminate]. eexists _, _. split; [apply surjective_pairing|]. apply (song_acts_ok _ _ _ _ _ _ H Er).
      intros ->. discriminate.
    - apply truthy_false in TI. eexists _, _. split; [reflexivity|now constructor]. }
  destruct A as (ea & ra & A0 & A1), B as (eb & rb & B0 & B1).
  unfold main_bytes. rewrite smart_open_file by assumption. rewrite E. unfold body_bytes. rewrite V, P, C, A0, B0. unfold seq_acts.
  assert (X : forall out r, both_acts (instr_acts w txt instr) (song_acts w s rl now track) out r ->
    exists s0 txt0 pre0 out0 r0, history_ok (calls_of cs') /\ run_calls (calls_of cs') state_init = Ok s0
    /\ instruments_text s0 = Ok txt0 /\ choose_ticks s0 tpn = (pre0, Ok rl)
    /\ (let (eff, r) := (Say (line ("Opening file: " ++ name)) :: map Say pre ++ Say (line ("Ticks per Note: " ++ str_int rl)) :: out, r)
        in (Say (OpenRead name) :: eff ++ map Say (closing (HFile name "rb")), r)) =
       (map Say (OpenRead name :: line ("Opening file: " ++ name) :: pre0 ++ [line ("Ticks per Note: " ++ str_int rl)])
         ++ out0 ++ [Say (Close (HFile name "rb"))], r0)
    /\ both_acts (instr_acts w txt0 instr) (song_acts w s0 rl now track) out0 r0).
  { intros out r BA. exists s, txt, pre, out, r. split; [exact H|]. split; [exact Er|]. split; [exact T|]. split; [exact C|]. split; [|exact BA].
    f_equal. cbn [map]. rewrite map_app. cbn [app map closing smart_closes]. rewrite <- !app_assoc. reflexivity. }
  destruct ra as [|e|e].
  - exact (X _ _ (ba_both _ _ _ _ _ A1 B1)).
  - exact (X _ _ (ba_first _ _ _ _ A1)).
  - inversion A1.
Qed.

(** ** What a file holds after the writes of zipfile *)
Lemma over_write_at ws : (forall w, In w ws -> 0 <= fst w) -> forall c, fold_left over ws c = fold_left write_at ws c.
Proof.
  induction ws as [|w ws IH]; intros N c; [reflexivity|]. cbn [fold_left]. rewrite IH by (intros; apply N; now right).
  f_equal. unfold over. destruct w as [o b]. symmetry. apply write_overwrite. apply (N (o, b)). now left.
Qed.
Lemma over_grows ws : forall c w, (In w ws -> (length (snd w) <= length (fold_left over ws c))%nat)
  /\ (length c <= length (fold_left over ws c))%nat.
Proof.
  assert (G : forall c w, (length c <= length (over c w))%nat /\ (length (snd w) <= length (over c w))%nat).
  { intros c w. unfold over, overwrite. rewrite !app_length, firstn_length, skipn_length. lia. }
  induction ws as [|v ws IH]; intros c w; [split; [contradiction|cbn; lia]|]. cbn [fold_left].
  destruct (IH (over c v) w) as [A B]. destruct (G c v) as [G1 G2]. split; [|lia]. intros [->|I]; [lia|now apply A].
Qed.
Lemma zip_result now txt : zip_clock now ->
  let x := fold_left over (fst (zip_writes now (utf8 txt))) [] in
  len (utf8 txt) <= len x /\ (len x < 2 ^ 30 -> archive now txt = (x, None)).
Proof.
  intros K x. assert (L : len (utf8 txt) <= len x).
  { unfold len. destruct (over_grows (fst (zip_writes now (utf8 txt))) [] (38, utf8 txt)) as [A _].
    cbn [snd] in A. fold x in A. specialize (A ltac:(rewrite (the_writes now (utf8 txt) K); cbn [fst]; right; now left)). lia. }
  split; [exact L|]. intros S. unfold archive. unfold x. rewrite over_write_at.
  - rewrite (the_writes now (utf8 txt) K). reflexivity.
  - rewrite (the_writes now (utf8 txt) K). cbn [fst]. intros w I. unfold len in *. cbn [In] in I.
    repeat (destruct I as [<-|I]; [cbn [fst]; lia|]). contradiction.
Qed.
(** A file written in one go. *)
Lemma text_put b : overwrite [] (Z.to_nat 0) b = b.
Proof. unfold overwrite. cbn. now rewrite skipn_nil, app_nil_r. Qed.

Lemma song_written_last pre o n m ws c1 c2 D :
  disk_after (map Say pre ++ (o ++ Say m :: Truncate n :: puts n ws ++ [Say c1]) ++ [Say c2]) D n = Some (fold_left over ws []).
Proof.
  rewrite <- app_assoc. cbn [app]. rewrite <- app_assoc. change ([Say c1] ++ [Say c2]) with (map Say [c1; c2]).
  rewrite !disk_app, disk_says. change (Say m :: Truncate n :: ?x) with ([Say m; Truncate n] ++ x). rewrite !disk_app, disk_says.
  set (D1 := disk_after [Say m; Truncate n] _). destruct (disk_puts n ws D1 []) as [A _]; [apply store_same|exact A].
Qed.
Section Run.
  Variables (g : list Z -> res (list Z)) (D : storage) (w : string -> bool) (ierr : option exn) (now : clock).
  Variables (name : string) (instr track : option string) (tpn : option Z) (d : list Z) (cs : list vcmd) (rl : Z).
  Hypothesis W : world_ok g D.
  Hypothesis F : file_name name.
  Hypothesis E : D name = Some d.
  Hypothesis R : readable g d cs.
  Hypothesis RL : row_length (calls_of cs) tpn rl.
  Let run := main_bytes g D w ierr now name instr track tpn.

  (** Where the run can be stopped, and what is then on the disk: before anything was
      written, in the instrument file, or in the song file. *)
  Lemma stopped_run D' : stopped (fst run) D D' ->
    (exists s txt, history_ok (calls_of cs) /\ run_calls (calls_of cs) state_init = Ok s /\ instruments_text s = Ok txt
     /\ ((D' = D)
         \/ (exists i p r, instr = Some i /\ file_name i /\ utf8 txt = p ++ r /\ D' i = Some p /\ forall m, m <> i -> D' m = D m)
         \/ (exists f sg st x, track = Some f /\ f <> "" /\ build_song s rl = Ok sg /\ song_text sg = Ok st
              /\ D' f = Some x /\ in_file [] (fst (zip_writes now (utf8 st))) x
              /\ disk_after (fst run) D f = Some (fold_left over (fst (zip_writes now (utf8 st))) [])
              /\ (forall i, instr = Some i -> file_name i -> i <> f -> D' i = Some (utf8 txt))
              /\ (forall m, m <> f -> instr <> Some m -> D' m = D m)
              /\ (instr = Some "-" -> "-" <> f -> D' "-" = D "-")))).
  Proof.
    intros S. destruct (run_acts g D w ierr now name instr track tpn d cs rl W F E R RL)
      as (s & txt & pre & out & r & H & Er & T & _ & M & B). unfold run in S |- *. rewrite M in S |- *. cbn [fst] in S |- *. clear M.
    exists s, txt. split; [exact H|]. split; [exact Er|]. split; [exact T|].
    apply stopped_app in S as [S|S]; [left; exact (stopped_says _ _ _ S)|]. rewrite disk_says in S.
    assert (S2 : stopped out D D').
    { apply stopped_app in S as [S|S]; [exact S|]. apply (stopped_says [Close (HFile name "rb")]) in S. rewrite S. apply stopped_end. }
    clear S.
    (* the instruments *)
    assert (IA : forall o r, instr_acts w txt instr o r -> stopped o D D' -> D' = D
       \/ (exists i p r, instr = Some i /\ file_name i /\ utf8 txt = p ++ r /\ D' i = Some p /\ forall m, m <> i -> D' m = D m)).
    { intros o r0 A S. destruct A as [o NA| |n Fn Wn|n Fn Wn].
      - inversion S. now left.
      - left. exact (stopped_says [line _; WriteText HStdout txt] _ _ S).
      - inversion S as [| |? ? ? ? S']; subst; [now left|]. cbn [act instr_says] in S'. clear S.
        inversion S' as [| |? ? ? ? S]; subst; [now left|]. clear S'. right. exists n.
        assert (Q : stopped (puts n [(0, utf8 txt)] ++ map Say [Close (HFile n "w")]) (act D (Truncate n)) D') by exact S.
        assert (EN : act D (Truncate n) n = Some []) by apply store_same.
        assert (OT : forall m, m <> n -> act D (Truncate n) m = D m) by (intros; now apply store_other).
        apply stopped_app in Q. destruct Q as [Q|Q].
        + destruct (stopped_puts n _ _ [] _ EN Q) as [(c' & A & B') C]. inversion B' as [|? ? p1 r1|]; subst.
          * exists [], (utf8 txt). repeat split; try reflexivity; try assumption; try apply Fn. intros m N. now rewrite C, OT.
          * exists p1, r1. repeat split; try assumption; try apply Fn; [now rewrite A, text_put|]. intros m N. now rewrite C, OT.
          * match goal with X : in_file _ [] _ |- _ => inversion X; subst end.
            exists (utf8 txt), []. repeat split; try apply Fn; [now rewrite app_nil_r|now rewrite A, text_put|]. intros m N. now rewrite C, OT.
        + apply stopped_says in Q. rewrite Q. destruct (disk_puts n [(0, utf8 txt)] _ [] EN) as [A C].
          exists (utf8 txt), []. repeat split; try apply Fn; [now rewrite app_nil_r|rewrite A; unfold over; cbn [fold_left fst snd]; now rewrite text_put|].
          intros m N. now rewrite C, OT.
      - left. exact (stopped_says [line _] _ _ S). }
    destruct B as [o e A|o o' r A B].
    - destruct (IA _ _ A S2) as [X|X]; [now left|right; now left].
    - apply stopped_app in S2 as [S2|S2]; [destruct (IA _ _ A S2) as [X|X]; [now left|right; now left]|].
      assert (AF : (forall i, instr = Some i -> file_name i -> disk_after o D i = Some (utf8 txt))
                   /\ (forall m, instr <> Some m -> disk_after o D m = D m) /\ (instr = Some "-" -> disk_after o D "-" = D "-")
                   /\ (disk_after o D = D \/ (exists i p r, instr = Some i /\ file_name i /\ utf8 txt = p ++ r /\ disk_after o D i = Some p
                          /\ forall m, m <> i -> disk_after o D m = D m))).
      { remember Fine as r0 eqn:R0. destruct A as [o NA| |n Fn Wn|n Fn Wn].
        - split; [|split; [reflexivity|split; [reflexivity|now left]]]. intros i -> [N1 N2]. destruct NA as [NA|NA]; [discriminate|injection NA as ->; contradiction].
        - split; [|split; [reflexivity|split; [reflexivity|now left]]]. intros i X [N1 N2]. injection X as <-. contradiction.
        - assert (EN : act D (Truncate n) n = Some []) by apply store_same.
          assert (OT : forall m, m <> n -> act D (Truncate n) m = D m) by (intros; now apply store_other).
          destruct (disk_puts n [(0, utf8 txt)] _ [] EN) as [A C]. unfold over in A. cbn [fold_left fst snd] in A. rewrite text_put in A.
          split; [|split; [|split]].
          + intros i X _. injection X as <-. exact A.
          + intros m N. rewrite <- (OT m) by congruence. apply C. congruence.
          + intros X. injection X as ->. destruct Fn. contradiction.
          + right. exists n, (utf8 txt), []. split; [reflexivity|]. split; [exact Fn|]. split; [now rewrite app_nil_r|]. split; [exact A|].
            intros m N. rewrite <- (OT m) by congruence. now apply C.
        - split; [|split; [reflexivity|split; [reflexivity|now left]]]. intros i X _. discriminate R0. }
      destruct AF as (AF1 & AF2 & AF3 & AF4).
      assert (NS : D' = disk_after o D -> D' = D \/ (exists i p r, instr = Some i /\ file_name i /\ utf8 txt = p ++ r /\ D' i = Some p /\ forall m, m <> i -> D' m = D m)).
      { intros ->. exact AF4. }
      destruct B as [o' NA|n e N B|n sg N B Wn|n sg st N B Wn ST].
      + inversion S2; subst. destruct (NS eq_refl) as [X|X]; [now left|right; now left].
      + apply (stopped_says [line _]) in S2. destruct (NS S2) as [X|X]; [now left|right; now left].
      + apply (stopped_says [line _]) in S2. destruct (NS S2) as [X|X]; [now left|right; now left].
      + inversion S2 as [| |? ? ? ? S']; subst; [destruct (NS eq_refl) as [X|X]; [now left|right; now left]|]. cbn [act song_says] in S'. clear S2.
        inversion S' as [| |? ? ? ? S]; subst; [destruct (NS eq_refl) as [X|X]; [now left|right; now left]|]. clear S'.
        right. right. set (D1 := act (disk_after o D) (Truncate n)) in *.
        assert (EN : D1 n = Some []) by apply store_same.
        assert (OT : forall m, m <> n -> D1 m = disk_after o D m) by (intros; now apply store_other).
        assert (Q : exists x, D' n = Some x /\ in_file [] (fst (zip_writes now (utf8 st))) x /\ forall m, m <> n -> D' m = D1 m).
        { apply stopped_app in S as [S|S].
          - destruct (stopped_puts n _ _ [] _ EN S) as [(x & A1 & A2) A3]. exists x. auto.
          - apply (stopped_says [Close (HFile n "wb")]) in S. subst D'.
            destruct (stopped_puts n _ _ [] _ EN (stopped_end (puts n (fst (zip_writes now (utf8 st)))) D1)) as [(x & A1 & A2) A3].
            exists x. auto. }
        destruct Q as (x & Q1 & Q2 & Q3). exists n, sg, st, x. split; [reflexivity|]. split; [exact N|]. split; [exact B|]. split; [exact ST|].
        split; [exact Q1|]. split; [exact Q2|]. split; [|split; [|split]].
        * apply song_written_last.
        * intros i I Fi Ni. rewrite Q3, OT by assumption. now apply AF1.
        * intros m Nm Im. rewrite Q3, OT by assumption. now apply AF2.
        * intros I Nn. rewrite Q3, OT by assumption. now apply AF3.
  Qed.

  (** The end of a run that succeeded. *)
  Lemma final_run : snd run = Fine ->
    exists s txt, history_ok (calls_of cs) /\ run_calls (calls_of cs) state_init = Ok s /\ instruments_text s = Ok txt
    /\ (forall i, instr = Some i -> file_name i -> track <> Some i -> disk_after (fst run) D i = Some (utf8 txt))
    /\ (forall f, track = Some f -> f <> "" -> exists sg st, build_song s rl = Ok sg /\ song_text sg = Ok st
          /\ snd (zip_writes now (utf8 st)) = None
          /\ disk_after (fst run) D f = Some (fold_left over (fst (zip_writes now (utf8 st))) [])).
  Proof.
    destruct (run_acts g D w ierr now name instr track tpn d cs rl W F E R RL)
      as (s & txt & pre & out & r & H & Er & T & _ & M & B). unfold run. rewrite M. cbn [fst snd]. intros ->. clear M.
    exists s, txt. split; [exact H|]. split; [exact Er|]. split; [exact T|].
    remember Fine as r0 eqn:R0. destruct B as [o e A|o o' r A B]; [discriminate|]. subst r. split.
    - intros i -> Fi Nt. rewrite !disk_app, disk_says. change [Say (Close (HFile name "rb"))] with (map Say [Close (HFile name "rb")]). rewrite disk_says.
      assert (Q : disk_after o D i = Some (utf8 txt)).
      { inversion A as [? NA| |n Fn Wn|n Fn Wn]; subst.
        - destruct Fi. destruct NA as [NA|NA]; [discriminate|injection NA as ->; contradiction].
        - destruct Fi. contradiction.
        - destruct (disk_puts i [(0, utf8 txt)] (act D (Truncate i)) []) as [Q _]; [apply store_same|].
          unfold over in Q. cbn [fold_left fst snd] in Q. rewrite text_put in Q. exact Q. }
      rewrite <- Q. destruct B as [o' NA|n e N B|n sg N B Wn|n sg st N B Wn ST]; try reflexivity.
      change (song_says n :: Truncate n :: ?x) with ([song_says n; Truncate n] ++ x). rewrite !disk_app. change [Say ?c] with (map Say [c]) at 1. rewrite disk_says.
      set (D1 := disk_after [song_says n; Truncate n] _). destruct (disk_puts n (fst (zip_writes now (utf8 st))) D1 []) as [_ C]; [apply store_same|].
      rewrite C by congruence. apply store_other. congruence.
    - intros f -> Nf. inversion B as [? NA|n e N B'|n sg N B' Wn|n sg st N B' Wn ST]; subst.
      + destruct NA as [NA|NA]; [discriminate|injection NA as ->; contradiction].
      + exists sg, st. split; [exact B'|]. split; [exact ST|]. split; [destruct (snd _); [discriminate|reflexivity]|]. apply song_written_last.
  Qed.
End Run.

(** Which songs can be built, and what they show. *)
Lemma built_iff h s rl : history_ok h -> run_calls h state_init = Ok s -> rl <> 0 ->
  ((exists sg, build_song s rl = Ok sg) <-> Z.abs rl < float_limit /\ (rl < 0 -> all_notes h = [])).
Proof.
  intros H E N0.
  assert (NEG : - float_limit < rl < 0 -> ((exists sg, build_song s rl = Ok sg) <-> all_notes h = [])).
  { intros FL. destruct (C47_negative h s rl H E FL) as [N1 N2]. split.
    - intros [sg B]. assert (EM : forall ch, 0 <= ch < 8 -> notes h ch = []).
      { intros ch C. destruct (run_logs h s H E ch C) as (K & _). destruct (notes h ch) as [|n l] eqn:EN; [reflexivity|].
        rewrite (N1 ch _ C K) in B; discriminate. }
      unfold all_notes. cbn [flat_map]. now rewrite !EM by lia.
    - intros Z. destruct N2 as (sg & B & _); [|now exists sg]. intros ch C. destruct (run_logs h s H E ch C) as (K & _).
      rewrite K. f_equal. destruct (notes h ch) as [|n l] eqn:EN; [reflexivity|]. exfalso.
      assert (I : In n (all_notes h)); [|rewrite Z in I; destruct I].
      unfold all_notes. apply in_flat_map. exists ch. split; [now apply chans_in|rewrite EN; now left]. }
  split.
  - intros [sg B]. assert (FL : Z.abs rl < float_limit).
    { destruct (Z_lt_le_dec (Z.abs rl) float_limit); [assumption|]. rewrite (proj2 (C47_zero_and_huge s rl)) in B by lia. discriminate. }
    split; [exact FL|]. intros L. apply NEG; [lia|now exists sg].
  - intros [FL Z]. destruct (Z_lt_le_dec 0 rl); [apply (C31_song_built h s rl H E); lia|]. apply NEG; [lia|apply Z; lia].
Qed.
Lemma song_of_ok h s rl sg : history_ok h -> run_calls h state_init = Ok s -> build_song s rl = Ok sg -> song_of h rl (render sg).
Proof.
  intros H E B. split; [intros P; now apply (song_shows_ok h s)|]. intros N.
  assert (Z : Z.abs rl < float_limit /\ (rl < 0 -> all_notes h = [])) by (apply (built_iff h s rl H E); [lia|now exists sg]).
  destruct Z as [FL Z]. split; [now apply Z|].
  destruct (C47_negative h s rl H E ltac:(lia)) as [_ N2]. destruct N2 as (sg' & B' & P & _); [|rewrite B in B'; injection B' as <-; exact P].
  intros ch C. destruct (run_logs h s H E ch C) as (K & _). rewrite K. f_equal. specialize (Z N).
  destruct (notes h ch) as [|n l] eqn:EN; [reflexivity|]. exfalso. assert (I : In n (all_notes h)); [|rewrite Z in I; destruct I].
  unfold all_notes. apply in_flat_map. exists ch. split; [now apply chans_in|rewrite EN; now left].
Qed.
Lemma row_length_nonzero h o rl : row_length h o rl -> rl <> 0.
Proof. intros [n N|o' T t _ _ (C & _)]; [exact N|]. unfold candidate in C. lia. Qed.

(** A beginning of the instrument text is no song file. *)
Lemma every_tabs n : every_char is_char (tabs n) = true.
Proof. induction n; [reflexivity|]. cbn [tabs]. now rewrite every_app, IHn. Qed.
Lemma every_safe s : safe s = true -> every_char is_char s = true.
Proof.
  induction s as [|c s IH]; intro H; [reflexivity|]. cbn [safe] in H. rewrite !andb_true_iff in H. destruct H as [[_ H] S].
  rewrite every_cons, IH by assumption. apply negb_true_iff, orb_false_iff in H as [H _]. unfold is_char.
  replace (Nat.leb 32 (nat_of_ascii c)) with true; [now rewrite orb_true_r|]. symmetry. apply Nat.leb_le. apply Nat.ltb_ge in H. exact H.
Qed.
Lemma every_number s : all_number s = true -> every_char is_char s = true.
Proof.
  induction s as [|c s IH]; intro H; [reflexivity|]. cbn [all_number] in H. apply andb_true_iff in H as [H S]. rewrite every_cons, IH by assumption.
  rewrite andb_true_r. revert H. destruct c as [[] [] [] [] [] [] [] []]; try reflexivity; discriminate.
Qed.
Lemma every_join sep l : every_char is_char sep = true -> Forall (fun s => every_char is_char s = true) l -> every_char is_char (join sep l) = true.
Proof.
  intros S. induction 1 as [|x l X L IH]; [reflexivity|]. destruct l as [|y l]; [exact X|].
  change (join sep (x :: y :: l)) with (x ++ sep ++ join sep (y :: l))%string. now rewrite !every_app, X, S, IH.
Qed.
Lemma every_dumps : forall j level, safe_json j = true -> every_char is_char (dumps level j) = true.
Proof.
  intro j. induction j as [n|b|t|l IH|l IH] using json_induction; intros level SF.
  - apply every_number, all_number_int.
  - destruct b; reflexivity.
  - cbn [dumps]. unfold quoted. rewrite !every_app, (every_safe t SF). reflexivity.
  - destruct l as [|x l]; [reflexivity|]. rewrite dumps_list. unfold nl_indent. rewrite !every_app, !every_tabs, every_join; [reflexivity| |].
    + rewrite !every_app, every_tabs. reflexivity.
    + cbn [safe_json] in SF. clear -IH SF. induction (x :: l) as [|y m IHm]; [constructor|]. cbn [forallb] in SF. apply andb_true_iff in SF as [S1 S2].
      inversion IH; subst. cbn [map]. constructor; auto.
  - destruct l as [|x l]; [reflexivity|]. rewrite dumps_obj. unfold nl_indent. rewrite !every_app, !every_tabs, every_join; [reflexivity| |].
    + rewrite !every_app, every_tabs. reflexivity.
    + cbn [safe_json] in SF. clear -IH SF. induction (x :: l) as [|[k v] m IHm]; [constructor|]. cbn [forallb] in SF. apply andb_true_iff in SF as [S1 S2].
      apply andb_true_iff in S1 as [S0 S1]. inversion IH; subst. cbn [map]. constructor; [|auto].
      unfold item, quoted. rewrite !every_app, (every_safe k S0). cbn [snd] in *. rewrite H1 by assumption. reflexivity.
Qed.
Lemma instruments_chars h s txt : history_ok h -> run_calls h state_init = Ok s -> instruments_text s = Ok txt ->
  Forall (fun b => 9 <= b) (utf8 txt).
Proof.
  intros H E T. apply text_printable. destruct (C18_ranges h s H E) as (_ & _ & _ & R & _). unfold instruments_text in T.
  assert (G : exists l, mapM config_json (s_configs s) = Ok l /\ forallb safe_json l = true).
  { clear -R. induction (s_configs s) as [|c cs IH]; [exists []; split; reflexivity|].
    inversion R as [|? ? Rc R']; subst. destruct (IH R') as (l & M & S). destruct (config_json_ok c Rc) as (j & Ej & Sj & _).
    exists (j :: l). cbn [mapM]. rewrite Ej. cbn [bind]. rewrite M. split; [reflexivity|]. cbn [forallb]. now rewrite Sj, S. }
  destruct G as (l & M & S). rewrite M in T. cbn [bind] in T. pose proof (every_dumps (JList l) 0 S) as Q. revert T Q. generalize (dumps 0 (JList l)) as u. intros u T Q.
  injection T as <-. now rewrite every_app, Q.
Qed.
Lemma no_song_in p : Forall (fun b => 9 <= b) p -> song_in p = None.
Proof.
  intros P. unfold song_in, song_entry, unzip. destruct (find_end p (length p)) as [i|] eqn:F; [|reflexivity]. exfalso.
  apply find_end_true in F. unfold is_end in F. rewrite !andb_true_iff in F. destruct F as [[F _] _]. unfold starts in F.
  destruct (bytes_dec _ end_mark) as [Q|]; [|discriminate].
  assert (I : In 5 p). { rewrite <- (firstn_skipn i p). apply in_or_app. right. rewrite <- (firstn_skipn (length end_mark) (skipn i p)). apply in_or_app. left.
    unfold slice in Q. rewrite Q. cbn. auto. }
  rewrite Forall_forall in P. specialize (P 5 I). lia.
Qed.

(** ** C85 *)
(** After a run that ends normally: the bytes of the song file lead, through the
    unzipping, the XML and the song format, to the song that the bytes of the input
    say; the instrument file holds the JSON text; nothing else has changed. *)
Theorem C85_run : forall g D writable ierr now name instr track tpn d cs rl,
  world_ok g D -> file_name name -> D name = Some d -> readable g d cs ->
  row_length (calls_of cs) tpn rl -> zip_clock now ->
  let run := main_bytes g D writable ierr now name instr track tpn in
  let D' := disk_after (fst run) D in
  snd run = Fine ->
  (forall f, track = Some f -> f <> "" -> exists x, D' f = Some x
     /\ (len x < 2 ^ 30 -> bytes x /\ exists doc, song_in x = Some doc /\ song_of (calls_of cs) rl doc))
  /\ (forall i, instr = Some i -> file_name i -> track <> Some i -> exists x txt, D' i = Some x
        /\ bytes x /\ decode x = Some txt /\ instruments_shown (calls_of cs) txt)
  /\ (forall m, instr <> Some m -> track <> Some m -> D' m = D m).
Proof.
  intros g D w ierr now name instr track tpn d cs rl W F E R RL K run D' Q.
  destruct (final_run g D w ierr now name instr track tpn d cs rl W F E R RL Q) as (s & txt & H & Er & T & A & B).
  split; [|split].
  - intros f Tf Nf. destruct (B f Tf Nf) as (sg & st & X & ST & _ & V). eexists. split; [exact V|].
    destruct (zip_result now st K) as [L Z]. intros S. specialize (Z S).
    destruct (C83_song_file _ s rl sg st now H Er X ST K ltac:(lia)) as (x & A' & Bx & Sx). rewrite Z in A'. injection A' as <-.
    split; [exact Bx|]. exists (render sg). split; [exact Sx|]. exact (song_of_ok _ s rl sg H Er X).
  - intros i Ti Fi Nt. exists (utf8 txt), txt. split; [now apply A|]. split; [apply utf8_bytes|]. split; [apply decode_utf8|].
    destruct (C41_file _ s H Er) as (tx & l & T' & J & S & _). rewrite T in T'. injection T' as <-.
    exists l. split; [exact J|]. rewrite <- (rf_configs _ _ (refines_of_run _ _ H Er)). exact S.
  - intros m N1 N2. unfold D'. destruct (stopped_run g D w ierr now name instr track tpn d cs rl W F E R RL _ (stopped_end _ D))
      as (s' & txt' & _ & _ & _ & [X|[(i & p & r & Ti & _ & _ & _ & X)|(f & sg & st & x & Tf & _ & _ & _ & _ & _ & _ & _ & X & _)]]).
    + fold run in X. now rewrite X.
    + apply X. congruence.
    + apply X; congruence.
Qed.
Print Assumptions C85_run.

(** The run ends normally exactly when the files can be opened and the song exists:
    the row length is not astronomical and, if negative, there is nothing to show. *)
Theorem C85_succeeds : forall g D writable ierr now name instr track tpn d cs rl,
  world_ok g D -> file_name name -> D name = Some d -> readable g d cs ->
  row_length (calls_of cs) tpn rl -> zip_clock now ->
  (snd (main_bytes g D writable ierr now name instr track tpn) = Fine <->
    (forall i, instr = Some i -> file_name i -> writable i = true)
    /\ (forall f, track = Some f -> f <> "" ->
          writable f = true /\ Z.abs rl < float_limit /\ (rl < 0 -> all_notes (calls_of cs) = []))).
Proof.
  intros g D w ierr now name instr track tpn d cs rl W F E R RL K. pose proof (row_length_nonzero _ _ _ RL) as N0.
  destruct (run_acts g D w ierr now name instr track tpn d cs rl W F E R RL)
    as (s & txt & pre & out & r & H & Er & T & _ & M & B). rewrite M. cbn [snd]. clear M.
  pose proof (built_iff _ s rl H Er N0) as BI.
  assert (IA : forall o r, instr_acts w txt instr o r -> (r = Fine <-> forall i, instr = Some i -> file_name i -> w i = true)).
  { intros o r0 A. destruct A as [o NA| |n Fn Wn|n Fn Wn]; split; try reflexivity; try discriminate.
    - intros _ i -> [N1 N2]. destruct NA as [NA|NA]; [discriminate|injection NA as ->; contradiction].
    - intros _ i X [N1 N2]. injection X as <-. contradiction.
    - intros _ i X _. injection X as <-. exact Wn.
    - intros X. rewrite (X n eq_refl Fn) in Wn. discriminate. }
  assert (IB : forall o r, song_acts w s rl now track o r -> (r = Fine <-> (forall f, track = Some f -> f <> "" ->
          w f = true /\ Z.abs rl < float_limit /\ (rl < 0 -> all_notes (calls_of cs) = [])))).
  { intros o r0 A. destruct A as [o NA|n e N B'|n sg N B' Wn|n sg st N B' Wn ST]; split; try discriminate.
    - intros _ f -> Nf. destruct NA as [NA|NA]; [discriminate|injection NA as ->; contradiction].
    - reflexivity.
    - intros X. destruct (X n eq_refl N) as [_ Y]. apply BI in Y as [sg Y]. congruence.
    - intros X. destruct (X n eq_refl N) as [Y _]. congruence.
    - intros _ f X _. injection X as <-. split; [exact Wn|]. apply BI. now exists sg.
    - intros _. rewrite (the_writes now (utf8 st) K). reflexivity. }
  destruct B as [o e A|o o' r A B].
  - split; [discriminate|]. intros [X _]. apply (IA _ _ A) in X. discriminate.
  - rewrite (IB _ _ B). split; [intros X; split; [now apply (IA _ _ A)|exact X]|now intros [_ X]].
Qed.
Print Assumptions C85_succeeds.

(** Killed at any moment.  The song file is as before, or holds no song, or the right
    song; the instrument file is as before or a beginning of the right text; nothing
    else has changed. *)
Theorem C85_killed : forall g D writable ierr now name instr track tpn d cs rl D',
  world_ok g D -> file_name name -> D name = Some d -> readable g d cs ->
  row_length (calls_of cs) tpn rl -> zip_clock now ->
  let run := main_bytes g D writable ierr now name instr track tpn in
  stopped (fst run) D D' ->
  (forall f, track = Some f -> f <> "" ->
     (forall y, disk_after (fst run) D f = Some y -> len y < 2 ^ 30) ->
     D' f = D f
     \/ exists x, D' f = Some x
        /\ (song_in x = None \/ exists doc, song_in x = Some doc /\ song_of (calls_of cs) rl doc))
  /\ (forall i, instr = Some i -> file_name i -> track <> Some i ->
        D' i = D i \/ exists p r txt, D' i = Some p /\ decode (p ++ r) = Some txt /\ instruments_shown (calls_of cs) txt)
  /\ (forall m, instr <> Some m -> track <> Some m -> D' m = D m).
Proof.
  intros g D w ierr now name instr track tpn d cs rl D' W F E R RL K run Q.
  destruct (stopped_run g D w ierr now name instr track tpn d cs rl W F E R RL D' Q) as (s & txt & H & Er & T & C).
  assert (SH : instruments_shown (calls_of cs) txt).
  { destruct (C41_file _ s H Er) as (tx & l & T' & J & S & _). rewrite T in T'. injection T' as <-.
    exists l. split; [exact J|]. rewrite <- (rf_configs _ _ (refines_of_run _ _ H Er)). exact S. }
  split; [|split].
  - intros f Tf Nf Small. destruct C as [C|[(i & p & r & Ti & _ & U & X & Y)|(f' & sg & st & x & Tf' & _ & B & ST & X & I & Fin & _)]].
    + left. now rewrite C.
    + destruct (string_dec f i) as [->|Ni]; [|left; now apply Y]. right. exists p. split; [exact X|]. left. apply no_song_in.
      pose proof (instruments_chars _ s txt H Er T) as P. rewrite U in P. now apply Forall_app in P.
    + assert (f' = f) by congruence. subst f'. right. exists x. split; [exact X|]. fold run in Fin. specialize (Small _ Fin).
      destruct (zip_result now st K) as [L _].
      destruct (C84_killed _ s rl sg st now x H Er B ST K ltac:(lia) I) as [N|[_ N]]; [now left|right].
      exists (render sg). split; [exact N|]. exact (song_of_ok _ s rl sg H Er B).
  - intros i Ti Fi Nt. destruct C as [C|[(i' & p & r & Ti' & _ & U & X & _)|(f' & sg & st & x & Tf' & _ & _ & _ & _ & _ & _ & X & _)]].
    + left. now rewrite C.
    + assert (i' = i) by congruence. subst i'. right. exists p, r, txt. split; [exact X|]. rewrite <- U. split; [apply decode_utf8|exact SH].
    + right. exists (utf8 txt), [], txt. split; [apply X; congruence|]. rewrite app_nil_r. split; [apply decode_utf8|exact SH].
  - intros m N1 N2. destruct C as [C|[(i & p & r & Ti & _ & _ & _ & X)|(f & sg & st & x & Tf & _ & _ & _ & _ & _ & _ & _ & X & _)]].
    + now rewrite C.
    + apply X. congruence.
    + apply X; congruence.
Qed.
Print Assumptions C85_killed.

(** A clock outside 1980..2107: when the song would have been written there is an
    exception, and the song file, whatever it was before, holds no song. *)
Theorem C85_clock : forall g D writable ierr now name instr f tpn d cs rl,
  world_ok g D -> file_name name -> D name = Some d -> readable g d cs ->
  row_length (calls_of cs) tpn rl -> Z.abs rl < float_limit -> (rl < 0 -> all_notes (calls_of cs) = []) -> clock_ok now -> ~ 1980 <= year now <= 2107 ->
  f <> "" -> writable f = true -> (forall n, instr = Some n -> file_name n -> writable n = true) ->
  let run := main_bytes g D writable ierr now name instr (Some f) tpn in
  (exists e, snd run = NoDate e)
  /\ exists x, disk_after (fst run) D f = Some x /\ song_in x = None.
Proof.
  intros g D w ierr now name instr f tpn d cs rl W F E R RL FL NG K Y Nf Wf Wi run.
  destruct (run_acts g D w ierr now name instr (Some f) tpn d cs rl W F E R RL)
    as (s & txt & pre & out & r & H & Er & T & _ & M & B). unfold run. rewrite M. cbn [fst snd]. clear M.
  destruct B as [o e A|o o' r A B].
  - inversion A as [| | |n Fn Wn]; subst. rewrite Wi in Wn by (reflexivity || assumption). discriminate.
  - destruct (proj2 (built_iff _ s rl H Er (row_length_nonzero _ _ _ RL)) (conj FL NG)) as [sg' X].
    inversion B as [? NA|n e N B'|n sg N B' Wn|n sg st N B' Wn ST]; subst; try congruence.
    + destruct NA as [NA|NA]; [discriminate|injection NA as ->; contradiction].
    + destruct (C83_clock now st K Y) as (x & e & A' & _ & S).
      assert (ZW : zip_writes now (utf8 st) = ([(0, end_record 0 0 0)], Some e)).
      { unfold archive in A'. revert A'. unfold zip_writes. destruct (year now <? 1980); [now intros [= _ <-]|].
        destruct (65535 <? dosdate now); [now intros [= _ <-]|]. discriminate. }
      rewrite ZW. cbn [fst snd]. split; [now exists e|]. eexists. split; [apply song_written_last|].
      unfold archive in A'. rewrite ZW in A'. injection A' as A'. rewrite <- A' in S. exact S.
Qed.
Print Assumptions C85_clock.

(** An input that cannot be read to its end: an exception, and the disk is as before. *)
Theorem C85_unreadable : forall g D writable ierr now name instr track tpn D', world_ok g D ->
  (forall d cs, file_name name -> D name = Some d -> ~ readable g d cs) ->
  let run := main_bytes g D writable ierr now name instr track tpn in
  (exists e, snd run = Failed e) /\ (stopped (fst run) D D' -> D' = D).
Proof.
  intros g D w ierr now name instr track tpn D' W N run. unfold run, main_bytes.
  destruct (file_name_dec name) as [F|F].
  - rewrite smart_open_file by assumption. destruct (D name) as [d|] eqn:E; [|split; [now exists OSError|exact (stopped_says [] D D')]].
    destruct (read_cases g D name d W E) as [(cs & s & v & R & _)|(_ & e & P)]; [now destruct (N d cs F eq_refl)|].
    unfold body_bytes. destruct (fst (reader g clocks_empty (mkfile d 0))) as [v|x].
    + rewrite P. split; [now exists e|]. exact (stopped_says [OpenRead name; line _; Close (HFile name "rb")] D D').
    + split; [now exists x|]. exact (stopped_says [OpenRead name; line _; Close (HFile name "rb")] D D').
  - rewrite (proj1 (smart_open_std _ F)). unfold body_bytes.
    destruct ierr as [x|]; (split; [eexists; reflexivity|]); exact (stopped_says [line _] D D').
Qed.
Print Assumptions C85_unreadable.

Lemma truthy_some n : n <> "" -> truthy (Some n) = true.
Proof. intros N. unfold truthy. destruct (String.eqb_spec n ""); [contradiction|reflexivity]. Qed.
(** What is printed, and how it ends, is as in the coarser account of C42-C44 and
    C71-C75. *)
Theorem C85_same : forall g D writable ierr now name instr track tpn d cs rl,
  world_ok g D -> file_name name -> D name = Some d -> readable g d cs ->
  row_length (calls_of cs) tpn rl -> zip_clock now ->
  let fine := main_bytes g D writable ierr now name instr track tpn in
  let coarse := main g D writable ierr true name instr track tpn in
  stdout_text (said (fst fine)) = stdout_text (fst coarse)
  /\ snd fine = match snd coarse with Ok _ => Fine | Err e => Failed e end.
Proof.
  intros g D w ierr now name instr track tpn d cs rl W F E R RL K fine coarse.
  destruct (run_acts g D w ierr now name instr track tpn d cs rl W F E R RL)
    as (s & txt & pre & out & r & H & Er & T & C & M & B). unfold fine. rewrite M. cbn [fst snd]. clear M fine.
  destruct (main_rest g D w ierr name instr track tpn d cs W F E R) as (s' & _ & Er' & M).
  assert (s' = s) by congruence. subst s'. unfold coarse. rewrite M. cbn [fst snd]. clear M coarse.
  unfold rest_of_run. rewrite C.
  assert (SS : forall l, said (map Say l) = l) by (induction l as [|x l IH]; [reflexivity|cbn [map said flat_map app]; f_equal; exact IH]).
  assert (SA : forall a b, said (a ++ b) = said a ++ said b) by (intros; apply flat_map_app).
  assert (TA : forall a b, stdout_text (a ++ b) = (stdout_text a ++ stdout_text b)%string) by (intros; apply stdout_app).
  set (conv := fun r : res unit => match r with Ok _ => Fine | Err e => Failed e end).
  assert (IA : forall o r0, instr_acts w txt instr o r0 -> exists eb rb,
      (if truthy instr then match instr with Some n => do_instruments w n s | None => ([], Ok tt) end else ([], Ok tt)) = (eb, rb)
      /\ stdout_text (said o) = stdout_text eb /\ r0 = conv rb).
  { intros o r0 A. destruct A as [o NA| |n Fn Wn|n Fn Wn].
    - apply truthy_false in NA. rewrite NA. eexists _, _. split; [reflexivity|]. split; reflexivity.
    - cbn [truthy String.eqb negb]. unfold do_instruments. rewrite T. eexists _, _. split; [reflexivity|]. split; reflexivity.
    - rewrite (truthy_some n (proj1 Fn)). unfold do_instruments. rewrite T, smart_open_file, Wn by assumption.
      eexists _, _. split; [reflexivity|]. split; reflexivity.
    - rewrite (truthy_some n (proj1 Fn)). unfold do_instruments. rewrite T, smart_open_file, Wn by assumption.
      eexists _, _. split; [reflexivity|]. split; reflexivity. }
  assert (IB : forall o r0, song_acts w s rl now track o r0 -> exists eb rb,
      (if truthy track then match track with Some n => do_tracks w s n rl | None => ([], Ok tt) end else ([], Ok tt)) = (eb, rb)
      /\ stdout_text (said o) = stdout_text eb /\ r0 = conv rb).
  { intros o r0 A. destruct A as [o NA|n e N B'|n sg N B' Wn|n sg st N B' Wn ST].
    - apply truthy_false in NA. rewrite NA. eexists _, _. split; [reflexivity|]. split; reflexivity.
    - rewrite (truthy_some n N). unfold do_tracks. rewrite B'. eexists _, _. split; [reflexivity|]. split; reflexivity.
    - rewrite (truthy_some n N). unfold do_tracks. rewrite B', Wn. eexists _, _. split; [reflexivity|]. split; reflexivity.
    - rewrite (truthy_some n N). unfold do_tracks. rewrite B', Wn, (the_writes now (utf8 st) K). eexists _, _. split; [reflexivity|]. split; reflexivity. }
  assert (P : forall oc rc, stdout_text (said out) = stdout_text oc -> r = conv rc ->
    stdout_text (said (map Say (OpenRead name :: line ("Opening file: " ++ name) :: pre ++ [line ("Ticks per Note: " ++ str_int rl)])
         ++ out ++ [Say (Close (HFile name "rb"))]))
    = stdout_text (OpenRead name :: line ("Opening file: " ++ name) :: fst (pre ++ line ("Ticks per Note: " ++ str_int rl) :: oc, rc) ++ [Close (HFile name "rb")])
    /\ r = conv (snd (pre ++ line ("Ticks per Note: " ++ str_int rl) :: oc, rc))).
  { intros oc rc Ho Hr. split; [|exact Hr]. cbn [fst]. rewrite SA, SS, SA, TA, TA, Ho.
    change (OpenRead name :: ?a :: ?b) with ([OpenRead name; a] ++ b). rewrite !TA.
    change (line ("Ticks per Note: " ++ str_int rl) :: oc) with ([line ("Ticks per Note: " ++ str_int rl)] ++ oc). rewrite !TA.
    rewrite !str_app_assoc. reflexivity. }
  destruct B as [o e A|o o' r A B].
  - destruct (IA _ _ A) as (eb & rb & -> & Q1 & Q2). destruct rb as [[]|x]; [discriminate|]. unfold seq_eff. now apply P.
  - destruct (IA _ _ A) as (eb & rb & -> & Q1 & Q2). destruct rb as [[]|x]; [|discriminate]. unfold seq_eff.
    destruct (IB _ _ B) as (ec & rc & -> & Q3 & Q4). apply P; [rewrite SA, !TA; congruence|exact Q4].
Qed.
Print Assumptions C85_same.

(** ** The hypotheses are met *)
Notation bytes_sample := (main_bytes no_gzip disk (fun _ => true) None noon "a.vgm" (Some "i.json") (Some "s.xrns") (Some 20)).
Lemma sample_fine : snd bytes_sample = Fine.
Proof.
  apply (C85_succeeds no_gzip disk (fun _ => true) None noon "a.vgm" (Some "i.json") (Some "s.xrns") (Some 20) sample_file
    (map op_command sample_ops) 20).
  - apply disk_ok.
  - split; discriminate.
  - reflexivity.
  - apply sample_readable.
  - constructor. lia.
  - exact C83_noon.
  - split; [reflexivity|]. intros f _ _. split; [reflexivity|]. split; [reflexivity|]. lia.
Qed.
Lemma sample_small : exists x, disk_after (fst bytes_sample) disk "s.xrns" = Some x /\ len x < 2 ^ 30.
Proof.
  assert (V : match disk_after (fst bytes_sample) disk "s.xrns" with Some x => len x | None => 2 ^ 30 end <? 2 ^ 30 = true) by (vm_compute; reflexivity).
  destruct (disk_after _ _ _) as [x|]; [exists x; split; [reflexivity|lia]|discriminate].
Qed.
(** The song file of the sample: its bytes hold a song with a note in row 50. *)
Example C85_sample : exists x doc c, disk_after (fst bytes_sample) disk "s.xrns" = Some x /\ song_in x = Some doc
  /\ cell doc 0 0 50 = Some c /\ disk_after (fst bytes_sample) disk "a.vgm" = Some sample_file.
Proof.
  destruct sample_small as (x & X & S).
  pose proof (C85_run no_gzip disk (fun _ => true) None noon "a.vgm" (Some "i.json") (Some "s.xrns") (Some 20) sample_file
    (map op_command sample_ops) 20 disk_ok) as P. cbv zeta in P.
  specialize (P ltac:(split; discriminate) eq_refl sample_readable ltac:(constructor; lia) C83_noon sample_fine).
  destruct P as (A & _ & B).
  destruct (A "s.xrns" eq_refl ltac:(discriminate)) as (x' & X' & C). assert (x' = x) by congruence. subst x'.
  destruct (C S) as (_ & doc & Sg & Sh). pose proof (ss_cells _ _ _ (proj1 Sh ltac:(lia)) 0 0 50 ltac:(lia) ltac:(lia) ltac:(lia)) as Q.
  assert (L : last_event 20 (notes (calls_of (map op_command sample_ops)) 0) (64 * 0 + 50) = Some (mknote 0 true true 0 0 0 1000)) by (vm_compute; reflexivity).
  rewrite L in Q. destruct Q as (c & Q & _). exists x, doc, c. split; [exact X|]. split; [exact Sg|]. split; [exact Q|].
  change (Some sample_file) with (disk "a.vgm"). apply B; discriminate.
Qed.
(** Killed after the instrument file and the first bytes of the archive. *)
Example C85_killed_met : exists D', stopped (fst bytes_sample) disk D' /\ D' "s.xrns" = Some [80; 75] /\ D' "i.json" <> None /\ D' "i.json" <> Some [].
Proof.
  assert (Q : exists pre r rest, fst bytes_sample = pre ++ Put "s.xrns" 0 (80 :: 75 :: r) :: rest
    /\ (let D1 := disk_after pre disk in D1 "s.xrns" = Some [] /\ D1 "i.json" <> None /\ D1 "i.json" <> Some [])).
  { assert (V : match skipn 9 (fst bytes_sample) with Put n o (a :: b :: _) :: _ => String.eqb n "s.xrns" && (o =? 0) && (a =? 80) && (b =? 75) | _ => false end = true)
      by (vm_compute; reflexivity).
    assert (V2 : match disk_after (firstn 9 (fst bytes_sample)) disk "s.xrns", disk_after (firstn 9 (fst bytes_sample)) disk "i.json" with
                 | Some [], Some (_ :: _) => true | _, _ => false end = true) by (vm_compute; reflexivity).
    revert V V2. generalize (fst bytes_sample) as l. intros l V V2.
    exists (firstn 9 l).
    destruct (skipn 9 l) as [|[|?|n o [|a [|b r]]] rest] eqn:SK; try discriminate.
    exists r, rest. split.
    - rewrite <- (firstn_skipn 9 l) at 1. f_equal. rewrite SK. rewrite !andb_true_iff in V. destruct V as [[[V1 V3] V4] V5].
      apply String.eqb_eq in V1. apply Z.eqb_eq in V3, V4, V5. now subst.
    - cbv zeta. destruct (disk_after _ disk "s.xrns") as [[|? ?]|]; try discriminate. destruct (disk_after _ disk "i.json") as [[|? ?]|]; try discriminate.
      split; [reflexivity|]. split; discriminate. }
  revert Q. generalize (fst bytes_sample) as l. intros l Q. destruct Q as (pre & r & rest & -> & A & B & C).
  exists (act (disk_after pre disk) (Put "s.xrns" 0 [80; 75])). split; [|split; [cbn [act]; rewrite A; reflexivity|]].
  - clear A B C. revert rest. generalize disk as D. induction pre as [|a pre IH]; intros D rest.
    + exact (stopped_within "s.xrns" 0 [80; 75] r rest D).
    + apply stopped_later. apply IH.
  - rewrite act_put_other by discriminate. auto.
Qed.
Example C85_clock_met : snd (main_bytes no_gzip disk (fun _ => true) None (mkclock 1979 12 31 23 59 59) "a.vgm" None (Some "s.xrns") (Some 20)) = NoDate ClockTooEarly.
Proof. vm_compute. reflexivity. Qed.
Example C85_unreadable_met : forall d cs, file_name "b.vgm" -> disk "b.vgm" = Some d -> ~ readable no_gzip d cs.
Proof. intros d cs _ E. discriminate. Qed.
