(** C83, C84: the song file as bytes. *)
From Coq Require Import Lia ZifyBool.
From Verif.Model Require Import Py Command Config Note State Ticks Song Serializer Dataclass Dao Document XmlText Zip Extract History.
From Verif.Spec Require Import VgmFormat Ym2151 Ranges Rhythm Text Tracker SongFile XmlReader SongText ZipReader SongArchive.
From Verif.Proofs Require Import PyLemmas CoreProofs XmlProofs XmlProofs2 CrcProofs ZipProofs ZipProofs2 ZipProofs3.
From Verif.Props Require Import Chip Song SongText.
Open Scope string_scope.
Open Scope list_scope.
Open Scope Z_scope.

(** ** C83 *)
(** The bytes of the text, whatever it is, come out again: the archive holds exactly
    one member, it is called Song.xml, and its bytes are the UTF-8 of the text. *)
Theorem C83_one_member : forall t txt, zip_clock t -> len (utf8 txt) < 2 ^ 30 ->
  exists d, archive t txt = (d, None) /\ bytes d
    /\ (exists b, unzip d = Some [(song_name, b)] /\ decode b = Some txt).
Proof.
  intros t txt K S. pose proof (utf8_bytes txt) as B. exists (finished t (utf8 txt)).
  split; [|split; [now apply finished_bytes|]].
  - unfold archive. pose proof (writes_finish t (utf8 txt) K S) as W. rewrite (the_writes t (utf8 txt) K) in W |- *.
    cbn [fst] in W. now rewrite W.
  - exists (utf8 txt). split; [|apply decode_utf8]. rewrite finished_tampered, tampered_unzip by (reflexivity || exact S).
    now rewrite <- (crc32_checksum _ B), Z.eqb_refl.
Qed.
Lemma one_entry d b : unzip d = Some [(song_name, b)] -> song_entry d = Some b.
Proof. intros U. unfold song_entry. rewrite U. cbn [filter fst]. destruct (bytes_dec song_name song_name); [reflexivity|congruence]. Qed.

(** The song file of every recording: its bytes lead back to the song. *)
Theorem C83_song_file : forall h s tpn sg txt t,
  history_ok h -> run_calls h state_init = Ok s -> build_song s tpn = Ok sg -> song_text sg = Ok txt ->
  zip_clock t -> len (utf8 txt) < 2 ^ 30 ->
  exists d, archive t txt = (d, None) /\ bytes d /\ song_in d = Some (render sg).
Proof.
  intros h s tpn sg txt t H E B T K S. destruct (C83_one_member t txt K S) as (d & A & Bd & b & U & D).
  exists d. split; [exact A|]. split; [exact Bd|]. unfold song_in. rewrite (one_entry d b U), D.
  destruct (C81_exported h s tpn sg H E B) as (txt' & x & T' & X & R). rewrite T in T'. injection T' as <-. now rewrite X.
Qed.

Lemma split_front {A} (a b x y : list A) : b ++ x = a ++ y -> (length a <= length b)%nat -> exists b', b = a ++ b'.
Proof.
  revert b. induction a as [|e a IH]; intros b E L; [now exists b|]. destruct b as [|f b]; [cbn in L; lia|].
  injection E as -> E. destruct (IH b E) as (b' & ->); [cbn in L; lia|]. now exists b'.
Qed.
Lemma split_back {A} (a b x y : list A) : x ++ b = y ++ a -> (length a <= length b)%nat -> exists b', b = b' ++ a.
Proof.
  intros E L. apply (f_equal (@rev A)) in E. rewrite !rev_app_distr in E.
  destruct (split_front (rev a) (rev b) _ _ E) as (c & C); [rewrite !rev_length; exact L|].
  exists (rev c). apply (f_equal (@rev A)) in C. rewrite rev_app_distr, !rev_involutive in C. exact C.
Qed.
(** Damage to the text does not go unnoticed: if up to four neighbouring bytes of it
    have changed, the archive is refused. *)
Theorem C83_damage : forall t txt d p w w' q, zip_clock t -> len (utf8 txt) < 2 ^ 30 -> archive t txt = (d, None) ->
  d = p ++ w ++ q -> (38 <= length p)%nat -> (76 <= length q)%nat ->
  length w' = length w -> (length w <= 4)%nat -> bytes w' -> w' <> w ->
  unzip (p ++ w' ++ q) = None.
Proof.
  intros t txt d p w w' q K S A E Lp Lq Lw L4 Bw N. pose proof (utf8_bytes txt) as B.
  assert (F : d = finished t (utf8 txt)).
  { unfold archive in A. pose proof (writes_finish t (utf8 txt) K S) as W. rewrite (the_writes t (utf8 txt) K) in W, A.
    cbn [fst] in W. rewrite W in A. now injection A. }
  rewrite E in F. unfold finished in F. set (h := local_header t _ _ _) in F. set (T := central_entry t _ _ _ ++ member_name ++ _) in F.
  assert (Lh : length h = 38%nat) by reflexivity. assert (LT : length T = 76%nat) by reflexivity.
  assert (P : exists p', p = h ++ p').
  { apply (split_front h p (w ++ q) (utf8 txt ++ T)); [exact F|lia]. }
  destruct P as (p' & ->). rewrite <- app_assoc in F. apply app_inv_head in F.
  assert (Q : exists q', q = q' ++ T).
  { apply (split_back T q (p' ++ w) (utf8 txt)); [now rewrite <- app_assoc|lia]. }
  destruct Q as (q' & ->). assert (D : utf8 txt = p' ++ w ++ q').
  { rewrite !app_assoc in F. apply app_inv_tail in F. rewrite <- F. now rewrite <- app_assoc. }
  replace ((h ++ p') ++ w' ++ q' ++ T) with (tampered t (utf8 txt) (p' ++ w' ++ q')).
  - rewrite tampered_unzip by (rewrite D, !app_length; lia).
    destruct (Z.eqb_spec (checksum (p' ++ w' ++ q')) (crc32 (utf8 txt))) as [C|]; [|reflexivity]. exfalso. apply N. symmetry.
    rewrite (crc32_checksum _ B), D in C. rewrite D in B. apply (burst p' w w' q' B Bw); [now symmetry|exact L4|now symmetry].
  - unfold tampered. fold h T. now rewrite <- !app_assoc.
Qed.

(** With a clock outside 1980..2107 there is an exception, and what is left is an
    archive without members. *)
Theorem C83_clock : forall t txt, clock_ok t -> ~ 1980 <= year t <= 2107 ->
  exists d e, archive t txt = (d, Some e) /\ unzip d = Some [] /\ song_in d = None.
Proof.
  intros t txt K Y. exists (end_record 0 0 0). unfold archive, zip_writes.
  destruct (Z.ltb_spec (year t) 1980) as [L|L].
  - exists ClockTooEarly. split; [reflexivity|]. split; vm_compute; reflexivity.
  - pose proof (dosdate_range t K L) as (_ & D). replace (65535 <? dosdate t) with true by lia.
    exists ClockTooLate. split; [reflexivity|]. split; vm_compute; reflexivity.
Qed.

(** ** C84 *)
Lemma chars_of_events : forall s m e, events m s = Some e -> every_char is_char s = true.
Proof.
  induction s as [|c s IH]; intros m e E; [reflexivity|]. rewrite every_cons. cbn [events] in E.
  destruct (is_char c); [|discriminate]. cbn [negb andb] in E |- *.
  assert (O : forall (f : list event -> list event) m, option_map f (events m s) = Some e -> every_char is_char s = true).
  { intros f m' G. destruct (events m' s) eqn:X; [now apply IH in X|discriminate]. }
  destruct m;
    repeat match type of E with
    | (if ?b then _ else _) = _ => destruct b
    | match ?b with _ => _ end = _ => destruct b
    end; try discriminate; (now apply IH in E) || (now apply O in E).
Qed.
Lemma chars_of_lines s : every_char is_char (line_ends s) = true -> every_char is_char s = true.
Proof.
  induction s as [|c s IH]; [reflexivity|]. cbn [line_ends]. rewrite every_cons. destruct (Ascii.eqb_spec c CR) as [->|N].
  - destruct s as [|d s]; [reflexivity|]. destruct (Ascii.eqb d LF); [intros H; now rewrite IH|].
    rewrite every_cons, andb_true_iff. intros [_ H]. now rewrite IH.
  - rewrite every_cons, andb_true_iff. intros [-> H]. now rewrite IH.
Qed.
Lemma xml_chars txt x : read_xml txt = Some x -> every_char is_char txt = true.
Proof.
  unfold read_xml. destruct (events (MText "") (line_ends txt)) eqn:E; [|discriminate]. intros _.
  apply chars_of_lines. exact (chars_of_events _ _ _ E).
Qed.
Lemma char_bytes c : is_char c = true -> Forall (fun b => 9 <= b) (utf8_char c).
Proof.
  intros C. assert (X : forallb (fun b => 9 <=? b) (utf8_char c) = true).
  { revert C. destruct c as [[] [] [] [] [] [] [] []]; try reflexivity; discriminate. }
  apply Forall_forall. intros b I. rewrite forallb_forall in X. specialize (X b I). lia.
Qed.
Lemma text_printable s : every_char is_char s = true -> Forall (fun b => 9 <= b) (utf8 s).
Proof.
  induction s as [|c s IH]; [constructor|]. rewrite every_cons, andb_true_iff. intros [C H]. cbn [utf8]. apply Forall_app. split; [now apply char_bytes|now apply IH].
Qed.
Lemma song_text_long sg txt : song_text sg = Ok txt -> (15 <= length (utf8 txt))%nat.
Proof.
  unfold song_text. destruct (song_xml sg) as [x|]; [|discriminate]. cbn [bind]. intros E. injection E as <-.
  unfold document_text. rewrite utf8_app, app_length. change (length (utf8 declaration)) with 38%nat. lia.
Qed.

(** Killed at any moment after the song file was opened: there is no song in it, or
    the right one. *)
Theorem C84_killed : forall h s tpn sg txt t c,
  history_ok h -> run_calls h state_init = Ok s -> build_song s tpn = Ok sg -> song_text sg = Ok txt ->
  zip_clock t -> len (utf8 txt) < 2 ^ 30 ->
  in_file [] (fst (zip_writes t (utf8 txt))) c ->
  song_in c = None \/ (c = fst (archive t txt) /\ song_in c = Some (render sg)).
Proof.
  intros h s tpn sg txt t c H E B T K S W.
  destruct (C81_exported h s tpn sg H E B) as (txt' & x & T' & X & _). rewrite T in T'. injection T' as <-.
  pose proof (text_printable txt (xml_chars txt x X)) as P. pose proof (song_text_long sg txt T) as L.
  destruct (written_cases t (utf8 txt) K (utf8_bytes txt) S P L c W) as [N|F].
  - left. unfold song_in. now rewrite N.
  - right. destruct (C83_song_file h s tpn sg txt t H E B T K S) as (d & A & _ & R).
    assert (D : c = d).
    { rewrite F. unfold archive in A. pose proof (writes_finish t (utf8 txt) K S) as V. rewrite (the_writes t (utf8 txt) K) in V, A.
      cbn [fst] in V. rewrite V in A. now injection A. }
    rewrite A. cbn [fst]. rewrite D. split; [reflexivity|exact R].
Qed.

(** A finished file that lost its end, however little, holds no song. *)
Theorem C84_cut : forall h s tpn sg txt t d p r,
  history_ok h -> run_calls h state_init = Ok s -> build_song s tpn = Ok sg -> song_text sg = Ok txt ->
  zip_clock t -> len (utf8 txt) < 2 ^ 30 -> archive t txt = (d, None) ->
  d = p ++ r -> r <> [] -> song_in p = None.
Proof.
  intros h s tpn sg txt t d p r H E B T K S A D R.
  destruct (C81_exported h s tpn sg H E B) as (txt' & x & T' & X & _). rewrite T in T'. injection T' as <-.
  pose proof (text_printable txt (xml_chars txt x X)) as P. pose proof (song_text_long sg txt T) as L.
  unfold archive in A. pose proof (writes_finish t (utf8 txt) K S) as V. rewrite (the_writes t (utf8 txt) K) in V, A.
  cbn [fst] in V. rewrite V in A. injection A as A. rewrite finished_is in A. rewrite <- A in D.
  unfold song_in. destruct (h1_ok t (utf8 txt) K (utf8_bytes txt) S L) as [S1 N1].
  pose proof (cut_none t (utf8 txt) K (utf8_bytes txt) S P L _ p r S1 N1 (eq_sym D) R) as C. now rewrite C.
Qed.

(** ** The hypotheses are met *)
Definition noon : clock := mkclock 2024 2 29 12 30 59.
Example C83_noon : zip_clock noon.
Proof. unfold zip_clock, clock_ok, noon. cbn. lia. Qed.
(** The file of the text "a<b", as CPython's zipfile writes it. *)
Example C83_bytes : archive noon "a<b" =
  ([80; 75; 3; 4; 20; 0; 0; 0; 0; 0; 221; 99; 93; 88; 142; 1; 27; 102; 3; 0; 0; 0; 3; 0; 0; 0; 8; 0; 0; 0;
    83; 111; 110; 103; 46; 120; 109; 108; 97; 60; 98;
    80; 75; 1; 2; 20; 3; 20; 0; 0; 0; 0; 0; 221; 99; 93; 88; 142; 1; 27; 102; 3; 0; 0; 0; 3; 0; 0; 0; 8; 0; 0; 0;
    0; 0; 0; 0; 0; 0; 0; 0; 128; 1; 0; 0; 0; 0; 83; 111; 110; 103; 46; 120; 109; 108;
    80; 75; 5; 6; 0; 0; 0; 0; 1; 0; 1; 0; 54; 0; 0; 0; 41; 0; 0; 0; 0; 0], None).
Proof. vm_compute. reflexivity. Qed.
Lemma tune_small : exists txt, song_text tune_song = Ok txt /\ len (utf8 txt) < 2 ^ 30.
Proof. destruct (song_text tune_song) as [txt|e] eqn:E; [exists txt; split; [reflexivity|]|].
  - apply (f_equal (fun r => match r with Ok x => len (utf8 x) | Err _ => 0 end)) in E.
    assert (V : match song_text tune_song with Ok x => len (utf8 x) | Err _ => 0 end = 8223) by (vm_compute; reflexivity).
    rewrite V in E. rewrite <- E. reflexivity.
  - exfalso. apply (f_equal (fun r : res string => match r with Ok _ => true | Err _ => false end)) in E. revert E. vm_compute. discriminate.
Qed.
Example C83_tune : exists txt d, song_text tune_song = Ok txt /\ archive noon txt = (d, None)
  /\ song_in d = Some (render tune_song) /\ cell (render tune_song) 1 0 11 <> None.
Proof.
  destruct tune_small as (txt & T & S). exists txt.
  destruct (C83_song_file tune tune_state 20 tune_song txt noon tune_ok tune_run tune_song_built T C83_noon S) as (d & A & _ & R).
  exists d. split; [exact T|]. split; [exact A|]. split; [exact R|vm_compute; discriminate].
Qed.
(** Damage: the second and third byte of "a<b" exchanged. *)
Example C83_damage_met : exists d p w q, archive noon "a<b" = (d, None) /\ d = p ++ w ++ q /\ (38 <= length p)%nat /\ (76 <= length q)%nat
  /\ w = [60; 98] /\ unzip (p ++ [98; 60] ++ q) = None.
Proof.
  eexists _, (firstn 39 (fst (archive noon "a<b"))), [60; 98], (skipn 41 (fst (archive noon "a<b"))).
  split; [exact C83_bytes|]. split; [vm_compute; reflexivity|]. split; [vm_compute; lia|]. split; [vm_compute; lia|]. split; [reflexivity|].
  vm_compute. reflexivity.
Qed.
Example C83_clock_met : clock_ok (mkclock 1979 12 31 23 59 59) /\ clock_ok (mkclock 2108 1 1 0 0 0)
  /\ snd (archive (mkclock 1979 12 31 23 59 59) "a<b") = Some ClockTooEarly
  /\ snd (archive (mkclock 2108 1 1 0 0 0) "a<b") = Some ClockTooLate.
Proof. unfold clock_ok. cbn. split; [lia|]. split; [lia|]. split; reflexivity. Qed.
(** Killed after 20 bytes of the second header: the file has the text already, and
    still no song. *)
Example C84_met : exists txt c, song_text tune_song = Ok txt
  /\ in_file [] (fst (zip_writes noon (utf8 txt))) c /\ c <> [] /\ c <> fst (archive noon txt) /\ song_in c = None.
Proof.
  destruct tune_small as (txt & T & S).
  set (h0 := local_header noon 0 0 (len (utf8 txt))). set (h1 := local_header noon (crc32 (utf8 txt)) (len (utf8 txt)) (len (utf8 txt))).
  set (c := overwrite (overwrite (overwrite [] (Z.to_nat 0) h0) (Z.to_nat 38) (utf8 txt)) (Z.to_nat 0) (firstn 20 h1)).
  assert (W : in_file [] (fst (zip_writes noon (utf8 txt))) c).
  { rewrite (the_writes noon (utf8 txt) C83_noon). cbn [fst]. fold h0 h1. apply after_writing, after_writing.
    rewrite <- (firstn_skipn 20 h1) at 1. apply while_writing. }
  assert (L : length c = (38 + length (utf8 txt))%nat).
  { unfold c. rewrite (overwrite_end [] h0) by reflexivity. rewrite (overwrite_end ([] ++ h0)) by reflexivity.
    unfold overwrite. change (length (firstn 20 h1)) with 20%nat. rewrite !app_length, skipn_length, !app_length.
    change (length (firstn 20 h1)) with 20%nat. change (length (firstn (Z.to_nat 0) _)) with 0%nat.
    change (length (@nil Z)) with 0%nat. change (length h0) with 38%nat. change (Z.to_nat 0) with 0%nat. lia. }
  assert (N : c <> fst (archive noon txt)).
  { intro X. apply (f_equal (@length Z)) in X. rewrite L in X.
    unfold archive in X. pose proof (writes_finish noon (utf8 txt) C83_noon S) as V. rewrite (the_writes noon (utf8 txt) C83_noon) in V, X.
    cbn [fst] in V, X. rewrite V, finished_is, !app_length in X. change (length (tail _ _)) with 76%nat in X. rewrite header_length in X. lia. }
  exists txt, c. split; [exact T|]. split; [exact W|]. split; [intro X; rewrite X in L; cbn in L; lia|]. split; [exact N|].
  destruct (C84_killed tune tune_state 20 tune_song txt noon c tune_ok tune_run tune_song_built T C83_noon S W) as [A|[A _]];
    [exact A|contradiction].
Qed.
Print Assumptions C83_one_member.
Print Assumptions C83_song_file.
Print Assumptions C83_damage.
Print Assumptions C83_clock.
Print Assumptions C84_killed.
Print Assumptions C84_cut.
