(** C70: the song classes used as a library: any notes into any song, written and read back. *)
From Coq Require Import Lia ZifyBool.
From Verif.Model Require Import Py Song Serializer Dataclass Dao Document.
From Verif.Spec Require Import Text Tracker SongFile Pool.
From Verif.Proofs Require Import PyLemmas TextProofs SongProofs DocumentProofs PoolProofs.
From Verif.Props Require Import Document.

(** A client's song: Song(tracks=T, instruments=I, lines_per_track=L), its globals
    replaced by [g], add_note called with [calls], add_pattern with [order]. *)
Definition client_song (g : globals) (T I L : Z) (calls : list note_args) (order : list Z) : song :=
  let s := song_new T I L in
  mksong g (sg_instruments s) (sg_tracks s) (snd (add_notes calls (sg_pool s)))
    (fold_left add_pattern order (sg_sequence s)).
Definition column_for (x : line) : x_note_column := mkxnc (l_note x) (l_instrument x) (l_pan x).

Lemma find_dict t l : find (fun ln => xl_index ln =? l) (render_ptrack t)
  = option_map (fun x => mkxline l [column_for x]) (dict_get Z.eqb t l).
Proof.
  induction t as [|[k x] t IH]; [reflexivity|]. cbn. destruct (Z.eqb_spec k l); [subst; reflexivity|exact IH].
Qed.
Lemma cell_client p gl ins trs seq i j l :
  0 <= i -> 0 <= j -> cell (render (mksong gl ins trs p seq)) i j l = option_map column_for (cell_at p (Z.to_nat i) (Z.to_nat j) l).
Proof.
  intros Hi Hj. unfold cell, cell_at, render. cbn [xs_patterns sg_pool]. rewrite nth_error_map.
  destruct (nth_error (pp_patterns p) (Z.to_nat i)) as [pat|]; [|reflexivity]. cbn [option_map render_pattern xp_tracks].
  rewrite nth_error_map. destruct (nth_error (p_tracks pat) (Z.to_nat j)) as [t|]; [|reflexivity]. cbn [option_map].
  rewrite find_dict. destruct (dict_get Z.eqb t l); reflexivity.
Qed.
Lemma names_of l : forall cs, map xt_name (render_tracks l cs) = map t_name l.
Proof. induction l as [|t l IH]; intro cs; [reflexivity|]. cbn. destruct cs; cbn; now rewrite IH. Qed.

(** C70: every call ends as the book says (IndexError exactly for a pattern or
    track that does not exist), and a consumer of the written document finds so
    many patterns, each with T tracks, and exactly the entries of the book. *)
Theorem C70_client_song : forall g T I L calls order, 0 <= T -> 0 <= I ->
  fst (add_notes calls (sg_pool (song_new T I L))) = fst (book_adds T calls book_new)
  /\ let b := snd (book_adds T calls book_new) in
     exists x doc, song_xml (client_song g T I L calls order) = Ok x /\ read_song x = Some doc
     /\ Z.of_nat (List.length (xs_patterns doc)) = bk_count b
     /\ Forall (fun q => Z.of_nat (List.length (xp_tracks q)) = T /\ List.length (xp_master q) = 1%nat /\ List.length (xp_send q) = 1%nat)
          (xs_patterns doc)
     /\ (forall p c l, 0 <= p -> 0 <= c -> cell doc p c l = option_map column_for (entry (bk_written b) p c l))
     /\ xs_sequence doc = order /\ xs_globals doc = g
     /\ Z.of_nat (List.length (xs_instruments doc)) = I
     /\ exists num, (forall n, int_value (num n) = Some n)
        /\ map xt_name (xs_tracks doc) = map (fun i => ("Track " ++ num (Z.of_nat i + 1))%string) (seq 0 (Z.to_nat T))
        /\ map xt_name (xs_master doc) = ["Mst"%string] /\ map xt_name (xs_send doc) = ["S01"%string].
Proof.
  intros g T I L calls order HT HI. cbn [song_new sg_pool].
  destruct (adds_books T L HT calls _ _ (books_new T L)) as [O B]. split; [exact O|]. cbv zeta.
  set (b := snd (book_adds T calls book_new)) in *.
  destruct (C61_reads_back (client_song g T I L calls order)) as (x & X & R). exists x, (render (client_song g T I L calls order)).
  split; [exact X|]. split; [exact R|]. unfold client_song. cbn [song_new sg_pool sg_instruments sg_tracks sg_sequence].
  set (p := snd (add_notes calls (pool_new T L))) in *. destruct B as [C T1 L1 S Xc In].
  split; [unfold render; cbn [xs_patterns sg_pool]; rewrite map_length; exact C|].
  split.
  { unfold render. cbn [xs_patterns sg_pool]. apply Forall_forall. intros q Hq. apply in_map_iff in Hq as (q0 & <- & Hq).
    destruct (proj1 (Forall_forall _ _) S q0 Hq) as (_ & S2 & S3 & S4). cbn [render_pattern xp_tracks xp_master xp_send].
    rewrite !map_length, S3, S4. auto. }
  split.
  { intros pn c l Hp Hc. rewrite cell_client by assumption. rewrite Xc. now rewrite !Z2Nat.id by lia. }
  split; [unfold render, render_sequence; cbn [xs_sequence sg_sequence]; rewrite map_id, fold_add; reflexivity|].
  split; [unfold render; cbn [xs_globals sg_globals]; destruct g; reflexivity|].
  split; [unfold render, render_instruments; cbn [xs_instruments sg_instruments]; rewrite map_length, repeat_length; lia|].
  exists str_int. split; [exact int_value_str|].
  unfold render. cbn [xs_tracks xs_master xs_send sg_tracks tracks_new ts_tracks ts_master ts_send].
  rewrite names_of, map_map. split; [reflexivity|]. split; reflexivity.
Qed.
Print Assumptions C70_client_song.
(* Two tracks; a write, an overwrite, a write counted from the end, and two failures. *)
Example C70_sample :
  let a p c l t := mkargs p c l t (Some "0A"%string) None in
  let calls := [a 1 0 3 "C-4"; a 1 0 3 "D-4"; a (-1) (-1) 7 "E-4"; a 2 5 0 "F-4"; a (-9) 0 0 "G-4"]%string in
  fst (book_adds 2 calls book_new) = [Ok tt; Ok tt; Ok tt; Err IndexError; Err IndexError]
  /\ let b := snd (book_adds 2 calls book_new) in
     bk_count b = 3 /\ entry (bk_written b) 1 0 3 = Some (mkline "D-4" (Some "0A") None)%string
     /\ entry (bk_written b) 1 1 7 = Some (mkline "E-4" (Some "0A") None)%string /\ entry (bk_written b) 0 0 3 = None.
Proof. vm_compute. auto 8. Qed.
