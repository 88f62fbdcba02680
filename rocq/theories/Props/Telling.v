(** C99: exactly what the song file tells about a recording. *)
From Coq Require Import Lia ZifyBool Sorted.
From Verif.Model Require Import Py Command Config Note State Ticks Song Serializer Extract History XmlText Zip.
From Verif.Spec Require Import VgmFormat Ym2151 Ranges Rhythm Text Tracker SongArchive ZipReader Editing.
From Verif.Proofs Require Import PyLemmas StateProofs KeyProofs ChipProofs ChipProofs2
  TempoProofs BpmProofs GridProofs SongProofs EditProofs.
From Verif.Props Require Import Chip Song Instruments SongText Archive Editing.
Open Scope Z_scope.

(** Two songs are the same document exactly if they have the same tempo and number of
    instruments and, row by row and channel by channel, last events that look the same. *)
Theorem C99_song : forall h h' s s' tpn tpn' sg sg', history_ok h -> history_ok h' ->
  run_calls h state_init = Ok s -> run_calls h' state_init = Ok s' -> 0 < tpn -> 0 < tpn' ->
  build_song s tpn = Ok sg -> build_song s' tpn' = Ok sg' ->
  (render sg = render sg'
   <-> tempo tpn = tempo tpn' /\ List.length (s_configs s) = List.length (s_configs s') /\ same_rows h tpn h' tpn').
Proof.
  intros h h' s s' tpn tpn' sg sg' H H' E E' Ht Ht' B B'. split.
  - intros RE. pose proof (run_logs h s H E) as L. pose proof (run_logs _ s' H' E') as L'.
    pose proof (song_facts_of s _ tpn sg L Ht B) as F. pose proof (song_facts_of s' _ tpn' sg' L' Ht' B') as F'. split; [|split].
    + assert (G : g_beats_per_min (xs_globals (render sg)) = g_beats_per_min (xs_globals (render sg'))) by now rewrite RE.
      unfold render in G. cbn [xs_globals render_globals g_beats_per_min] in G.
      rewrite (sf_globals _ _ _ _ F), (sf_globals _ _ _ _ F') in G. exact G.
    + assert (G : List.length (xs_instruments (render sg)) = List.length (xs_instruments (render sg'))) by now rewrite RE.
      unfold render, render_instruments in G. cbn [xs_instruments] in G.
      now rewrite !map_length, (sf_instruments _ _ _ _ F), (sf_instruments _ _ _ _ F'), !repeat_length in G.
    + intros ch row Hc Hr. pose proof (cell_last _ _ _ _ (row / 64) ch (row mod 64) L Ht F ltac:(apply Z.div_pos; lia) Hc (Z.mod_pos_bound row 64 eq_refl)) as C.
      pose proof (cell_last _ _ _ _ (row / 64) ch (row mod 64) L' Ht' F' ltac:(apply Z.div_pos; lia) Hc (Z.mod_pos_bound row 64 eq_refl)) as C'.
      rewrite <- RE, C in C'. rewrite <- Z.div_mod in C' by lia.
      destruct (L ch Hc) as (_ & R & _). destruct (L' ch Hc) as (_ & R' & _). rewrite Forall_forall in R, R'.
      destruct (last_event tpn (notes h ch) row) as [n|] eqn:X, (last_event tpn' (notes h' ch) row) as [n'|] eqn:X';
        cbn [option_map] in C'; try discriminate; [|exact I].
      apply last_event_in in X as [X _], X' as [X' _]. apply look_column; [auto|auto|]. congruence.
  - intros (T & C & SR). now rewrite (rows_song h h' s s' tpn tpn' sg sg' H H' E E' Ht Ht' B B' T C SR).
Qed.
Print Assumptions C99_song.
(** And so do the bytes of the song files written at the same time. *)
Theorem C99_file : forall h h' s s' tpn tpn' sg sg' txt txt' t, history_ok h -> history_ok h' ->
  run_calls h state_init = Ok s -> run_calls h' state_init = Ok s' -> 0 < tpn -> 0 < tpn' ->
  build_song s tpn = Ok sg -> build_song s' tpn' = Ok sg' -> song_text sg = Ok txt -> song_text sg' = Ok txt' ->
  zip_clock t -> len (utf8 txt) < 2 ^ 30 -> len (utf8 txt') < 2 ^ 30 ->
  (archive t txt = archive t txt'
   <-> tempo tpn = tempo tpn' /\ List.length (s_configs s) = List.length (s_configs s') /\ same_rows h tpn h' tpn').
Proof.
  intros h h' s s' tpn tpn' sg sg' txt txt' t H H' E E' Ht Ht' B B' T T' K S S'. split.
  - intros AE. apply (C99_song h h' s s' tpn tpn' sg sg' H H' E E' Ht Ht' B B').
    destruct (C83_song_file h s tpn sg txt t H E B T K S) as (d & A & _ & R).
    destruct (C83_song_file h' s' tpn' sg' txt' t H' E' B' T' K S') as (d' & A' & _ & R'). rewrite AE, A' in A. injection A as ->. congruence.
  - intros (TT & C & SR). rewrite (rows_song h h' s s' tpn tpn' sg sg' H H' E E' Ht Ht' B B' TT C SR) in T. congruence.
Qed.
Print Assumptions C99_file.
(** The instrument files are the same exactly if the instruments are. *)
Theorem C99_instruments : forall h h' s s' txt txt', history_ok h -> history_ok h' ->
  run_calls h state_init = Ok s -> run_calls h' state_init = Ok s' ->
  instruments_text s = Ok txt -> instruments_text s' = Ok txt' -> (txt = txt' <-> s_configs s = s_configs s').
Proof.
  intros h h' s s' txt txt' H H' E E' T T'. split.
  - intros <-. exact (C41_injective h h' s s' txt H H' E E' T T').
  - unfold instruments_text in *. intros C. rewrite C in T. congruence.
Qed.
Print Assumptions C99_instruments.

(** The tune, and a different recording with the same rows: other key fractions, another
    side panning, an event that its row hides, and shifted within the rows. *)
Definition cover : history :=
  [Apply 24 100; Apply 32 199; Apply 40 62; Apply 48 0; Apply 96 12; Beat 1010; Apply 8 120; Apply 8 0; Beat 1; Apply 8 120;
   Apply 40 69; Apply 32 7; Beat 300; Apply 32 71; Apply 8 120; Beat 195; Apply 8 0; Apply 59 82; Apply 8 123; Beat 10].
Example C99_met : history_ok cover /\ run_calls cover state_init = Ok (state_of cover)
  /\ build_song (state_of cover) 20 = Ok (song_at 20 cover)
  /\ render (song_at 20 cover) = render tune_song /\ cover <> tune /\ notes cover 0 <> notes tune 0.
Proof.
  split; [repeat constructor; cbn; unfold byte; lia|]. split; [vm_compute; reflexivity|]. split; [vm_compute; reflexivity|].
  split; [vm_compute; reflexivity|]. split; [discriminate|]. vm_compute. discriminate.
Qed.
Example C99_same_rows : same_rows cover 20 tune 20 /\ List.length (s_configs (state_of cover)) = List.length (s_configs tune_state).
Proof.
  destruct C99_met as (H & E & B & R & _). pose proof (proj1 (C99_song cover tune _ _ 20 20 _ _ H tune_ok E tune_run eq_refl eq_refl B tune_song_built) R) as (_ & C & S).
  now split.
Qed.
(** Row lengths of the same tempo need not be equal, and give different songs in general. *)
Example C99_same_tempo : tempo 3000 = tempo 3001 /\ ~ same_rows [Beat 6000; Apply 8 120] 3000 [Beat 6000; Apply 8 120] 3001.
Proof.
  split; [reflexivity|]. intros S. specialize (S 0 2 ltac:(lia) ltac:(lia)). vm_compute in S. exact S.
Qed.
