(** C82: cut and damaged compressed files. *)
From Coq Require Import Lia ZifyBool.
From Verif.Model Require Import Py Command Core Config Note State Ticks Song Serializer Json Extract History Main GzStream.
From Verif.Spec Require Import VgmFormat Ym2151 Cli.
From Verif.Proofs Require Import PyLemmas CoreProofs ReaderProofs StateProofs KeyProofs FileProofs ChipProofs GzProofs.
From Verif.Props Require Import Reader Cli.

Lemma gz_reader_zip gz ck d : is_gzip d -> gz_reader gz ck d = gz_open ck (fst (gz d)) (snd (gz d)).
Proof.
  intros H. unfold gz_reader. rewrite !takeZ_firstn, firstn_firstn. change (Nat.min _ _) with 2%nat.
  replace (bytes_eqb (firstn 2 d) [31; 139]) with true by (symmetry; apply bytes_eqb_eq; exact H). now destruct (gz d).
Qed.
Lemma gz_reader_raw gz ck d : ~ is_gzip d -> gz_reader gz ck d = gz_open ck d None.
Proof.
  intros H. unfold gz_reader. rewrite !takeZ_firstn, firstn_firstn. change (Nat.min _ _) with 2%nat.
  destruct (bytes_eqb (firstn 2 d) [31; 139]) eqn:E; [|reflexivity]. now apply bytes_eqb_eq in E.
Qed.

(** Nothing is lost by reading from a stream: without a failure, opening and
    iterating are what they are for a plain file of the same bytes, ... *)
Theorem C82_intact : forall gz gunzip ck d, (is_gzip d -> exists p, gz d = (p, None) /\ gunzip d = Ok p) ->
  match reader gunzip ck (mkfile d 0) with
  | (Ok (Some v), ck') => exists w, gz_reader gz ck d = (Ok (Some w), ck')
      /\ g_eof_offset w = v_eof_offset v /\ g_version w = v_version v /\ g_data_start w = v_data_start v
      /\ fst (gz_commands w) = fst (vgm_commands v)
      /\ match snd (vgm_commands v) with Ok _ => snd (gz_commands w) = Ok tt | Err e => snd (gz_commands w) = Err e end
      /\ gz_process (Some w) = process_vgm_file (Some v)
  | (Ok None, ck') => gz_reader gz ck d = (Ok None, ck')
  | (Err e, ck') => gz_reader gz ck d = (Err e, ck')
  end.
Proof.
  intros gz gunzip ck d H.
  assert (X : exists p, reader gunzip ck (mkfile d 0) = open_plain ck p /\ gz_reader gz ck d = gz_open ck p None).
  { destruct (is_gzip_dec d) as [Z|Z].
    - destruct (H Z) as (p & G & U). exists p. rewrite reader_gzip, U by assumption. split; [reflexivity|].
      rewrite gz_reader_zip, G by assumption. reflexivity.
    - exists d. split; [now apply reader_plain|now apply gz_reader_raw]. }
  destruct X as (p & -> & ->). rewrite open_st. destruct (open_plain ck p) as [[[v|]|e] ck']; cbn [fst snd res_map option_map]; try reflexivity.
  exists (gz_of v). split; [reflexivity|]. split; [reflexivity|]. split; [reflexivity|]. split; [reflexivity|].
  unfold gz_commands, vgm_commands, gz_process, process_vgm_file, iter_fuel. cbn [gz_of g_stream]. cbn [st sdata].
  change (mkgzfile (fbytes (vfile v)) None (fpos (vfile v))) with (st (vfile v)).
  rewrite iterate_st, process_st. cbn [fst snd]. split; [reflexivity|]. split; [|reflexivity].
  now destruct (snd (iterate (S (length (fbytes (vfile v)))) (vfile v))).
Qed.
Print Assumptions C82_intact.
(** ... and so is the whole run. *)
Theorem C82_intact_run : forall gz gunzip contents writable ierr name instr track tpn, file_name name ->
  (forall d, contents name = Some d -> is_gzip d -> exists p, gz d = (p, None) /\ gunzip d = Ok p) ->
  gz_main gz contents writable name instr track tpn
  = main gunzip contents writable ierr true name instr track tpn.
Proof.
  intros gz gunzip c w ierr name instr track tpn F H. unfold gz_main, main. rewrite smart_open_file by assumption.
  destruct (c name) as [d|]; [|reflexivity]. unfold main_body. cbn [negb].
  pose proof (C82_intact gz gunzip clocks_empty d (H d eq_refl)) as X.
  destruct (reader gunzip clocks_empty (mkfile d 0)) as [[[v|]|e] ck]; cbn [fst].
  - destruct X as (x & X & _ & _ & _ & _ & _ & P). rewrite X. cbn [fst]. rewrite P. reflexivity.
  - rewrite X. reflexivity.
  - rewrite X. reflexivity.
Qed.
Print Assumptions C82_intact_run.

(** Opening a damaged file.  [p] is what could be decompressed, [e] the failure. *)
Theorem C82_opening : forall gz ck d p e, is_gzip d -> gz d = (p, Some e) ->
  let r := fst (gz_reader gz ck d) in
  (r = Ok None <-> (4 <= length p)%nat /\ ~ has_ident p)
  /\ ((exists v, r = Ok (Some v)) <-> has_ident p /\ header_complete p /\ data_offset p <= Z.of_nat (length p))
  /\ (r = Err e \/ r = Ok None \/ exists v, r = Ok (Some v)).
Proof.
  intros gz ck d p e Z G r. unfold r. rewrite gz_reader_zip, G by assumption. cbn [fst snd].
  destruct (Nat.le_gt_cases 4 (length p)) as [L|L].
  - destruct (has_ident_dec p) as [I|I].
    + rewrite gz_open_ident by assumption. destruct (gz_init_cases ck p e L) as [(H & O & E)|(N & E)].
      * rewrite E. cbn [fst]. split; [split; [discriminate|intros [_ X]; contradiction]|].
        split; [split; [intros _; split; [exact I|split; [exact H|exact O]]|intros _; eexists; reflexivity]|].
        right. right. eexists. reflexivity.
      * destruct (gz_init ck (sd p e 4)) as [[v|x] ck']; cbn [fst] in E; [discriminate|]. injection E as ->. cbn [fst].
        split; [split; [discriminate|intros [_ X]; contradiction]|].
        split; [split; [intros [v X]; discriminate|intros (_ & X & Y); exfalso; apply N; split; [exact X|exact Y]]|].
        left. reflexivity.
    + rewrite gz_open_none by assumption. cbn [fst]. split; [split; [intros _; split; assumption|reflexivity]|].
      split; [split; [intros [v X]; discriminate|intros [X _]; contradiction]|]. right. left. reflexivity.
  - rewrite gz_open_short by assumption. cbn [fst].
    split; [split; [discriminate|intros [X _]; lia]|].
    split; [split; [intros [v X]; discriminate|intros [X _]; apply has_ident_len in X; lia]|]. left. reflexivity.
Qed.
Print Assumptions C82_opening.

Lemma opened_damaged gz ck ck' d p e v : is_gzip d -> gz d = (p, Some e) -> gz_reader gz ck d = (Ok (Some v), ck') ->
  has_ident p /\ header_complete p /\ data_offset p <= len p
  /\ v = mkgz (sd p e (data_offset p)) (u32_at p 4) (version p) (data_offset p) /\ ck' = clocks_after ck p.
Proof.
  intros Z G R. destruct (C82_opening gz ck d p e Z G) as (_ & O & _). cbv zeta in O. rewrite R in O. cbn [fst] in O.
  destruct (proj1 O (ex_intro _ v eq_refl)) as (I & H & L). split; [exact I|]. split; [exact H|]. split; [exact L|].
  rewrite gz_reader_zip, G in R by assumption. cbn [fst snd] in R. rewrite gz_open_ident in R by assumption.
  destruct (gz_init_cases ck p e (has_ident_len p I)) as [(_ & _ & E)|(N & _)].
  - rewrite E in R. injection R as <- <-. split; reflexivity.
  - exfalso. apply N. split; [exact H|exact L].
Qed.

(** Reading a damaged file: the iteration always ends with the failure, and up
    to there the header fields, the clocks and the commands are those of every
    undamaged file [q] that begins with the same bytes. *)
Theorem C82_reading : forall gz ck ck' d p e v, is_gzip d -> gz d = (p, Some e) -> bytes p ->
  gz_reader gz ck d = (Ok (Some v), ck') ->
  snd (gz_commands v) = Err e
  /\ forall gunzip d' q rest, content gunzip d' (Ok q) -> q = p ++ rest ->
     exists v', reader gunzip ck (mkfile d' 0) = (Ok (Some v'), ck')
       /\ g_eof_offset v = v_eof_offset v' /\ g_version v = v_version v' /\ g_data_start v = v_data_start v'
       /\ exists more, fst (vgm_commands v') = fst (gz_commands v) ++ more.
Proof.
  intros gz ck ck' d p e v Z G B R. destruct (opened_damaged _ _ _ _ _ _ _ Z G R) as (I & H & L & -> & ->).
  pose proof (data_offset_nonneg p B) as P.
  unfold gz_commands. cbn [g_stream sd sdata]. change (mkgzfile p (Some e) (data_offset p)) with (sd p e (data_offset p)).
  split; [apply (iterate_sim p []); [exact B|lia|unfold len in *; lia]|].
  intros gunzip d' q rest C ->. destruct (header_app p rest H) as (H' & O & U & K).
  rewrite (content_reader _ _ _ _ C). rewrite opened_ok by (try apply has_ident_app; assumption).
  rewrite O, U, K. eexists. split; [reflexivity|]. cbn [g_eof_offset g_version g_data_start v_eof_offset v_version v_data_start].
  split; [reflexivity|]. split; [symmetry; apply version_app; unfold header_complete in H; lia|]. split; [reflexivity|].
  unfold vgm_commands, iter_fuel. cbn [vfile fbytes].
  destruct (iterate_sim p rest e B (S (length p)) (data_offset p) ltac:(lia) ltac:(unfold len in *; lia)) as [_ X].
  apply X. rewrite app_length. lia.
Qed.
Print Assumptions C82_reading.

(** What is given are exactly the commands that could be recovered whole. *)
Theorem C82_whole_commands : forall gz ck ck' d p e v ops o cut tail, is_gzip d -> gz d = (p, Some e) -> bytes p ->
  gz_reader gz ck d = (Ok (Some v), ck') ->
  skipn (Z.to_nat (data_offset p)) p = flat_map encode ops ++ cut -> Forall op_valid ops ->
  encode o = cut ++ tail -> op_valid o -> bytes tail -> tail <> [] ->
  gz_commands v = (map op_command ops, Err e).
Proof.
  intros gz ck ck' d p e v ops o cut tail Z G B R E V C Vo Bt T.
  destruct (opened_damaged _ _ _ _ _ _ _ Z G R) as (I & H & L & -> & ->).
  pose proof (data_offset_nonneg p B) as P.
  unfold gz_commands. cbn [g_stream sd sdata]. change (mkgzfile p (Some e) (data_offset p)) with (sd p e (data_offset p)).
  apply (iterate_ops p tail e B ops (data_offset p) _ o cut); try assumption; [lia|symmetry; exact C|].
  assert (Q : (length ops <= length (flat_map encode ops))%nat).
  { clear -V. induction V as [|x l Hx _ IH]; [reflexivity|]. cbn [flat_map length]. rewrite app_length.
    destruct (encode_complete x Hx) as (id & bs & -> & _). cbn [length]. lia. }
  apply (f_equal (@length _)) in E. rewrite skipn_length, app_length in E. lia.
Qed.
Print Assumptions C82_whole_commands.

(** Converting a damaged file: the failure is reported (TypeError if the data do
    not even start like a VGM file), and nothing is written. *)
Theorem C82_nothing_written : forall gz contents writable name instr track tpn d p e,
  contents name = Some d -> is_gzip d -> gz d = (p, Some e) -> bytes p ->
  let run := gz_main gz contents writable name instr track tpn in
  outputs (fst run) = []
  /\ snd run = Err (if (4 <=? length p)%nat then if bytes_eqb (firstn 4 p) vgm_ident then e else TypeError else e).
Proof.
  intros gz c w name instr track tpn d p e E Z G B run. unfold run, gz_main. rewrite E.
  destruct (gz_reader gz clocks_empty d) as [r ck'] eqn:R. cbn [fst].
  destruct (C82_opening gz clocks_empty d p e Z G) as (O1 & O2 & O3). cbv zeta in *. rewrite R in *. cbn [fst] in *.
  destruct r as [[v|]|x].
  - destruct (C82_reading _ _ _ _ _ _ _ Z G B R) as [K M].
    destruct (opened_damaged _ _ _ _ _ _ _ Z G R) as (I & H & L & V & _).
    assert (P : gz_process (Some v) = Err e).
    { unfold gz_process. rewrite gz_process_iterate. fold (gz_commands v).
      assert (CO : content (fun _ => Ok p) d (Ok p)) by now apply (zipped (fun _ => Ok p)).
      destruct (M (fun _ => Ok p) d p [] CO) as (v' & R' & _ & _ & _ & more & X); [now rewrite app_nil_r|].
      pose proof (proj2 (C04_proof _ _ _ _ _ _ _ _ CO B R') (conj eq_refl eq_refl)) as S.
      pose proof (stream_cmds_ok _ _ _ S (bytes_skipn _ _ B)) as OK. rewrite X in OK. apply Forall_app in OK as [OK _].
      rewrite (process_calls _ _ OK). destruct (run_total _ (calls_ok _ OK)) as [s Es]. rewrite Es. cbn [bind]. now rewrite K. }
    rewrite P. cbn [fst snd]. split; [reflexivity|].
    pose proof (has_ident_len p I). replace (4 <=? length p)%nat with true by lia.
    change vgm_ident with magic. now rewrite (proj2 (magic_ident p) I).
  - destruct (proj1 O1 eq_refl) as [L N]. cbn [gz_process fst snd]. split; [reflexivity|].
    replace (4 <=? length p)%nat with true by lia. destruct (bytes_eqb (firstn 4 p) vgm_ident) eqn:Q; [|reflexivity].
    apply magic_ident in Q. contradiction.
  - assert (x = e) by (destruct O3 as [X|[X|[v X]]]; congruence). subst x. cbn [fst snd]. split; [reflexivity|].
    destruct (Nat.leb_spec 4 (length p)) as [L|L]; [|reflexivity].
    destruct (bytes_eqb (firstn 4 p) vgm_ident) eqn:Q; [reflexivity|].
    exfalso. assert (N : ~ has_ident p) by (intros X; apply magic_ident in X; change magic with vgm_ident in X; congruence).
    pose proof (proj2 O1 (conj L N)). discriminate.
Qed.
Print Assumptions C82_nothing_written.

(** The sample file, cut after 73 of its bytes (within the third command), as a
    gzip stream: two commands come out, then the failure, and nothing is written. *)
Definition gz_sample : list Z -> list Z * option exn := fun _ => (firstn 73 sample_file, Some EOFError).
Example C82_sample : exists v, gz_reader gz_sample clocks_empty [31; 139; 8] = (Ok (Some v), snd (gz_reader gz_sample clocks_empty [31; 139; 8]))
  /\ gz_commands v = ([Ym 0x54 0x20 0xC7; Wait 0x61 (Some 1000)], Err EOFError).
Proof. eexists. split; [vm_compute; reflexivity|vm_compute; reflexivity]. Qed.
Example C82_sample_main : gz_main gz_sample (fun _ => Some [31; 139; 8]) (fun _ => true) "x.vgz" (Some "i.json"%string) (Some "s.xrns"%string) None
  = ([OpenRead "x.vgz"; line "Opening file: x.vgz"; Close (HFile "x.vgz" "rb")], Err EOFError).
Proof. vm_compute. reflexivity. Qed.
Example C82_hypotheses : is_gzip [31; 139; 8] /\ bytes (firstn 73 sample_file)
  /\ skipn (Z.to_nat (data_offset (firstn 73 sample_file))) (firstn 73 sample_file)
     = flat_map encode [OpYm2151 0x20 0xC7; OpWait 1000] ++ [0x54]
  /\ encode (OpYm2151 0x08 0x78) = [0x54] ++ [0x08; 0x78].
Proof.
  split; [reflexivity|]. split; [apply bytesb_ok; vm_compute; reflexivity|]. split; [vm_compute; reflexivity|reflexivity].
Qed.
(** An uncompressed file is different: cut within a command that does not check
    its operands, it is read as if it were whole (C10). *)
Example C82_contrast : gz_commands (mkgz (mkgzfile [0xC0; 1] None 0) 0 0 0) = ([Plain 0xC0 (Some [1])], Ok tt)
  /\ gz_commands (mkgz (mkgzfile [0xC0; 1] (Some EOFError) 0) 0 0 0) = ([], Err EOFError).
Proof. split; reflexivity. Qed.
