(** C01-C10: opening files and reading commands. *)
From Coq Require Import Lia ZifyBool.
From Verif.Model Require Import Py Command Core Session.
From Verif.Spec Require Import VgmFormat Sessions.
From Verif.Proofs Require Import PyLemmas CoreProofs ReaderProofs SessionProofs.

(** A version 1.51 file: YM2413 clock 3579545 at 0x10, YM2151 clock 4000000 at
    0x30, data offset 0x34 + 0x0E = 0x42; commands from 0x42 on. *)
Definition sample_header : list Z :=
  [86; 103; 109; 32;  200; 0; 0; 0;  0x51; 1; 0; 0;  0; 0; 0; 0;
   0x99; 0x9E; 0x36; 0;  0; 0; 0; 0;  0; 0; 0; 0;  0; 0; 0; 0;
   0; 0; 0; 0;  0; 0; 0; 0;  0; 0; 0; 0;  0; 0; 0; 0;
   0x00; 0x09; 0x3D; 0;  0x0E; 0; 0; 0;  0; 0; 0; 0;  0; 0; 0; 0;
   77; 77].
Definition sample_ops : list vgm_op :=
  [OpYm2151 0x20 0xC7; OpWait 1000; OpYm2151 0x08 0x78; OpShortWait 3; OpWait60; OpWait50;
   OpDataBlock 0 [1; 2; 3]; OpPcmRam 1 5 6 [9]; OpOther 0x50 [0x9F]; OpEnd].
Definition sample_file : list Z := sample_header ++ flat_map encode sample_ops.
Definition no_gzip : list Z -> res (list Z) := fun _ => Err GzipError.

Lemma bytesb_ok l : forallb (fun b => (0 <=? b) && (b <? 256)) l = true -> bytes l.
Proof.
  intros H. apply Forall_forall. intros x Hx. rewrite forallb_forall in H.
  specialize (H x Hx). unfold byte. lia.
Qed.

(** C01: the three outcomes of opening, for every content. *)
Theorem C01_open_outcomes : forall gunzip ck d p, content gunzip d (Ok p) ->
  let r := fst (reader gunzip ck (mkfile d 0)) in
  (r = Ok None <-> ~ has_ident p)
  /\ (r = Err EOFError <-> has_ident p /\ ~ header_complete p)
  /\ ((exists v, r = Ok (Some v)) <-> has_ident p /\ header_complete p)
  /\ (r = Ok None \/ r = Err EOFError \/ exists v, r = Ok (Some v)).
Proof. exact C01_proof. Qed.
Print Assumptions C01_open_outcomes.
(** ... and a decompression failure is passed on. *)
Theorem C01_gunzip_error : forall gunzip ck d e, content gunzip d (Err e) ->
  reader gunzip ck (mkfile d 0) = (Err e, ck).
Proof. intros. now rewrite (content_reader _ _ _ _ H). Qed.
Print Assumptions C01_gunzip_error.
Example C01_accepted : content no_gzip sample_file (Ok sample_file)
  /\ has_ident sample_file /\ header_complete sample_file.
Proof.
  split; [apply raw; unfold is_gzip; vm_compute; discriminate|].
  split; [reflexivity|]. split; [vm_compute; lia|]. right. vm_compute. lia.
Qed.
Example C01_too_short : let d := firstn 55 sample_file in has_ident d /\ ~ header_complete d.
Proof.
  split; [reflexivity|]. intros [_ H]. vm_compute in H. destruct H as [H|H]; [discriminate|lia].
Qed.
(* The same 55 bytes with version 1.49 are enough. *)
Example C01_old_version_shorter :
  let d := firstn 8 sample_file ++ [0x49; 1; 0; 0] ++ skipn 12 (firstn 52 sample_file) in
  has_ident d /\ header_complete d.
Proof. split; [reflexivity|]. split; [vm_compute; lia|]. left. vm_compute. reflexivity. Qed.

(** C02: size() and version. *)
Theorem C02_header_fields : forall gunzip ck ck' d p v, content gunzip d (Ok p) ->
  reader gunzip ck (mkfile d 0) = (Ok (Some v), ck') ->
  vgm_size v = 4 + u32_at p 4 /\ v_version v = bcd_at p 8.
Proof.
  intros g ck ck' d p v H E. destruct (opened_inv _ _ _ _ _ _ H E) as (_ & _ & -> & _).
  split; [unfold vgm_size; cbn; lia|reflexivity].
Qed.
Print Assumptions C02_header_fields.
Theorem C02_version_round_trip : forall gunzip ck ck' d p v n, content gunzip d (Ok p) ->
  reader gunzip ck (mkfile d 0) = (Ok (Some v), ck') ->
  0 <= n < 10 ^ 8 -> firstn 4 (skipn 8 p) = to_bcd n -> v_version v = n.
Proof.
  intros g ck ck' d p v n H E Hn Hb. destruct (opened_inv _ _ _ _ _ _ H E) as (_ & _ & -> & _).
  now apply bcd_roundtrip.
Qed.
Print Assumptions C02_version_round_trip.
Example C02_sample : exists v ck', reader no_gzip clocks_empty (mkfile sample_file 0)
    = (Ok (Some v), ck') /\ v_version v = 151 /\ vgm_size v = 204 /\ v_data_start v = 0x42
  /\ firstn 4 (skipn 8 sample_file) = to_bcd 151.
Proof. eexists _, _. vm_compute. auto. Qed.

(** C03: clocks right after opening. *)
Theorem C03_clocks : forall gunzip ck ck' d p v, content gunzip d (Ok p) ->
  reader gunzip ck (mkfile d 0) = (Ok (Some v), ck') ->
  vgm_clock ck' "ym2413" = Ok (u32_at p 0x10)
  /\ vgm_clock ck' "ym2151" = Ok (if version p <? 110 then u32_at p 0x10 else u32_at p 0x30)
  /\ (forall chip, chip <> "ym2413"%string -> chip <> "ym2151"%string ->
        vgm_clock ck' chip = vgm_clock ck chip)
  /\ (forall chip, vgm_supports ck' chip = true <-> exists c, vgm_clock ck' chip = Ok c /\ c > 0).
Proof.
  intros g ck ck' d p v H E. destruct (opened_inv _ _ _ _ _ _ H E) as (_ & _ & _ & ->).
  change (u32_at p 0x10) with (u32_at p 16). change (u32_at p 0x30) with (u32_at p 48).
  unfold vgm_clock, vgm_supports, clocks_after.
  split; [|split; [|split]].
  - destruct (version p <? 110); rewrite !ck_get_set; reflexivity.
  - destruct (version p <? 110); rewrite !ck_get_set; reflexivity.
  - intros chip H1 H2.
    assert (E1 : String.eqb "ym2413" chip = false) by (apply String.eqb_neq; congruence).
    assert (E2 : String.eqb "ym2151" chip = false) by (apply String.eqb_neq; congruence).
    destruct (version p <? 110); rewrite !ck_get_set, !E1, !E2; reflexivity.
  - intros chip. destruct (ck_get _ chip) as [c|]; split.
    + intros Hc. exists c. split; [reflexivity|lia].
    + intros (c' & Hc & Hp). injection Hc as ->. lia.
    + discriminate.
    + intros (c' & Hc & Hp). discriminate.
Qed.
Print Assumptions C03_clocks.
Example C03_sample :
  vgm_clock (snd (reader no_gzip clocks_empty (mkfile sample_file 0))) "ym2151" = Ok 4000000
  /\ vgm_supports (snd (reader no_gzip clocks_empty (mkfile sample_file 0))) "sn76489" = false.
Proof. vm_compute. auto. Qed.

(** C04: the commands are those of the bytes from the data offset on, and
    nothing else ([stream] is the format's description). *)
Theorem C04_commands_from_data_offset : forall gunzip ck ck' d p v, content gunzip d (Ok p) ->
  bytes p -> reader gunzip ck (mkfile d 0) = (Ok (Some v), ck') ->
  forall cs e, stream (skipn (Z.to_nat (data_offset p)) p) cs e
    <-> fst (vgm_commands v) = cs /\ error_of (snd (vgm_commands v)) = e.
Proof. intros. eapply C04_proof; eassumption. Qed.
Print Assumptions C04_commands_from_data_offset.
Example C04_sample_hyps : bytes sample_file /\ data_offset sample_file = 0x42
  /\ skipn (Z.to_nat (data_offset sample_file)) sample_file = flat_map encode sample_ops.
Proof. split; [apply bytesb_ok; reflexivity|]. vm_compute. auto. Qed.

(** C05: gzip is transparent. *)
Theorem C05_gzip_transparent : forall gunzip ck d p, is_gzip d -> gunzip d = Ok p -> ~ is_gzip p ->
  reader gunzip ck (mkfile d 0) = reader gunzip ck (mkfile p 0).
Proof.
  intros g ck d p H1 H2 H3. rewrite (content_reader g ck d (g d)) by now apply zipped.
  rewrite (content_reader g ck p (Ok p)) by now apply raw. now rewrite H2.
Qed.
Print Assumptions C05_gzip_transparent.
Example C05_sample : let g := fun _ => Ok sample_file in
  is_gzip [31; 139; 8; 0] /\ g [31; 139; 8; 0] = Ok sample_file /\ ~ is_gzip sample_file
  /\ exists v, fst (reader g clocks_empty (mkfile [31; 139; 8; 0] 0)) = Ok (Some v).
Proof.
  split; [reflexivity|]. split; [reflexivity|]. split; [unfold is_gzip; vm_compute; discriminate|].
  eexists. vm_compute. reflexivity.
Qed.

(** C06: what the client of one reader sees does not depend on what is done with
    any other reader, under any interleaving ... *)
Theorem C06_readers_independent : forall gunzip k l,
  view_of k 0 l (fst (run_session gunzip l session_start))
  = fst (run_session gunzip (alone k 0 l) session_start).
Proof. exact C06_proof. Qed.
Print Assumptions C06_readers_independent.
(** ... except for clock(): every open reader answers with the clocks of the file
    opened last. *)
Theorem C06_clock_follows_last_open : forall gunzip s k v d p, content gunzip d (Ok p) ->
  has_ident p -> header_complete p -> nth_error (ss_readers s) k = Some (Some v) ->
  let s' := snd (act gunzip (Open d) s) in
  fst (act gunzip (Clock k "ym2151") s') = ClockGave (Ok (ym2151_clock p))
  /\ fst (act gunzip (Clock k "ym2413") s') = ClockGave (Ok (ym2413_clock p)).
Proof.
  intros g s k v d p H H1 H2 Hk. cbn [act]. rewrite (content_reader g (ss_clocks s) d _ H).
  rewrite opened_ok by assumption. cbn [snd ss_readers ss_clocks].
  rewrite nth_error_app1 by (apply nth_error_Some; congruence). rewrite Hk. cbn [fst].
  unfold vgm_clock, clocks_after, ym2151_clock, ym2413_clock.
  destruct (version p <? 110); rewrite !ck_get_set; auto.
Qed.
Print Assumptions C06_clock_follows_last_open.
Theorem C06_clocks_refuted : exists d1 d2,
  let ask := Clock 0 "ym2151" in
  nth_error (fst (run_session no_gzip [Open d1; ask] session_start)) 1
    = Some (ClockGave (Ok 4000000))
  /\ nth_error (fst (run_session no_gzip [Open d1; Open d2; ask] session_start)) 2
    = Some (ClockGave (Ok 3579545)).
Proof.
  exists sample_file, (firstn 8 sample_file ++ [1; 1; 0; 0] ++ skipn 12 sample_file).
  vm_compute. auto.
Qed.
Print Assumptions C06_clocks_refuted.
Example C06_sample :
  let l := [Open sample_file; Next 0; Open [1; 2]; Next 0; Open sample_file; Next 2; Next 0] in
  view_of 0 0 l (fst (run_session no_gzip l session_start))
  = [Opened (Ok (Some (204, 151))); NextGave (inl (Some (Ym 0x54 0x20 0xC7)));
     NextGave (inl (Some (Wait 0x61 (Some 1000)))); NextGave (inl (Some (Ym 0x54 0x08 0x78)))].
Proof. vm_compute. reflexivity. Qed.

(** C07: a complete command is read exactly, whatever follows it. *)
Theorem C07_command_consumption : forall d pos id ops rest c, 0 <= pos -> bytes d ->
  skipn (Z.to_nat pos) d = id :: ops ++ rest -> complete id ops c ->
  vgm_next (mkfile d pos) = NYield c (mkfile d (pos + 1 + Z.of_nat (length ops))).
Proof.
  intros d pos id ops rest c Hp Hb Hs Hc.
  assert (Hr : bytes (id :: ops ++ rest)) by (rewrite <- Hs; now apply bytes_skipn).
  inversion Hr as [|? ? Hid Hor]; subst. apply Forall_app in Hor as [Ho _].
  destruct (next_complete (mkfile d pos) id ops rest c (conj Hp Hs) ltac:(now constructor) Hc)
    as (f' & E & _ & B & P).
  rewrite E. f_equal. destruct f' as [b q]. cbn in *. subst. reflexivity.
Qed.
Print Assumptions C07_command_consumption.
(** Each id has one operand count, except 0x67 and 0x68 whose size field decides. *)
Theorem C07_table_total : forall id, byte id ->
  (operands id = None <-> id = 0x67 \/ id = 0x68).
Proof.
  intros id H. rewrite (operands_kind id H). pose proof (kind_factsP id H) as F.
  unfold kind_facts in F. destruct (kind_of id); cbn [kind_operands]; split; intros; try discriminate;
    try reflexivity; try lia; exfalso; lia.
Qed.
Print Assumptions C07_table_total.
Example C07_sample : complete 0x93 [1; 2; 3; 4; 5; 6; 7; 8; 9; 10] (Plain 0x93 (Some [1; 2; 3; 4; 5; 6; 7; 8; 9; 10]))
  /\ complete 0x67 [0x66; 0; 2; 0; 0; 0; 7; 8] (Plain 0x67 (Some [7; 8]))
  /\ complete 0x61 [0xE8; 3] (Wait 0x61 (Some 1000)).
Proof.
  split; [|split].
  - apply (fixed_size 0x93 [1; 2; 3; 4; 5; 6; 7; 8; 9; 10]); [split; lia|reflexivity].
  - apply (data_block 0x66 0 2 0 0 0 [7; 8]). reflexivity.
  - apply (fixed_size 0x61 [0xE8; 3]); [split; lia|reflexivity].
Qed.

(** C08: encoded commands are read back, then iteration stops. *)
Theorem C08_round_trip : forall gunzip ck ck' d p v ops, content gunzip d (Ok p) -> bytes p ->
  reader gunzip ck (mkfile d 0) = (Ok (Some v), ck') ->
  skipn (Z.to_nat (data_offset p)) p = flat_map encode ops -> Forall op_valid ops ->
  exists f, vgm_commands v = (map op_command ops, Ok f).
Proof. intros. eapply C08_proof; eassumption. Qed.
Print Assumptions C08_round_trip.
Example C08_sample_valid : Forall op_valid sample_ops.
Proof.
  unfold sample_ops. repeat constructor; cbn; unfold byte; try lia; try discriminate.
Qed.

(** C09: progress and termination, for arbitrary bytes. *)
Theorem C09_progress : forall f c f', 0 <= fpos f -> vgm_next f = NYield c f' ->
  fbytes f' = fbytes f /\ fpos f < fpos f' <= Z.of_nat (length (fbytes f)).
Proof. exact C09_next. Qed.
Print Assumptions C09_progress.
Theorem C09_terminates : forall gunzip ck ck' d p v, content gunzip d (Ok p) -> bytes p ->
  reader gunzip ck (mkfile d 0) = (Ok (Some v), ck') ->
  (length (fst (vgm_commands v)) <= length p)%nat /\
  ((exists f, snd (vgm_commands v) = Ok f) \/ snd (vgm_commands v) = Err EOFError
   \/ snd (vgm_commands v) = Err StructError).
Proof. intros. eapply C09_run; eassumption. Qed.
Print Assumptions C09_terminates.
Example C09_sample : fst (vgm_commands (mkvgm (mkfile sample_file 0x42) 0 151 0x42)) = map op_command sample_ops.
Proof. vm_compute. reflexivity. Qed.

(** C10: the exact outcome for every proper prefix of a command at the end of the
    file. *)
Theorem C10_cut_commands : forall d pos id cut tail c, 0 <= pos -> bytes d ->
  skipn (Z.to_nat pos) d = id :: cut -> complete id (cut ++ tail) c -> tail <> [] ->
  match vgm_next (mkfile d pos) with
  | NRaise EOFError _ => id = 0x54 \/ id = 0x61
  | NRaise StructError _ =>
      (id = 0x67 /\ (length cut < 6)%nat) \/ (id = 0x68 /\ (length cut < 11)%nat)
  | NYield c' _ =>
      c' = Plain id (Some (if id =? 0x67 then skipn 6 cut
                           else if id =? 0x68 then skipn 11 cut else cut))
      /\ id <> 0x54 /\ id <> 0x61
      /\ (id = 0x67 -> (6 <= length cut)%nat) /\ (id = 0x68 -> (11 <= length cut)%nat)
  | _ => False
  end.
Proof.
  intros d pos id cut tail c Hp Hb Hs Hc Ht.
  assert (Hr : bytes (id :: cut)) by (rewrite <- Hs; now apply bytes_skipn).
  destruct (cut_of_prefix id cut tail c Hc Ht) as (o & Ho & Hm).
  destruct (next_cut (mkfile d pos) id cut o (conj Hp Hs) Hr Ho) as (f' & E & _).
  rewrite E. destruct o as [e|c']; [destruct e; try contradiction|]; exact Hm.
Qed.
Print Assumptions C10_cut_commands.
(** A whole file cut in the middle of its last command: all commands before the cut are
    yielded unchanged, then the cut is reported, or the last command has a short payload. *)
Lemma encode_before ops rest cs e : Forall op_valid ops -> stream rest cs e ->
  stream (flat_map encode ops ++ rest) (map op_command ops ++ cs) e.
Proof.
  intros F S. induction F as [|o ops Ho _ IH]; cbn [flat_map map app]; [exact S|].
  destruct (encode_complete o Ho) as (id & bs & E & Hc). rewrite E. cbn [app]. rewrite <- app_assoc. now apply stream_cmd.
Qed.
Theorem C10_cut_file : forall gunzip ck ck' d p v ops id cut tail c, content gunzip d (Ok p) -> bytes p ->
  reader gunzip ck (mkfile d 0) = (Ok (Some v), ck') ->
  skipn (Z.to_nat (data_offset p)) p = flat_map encode ops ++ id :: cut -> Forall op_valid ops ->
  complete id (cut ++ tail) c -> tail <> [] ->
  exists last, fst (vgm_commands v) = map op_command ops ++ last
  /\ match snd (vgm_commands v) with
     | Err EOFError => last = [] /\ (id = 0x54 \/ id = 0x61)
     | Err StructError => last = [] /\ ((id = 0x67 /\ (length cut < 6)%nat) \/ (id = 0x68 /\ (length cut < 11)%nat))
     | Err _ => False
     | Ok _ => last = [Plain id (Some (if id =? 0x67 then skipn 6 cut
                                       else if id =? 0x68 then skipn 11 cut else cut))]
               /\ id <> 0x54 /\ id <> 0x61
               /\ (id = 0x67 -> (6 <= length cut)%nat) /\ (id = 0x68 -> (11 <= length cut)%nat)
     end.
Proof.
  intros gunzip ck ck' d p v ops id cut tail c H Hb E Hs Ho Hc Ht.
  destruct (cut_of_prefix id cut tail c Hc Ht) as (o & Hu & Hm). destruct o as [e|c'].
  - destruct (proj1 (C04_commands_from_data_offset gunzip ck ck' d p v H Hb E (map op_command ops ++ []) (Some e))) as [A B].
    { rewrite Hs. apply encode_before; [exact Ho|now apply stream_err]. }
    exists []. split; [exact A|]. destruct (snd (vgm_commands v)) as [f|x]; [discriminate|]. cbn in B. injection B as ->.
    destruct e; try contradiction; split; try reflexivity; exact Hm.
  - destruct (proj1 (C04_commands_from_data_offset gunzip ck ck' d p v H Hb E (map op_command ops ++ [c']) None)) as [A B].
    { rewrite Hs. apply encode_before; [exact Ho|now apply stream_cut]. }
    exists [c']. split; [exact A|]. destruct (snd (vgm_commands v)) as [f|x]; [|discriminate]. destruct Hm as [-> Hm]. split; [reflexivity|exact Hm].
Qed.
Print Assumptions C10_cut_file.
(** The claim as stated (every cut is reported) is false. *)
Theorem C10_reported_refuted : exists d id cut tail c, bytes d /\ d = id :: cut
  /\ complete id (cut ++ tail) c /\ tail <> []
  /\ exists c' f', vgm_next (mkfile d 0) = NYield c' f'.
Proof.
  exists [0xC0; 1], 0xC0, [1], [2; 3], (denote 0xC0 [1; 2; 3]).
  split; [apply bytesb_ok; reflexivity|]. split; [reflexivity|].
  split; [apply (fixed_size 0xC0 [1; 2; 3]); [split; lia|reflexivity]|].
  split; [discriminate|]. eexists _, _. vm_compute. reflexivity.
Qed.
Print Assumptions C10_reported_refuted.
Example C10_sample : complete 0x54 ([0x20] ++ [7]) (Ym 0x54 0x20 7).
Proof. apply (fixed_size 0x54 [0x20; 7]); [split; lia|reflexivity]. Qed.
