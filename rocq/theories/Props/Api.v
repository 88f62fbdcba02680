(** C66-C69: commands as objects, exhausted readers, attributes, arbitrary integers. *)
From Coq Require Import Lia ZifyBool.
From Verif.Model Require Import Py Command Core Session Config Note State Attr Extract History.
From Verif.Spec Require Import Text VgmFormat Sessions Ym2151 Api.
From Verif.Proofs Require Import PyLemmas CoreProofs ReaderProofs StateProofs KeyProofs FileProofs ChipProofs ApiProofs ApiProofs2.
From Verif.Props Require Import Reader Chip.

(** C66: every command read has the id byte it was read from, the kind that byte
    stands for, and operands in range ... *)
Theorem C66_command_objects : forall d pos c f, 0 <= pos -> bytes d -> vgm_next (mkfile d pos) = NYield c f ->
  nth_error d (Z.to_nat pos) = Some (command_id c)
  /\ command_type c = type_of_id (command_id c)
  /\ (command_type c = Some TYm2151 <-> exists r v, c = create r v /\ byte r /\ byte v)
  /\ (command_type c = Some TWait <-> exists n, c = Wait (command_id c) (Some n) /\ 0 <= n < 65536)
  /\ (command_type c = Some TEos <-> c = Eos 0x66).
Proof.
  intros d pos c f P B E. destruct (yield_facts d pos c f P B E) as (H1 & H2 & H3 & H4).
  split; [assumption|]. split; [assumption|].
  destruct c as [id p|id|id [n|]|id r v]; cbn [command_type command_id] in *; try contradiction.
  - split; [split; [discriminate|intros (r & v & H & _); discriminate]|].
    split; [split; [discriminate|intros (n & H & _); discriminate]|]. split; discriminate.
  - split; [split; [discriminate|intros (r & v & H & _); discriminate]|].
    split; [split; [discriminate|intros (n & H & _); discriminate]|]. split; [|reflexivity]. intros _. f_equal.
    unfold type_of_id in H3. destruct (id =? 84); [discriminate|]. destruct (Z.eqb_spec id 102); [assumption|].
    destruct (_ || _); discriminate.
  - split; [split; [discriminate|intros (r & v & H & _); discriminate]|].
    split; [split; [intros _; eauto|reflexivity]|]. split; discriminate.
  - split; [split; [intros _|reflexivity]|].
    + exists r, v. split; [|assumption]. unfold create. f_equal. unfold type_of_id in H3.
      destruct (Z.eqb_spec id 84); [assumption|]. destruct (id =? 102); [discriminate|]. destruct (_ || _); discriminate.
    + split; [split; [discriminate|intros (n & H & _); discriminate]|]. split; discriminate.
Qed.
Print Assumptions C66_command_objects.
(** ... create() makes the object a reader would make of the three bytes ... *)
Theorem C66_create : forall d pos r v rest, 0 <= pos -> bytes d ->
  skipn (Z.to_nat pos) d = 0x54 :: r :: v :: rest ->
  vgm_next (mkfile d pos) = NYield (create r v) (mkfile d (pos + 3)).
Proof.
  intros d pos r v rest P B S.
  rewrite (C07_command_consumption d pos 0x54 [r; v] rest (Ym 0x54 r v) P B S).
  - cbn [length]. change (Z.of_nat 2) with 2. replace (pos + 1 + 2) with (pos + 3) by lia. reflexivity.
  - apply (fixed_size 0x54 [r; v]); [split; lia|reflexivity].
Qed.
Print Assumptions C66_create.
(** ... and str() of any command object, read from a file or made with any numbers,
    has one of five forms, from which everything but the id of a wait and the operands
    of an uninterpreted command can be read back. *)
Theorem C66_text : forall c, shown c (command_str c).
Proof. exact command_shown. Qed.
Print Assumptions C66_text.
Theorem C66_text_read_back : forall c c', command_str c = command_str c' <-> essence c = essence c'.
Proof.
  intros c c'. split; intro H.
  - pose proof (C66_text c) as S. rewrite H in S. exact (shown_essence _ _ _ S (C66_text c')).
  - destruct c, c'; cbn in H; try discriminate; try (injection H as ->; reflexivity); try reflexivity.
    injection H as -> ->; reflexivity.
Qed.
Print Assumptions C66_text_read_back.
Example C66_negative : command_str (create (-171) 0) = "YM2151Command(Reg: -0xab, Data: 0x0)"%string
  /\ command_str (mk_wait 0x61 None) = "VgmCommand(Wait: None)"%string.
Proof. split; reflexivity. Qed.
Example C66_sample : map (fun c => (command_id c, command_type c, command_str c))
    (fst (vgm_commands (mkvgm (mkfile sample_file 0x42) 0 151 0x42)))
  = [ (0x54, Some TYm2151, "YM2151Command(Reg: 0x20, Data: 0xc7)"); (0x61, Some TWait, "VgmCommand(Wait: 1000)");
      (0x54, Some TYm2151, "YM2151Command(Reg: 0x8, Data: 0x78)"); (0x73, Some TWait, "VgmCommand(Wait: 4)");
      (0x62, Some TWait, "VgmCommand(Wait: 735)"); (0x63, Some TWait, "VgmCommand(Wait: 882)");
      (0x67, None, "VgmCommand(0x67)"); (0x68, None, "VgmCommand(0x68)"); (0x50, None, "VgmCommand(0x50)");
      (0x66, Some TEos, "VgmCommand(EOS)") ]%string.
Proof. vm_compute. reflexivity. Qed.

(** C67: once a reader has reported its end or an error, it only reports its end,
    whatever else happens in the session. *)
Theorem C67_used_up_once : forall gunzip l i j k o, opens_bytes gunzip l -> (i < j)%nat ->
  nth_error l i = Some (Next k) -> nth_error l j = Some (Next k) ->
  nth_error (fst (run_session gunzip l session_start)) i = Some o -> ended o ->
  nth_error (fst (run_session gunzip l session_start)) j = Some (NextGave (inl None)).
Proof.
  intros g l i j k o [B G] L Ni Nj O E. refine (run_once g l session_start i j k o G B _ L Ni Nj O E).
  intros n v H. destruct n; discriminate.
Qed.
Print Assumptions C67_used_up_once.
(* The last command is cut: an error, then the end, again and again. *)
Example C67_sample : let l := [Open (firstn 68 sample_file); Next 0; Open sample_file; Next 0; Next 1; Next 0] in
  opens_bytes no_gzip l /\ nth_error l 1 = Some (Next 0) /\ nth_error l 5 = Some (Next 0)
  /\ fst (run_session no_gzip l session_start)
  = [Opened (Ok (Some (204, 151))); NextGave (inr EOFError); Opened (Ok (Some (204, 151)));
     NextGave (inl None); NextGave (inl (Some (Ym 0x54 0x20 0xC7))); NextGave (inl None)].
Proof.
  split; [|vm_compute; auto]. split; [|discriminate].
  intros d [H|[H|[H|[H|[H|[H|[]]]]]]]; try discriminate; injection H as <-; apply bytesb_ok; vm_compute; reflexivity.
Qed.

(** C68: attributes.  The instruments in the order of the spec, each with its
    settings under their names ... *)
Theorem C68_instrument_attributes : forall h s i c limit, history_ok h -> run_calls h state_init = Ok s ->
  nth_error (s_configs s) i = Some c -> (2 <= limit)%nat ->
  exists x, nth_error (distinct h) i = Some x
    /\ (forall name v, In (name, v) (instrument_attributes x) -> config_getattr limit (Some c) name = Ok v)
    /\ (forall name, public name -> ~ In name (map fst (instrument_attributes x)) ->
          config_getattr limit (Some c) name = Err AttributeError).
Proof.
  intros h s i c limit H E N L. destruct limit as [|[|n]]; [lia|lia|].
  pose proof (refines_of_run _ _ H E) as R. rewrite (rf_configs _ _ R) in N. unfold instruments in N.
  rewrite numbered_nth in N. destruct (nth_error (distinct h) i) as [x|]; [|discriminate]. injection N as <-.
  exists x. split; [reflexivity|]. split.
  - intros name v I. set (c := mkconfig _ _ _ _).
    pose proof (proj1 (Forall_forall _ _) (config_attrs n c) (name, v)) as A. cbn [fst snd] in A. apply A.
    destruct x. exact I.
  - intros name P Q. exact (config_no_attr n _ x name P Q).
Qed.
Print Assumptions C68_instrument_attributes.
(** ... the LFO settings and the instruments on the State ... *)
Theorem C68_state_attributes : forall h s limit, history_ok h -> run_calls h state_init = Ok s -> (2 <= limit)%nat ->
  (forall name v, In (name, v) (state_attributes h) -> state_getattr limit (Some s) name = Ok v)
  /\ (forall name, public name -> ~ In name (map fst (state_attributes h)) ->
        state_getattr limit (Some s) name = Err AttributeError).
Proof.
  intros h s limit H E L. destruct limit as [|[|n]]; [lia|lia|].
  pose proof (refines_of_run _ _ H E) as R. split.
  - intros name v I. apply state_attrs. rewrite (rf_base _ _ R), (rf_configs _ _ R). exact I.
  - intros name P Q. exact (state_no_attr n s h name P Q).
Qed.
Print Assumptions C68_state_attributes.
(** ... and on an object whose constructor has not run, which is how copy and
    pickle start, every look-up of data exhausts the stack, whatever its size. *)
Theorem C68_copies_refuted : forall limit name,
  (name <> "compare"%string -> name <> "repr_json"%string -> config_getattr limit None name = Err RecursionError)
  /\ (~ In name state_methods -> state_getattr limit None name = Err RecursionError).
Proof. intros limit name. split; [apply config_none|apply state_none]. Qed.
Print Assumptions C68_copies_refuted.
Example C68_sample : exists s c, run_calls tune state_init = Ok s /\ nth_error (s_configs s) 1 = Some c
  /\ config_getattr 1000 (Some c) "waveform" = Ok (AWave TRIANGLE) /\ config_getattr 1000 (Some c) "noise" = Ok (ABool false)
  /\ config_getattr 1000 (Some c) "octave" = Err AttributeError /\ public "octave"
  /\ state_getattr 1000 (Some s) "lfo" = Ok (AInt 200) /\ state_getattr 1000 (Some s) "fb" = Err AttributeError.
Proof. eexists _, _. vm_compute. auto 12. Qed.

(** C69: any integers: no call fails, and a call acts like the one on bytes. *)
Theorem C69_never_fails : forall h, exists s, run_calls h state_init = Ok s.
Proof. intro h. destruct (run_shape h _ shape_init) as (s & E & _). eauto. Qed.
Print Assumptions C69_never_fails.
Theorem C69_wrap_around : forall h s, run_calls h s = run_calls (flat_map as_bytes h) s.
Proof. exact as_bytes_run. Qed.
Print Assumptions C69_wrap_around.
(** So the other theorems apply after wrapping: e.g. the notes. *)
Theorem C69_notes : forall h s ch, history_ok (flat_map as_bytes h) -> run_calls h state_init = Ok s ->
  0 <= ch < 8 -> key_presses s ch = Ok (notes (flat_map as_bytes h) ch).
Proof. intros h s ch H E C. rewrite as_bytes_run in E. now apply C23_recorded_events. Qed.
Print Assumptions C69_notes.
Example C69_sample : let h := [Apply 0x128 0x14A; Beat 5; Apply 0x08 (-136); Apply 0x108 0x78; Beat 1; Apply (-216) 7; Apply 8 0] in
  history_ok (flat_map as_bytes h)
  /\ flat_map as_bytes h = [Apply 0x28 0x4A; Beat 5; Apply 0x08 0x78; Beat 1; Apply 0x28 7; Apply 8 0]
  /\ exists l, notes (flat_map as_bytes h) 0 = l /\ map n_note l = [10; 7].
Proof. split; [repeat constructor; cbn; unfold byte; lia|]. split; [reflexivity|]. eexists. split; [reflexivity|reflexivity]. Qed.
