(** The repository's own unit tests (tests/test_core.py, test_core_data.py,
    test_ym2151.py, test_config.py), evaluated on the model.  These are checks
    that the model computes what the code's authors wrote down, not proofs of
    properties.  Where a test was written for an older version of the code and
    cannot pass on the pinned one, the example records what happens instead. *)
From Verif.Model Require Import Py Command Core Config Note State Attr Json.

(** ** tests/test_core_data.py (sizes filled in as get_data does, 406-409) *)
Definition simple_100 : list Z :=
  [86; 103; 109; 32; 60; 0; 0; 0; 0; 1; 0; 0; 2; 0; 0; 0; 3; 0; 0; 0; 4; 0; 0; 0; 5; 0; 0; 0;
   6; 0; 0; 0; 7; 0; 0; 0; 8; 0; 0; 0; 9; 0; 241; 242; 10; 0; 0; 0; 11; 0; 0; 0; 0; 0; 0; 0;
   13; 0; 0; 0; 14; 0; 0; 0].
Definition simple_100_none : list Z :=
  [86; 103; 109; 32; 60; 0; 0; 0; 0; 1; 0; 0; 0; 0; 0; 0; 0; 0; 0; 0; 0; 0; 0; 0; 0; 0; 0; 0;
   0; 0; 0; 0; 0; 0; 0; 0; 0; 0; 0; 0; 0; 0; 0; 0; 0; 0; 0; 0; 0; 0; 0; 0; 0; 0; 0; 0; 0; 0; 0;
   0; 0; 0; 0; 0].
Definition simple_101 : list Z :=
  [86; 103; 109; 32; 60; 0; 0; 0; 1; 1; 0; 0; 2; 0; 0; 0; 3; 0; 0; 0; 4; 0; 0; 0; 5; 0; 0; 0;
   6; 0; 0; 0; 7; 0; 0; 0; 8; 0; 0; 0; 9; 0; 241; 242; 10; 0; 0; 0; 11; 0; 0; 0; 0; 0; 0; 0;
   13; 0; 0; 0; 14; 0; 0; 0].
Definition simple_110 : list Z :=
  [86; 103; 109; 32; 60; 0; 0; 0; 16; 1; 0; 0; 2; 0; 0; 0; 3; 0; 0; 0; 4; 0; 0; 0; 5; 0; 0; 0;
   6; 0; 0; 0; 7; 0; 0; 0; 8; 0; 0; 0; 9; 0; 241; 242; 10; 0; 0; 0; 11; 0; 0; 0; 0; 0; 0; 0;
   13; 0; 0; 0; 14; 0; 0; 0].
Definition simple_150 : list Z :=
  [86; 103; 109; 32; 124; 0; 0; 0; 80; 1; 0; 0; 2; 0; 0; 0; 3; 0; 0; 0; 4; 0; 0; 0; 5; 0; 0; 0;
   6; 0; 0; 0; 7; 0; 0; 0; 8; 0; 0; 0; 9; 0; 241; 242; 10; 0; 0; 0; 11; 0; 0; 0; 76; 0; 0; 0;
   13; 0; 0; 0; 14; 0; 0; 0; 13; 0; 0; 0; 14; 0; 0; 0; 13; 0; 0; 0; 14; 0; 0; 0; 13; 0; 0; 0;
   14; 0; 0; 0; 13; 0; 0; 0; 14; 0; 0; 0; 13; 0; 0; 0; 14; 0; 0; 0; 13; 0; 0; 0; 14; 0; 0; 0;
   13; 0; 0; 0; 14; 0; 0; 0; 13; 0; 0; 0; 14; 0; 0; 0].
Definition waits : list Z :=
  [86; 103; 109; 32; 72; 0; 0; 0; 0; 1; 0; 0; 0; 0; 0; 0; 0; 0; 0; 0; 0; 0; 0; 0; 0; 0; 0; 0;
   0; 0; 0; 0; 0; 0; 0; 0; 0; 0; 0; 0; 0; 0; 0; 0; 0; 0; 0; 0; 0; 0; 0; 0; 0; 0; 0; 0; 0; 0; 0;
   0; 0; 0; 0; 0; 97; 0; 0; 97; 1; 2; 98; 99; 112; 113; 127; 102].
Definition simple_ym2151 : list Z :=
  [86; 103; 109; 32; 78; 0; 0; 0; 80; 1; 0; 0; 0; 0; 0; 0; 0; 0; 0; 0; 0; 0; 0; 0; 0; 0; 0; 0;
   0; 0; 0; 0; 0; 0; 0; 0; 0; 0; 0; 0; 0; 0; 0; 0; 0; 0; 0; 0; 0; 0; 0; 0; 12; 0; 0; 0; 0; 0;
   0; 0; 0; 0; 0; 0; 97; 0; 0; 84; 170; 221; 97; 1; 2; 103; 102; 170; 0; 0; 0; 0; 98; 102].
Definition all_commands : list Z :=
  [86; 103; 109; 32; 219; 2; 0; 0; 113; 1; 0; 0; 2; 0; 0; 0; 3; 0; 0; 0; 4; 0; 0; 0; 5; 0; 0;
   0; 6; 0; 0; 0; 7; 0; 0; 0; 8; 0; 0; 0; 9; 0; 241; 242; 10; 0; 0; 0; 11; 0; 0; 0; 12; 0; 0;
   0; 13; 0; 0; 0; 14; 0; 0; 0; 0; 1; 2; 3; 4; 5; 6; 7; 8; 9; 10; 11; 12; 13; 14; 15; 16; 17;
   18; 19; 20; 21; 22; 23; 24; 25; 26; 27; 28; 29; 30; 31; 32; 33; 34; 35; 36; 37; 38; 39; 40;
   41; 42; 43; 44; 45; 46; 47; 48; 219; 49; 219; 50; 219; 51; 219; 52; 219; 53; 219; 54; 219;
   55; 219; 56; 219; 57; 219; 58; 219; 59; 219; 60; 219; 61; 219; 62; 219; 63; 219; 64; 219;
   222; 65; 219; 222; 66; 219; 222; 67; 219; 222; 68; 219; 222; 69; 219; 222; 70; 219; 222; 71;
   219; 222; 72; 219; 222; 73; 219; 222; 74; 219; 222; 75; 219; 222; 76; 219; 222; 77; 219;
   222; 78; 219; 222; 79; 219; 80; 219; 81; 219; 222; 82; 219; 222; 83; 219; 222; 84; 219; 222;
   85; 219; 222; 86; 219; 222; 87; 219; 222; 88; 219; 222; 89; 219; 222; 90; 219; 222; 91; 219;
   222; 92; 219; 222; 93; 219; 222; 94; 219; 222; 95; 219; 222; 96; 97; 219; 222; 98; 99; 100;
   101; 102; 103; 102; 170; 1; 0; 0; 0; 187; 104; 102; 170; 187; 187; 187; 204; 204; 204; 1; 0;
   0; 238; 105; 106; 107; 108; 109; 110; 111; 112; 113; 114; 115; 116; 117; 118; 119; 120; 121;
   122; 123; 124; 125; 126; 127; 128; 129; 130; 131; 132; 133; 134; 135; 136; 137; 138; 139;
   140; 141; 142; 143; 144; 170; 187; 204; 221; 145; 170; 187; 204; 221; 146; 170; 187; 204;
   221; 238; 147; 170; 187; 204; 221; 238; 170; 187; 204; 221; 238; 148; 170; 149; 170; 187;
   204; 221; 150; 151; 152; 153; 154; 155; 156; 157; 158; 159; 160; 219; 222; 161; 219; 222;
   162; 219; 222; 163; 219; 222; 164; 219; 222; 165; 219; 222; 166; 219; 222; 167; 219; 222;
   168; 219; 222; 169; 219; 222; 170; 219; 222; 171; 219; 222; 172; 219; 222; 173; 219; 222;
   174; 219; 222; 175; 219; 222; 176; 219; 222; 177; 219; 222; 178; 219; 222; 179; 219; 222;
   180; 219; 222; 181; 219; 222; 182; 219; 222; 183; 219; 222; 184; 219; 222; 185; 219; 222;
   186; 219; 222; 187; 219; 222; 188; 219; 222; 189; 219; 222; 190; 219; 222; 191; 219; 222;
   192; 219; 222; 223; 193; 219; 222; 223; 194; 219; 222; 223; 195; 219; 222; 223; 196; 219;
   222; 223; 197; 219; 222; 223; 198; 219; 222; 223; 199; 219; 222; 223; 200; 219; 222; 223;
   201; 219; 222; 223; 202; 219; 222; 223; 203; 219; 222; 223; 204; 219; 222; 223; 205; 219;
   222; 223; 206; 219; 222; 223; 207; 219; 222; 223; 208; 219; 222; 223; 209; 219; 222; 223;
   210; 219; 222; 223; 211; 219; 222; 223; 212; 219; 222; 223; 213; 219; 222; 223; 214; 219;
   222; 223; 215; 219; 222; 223; 216; 219; 222; 223; 217; 219; 222; 223; 218; 219; 222; 223;
   219; 219; 222; 223; 220; 219; 222; 223; 221; 219; 222; 223; 222; 219; 222; 223; 223; 219;
   222; 223; 224; 219; 222; 223; 209; 225; 219; 222; 223; 209; 226; 219; 222; 223; 209; 227;
   219; 222; 223; 209; 228; 219; 222; 223; 209; 229; 219; 222; 223; 209; 230; 219; 222; 223;
   209; 231; 219; 222; 223; 209; 232; 219; 222; 223; 209; 233; 219; 222; 223; 209; 234; 219;
   222; 223; 209; 235; 219; 222; 223; 209; 236; 219; 222; 223; 209; 237; 219; 222; 223; 209;
   238; 219; 222; 223; 209; 239; 219; 222; 223; 209; 240; 219; 222; 223; 209; 241; 219; 222;
   223; 209; 242; 219; 222; 223; 209; 243; 219; 222; 223; 209; 244; 219; 222; 223; 209; 245;
   219; 222; 223; 209; 246; 219; 222; 223; 209; 247; 219; 222; 223; 209; 248; 219; 222; 223;
   209; 249; 219; 222; 223; 209; 250; 219; 222; 223; 209; 251; 219; 222; 223; 209; 252; 219;
   222; 223; 209; 253; 219; 222; 223; 209; 254; 219; 222; 223; 209; 255; 219; 222; 223; 209].

(** ** tests/test_core.py *)
Definition no_gzip : list Z -> res (list Z) := fun _ => Err GenericException.
Definition opened (b : list Z) : res (option vgm) * clocks :=
  reader no_gzip clocks_empty (mkfile b 0).
(** size, version, data_start, supports("ym2151"), clock("ym2151") *)
Definition facts (b : list Z) : option (Z * Z * Z * bool * res Z) :=
  match opened b with
  | (Ok (Some v), ck) => Some (vgm_size v, v_version v, v_data_start v,
                               vgm_supports ck "ym2151", vgm_clock ck "ym2151")
  | _ => None
  end.
Definition yielded (b : list Z) : list vcmd :=
  match opened b with (Ok (Some v), _) => fst (vgm_commands v) | _ => [] end.

(* test_reader_not_vgm, 17-20: b"foobar" *)
Example test_reader_not_vgm : fst (opened [102; 111; 111; 98; 97; 114]) = Ok None.
Proof. reflexivity. Qed.
(* 22-30 *)
Example test_reader_vgm_header_100 : facts simple_100 = Some (len simple_100, 100, 64, true, Ok 3).
Proof. reflexivity. Qed.
(* 32-40 *)
Example test_reader_vgm_header_100_none :
  facts simple_100_none = Some (len simple_100_none, 100, 64, false, Ok 0).
Proof. reflexivity. Qed.
(* 42-50 *)
Example test_reader_vgm_header_101 : facts simple_101 = Some (len simple_101, 101, 64, true, Ok 3).
Proof. reflexivity. Qed.
(* 52-60 *)
Example test_reader_vgm_header_110 : facts simple_110 = Some (len simple_110, 110, 64, true, Ok 11).
Proof. reflexivity. Qed.
(* 62-69 *)
Example test_reader_vgm_header_150 :
  facts simple_150 = Some (len simple_150, 150, 128, true, Ok 11).
Proof. reflexivity. Qed.
(* 71-74: any bytes that start with the gzip magic and decompress to the file *)
Example test_reader_vgm_header_compressed :
  match reader (fun _ => Ok simple_100) clocks_empty (mkfile [31; 139; 8; 0] 0) with
  | (Ok (Some _), _) => True
  | _ => False
  end.
Proof. exact I. Qed.
(* 76-84 *)
Example test_vgm_commands :
  map command_id (yielded all_commands) = map Z.of_nat (seq 0 256).
Proof. vm_compute. reflexivity. Qed.
(* 86-120 *)
Example test_vgm_waits :
  yielded waits = [Wait 97 (Some 0); Wait 97 (Some 513); Wait 98 (Some 735); Wait 99 (Some 882); Wait 112 (Some 1); Wait 113 (Some 2);
                   Wait 127 (Some 16); Eos 102].
Proof. reflexivity. Qed.
(* 122-148 *)
Example test_vgm_simple_ym2151 :
  yielded simple_ym2151 = [Wait 97 (Some 0); Ym 84 170 221; Wait 97 (Some 513); Plain 103 (Some []);
                           Wait 98 (Some 735); Eos 102]
  /\ map command_type (yielded simple_ym2151)
     = [Some TWait; Some TYm2151; Some TWait; None; Some TWait; Some TEos].
Proof. split; reflexivity. Qed.
(* 150-180 *)
Example test_read32 : fst (read32 (mkfile [18; 52; 86; 120] 0)) = Ok 2018915346.
Proof. reflexivity. Qed.
Example test_read32_short : fst (read32 (mkfile [18] 0)) = Err EOFError.
Proof. reflexivity. Qed.
Example test_read16 : fst (read16 (mkfile [18; 52] 0)) = Ok 13330.
Proof. reflexivity. Qed.
Example test_read16_short : fst (read16 (mkfile [] 0)) = Err EOFError.
Proof. reflexivity. Qed.
Example test_read8 : fst (read8 (mkfile [18] 0)) = Ok 18.
Proof. reflexivity. Qed.
Example test_read8_short : fst (read8 (mkfile [] 0)) = Err EOFError.
Proof. reflexivity. Qed.
Example test_read_bcd : fst (read_bcd (mkfile [120; 86; 52; 18] 0)) = Ok 12345678.
Proof. reflexivity. Qed.
Example test_read_bcd_short : fst (read_bcd (mkfile [18; 52] 0)) = Err EOFError.
Proof. reflexivity. Qed.

(** ** tests/test_ym2151.py *)
Fixpoint applied (l : list (Z * Z)) (s : state) : res state :=
  match l with
  | [] => Ok s
  | (reg, value) :: r => let! s := apply reg value s in applied r s
  end.
Definition after {A} (l : list (Z * Z)) (f : state -> A) (d : A) : A :=
  match applied l state_init with Ok s => f s | Err _ => d end.
Definition get (name : string) (s : state) : res attr := state_getattr 10 (Some s) name.
Definition chan (ch : Z) (s : state) : option chan_config :=
  match channel_config s ch with Ok c => Some c | Err _ => None end.
Definition presses (ch : Z) (s : state) : Z :=
  match key_presses s ch with Ok l => len l | Err _ => -1 end.

(* test_apply_noise_enable, test_apply_noise_freq, test_apply_mix (18-34, 81-104): the
   tests ask for state.noise, which the pinned code no longer has. *)
Example test_apply_noise_enable :
  get "noise" state_init = Err AttributeError
  /\ after [(15, 128)] (chan 7) None
     = Some (mkch [op_init; op_init; op_init; op_init] 0 0 0 0 true 0)
  /\ after [(15, 31)] (chan 7) None
     = Some (mkch [op_init; op_init; op_init; op_init] 0 0 0 0 false 31).
Proof. split; [|split]; reflexivity. Qed.
(* 36-41 *)
Example test_apply_lfo :
  get "lfo" state_init = Ok (AInt 0) /\ after [(24, 170)] (get "lfo") (Err GenericException) = Ok (AInt 170).
Proof. split; reflexivity. Qed.
(* 43-48 *)
Example test_apply_phs_md :
  get "phs_md" state_init = Ok (AInt 0)
  /\ after [(25, 85 + 128)] (get "phs_md") (Err GenericException) = Ok (AInt 85).
Proof. split; reflexivity. Qed.
(* 50-57 *)
Example test_apply_amp_md :
  get "amp_md" state_init = Ok (AInt 0)
  /\ after [(25, 85)] (get "phs_md") (Err GenericException) = Ok (AInt 0)
  /\ after [(25, 85)] (get "amp_md") (Err GenericException) = Ok (AInt 85).
Proof. split; [|split]; reflexivity. Qed.
(* 59-79: ct1 and ct2 are gone; the waveform parts hold. *)
Example test_apply_ctrl_output :
  get "ct1" state_init = Err AttributeError
  /\ get "waveform" state_init = Ok (AWave SAW)
  /\ after [(27, 128); (27, 192); (27, 64)] (get "waveform") (Err GenericException) = Ok (AWave SAW)
  /\ after [(27, 128); (27, 192); (27, 64); (27, 130)] (get "waveform") (Err GenericException)
     = Ok (AWave TRIANGLE).
Proof. split; [|split; [|split]]; reflexivity. Qed.
(* 106-113: written when a key-off made a config and was recorded. *)
Example test_apply_key_off :
  after [(8, 0)] (fun s => (presses 0 s, presses 1 s, len (s_configs s))) (0, 0, 0) = (0, 0, 0)
  /\ after [(8, 0)] (fun s => true) false = true.
Proof. split; reflexivity. Qed.
(* 115-121: the config is stored; the press at sample 0 is not recorded (_first_beat
   is 0, which is falsy). *)
Example test_apply_key_on_simple :
  after [(8, 13)] (fun s => (presses 5 s, presses 0 s, len (s_configs s))) (-1, -1, -1) = (0, 0, 1).
Proof. reflexivity. Qed.
(* 123-154: the configs part, with noise on channel 7 only. *)
Example test_apply_key_on_simple_multiple_samples :
  after [(8, 13); (24, 85); (8, 13)]
        (fun s => map (fun c => b_lfo (c_base c)) (s_configs s)) [] = [0; 85]
  /\ after [(8, 13); (24, 85); (8, 13); (15, 128); (8, 11)] (fun s => len (s_configs s)) (-1) = 2
  /\ after [(8, 13); (24, 85); (8, 13); (15, 128); (8, 15)]
           (fun s => map (fun c => ch_noise (c_channel c)) (s_configs s)) []
     = [false; false; true].
Proof. split; [|split]; reflexivity. Qed.
(* 156-170 *)
Example test_apply_key_on_single_sample_many_notes :
  after [(8, 13); (8, 13)] (fun s => map (fun c => b_lfo (c_base c)) (s_configs s)) [] = [0].
Proof. reflexivity. Qed.
(* 172-198 *)
Example test_apply_key_on_reuse_sample_many_notes :
  after [(8, 13); (24, 85); (8, 13); (24, 0); (8, 13)]
        (fun s => map (fun c => b_lfo (c_base c)) (s_configs s)) [] = [0; 85].
Proof. reflexivity. Qed.
(* The same three after a wait, so that the presses are recorded: the config ids the
   tests expect, 134, 168, 193. *)
Example test_apply_key_on_ids :
  match applied [(8, 13); (24, 85); (8, 13); (24, 0); (8, 13)] (set_samples state_init 1) with
  | Ok s => match key_presses s 5 with
            | Ok l => map n_config_id l = [0; 1; 0]
            | Err _ => False
            end
  | Err _ => False
  end.
Proof. vm_compute. reflexivity. Qed.
(* 200-233: left/right now live in the note configs; fb and connection hold. *)
Definition sides (ch : nat) (s : state) : option (bool * bool) :=
  option_map (fun n => (nc_right n, nc_left n)) (nth_error (s_notes s) ch).
Example test_apply_channel_control_left_right_single_channel :
  after [(32, 128 + 8 * 5 + 7)] (sides 0) None = Some (true, false)
  /\ after [(32, 128 + 8 * 5 + 7)] (chan 0) None
     = Some (mkch [op_init; op_init; op_init; op_init] 5 0 0 7 false 0)
  /\ after [(32, 128 + 8 * 5 + 7); (32, 64)] (sides 0) None = Some (false, true)
  /\ after [(32, 128 + 8 * 5 + 7); (32, 64)] (chan 0) None = Some ch_init.
Proof. split; [|split; [|split]]; reflexivity. Qed.
Example test_apply_channel_control_left_right_multiple_channels :
  after [(33, 128); (34, 64)] (sides 2) None = Some (false, true)
  /\ after [(33, 128); (34, 64)] (sides 1) None = Some (true, false).
Proof. split; reflexivity. Qed.
(* 235-251, on the note configs *)
Example test_apply_key_code :
  after [(42, 3 * 16 + 4)] (fun s => nth_error (s_notes s) 2) None = Some (mknc false false 3 4 0).
Proof. reflexivity. Qed.
Example test_apply_key_fraction :
  after [(50, 63 * 4)] (fun s => nth_error (s_notes s) 2) None = Some (mknc false false 0 0 63).
Proof. reflexivity. Qed.
(* 253-261 *)
Example test_apply_phase_amp_mod_sens :
  after [(58, 6 * 16 + 3)] (chan 2) None
  = Some (mkch [op_init; op_init; op_init; op_init] 0 3 6 0 false 0).
Proof. reflexivity. Qed.

(** assert_single_field, 263-329.  [want] is the operator the written value
    should give, [op_init] elsewhere. *)
Definition chan_ops (ch : Z) (s : state) : list op_config :=
  match channel_config s ch with Ok c => ch_operators c | Err _ => [] end.
(** operators 0..n-1 are [a], the others [b] *)
Definition split_ops (n : nat) (a b : op_config) : list op_config := repeat a n ++ repeat b (4 - n).
Definition write (reg value : Z) (s : state) : option state :=
  match apply reg value s with Ok s => Some s | Err _ => None end.
Fixpoint sweep_ops (reg value : Z) (ch : Z) (a b : op_config) (devs : list nat) (s : state)
  : option state :=
  match devs with
  | [] => Some s
  | d :: r =>
      if list_eqb op_eqb (chan_ops ch s) (split_ops d a b)
      then match write (Z.lor (Z.lor reg (Z.shiftl (Z.of_nat d) 3)) ch) value s with
           | Some s =>
               if list_eqb op_eqb (chan_ops ch s) (split_ops (S d) a b)
               then sweep_ops reg value ch a b r s else None
           | None => None
           end
      else None
  end.
Fixpoint assert_single_field (reg value : Z) (want : op_config) (chs : list Z) (s : state) : bool :=
  match chs with
  | [] => true
  | ch :: r =>
      match sweep_ops reg value ch want op_init [0; 1; 2; 3]%nat s with
      | Some s => match sweep_ops reg 0 ch op_init want [0; 1; 2; 3]%nat s with
                  | Some s => assert_single_field reg value want r s
                  | None => false
                  end
      | None => false
      end
  end.
Definition single_field (reg value : Z) (want : op_config) : bool :=
  assert_single_field reg value want [0; 1; 2; 3; 4; 5; 6; 7] state_init.
(* 331-388.  mkop: total_level attack_rate first_decay_rate first_decay_level
   second_decay_rate release_rate key_scale multiply first_detune second_detune ase *)
Example test_apply_dt1_mul :
  single_field 64 (6 * 16) (mkop 0 0 0 0 0 0 0 0 6 0 false) = true
  /\ single_field 64 15 (mkop 0 0 0 0 0 0 0 15 0 0 false) = true.
Proof. split; vm_compute; reflexivity. Qed.
Example test_apply_tl : single_field 96 6 (mkop 6 0 0 0 0 0 0 0 0 0 false) = true.
Proof. vm_compute; reflexivity. Qed.
Example test_apply_eg_attack :
  single_field 128 (3 * 64) (mkop 0 0 0 0 0 0 3 0 0 0 false) = true
  /\ single_field 128 31 (mkop 0 31 0 0 0 0 0 0 0 0 false) = true.
Proof. split; vm_compute; reflexivity. Qed.
Example test_apply_eg_decay_1 :
  single_field 160 128 (mkop 0 0 0 0 0 0 0 0 0 0 true) = true
  /\ single_field 160 31 (mkop 0 0 31 0 0 0 0 0 0 0 false) = true.
Proof. split; vm_compute; reflexivity. Qed.
Example test_apply_eg_decay_2 :
  single_field 192 (3 * 64) (mkop 0 0 0 0 0 0 0 0 0 3 false) = true
  /\ single_field 192 15 (mkop 0 0 0 0 15 0 0 0 0 0 false) = true.
Proof. split; vm_compute; reflexivity. Qed.
Example test_apply_eg_decay_level_release_rate :
  single_field 224 (15 * 16) (mkop 0 0 0 15 0 0 0 0 0 0 false) = true
  /\ single_field 224 15 (mkop 0 0 0 0 0 15 0 0 0 0 false) = true.
Proof. split; vm_compute; reflexivity. Qed.

(** TestConfig, 391-432 *)
Example test_get_attribute : base_getattr base_init "lfo" = Ok (AInt 0).
Proof. reflexivity. Qed.
Example test_equality :
  base_eqb (mkbase SAW 5 0 0) base_init = false
  /\ base_eqb (mkbase SAW 5 0 0) (mkbase SAW 5 0 0) = true.
Proof. split; reflexivity. Qed.
Example test_get_wrong_attribute : base_getattr base_init "foo" = Err AttributeError.
Proof. reflexivity. Qed.

(** TestKeyOnSaves, 435-533: channel 1, operator 1, CAR1.  The tests expect the noise
    frequency in channel 1's config; the pinned code keeps it on channel 7. *)
Definition press : Z * Z := (8, 2 * 8 + 1).
Definition summary (c : config) : Z * Z * Z * Z :=
  (ch_noise_freq (c_channel c), ch_connection (c_channel c),
   match nth_error (ch_operators (c_channel c)) 1 with Some o => multiply o | None => -1 end,
   c_operators c).
Example test_key_on_full_config :
  after [(15, 1); (33, 1); (73, 1); press; press] (fun s => map summary (s_configs s)) []
  = [(0, 1, 1, CAR1)].
Proof. reflexivity. Qed.
Example test_key_on_old_sample :
  after [press; (15, 1); (33, 1); (73, 1); press; (15, 0); (33, 0); (73, 0); press]
        (fun s => map summary (s_configs s)) []
  = [(0, 0, 0, CAR1); (0, 1, 1, CAR1)].
Proof. reflexivity. Qed.
(* with a wait first, so that the presses are recorded *)
Example test_key_on_different_notes :
  match applied [press; (41, 1); press] (set_samples state_init 1) with
  | Ok s => len (s_configs s) = 1
            /\ match key_presses s 1 with
               | Ok l => map (fun n => (n_octave n, n_note n, n_key_fraction n)) l
                         = [(0, 0, 0); (0, 1, 0)]
               | Err _ => False
               end
  | Err _ => False
  end.
Proof. vm_compute. split; reflexivity. Qed.
