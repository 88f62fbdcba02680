(** What a client can see of a State object and what the exports make of it. *)
From Coq Require Import ZArith List Bool.
From Verif.Model Require Import Py Config Note State Ticks Song Extract Csv History.
From Verif.Spec Require Import VgmFormat Ym2151.
Import ListNotations.
Open Scope Z_scope.

(** The public attributes and methods: key_presses(ch), channel_config(ch), the
    LFO attributes, configs, the sample clock and ticks(); any channel argument. *)
Record same_view (s s' : state) : Prop := mksame {
  sv_presses : forall ch, key_presses s ch = key_presses s' ch;
  sv_channels : forall ch, channel_config s ch = channel_config s' ch;
  sv_base : s_base s = s_base s';
  sv_configs : s_configs s = s_configs s';
  sv_samples : s_samples s = s_samples s';
  sv_ticks : ticks s = ticks s' }.

(** The three exports and the estimate. *)
Record same_exports (s s' : state) : Prop := mkexports {
  se_song : forall tpn, build_song s tpn = build_song s' tpn;
  se_csv : forall tpn, csv_rows s tpn = csv_rows s' tpn;
  se_instruments : instruments_text s = instruments_text s';
  se_estimate : ticks_per_note s = ticks_per_note s';
  se_printed : forall show_progress, estimate_output show_progress s = estimate_output show_progress s' }.

(** Two histories are interchangeable when, whatever calls follow, nobody can
    tell them apart. *)
Definition interchangeable (h h' : history) : Prop :=
  forall g s s', history_ok g ->
    run_calls (h ++ g) state_init = Ok s -> run_calls (h' ++ g) state_init = Ok s' ->
    same_view s s' /\ same_exports s s'.

(** Register [r] already holds [v] (register 0x19 stands for two values, selected
    by bit 7 of what is written). *)
Definition holds (h : history) (r v : Z) : Prop :=
  if r =? 0x19 then depth (bit v 7) h = bits v 6 0 else reg h r = v.

(** Playing everything [k] times as slowly. *)
Definition stretched (k : Z) (h : history) : history :=
  map (fun c => match c with Beat n => Beat (k * n) | Apply r v => Apply r v end) h.
