(** Field tables of the dataclasses of src/xrns/xml/song/renoise_song65.py that
    xrns_serializer.py instantiates, generated from that file (every field, in
    declaration order). *)
From Verif.Model Require Import Py Dataclass.

(** class RenoiseSong, renoise_song65.py:21745-21858. *)
Definition RenoiseSong_fields : list fdecl := [
  el "global_song_data" "GlobalSongData"; el "scripting_tool_data" "ScriptingToolData";
  el "record_manager" "RecordManager"; el "midi_mapper" "MidiMapper"; el "osc_mapper" "OscMapper";
  el "instruments" "Instruments"; el "selected_instrument_index" "SelectedInstrumentIndex";
  el "midi_input_routing" "MidiInputRouting"; el "tracks" "Tracks";
  el "selected_track_index" "SelectedTrackIndex"; el "spectrum_track_display_a" "SpectrumTrackDisplayA";
  el "spectrum_track_display_b" "SpectrumTrackDisplayB"; el "pattern_pool" "PatternPool";
  el "pattern_sequence" "PatternSequence"; el "last_soloed_out_mode" "LastSoloedOutMode";
  fixed "doc_version" (VInt 65); att "type"]%string.
(** class GlobalSongData, renoise_song65.py:686-855. *)
Definition GlobalSongData_fields : list fdecl := [
  el "beats_per_min" "BeatsPerMin"; el "lines_per_beat" "LinesPerBeat"; el "ticks_per_line" "TicksPerLine";
  el "signature_numerator" "SignatureNumerator"; el "signature_denominator" "SignatureDenominator";
  el "metronome_beats_per_bar" "MetronomeBeatsPerBar"; el "metronome_lines_per_beat" "MetronomeLinesPerBeat";
  el "shuffle_is_active" "ShuffleIsActive"; el "shuffle_amounts" "ShuffleAmounts"; el "octave" "Octave";
  el "loop_coeff" "LoopCoeff"; el "song_name" "SongName"; el "artist" "Artist";
  el "song_comments" "SongComments"; el "show_song_comments_after_loading" "ShowSongCommentsAfterLoading";
  el "show_used_automations_only" "ShowUsedAutomationsOnly"; el "follow_automations" "FollowAutomations";
  el "sample_offset_compatibility_mode" "SampleOffsetCompatibilityMode";
  el "pitch_effects_compatibility_mode" "PitchEffectsCompatibilityMode";
  el "global_track_headroom" "GlobalTrackHeadroom"; el "playback_engine_version" "PlaybackEngineVersion";
  el "render_selection_name_counter" "RenderSelectionNameCounter";
  el "record_sample_name_counter" "RecordSampleNameCounter";
  el "new_sample_name_counter" "NewSampleNameCounter"; att "type"]%string.
(** class GlobalSongData.ShuffleAmounts, renoise_song65.py:863-864. *)
Definition GlobalSongData_ShuffleAmounts_fields : list fdecl := [
  els "shuffle_amount" "ShuffleAmount"]%string.
(** class RenoiseSong.Instruments, renoise_song65.py:21882-21890. *)
Definition RenoiseSong_Instruments_fields : list fdecl := [
  els "instrument" "Instrument"; att "type"]%string.
(** class RenoiseInstrument, renoise_song65.py:21644-21736. *)
Definition RenoiseInstrument_fields : list fdecl := [
  el "selected_preset_name" "SelectedPresetName"; el "selected_preset_library" "SelectedPresetLibrary";
  el "selected_preset_is_modified" "SelectedPresetIsModified"; el "name" "Name";
  el "copy_into_new_sample_name_counter" "CopyIntoNewSampleNameCounter";
  el "copy_into_new_instrument_name_counter" "CopyIntoNewInstrumentNameCounter";
  el "global_properties" "GlobalProperties"; el "midi_input_properties" "MidiInputProperties";
  el "phrase_generator" "PhraseGenerator"; el "sample_generator" "SampleGenerator";
  el "plugin_generator" "PluginGenerator"; el "midi_generator" "MidiGenerator";
  el "active_generator_tab" "ActiveGeneratorTab"; att "type"]%string.
(** class RenoiseSong.Tracks, renoise_song65.py:21898-21931. *)
Definition RenoiseSong_Tracks_fields : list fdecl := [
  els "sequencer_track" "SequencerTrack"; els "sequencer_group_track" "SequencerGroupTrack";
  els "sequencer_master_track" "SequencerMasterTrack"; els_seq "sequencer_send_track" "SequencerSendTrack";
  att "type"]%string.
(** class SequencerTrack, renoise_song65.py:21480-21614. *)
Definition SequencerTrack_fields : list fdecl := [
  el "name" "Name"; el "color" "Color"; el "color_blend" "ColorBlend"; el "state" "State";
  el "soloed" "Soloed"; el "note_column_states" "NoteColumnStates"; el "note_column_names" "NoteColumnNames";
  el "number_of_visible_note_columns" "NumberOfVisibleNoteColumns";
  el "number_of_visible_effect_columns" "NumberOfVisibleEffectColumns";
  el "volume_column_is_visible" "VolumeColumnIsVisible";
  el "panning_column_is_visible" "PanningColumnIsVisible";
  el "delay_column_is_visible" "DelayColumnIsVisible";
  el "sample_effect_column_is_visible" "SampleEffectColumnIsVisible"; el "track_routing" "TrackRouting";
  el "group_nesting_level" "GroupNestingLevel"; el "track_delay" "TrackDelay"; el "collapsed" "Collapsed";
  el "visible" "Visible"; el "filter_devices" "FilterDevices"; fixed "type" (VStr "SequencerTrack")]%string.
(** class SequencerMasterTrack, renoise_song65.py:21152-21286. *)
Definition SequencerMasterTrack_fields : list fdecl := [
  el "name" "Name"; el "color" "Color"; el "color_blend" "ColorBlend"; el "state" "State";
  el "soloed" "Soloed"; el "note_column_states" "NoteColumnStates"; el "note_column_names" "NoteColumnNames";
  el "number_of_visible_note_columns" "NumberOfVisibleNoteColumns";
  el "number_of_visible_effect_columns" "NumberOfVisibleEffectColumns";
  el "volume_column_is_visible" "VolumeColumnIsVisible";
  el "panning_column_is_visible" "PanningColumnIsVisible";
  el "delay_column_is_visible" "DelayColumnIsVisible";
  el "sample_effect_column_is_visible" "SampleEffectColumnIsVisible"; el "track_routing" "TrackRouting";
  el "group_nesting_level" "GroupNestingLevel"; el "track_delay" "TrackDelay"; el "collapsed" "Collapsed";
  el "visible" "Visible"; el "filter_devices" "FilterDevices"; fixed "type" (VStr "SequencerMasterTrack")]%string.
(** class SequencerSendTrack, renoise_song65.py:21316-21450. *)
Definition SequencerSendTrack_fields : list fdecl := [
  el "name" "Name"; el "color" "Color"; el "color_blend" "ColorBlend"; el "state" "State";
  el "soloed" "Soloed"; el "note_column_states" "NoteColumnStates"; el "note_column_names" "NoteColumnNames";
  el "number_of_visible_note_columns" "NumberOfVisibleNoteColumns";
  el "number_of_visible_effect_columns" "NumberOfVisibleEffectColumns";
  el "volume_column_is_visible" "VolumeColumnIsVisible";
  el "panning_column_is_visible" "PanningColumnIsVisible";
  el "delay_column_is_visible" "DelayColumnIsVisible";
  el "sample_effect_column_is_visible" "SampleEffectColumnIsVisible"; el "track_routing" "TrackRouting";
  el "group_nesting_level" "GroupNestingLevel"; el "track_delay" "TrackDelay"; el "collapsed" "Collapsed";
  el "visible" "Visible"; el "filter_devices" "FilterDevices"; fixed "type" (VStr "SequencerSendTrack")]%string.
(** class TrackFilterDeviceChain, renoise_song65.py:20297-20326. *)
Definition TrackFilterDeviceChain_fields : list fdecl := [
  el "selected_preset_name" "SelectedPresetName"; el "selected_preset_library" "SelectedPresetLibrary";
  el "selected_preset_is_modified" "SelectedPresetIsModified"; el "devices" "Devices"; att "type"]%string.
(** class TrackFilterDeviceChain.Devices, renoise_song65.py:20334-20863. *)
Definition TrackFilterDeviceChain_Devices_fields : list fdecl := [
  els_seq "analog_filter_device" "AnalogFilterDevice"; els_seq "audio_plugin_device" "AudioPluginDevice";
  els_seq "bus_compressor_device" "BusCompressorDevice";
  els_seq "cabinet_simulator_device" "CabinetSimulatorDevice"; els_seq "chorus2_device" "Chorus2Device";
  els_seq "chorus_device" "ChorusDevice"; els_seq "comb2_device" "Comb2Device";
  els_seq "comb_device" "CombDevice"; els_seq "compressor_device" "CompressorDevice";
  els_seq "convolver_device" "ConvolverDevice"; els_seq "crossover_device" "CrossoverDevice";
  els_seq "dc_offset_device" "DcOffsetDevice"; els_seq "delay_device" "DelayDevice";
  els_seq "digital_filter_device" "DigitalFilterDevice"; els_seq "distortion2_device" "Distortion2Device";
  els_seq "distortion_device" "DistortionDevice"; els_seq "doofer_device" "DooferDevice";
  els_seq "eq10_device" "Eq10Device"; els_seq "eq5_device" "Eq5Device";
  els_seq "exciter_device" "ExciterDevice"; els_seq "filter1_device" "Filter1Device";
  els_seq "filter2_device" "Filter2Device"; els_seq "filter3_device" "Filter3Device";
  els_seq "filter_distortion_device" "FilterDistortionDevice"; els_seq "flanger2_device" "Flanger2Device";
  els_seq "flanger_device" "FlangerDevice"; els_seq "formula_meta_device" "FormulaMetaDevice";
  els_seq "gainer_device" "GainerDevice"; els_seq "gate2_device" "Gate2Device";
  els_seq "gate_device" "GateDevice"; els_seq "group_track_mixer_device" "GroupTrackMixerDevice";
  els_seq "hydra_device" "HydraDevice"; els_seq "instrument_automation_device" "InstrumentAutomationDevice";
  els_seq "instrument_macro_device" "InstrumentMacroDevice";
  els_seq "key_tracking_device" "KeyTrackingDevice"; els_seq "lfo_device" "LfoDevice";
  els_seq "line_in_device" "LineInDevice"; els_seq "lofi2_device" "Lofi2Device";
  els_seq "lofi_device" "LofiDevice"; els_seq "master_track_mixer_device" "MasterTrackMixerDevice";
  els_seq "maximizer_device" "MaximizerDevice"; els_seq "meta_mixer_device" "MetaMixerDevice";
  els_seq "midi_ccdevice" "MidiCCDevice"; els_seq "midi_control_device" "MidiControlDevice";
  els_seq "mixer_eq_device" "MixerEqDevice"; els_seq "multitap_device" "MultitapDevice";
  els_seq "pdc_test_delay_device" "PdcTestDelayDevice"; els_seq "phaser2_device" "Phaser2Device";
  els_seq "phaser_device" "PhaserDevice"; els_seq "repeater_device" "RepeaterDevice";
  els_seq "reverb2_device" "Reverb2Device"; els_seq "reverb3_device" "Reverb3Device";
  els_seq "reverb_device" "ReverbDevice"; els_seq "rewire_in_device" "RewireInDevice";
  els_seq "ring_mod2_device" "RingMod2Device"; els_seq "ring_mod_device" "RingModDevice";
  els_seq "send_device" "SendDevice"; els_seq "send_track_mixer_device" "SendTrackMixerDevice";
  els_seq "shaper_device" "ShaperDevice"; els_seq "side_chain_device" "SideChainDevice";
  els_seq "signal_follower_device" "SignalFollowerDevice";
  els_seq "stereo_expander_device" "StereoExpanderDevice"; els_seq "stutter_device" "StutterDevice";
  els_seq "track_mixer_device" "TrackMixerDevice"; els_seq "velocity_device" "VelocityDevice";
  els_seq "xypad_device" "XYPadDevice"; att "type"]%string.
(** class TrackMixerDevice, renoise_song65.py:17843-17949. *)
Definition TrackMixerDevice_fields : list fdecl := [
  el "custom_device_name" "CustomDeviceName"; el "is_maximized" "IsMaximized"; el "is_selected" "IsSelected";
  el "selected_preset_name" "SelectedPresetName"; el "selected_preset_library" "SelectedPresetLibrary";
  el "selected_preset_is_modified" "SelectedPresetIsModified"; el "run_time_preset_a" "RunTimePresetA";
  el "run_time_preset_b" "RunTimePresetB"; el "is_active" "IsActive"; el "panning" "Panning";
  el "volume" "Volume"; el "surround" "Surround"; el "post_panning" "PostPanning";
  el "post_volume" "PostVolume"; el "smooth_parameter_changes" "SmoothParameterChanges";
  fixed "type" (VStr "TrackMixerDevice")]%string.
(** class MasterTrackMixerDevice, renoise_song65.py:11335-11483. *)
Definition MasterTrackMixerDevice_fields : list fdecl := [
  el "custom_device_name" "CustomDeviceName"; el "is_maximized" "IsMaximized"; el "is_selected" "IsSelected";
  el "selected_preset_name" "SelectedPresetName"; el "selected_preset_library" "SelectedPresetLibrary";
  el "selected_preset_is_modified" "SelectedPresetIsModified"; el "run_time_preset_a" "RunTimePresetA";
  el "run_time_preset_b" "RunTimePresetB"; el "is_active" "IsActive"; el "panning" "Panning";
  el "volume" "Volume"; el "surround" "Surround"; el "post_panning" "PostPanning";
  el "post_volume" "PostVolume"; el "smooth_parameter_changes" "SmoothParameterChanges";
  el "auto_dc_correction" "AutoDcCorrection"; el "soft_clipping" "SoftClipping"; el "auto_gain" "AutoGain";
  el "bpm_automator" "BpmAutomator"; el "lpb_automator" "LpbAutomator"; el "tpl_automator" "TplAutomator";
  fixed "type" (VStr "MasterTrackMixerDevice")]%string.
(** class SendTrackMixerDevice, renoise_song65.py:17126-17232. *)
Definition SendTrackMixerDevice_fields : list fdecl := [
  el "custom_device_name" "CustomDeviceName"; el "is_maximized" "IsMaximized"; el "is_selected" "IsSelected";
  el "selected_preset_name" "SelectedPresetName"; el "selected_preset_library" "SelectedPresetLibrary";
  el "selected_preset_is_modified" "SelectedPresetIsModified"; el "run_time_preset_a" "RunTimePresetA";
  el "run_time_preset_b" "RunTimePresetB"; el "is_active" "IsActive"; el "panning" "Panning";
  el "volume" "Volume"; el "surround" "Surround"; el "post_panning" "PostPanning";
  el "post_volume" "PostVolume"; el "smooth_parameter_changes" "SmoothParameterChanges";
  fixed "type" (VStr "SendTrackMixerDevice")]%string.
(** class PatternPool, renoise_song65.py:19685-19707. *)
Definition PatternPool_fields : list fdecl := [
  el "highlite_step" "HighliteStep"; el "default_pattern_length" "DefaultPatternLength";
  el "patterns" "Patterns"; att "type"]%string.
(** class PatternPool.Patterns, renoise_song65.py:19715-19723. *)
Definition PatternPool_Patterns_fields : list fdecl := [
  els "pattern" "Pattern"; att "type"]%string.
(** class Pattern, renoise_song65.py:19613-19635. *)
Definition Pattern_fields : list fdecl := [
  el "name" "Name"; el "number_of_lines" "NumberOfLines"; el "tracks" "Tracks"; att "type"]%string.
(** class Pattern.Tracks, renoise_song65.py:19643-19676. *)
Definition Pattern_Tracks_fields : list fdecl := [
  els "pattern_track" "PatternTrack"; els "pattern_group_track" "PatternGroupTrack";
  els "pattern_master_track" "PatternMasterTrack"; els "pattern_send_track" "PatternSendTrack"; att "type"]%string.
(** class PatternTrack, renoise_song65.py:19223-19280. *)
Definition PatternTrack_fields : list fdecl := [
  el "selected_preset_name" "SelectedPresetName"; el "selected_preset_library" "SelectedPresetLibrary";
  el "selected_preset_is_modified" "SelectedPresetIsModified"; el "lines" "Lines";
  el "alias_pattern_index" "AliasPatternIndex"; el "color_enabled" "ColorEnabled"; el "color" "Color";
  el "automations" "Automations"; fixed "type" (VStr "PatternTrack")]%string.
(** class PatternTrack.Lines, renoise_song65.py:19289-19290. *)
Definition PatternTrack_Lines_fields : list fdecl := [
  els "line" "Line"]%string.
(** class PatternMasterTrack, renoise_song65.py:19069-19126. *)
Definition PatternMasterTrack_fields : list fdecl := [
  el "selected_preset_name" "SelectedPresetName"; el "selected_preset_library" "SelectedPresetLibrary";
  el "selected_preset_is_modified" "SelectedPresetIsModified"; el "lines" "Lines";
  el "alias_pattern_index" "AliasPatternIndex"; el "color_enabled" "ColorEnabled"; el "color" "Color";
  el "automations" "Automations"; fixed "type" (VStr "PatternMasterTrack")]%string.
(** class PatternSendTrack, renoise_song65.py:19146-19203. *)
Definition PatternSendTrack_fields : list fdecl := [
  el "selected_preset_name" "SelectedPresetName"; el "selected_preset_library" "SelectedPresetLibrary";
  el "selected_preset_is_modified" "SelectedPresetIsModified"; el "lines" "Lines";
  el "alias_pattern_index" "AliasPatternIndex"; el "color_enabled" "ColorEnabled"; el "color" "Color";
  el "automations" "Automations"; fixed "type" (VStr "PatternSendTrack")]%string.
(** class PatternLineNode, renoise_song65.py:3309-3331. *)
Definition PatternLineNode_fields : list fdecl := [
  el "note_columns" "NoteColumns"; el "effect_columns" "EffectColumns"; att "index"; att "type"]%string.
(** class PatternLineNode.NoteColumns, renoise_song65.py:3339-3347. *)
Definition PatternLineNode_NoteColumns_fields : list fdecl := [
  els "note_column" "NoteColumn"; att "type"]%string.
(** class PatternLineNoteColumnNode, renoise_song65.py:1790-1840. *)
Definition PatternLineNoteColumnNode_fields : list fdecl := [
  el "note" "Note"; el "instrument" "Instrument"; el "volume" "Volume"; el "panning" "Panning";
  el "delay" "Delay"; el "effect_number" "EffectNumber"; el "effect_value" "EffectValue"; att "type"]%string.
(** class PatternSequence, renoise_song65.py:3372-3450. *)
Definition PatternSequence_fields : list fdecl := [
  el "current_position" "CurrentPosition"; el "sequence_entries" "SequenceEntries";
  el "sequence_selection" "SequenceSelection"; el "loop_selection" "LoopSelection";
  el "pattern_name_width" "PatternNameWidth"; el "pattern_matrix_width" "PatternMatrixWidth";
  el "pattern_slot_height" "PatternSlotHeight"; el "pattern_slot_width" "PatternSlotWidth";
  el "highlite_step" "HighliteStep"; el "highlite_offset" "HighliteOffset";
  el "keep_sequence_sorted" "KeepSequenceSorted"; att "type"]%string.
(** class PatternSequence.SequenceEntries, renoise_song65.py:3458-3466. *)
Definition PatternSequence_SequenceEntries_fields : list fdecl := [
  els "sequence_entry" "SequenceEntry"; att "type"]%string.
(** class PatternSequenceEntry, renoise_song65.py:1849-1878. *)
Definition PatternSequenceEntry_fields : list fdecl := [
  el "pattern" "Pattern"; el "is_section_start" "IsSectionStart"; el "section_name" "SectionName";
  el "muted_tracks" "MutedTracks"; att "type"]%string.
