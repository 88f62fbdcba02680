# Design

Machine-checked model of cybermats/vgm_extractor in Coq 8.16.1.

## Layout

* `rocq/theories/Model/` – executable Gallina model, one file per source file, function by function, branch by branch;
  Python exceptions are values (`Err e`). No proofs in it. Every definition cites the lines of `/repo` it models.
* `rocq/theories/Spec/` – independent specifications: VGM file format (`VgmFormat`), sessions with several readers
  (`Sessions`), YM2151 register map and key events (`Ym2151`, `Ranges`), tick estimator (`Rhythm`), numbers in text
  (`Text`, `Decimal`), tracker grid (`Tracker`), CSV sheet (`Sheet`), Song.xml template and reader (`SongFile`), JSON
  reader (`JsonText`), command line (`Cli`), several State objects (`Objects`), what a client can see (`View`).
  They use the standard library and the model's result *types* (records such as `note`, `config`, `vcmd`); where a property
  is *about* an API call (e.g. "key_presses of both states agree") the spec names that API function of the model.
* `rocq/theories/Proofs/` – lemmas.
* `rocq/theories/Props/` – the property theorems (`Cnn_*`), each followed by `Print Assumptions` and by `Example`s showing a
  concrete, non-trivial instance that meets the hypotheses.
* `properties.jsonl` – the English properties; `MANIFEST.json` – property → theorem names; `seeded/LOG.jsonl` – the wrong
  programs the theorems were tested against.

Naming: `*_refuted` is a theorem stating that a claim a user might expect does *not* hold of this code (with a
witness); next to it stands the exact truth that does hold. Properties are worded as the exact truth.

## How Python is modelled

* integers: `Z` (unbounded); `//` and `%` are `Z.div`/`Z.modulo` (floor, as in Python), division by zero is an exception;
* bytes: `list Z` with elements in 0..255; a file is its whole content plus a position;
* floats: IEEE 754 binary64 through the executable `SpecFloat` of the standard library; `int/int` is CPython's correctly
  rounded quotient; text formats `{:.2}`, `{:.2f}`, `{:02.0f}` are modelled digit by digit. Error bounds are proved with Flocq;
* exceptions: `res T := Ok t | Err e`; generator/iterator state explicit (`NYield/NStop/NRaise`);
* loops: structural recursion where the source is a `for`; `while` loops carry fuel and it is proved that the fuel given
  always suffices (`C09_terminates`, `C39_terminates`, and inside C27/C28 for the estimator), so no claim is
  vacuous through fuel;
* mutable objects: `Model/State.v` is a value model; `Model/Heap.v` models the same code on a heap of mutable objects with
  aliasing, `deepcopy` and list identity; C45/C53 prove that the two agree for every program of client calls;
* class-level mutable `Vgm.clocks` is explicit shared state (C03, C06);
* side effects of `main`: an ordered trace of effects (open, write, close, print);
* dataclasses + xsdata: `Model/Dataclass.v` (construction with defaults, attribute assignment, XML writing of the used
  subset), `Model/Dao.v` (complete field tables of the 28 dataclasses that are instantiated, generated mechanically from
  `renoise_song65.py`), `Model/Document.v` (the serializer at that level);
* the configuration classes once more as dynamically typed objects (`Model/PyObjects.v`, C87-C90): attributes may be assigned
  any int, bool, text, enum member, list or configuration object; None, floats, dicts, deletion and subclasses are not modelled;
* attribute look-up (`Model/Attr.v`): `__getattr__` of Config and State falls back with a recursion limit as parameter;
  names with two leading underscores (Python's own protocol) are not modelled.

## Trusted base

* Coq's kernel (and `coqchk`); `vm_compute` is used only as a conversion the kernel checks.
* The reading of the Python code into `Model/` (by hand, comments give the lines), the Python semantics above. Text formatting of floats,
  fine tuning text, progress dots and `json.dumps` text were compared with CPython on sample values while modelling.
* `Print Assumptions` output, per theorem:
  * closed under the global context (188 theorems): `C01_gunzip_error`, `C01_open_outcomes`, `C02_header_fields`, `C02_version_round_trip`, `C03_clocks`, `C04_commands_from_data_offset`, `C05_gzip_transparent`, `C06_clock_follows_last_open`, `C06_clocks_refuted`, `C06_readers_independent`, `C07_command_consumption`, `C07_table_total`, `C08_round_trip`, `C09_progress`, `C09_terminates`, `C101_lead_in`, `C101_same_distances`, `C104_assign`, `C104_constructor`, `C104_positional`, `C104_written`, `C105_log`, `C105_note`, `C105_stop`, `C106_logged`, `C106_thrifty`, `C107_document`, `C107_staccato`, `C10_cut_commands`, `C10_cut_file`, `C10_reported_refuted`, `C11_end_command_skipped`, `C11_nothing_after_end_refuted`, `C12_clock_is_sum_of_waits`, `C12_sample_bank_waits_refuted`, `C13_channel_config`, `C14_lfo`, `C15_pitch_in_force`, `C16_frame`, `C17_unknown_registers`, `C18_never_fails`, `C18_ranges`, `C19_instruments_distinct`, `C20_append_only`, `C21_note_instrument`, `C21_same_instrument_iff`, `C22_key_off`, `C23_complete_after_wait`, `C23_every_key_on_refuted`, `C23_recorded_events`, `C24_chronological`, `C25_ticks`, `C26_pitch_panning`, `C27_scores`, `C30_scores_bounded`, `C33_sequence`, `C34_always_two_digits_refuted`, `C34_two_digits`, `C35_every_pitch`, `C35_monotone`, `C35_monotone_all_codes_refuted`, `C35_names_injective`, `C35_pitch`, `C35_valid_codes`, `C36_sides_distinguished_refuted`, `C37_no_key_on_lost_refuted`, `C39_header`, `C39_terminates`, `C40_all_rows_refuted`, `C41_file`, `C41_injective`, `C41_lossless`, `C42_all_or_nothing_refuted`, `C42_read_first`, `C42_unreadable`, `C44_smart_open`, `C44_stdin_never_works`, `C44_stdin_refuted`, `C45_channel_view_is_live`, `C45_instruments_frozen`, `C45_notes_frozen`, `C45_objects_behave_as_values`, `C46_all_settings_distinguished_refuted`, `C46_d2r_high_bit_ignored`, `C47_always_rejected_refuted`, `C48_colors`, `C48_mirror`, `C49_delay`, `C50_other_commands_irrelevant`, `C51_extraction_is_a_history`, `C52_import_fails`, `C53_states_independent`, `C54_split_wait`, `C54_zero_wait`, `C55_key_events_refuted`, `C55_overwritten_write`, `C55_redundant_write`, `C56_exchange_wait`, `C56_exchange_writes`, `C56_key_order_refuted`, `C57_only_key_events`, `C58_stretch`, `C60_defaults`, `C61_archive`, `C61_document`, `C61_pattern_length_kept_refuted`, `C61_pattern_length_lost`, `C61_reads_back`, `C65_unreadable`, `C66_command_objects`, `C66_create`, `C66_text`, `C66_text_read_back`, `C67_used_up_once`, `C68_copies_refuted`, `C68_instrument_attributes`, `C68_state_attributes`, `C69_never_fails`, `C69_notes`, `C69_wrap_around`, `C70_client_song`, `C73_only_key_events`, `C74_unreadable`, `C75_order`, `C75_unreadable`, `C76_zero`, `C79_command_line`, `C79_expressible`, `C79_help`, `C79_one_reading`, `C79_rejected`, `C79_runs`, `C81_any_name_refuted`, `C81_faithful`, `C81_reads_back`, `C82_intact`, `C82_intact_run`, `C82_nothing_written`, `C82_opening`, `C82_reading`, `C82_whole_commands`, `C83_clock`, `C83_damage`, `C83_one_member`, `C85_unreadable`, `C86_refused`, `C86_unreadable`, `C87_compare`, `C87_config`, `C87_elsewhere`, `C87_equal`, `C87_equivalence`, `C88_apart`, `C88_config`, `C88_constructor`, `C88_copy`, `C88_fresh`, `C88_sharing`, `C88_untouched`, `C88_wrong`, `C89_no_operators`, `C89_shadow`, `C89_shared`, `C90_circular`, `C90_complete`, `C90_few`, `C90_tidy`, `C90_written`, `C91_sheet_name`, `C91_sheet_tells`, `C91_song_name`, `C91_song_tells`, `C92_again`, `C92_input_only`, `C92_retry`, `C93_any_order`, `C93_in_turn`, `C93_parallel`, `C94_input_lost`, `C94_whole_or_lost`, `C96_last_row_refuted`, `C96_log`, `C97_exactly_the_channel_refuted`, `C97_log`, `C98_log`, `C98_octaves_log`, `C98_unwritten_code_refuted`, `C99_instruments`.
  * the standard library's axioms `ClassicalDedekindReals.sig_forall_dec`, `ClassicalDedekindReals.sig_not_dec`, `Classical_Prop.classic`, `FunctionalExtensionality.functional_extensionality_dep` (83 theorems; they come with the real numbers used by Flocq's error bounds): `C100_export`, `C100_text`, `C101_any_silence_refuted`, `C102_one_missing_refuted`, `C102_one_stray`, `C102_two_strays_refuted`, `C103_any_steady`, `C105_file`, `C106_file`, `C107_any_distance`, `C107_file`, `C107_grid`, `C108_score`, `C108_tune`, `C108_tune_rows`, `C109_logged`, `C109_score`, `C109_tune`, `C28_estimate`, `C28_no_early_keys`, `C29_steady`, `C30_confidence`, `C31_cells`, `C31_song_built`, `C32_pattern_count`, `C32_well_formed`, `C34_reads_back`, `C34_references`, `C36_panning`, `C37_shown_unless_overwritten`, `C38_integer_part`, `C38_tempo`, `C38_tempo_fails`, `C38_tempo_negative`, `C39_sheet`, `C39_text_splits`, `C40_missing_row`, `C42_song_untouched`, `C42_written`, `C43_estimated`, `C43_requested`, `C44_closed`, `C44_dash_song`, `C44_stdout_mixed`, `C47_negative`, `C47_zero_and_huge`, `C48_tempo`, `C59_delay_rows`, `C62_playback_speed`, `C63_printed_table`, `C64_fraction`, `C65_transcript`, `C71_song`, `C71_written`, `C72_instruments`, `C74_files_after`, `C75_killed`, `C76_sheet_file`, `C77_sheet_and_song`, `C78_negative_length`, `C79_end_to_end`, `C80_cell_text`, `C81_exported`, `C83_song_file`, `C84_cut`, `C84_killed`, `C85_clock`, `C85_killed`, `C85_run`, `C85_same`, `C85_succeeds`, `C86_exports`, `C86_killed`, `C95_ends`, `C95_exceptions`, `C95_left`, `C96_estimate`, `C96_song`, `C97_song`, `C98_octaves_song`, `C98_song`, `C99_file`, `C99_song`.

No other axiom, no `Admitted`, no functor, no plugin.

## Modelled

`vgm/core.py`, `vgm/command.py`, `vgm/ym2151/config.py`, `vgm/ym2151/state.py`, `vgm/ym2151/note.py`, `extractors.py`,
`tools.py`, `main.py` (the function, the name lookup of `args`, the command line), `xrns/parts/*.py`, `xrns/xrns_serializer.py`,
`xrns/writer.py`, and of `xrns/xml/song/renoise_song65.py` the classes the serializer instantiates.

Fidelity check: `Props/Conformance.v` evaluates the repository's own unit tests on the model. Tests that cannot pass on the
pinned code (they use attributes it no longer has: `state.noise`, `ct1`/`ct2`, `channel_config.right`/`octave`; or expect presses
at sample 0, configs for key-off, or noise on channels other than 7) are listed there as such.

## Not modelled

* gzip decompression: an arbitrary function `gunzip : list Z -> res (list Z)`; theorems hold for every such function.
  A file that fails while it is being decompressed is modelled in `Model/GzStream.v` as a stream that hands out some bytes and then
  raises (need-driven, as io.BufferedReader over CPython's _GzipReader behaves); C82 shows the two agree when nothing fails.
* the ZIP64 form of the zip container (texts above 2^30 bytes); characters beyond 255. zipfile itself (CPython 3.11) is modelled in `Model/Zip.v` and was compared with the real module byte by byte. xsdata is not in the repository or the sandbox: its document tree
  (`Model/Dataclass.v`) and the text (`Model/XmlText.v`: XMLGenerator of the standard library, indentation of xsdata 21.4's
  XmlEventWriter, the writer used when lxml is not installed, as in requirements.txt) follow its published behaviour; the
  text of sample trees was compared with CPython's XMLGenerator and parsed back with expat.
* argparse's messages and usage texts; non-ASCII digits and blanks in command-line words. `parse_args` itself (CPython 3.11's algorithm for the parser main.py declares) is modelled in `Model/Argparse.v` and was compared with the real module on 12000 random command lines.
* the remaining ~500 generated dataclasses of `renoise_song65.py`, which no code instantiates.
* memory exhaustion, signals, OS errors other than "cannot open", encodings of the output stream.
* Python's recursion limit is modelled only where C68 speaks about it.

## Per-property plan

| id | property | modelled by | proved by |
|----|----------|-------------|-----------|
| C01 | Opening a file has exactly three outcomes | `Model/Core.v`: `reader`, `Vgm.__init__` over bytes + position | case analysis on ident and length: an iff for each outcome |
| C02 | Header fields are decoded exactly | `_read32`, `_read_bcd`, `size`, `version` | digit algebra; BCD round trip |
| C03 | The YM2151 clock is taken from the right header field | `clocks` dict, `clock`, `supports` | dictionary lemmas, case split on the version |
| C04 | The first command is read from the data offset | `data_start`, seek, `__next__` | command sequence = the relation `stream` on the suffix; uniqueness of `stream` |
| C05 | gzip is transparent | gzip as an arbitrary function | holds for every function |
| C06 | Open readers do not disturb each other, clocks apart | `Model/Session.v`: any interleaving of open/next/clock on many readers | non-interference by induction on the session; `_refuted` for clocks |
| C07 | Every command id consumes its documented operand bytes | `command`, `__next__` | case split over the 256 ids against the operand table |
| C08 | Well-formed command streams parse back to the same commands | same + an encoder in the spec | induction over the command list |
| C09 | Iteration always terminates and always makes progress | iteration with fuel | measure: bytes left |
| C10 | Truncated streams: exactly what is reported | same | all cut points of all operations classified; `_refuted` |
| C11 | The end-of-sound command ends nothing | `process_vgm_file` | EOS is the identity on the state; `_refuted` |
| C12 | The sample clock is the sum of the waits | `beat`, WaitCommand | induction; `_refuted` for 0x8n |
| C13 | Channel configuration is the register file, field by field | `State.apply`, `Channel.*` | refinement to a 256-entry register file (`Spec/Ym2151.v`): each field is a bit range of the last write |
| C14 | LFO settings follow the last relevant writes | `State.apply`, LFO registers | refinement to last relevant write |
| C15 | Notes carry the pitch and panning in force at the key event | `State.apply` 0x08, 0x28-0x37, `Note.__init__` | refinement |
| C16 | A register write touches only what it addresses | `State.apply` | frame theorem over all observers |
| C17 | Unknown registers are ignored | `State.apply` | case split on the register |
| C18 | Decoded fields stay in their hardware ranges and applying never fails | `State.apply`, `beat` | invariant over histories (`Spec/Ranges.v`) |
| C19 | Instruments are pairwise different and densely numbered | `_get_config_id` | invariant: NoDup + ids = positions |
| C20 | Instruments and notes are append-only | `configs`, `key_presses` | prefix relation, induction |
| C21 | A note's instrument is the chip state at its key-on | `_get_config_id` | refinement: configs[id] is the register-file view at the event |
| C22 | Key-off creates nothing | `State.apply` 0x08 without operators | case analysis |
| C23 | Exactly which key events are recorded | `key_presses`, `ticks` | exact characterisation of the log from the history; `_refuted` |
| C24 | Recorded notes are in chronological order | `key_presses` | sortedness invariant |
| C25 | ticks() is the sorted set of key-on positions | `ticks` | set + sort specification |
| C26 | Pitch and panning never create instruments | `State.apply` | frame on `configs` |
| C27 | The tick estimator scores the symmetric difference | `ticks_per_note`, nested loops on fuel (`Model/Ticks.v`) | loop invariants; score = symmetric difference with a comb |
| C28 | The estimate is the smallest best candidate | same, with the float key | optimality; the float key is order-isomorphic to the integer score (Flocq) |
| C29 | A steady rhythm is recovered exactly | same | corollary of C28 + arithmetic |
| C30 | Reported confidence is a percentage | same + printed table | bounds; ranking |
| C31 | Each tracker cell holds the last event falling into it | `extract_tracks_to_xrns`, `PatternPool` | fold invariant over the event log: a cell is the last event in it |
| C32 | The exported grid is well formed | same | shape invariants |
| C33 | The sequence plays every pattern once in order | same, `PatternSequence` | induction |
| C34 | Instrument references resolve | `f"{id:0>2X}"` | hex reader in the spec; `_refuted` above 255 |
| C35 | Pitch names follow the chip's key codes | `Note.xrns_note` | arithmetic on codes; finite checks lifted to all octaves |
| C36 | The panning column tells the output sides | panning branch | case split; `_refuted` |
| C37 | A recorded key-on is shown unless a later event takes its cell | same | from C31; `_refuted` |
| C38 | The exported tempo is 661500 / ticks_per_note | float tempo | Flocq error bound for all tick lengths; exact integer part for divisors of 661500 |
| C39 | The CSV lists consecutive rows with the right notes | `extract_tracks` (`Model/Csv.v`) | merge-loop invariant; text splits back |
| C40 | Which rows the CSV lacks | same | from C39; `_refuted` |
| C41 | The instrument JSON is valid and lossless | `ConfigEncoder`, `json.dumps(indent)` | independent JSON parser; round trip, injectivity |
| C42 | Nothing is written unless the whole input was read | `main`, `smart_open` as effect traces | case analysis on the trace; `_refuted` |
| C43 | The tick length used is the one requested, else the estimate | `main` | trace + C28 |
| C44 | '-' means standard input/output | `smart_open` | trace; `_refuted` |
| C45 | Stored instruments share no mutable state with the live chip state | `Model/Heap.v` | simulation heap/value, for every client program |
| C46 | D2R bit 4 does not distinguish instruments | `State.apply` | relational induction; `_refuted` |
| C47 | What a negative or zero tick length does | negative/zero tick length | case analysis; Python negative indices |
| C48 | The rendered document mirrors the song | `XrnsSerializer` on records | map lemmas; literal palette |
| C49 | Delaying the whole song delays every note | `process_vgm_file` | relational induction |
| C50 | Other chips' commands do not matter | `process_vgm_file` | filter lemma |
| C51 | Extraction is the history of the file's commands | `process_vgm_file` | = history of calls |
| C52 | main() only works as a script | `main` name lookup | trace |
| C53 | State objects are independent of each other | `Model/Heap.v` with several State objects | non-interference |
| C54 | Waits can be split, merged and dropped when zero | `Spec/View.v` observers | two-run simulation |
| C55 | Redundant register writes can be dropped, key events never | same | two-run simulation; `_refuted` for key events |
| C56 | Independent writes commute | same | commutation lemmas; `_refuted` for key order |
| C57 | Exports depend on key events only | same + exporters | extensionality of exports in the visible logs |
| C58 | Scaling time and row length together changes nothing but the tempo | time scaling of the history | two-run simulation, `(k*a)/(k*b)` |
| C59 | A delay of k rows moves the song down k rows | delay by whole rows | two-run simulation + grid lemma |
| C60 | What every exported song contains | `Model/Document.v` | document template |
| C61 | Song.xml is a faithful document | `Model/Dataclass.v`, `Dao.v`, `Document.v` | document equals the template of `Spec/SongFile.v`; reader round trip; `_refuted` for pattern length |
| C62 | The exported song plays at the recorded speed | tempo in the document | from C38 |
| C63 | The printed estimate table is right | `ticks_per_note(show_progress)` text: dots, `{:.2f}` | C30 + decimal reader (`Spec/Decimal.v`); dots by monotonicity of the float share |
| C64 | The CSV's fraction column tells the position within the row | `"{:.2}".format((t/tpn) % 1)` in `Model/PyFloat.v`, `Csv.v` | Flocq: floor survives rounding for t < 2^53, `% 1` exact; decimal text read back for every exponent |
| C65 | What a run prints | `main` effect trace, stdout part | case analysis; per-step messages |
| C66 | A command object tells what was read | command objects (`Model/Command.v`): id, type, create, `__str__` | case analysis on the next command (C07); hexadecimal and decimal readers; injectivity of the four forms |
| C67 | A reader that ended stays ended | sessions of readers (`Model/Session.v`) | invariant: a reader that ended is at or past its end in every later state; induction over the session |
| C68 | Attributes by name | `__getattr__` of Config and State with an explicit recursion limit (`Model/Attr.v`) | refinement of the state (C20, C23) + case analysis on names; recursion by induction on the limit. Names with two leading underscores (Python's own) are not modelled |
| C69 | apply takes any integers | `apply` over all of Z | bit lemmas: masks and shifts only see the value modulo 256; shape invariant for absence of errors |
| C70 | The song classes as a library | `PatternPool.add_note` with any integers, `Song(...)` | simulation between the pool and a book of entries (`Spec/Pool.v`); C61 for reading back |
| C71 | From the bytes of a VGM file to the song | whole `main` on bytes; `Spec/Whole.v` states the song from the register map | composition of C04/C51, C23, C25+C28, C31-C34, C48 |
| C72 | From the bytes of a VGM file to the instrument file | whole `main` on bytes | C42 + C41 + refinement of the instrument list |
| C73 | A run depends on the key events only | whole `main`, two runs | C57 lifted through the effect trace |
| C74 | What is on disk after a run | a file system updated by the effect trace (`Spec/Disk.v`) | only outputs change files; C71, C72 |
| C75 | Killed at any moment | crash semantics on the effect trace: between effects, or in the middle of a write (any prefix of a text, any part of an archive) | induction over the trace; process kill only, not loss of OS buffers |
| C76 | The CSV export as a whole | `extract_tracks` with its effects (`Model/CsvFile.v`) | C39 + text splitting; zero by unfolding |
| C77 | CSV and song agree | CSV rows and rendered song | C39 + C31, both through `last_event` |
| C78 | A negative CSV tick length counts rows downwards | `extract_tracks` with a negative length, `float_mod1` of negative floats | loop invariant with the order reversed; Flocq: exact fmod, then one rounded addition of 1.0 |
| C79 | The command line means what the usage says, or nothing happens | `parse_args` of `main.py:47-62` (`Model/Argparse.v`: word classes, abbreviations, joined values, `--`, int()), `run_script` with exit status; `Spec/CommandLine.v` describes accepted lines without the algorithm | classification of every word; induction over fuel of the loop against the line grammar, both directions; help and error exits |
| C80 | Text of a pattern cell in memory | `Pattern.Line.__str__` on the cells of the song in memory (`Model/Song.v`) | C31's cell lemma: the cell is that of the last event of the row |
| C81 | Song.xml is well-formed and carries the song | XMLGenerator + indentation (`Model/XmlText.v`), song to document (`Model/Document.v`); `Spec/XmlReader.v` is an independent XML reader (line ends, lexer, element stack) | induction over the element tree: lexer on writer output, then the stack; escaping character by character; every text of an exported song is clean (C31's cells, hexadecimal and decimal digits) |
| C82 | Cut or damaged compressed files are never half converted | a decompressing stream that hands out some bytes and then raises (`Model/GzStream.v`: every reading function of core.py, process_vgm_file and main over it) | simulation against the plain-file model over every continuation of the recovered bytes; exactness by position of the end of each command |
| C83 | The bytes of the song file lead back to the song | zipfile.ZipFile.writestr for one stored member (`Model/Zip.v`: table CRC-32, headers, order of writes, UTF-8 of characters below 256); `Spec/ZipReader.v` is an independent reader with a bitwise CRC | offsets by list lemmas; table CRC = bitwise CRC; CRC is linear and its state map injective, so a burst of at most 32 bits changes it |
| C84 | A song file is never half right | the six positioned writes of the archive, cut at any byte (`in_file` in `Spec/ZipReader.v`); buffering only delays, it keeps the order | every unfinished content is a proper prefix of header-like bytes, text and directory; marks contain bytes below 9 that the text cannot have, so no end record and directory entry for Song.xml can be found. Reader: strict format; CPython's zipfile is more lenient about trailing bytes |
| C85 | From bytes to bytes | main.py, extractors.py and writer.py once more in `Model/MainBytes.v`, with truncations and positioned writes of bytes instead of abstract writes; `Spec/ByteDisk.v`: a disk of byte files, and a kill between two actions or within a write | composition of C42, C71, C72, C81, C83 and C84 over the action list; `C85_same` ties the result and the printed text to the coarser `Model/Main.v` |
| C86 | From the command line to the bytes on disk | main.py:47-65 in `Model/Script.v`: `Model/Argparse.v` followed by `Model/MainBytes.v`, with the exit status (an exception leaving main is status 1); tracebacks and help texts are not modelled | C79 (which command lines are accepted, and as what) composed with C85 |
| C87 | Equality of configuration objects | config.py:12-237 in `Model/PyObjects.v` as dynamically typed objects on a heap that a client may assign to freely; `Spec/Records.v`: settings by name, equality of settings | case analysis over `==` with a recursion budget of 4; Config by identity |
| C88 | Copies of configuration objects are independent | `copy.deepcopy` of CPython with memo, the classes' `__deepcopy__`, and a client language (construct, copy, assign, change lists) in `Model/PyObjects.v` | the copy only appends to the heap; ownership of operator lists is preserved by calls that touch nothing owned (induction over the client's calls) |
| C89 | Config objects share their defaults and do not forward assignments | the default arguments as two objects created with the class (`boot`); `__getattr__` with a recursion limit | invariants over all clients (the default objects keep their classes and four private attributes exist); comparison and encoding do not read the shadowing attribute |
| C90 | The JSON of configuration objects | `repr_json` and the encoder with json's circularity markers (`encode`); strings' escapes are not modelled; `Spec/Records.v`: the relation between objects and JSON values | soundness by induction over the limit, functionality and completeness by induction over the JSON value, circularity by decreasing size |
| C91 | What the two spellings of a note event tell | note.py completely (`Model/Note.v`), `Spec/Sheet.v` for the text of an event | the text is cut at fixed lengths and at the first blank and bracket (none occurs earlier); decimal numbers and the 62 fine tunings are injective, names by their table |
| C92 | A run can be repeated | `Model/Script.v` (command line to single writes of bytes) on disks as functions from names to bytes; `Spec/Batch.v`: inputs and outputs of a command line, killed attempts. Different names are different files (no links, no `./a` beside `a`); permissions do not change | the actions on one file are none or begin with its truncation, and which files are opened does not depend on the time; induction over the attempts |
| C93 | Independent runs do not disturb each other | `Spec/Batch.v`: processes that read their input when they start and then act one action at a time, in any schedule, with kills between and within writes | simulation: each process keeps a private disk on which it runs alone; the common disk agrees with it on the process's outputs (invariant over steps) |
| C94 | Writing over an input loses it, but nothing is half read | the same | the writes to one file keep its first byte a P or an opening bracket once it is not empty, so the reader finds no recording |
| C95 | Every way a run can end | `Model/MainBytes.v` main_bytes with everything below it | `Spec/Failure.v` lists the ways a run can end, each with its condition on the bytes of the input, the permissions, the row length and the clock (`ends`); C95_ends: main_bytes has an outcome iff `ends` has it (each constructor gives the outcome; the constructors cover all worlds); C95_exceptions: the closed list of exceptions; C95_left: what a failed run leaves on disk; ten instances in C95_met |
| C96 | A longer recording only adds | `Model/State.v`, `Model/Ticks.v`, `Model/Song.v` as they are; nothing new | the events of `h ++ g` are those of `h` followed by events not before `time h` (induction over `g`); the early key-ons are a set below 32000; cells through C31's lemma |
| C97 | A track depends on its channel only | the same; `Spec/Editing.v`: the calls that concern a channel, events and cells up to instrument numbers | dropping the other channels' calls keeps every register the channel's events read (induction from the right); dropping up to the first key-on commutes with the projection because positions are sorted |
| C98 | Pitch writes change only the note column | the same; `Spec/Editing.v`: changed pitch writes, transposition | relational induction over the two recordings: the keys correspond with equal settings, hence equal instruments; pitch names by arithmetic |
| C99 | Exactly what the song file tells | the same as C31/C61/C83; `Spec/Editing.v`: events that look alike | the pool of a built song is determined by the last events (tracks are dictionaries sorted by line, extensionality of sorted dictionaries; pattern count by need_spec); backwards through cells (C31) and the archive reader (C83) |
| C100 | Exactly what the CSV sheet tells | `Model/Csv.v`, `Model/CsvFile.v` as they are; `Spec/SheetTells.v`: time of the next event, cells that read alike | the sheet of C39 row by row in both directions (C39's text can be split; decimal numbers are injective; C91 for the event texts; the number of rows from the existence of a next event) |
| C101 | The estimate depends on the distances of the early key-ons only | `Model/Ticks.v` as it is; nothing new | the scores of C27 are invariant under shifting all positions; everything printed is a function of the scores and the number of positions |
| C102 | A stray key-on does not disturb a steady rhythm | the same | scores of a steady rhythm with one more position: at most 3 for the distance, at least 3 for its other multiples and at least n-1 for everything else (counting over permutations); concrete recordings for the refuted parts |
| C103 | What the estimate makes of any steady rhythm | the same | scores of a steady rhythm split after k positions: k for the multiple k*p, n for what is no multiple |
| C104 | The record classes of the song format | `Model/Dataclass.v` and the generated field tables of `Model/Dao.v`; `Spec/SongClasses.v`: names, what constructors take, what is written for a value (`says`). Values are numbers, flags, texts, None, lists and objects of the kinds the attributes are declared for (xsdata's xsi:type for objects of another class is not modelled, nor floats and enumerations) | one check per field table by computation (names, defaults, fixed values); induction over the fields for constructors, over the built value for what is written; taking turns of sequential lists keeps each list's order |
| C105 | What is played is what is exported | everything from the reader to the bytes of the output (as for C85); `Spec/Score.v`: scores, the register writes that load a sound, the file, events, sounds and notes of a score, what a document must show. A score is a list of rests, notes, note ends, pitch changes and LFO settings; the driver writes all registers of the channel before each key-on (drivers that write less are covered by C106); one VGM command per write or rest, no loop, no GD3 tag after the end mark | the registers after a load decode to the sound (bit fields add up without carries), a load leaves the other channels' pitches and the LFO alone, hence by induction over the score the key events of the performance are the score's events; the log by C23's refinement, the file by C08's `encode_stream` and C85 |
| C106 | However a performance is logged, the export is the same | the same as C105; `Spec/Logging.v`: a relation between a performance and a log of it (eleven rules, applied any number of times anywhere), a driver that keeps a copy of the registers | induction over the relation: every rule keeps the key events (the pasts stay alike in all heard bits, LFO depths and time); everything exported depends on the key events (C57, C85) |
| C107 | A tune in time is found in time | the same as C105; `Spec/Tune.v`: chords at a distance as a score, their sounds, the rows they belong on | C103's best guess for the times of the chords (steady up to sample 32000, the rest not looked at); C105 for the file, C105_note for every voice of a chord, rows without events empty; for notes that end in their row: the last event of a row is never a note |
| C108 | The CSV sheet of a score, and of a tune | `Model/Csv.v`, `Model/CsvFile.v`, the reader as for C105; `Spec/ScoreSheet.v`: what the lines of a score's and a tune's sheet say | C76's sheet of the performance in the terms of the score (C105); for a tune the next event, the last row and the cells are computed by induction over the chords |
| C109 | A score from the shell | C86's command (`Model/Script.v`, `Model/Argparse.v`) with C105's and C107's scores | composition: an accepted command line runs main with what it names (C79, C86), and main shows the score (C105, C107) |

## Findings recorded as theorems

* C03/C06: `Vgm.clocks` is a class attribute: `clock()` of every open reader answers for the file opened last.
* C10: a command cut off by the end of file is silently dropped in some positions (exact classification proved).
* C11: the end-of-sound command 0x66 does not stop the reader.
* C12: 0x80–0x8F (YM2612 sample + wait) advance no time.
* C23: a key-on before the first wait (time 0) is lost from `ticks()` (falsy `_first_beat`), see the exact statement.
* C36/C37: two events in one tracker cell: only the last one is shown; mute and left-only panning look alike.
* C40: the CSV lacks the row of the last event; its sample column shows the time of the *next* event.
* C44: `-` as input never works (text stdin); `-i -` mixes JSON with messages; `-t -` creates a file named "-".
* C42: a failing song export leaves the instrument file behind.
* C46: D2R is masked with 0x0F, so bit 4 never distinguishes instruments.
* C52: `main()` reads the global `args`, so importing the module and calling `main` raises NameError.
* C79: `-tn5` sets no tick length: it is `-t` with the song file `n5`; a last `--` is refused after later options although it is accepted right after the file.
* C81: a carriage return in a name comes back as a line feed, a control character makes Song.xml unreadable (such names can only be set through the library).
* C82 vs C10: a cut compressed file is always reported, a cut plain file may be accepted silently.
* C61: the number of lines of a pattern is not exported.
* C88: `copy.deepcopy(config)` returns a ChannelConfig (and of a State a BaseConfig): `__deepcopy__` is found through `__getattr__`.
* C89: the default `base`/`channel` of Config are shared by all Configs; `config.lfo = x` only hides the setting; the default `operators=0` is no `Operators` member.
* C90: attributes a client adds to a BaseConfig appear in the JSON, those of other classes do not; neither survives a copy.
* C83: on a machine whose clock is before 1980 or after 2107 the song export raises and leaves an empty archive.
* C94: the script accepts an output that is its own input; the recording is then replaced by the song (or the instruments).
* C97: key-offs of a channel that come before its first key-on are exported only if some other channel has been keyed on before.
