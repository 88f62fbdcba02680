{"id": "C01", "title": "Opening a file has exactly three outcomes", "statement": "reader(f) returns None exactly when the (gunzipped, if it starts with 1f 8b) content does not start with the four bytes 'Vgm '; otherwise it raises EOFError exactly when the content is too short for the header fields its own version requires (0x34 bytes below 1.50, 0x38 from 1.50 on); otherwise it returns a reader object.", "quantifier": "all byte strings, of any length, as file content", "why_tests_cant": "Infinitely many file contents and lengths; tests use eight hand-made headers.", "anchors": ["src/vgm/core.py: reader", "src/vgm/core.py: Vgm.__init__", "src/vgm/core.py: _read32", "src/vgm/core.py: _read_bcd"]}
{"id": "C02", "title": "Header fields are decoded exactly", "statement": "For every accepted file, size() is 4 + the little-endian 32-bit number at offset 4 and version is the 8-digit packed-BCD number at offset 8 (most significant digit first); a version written in BCD is read back as the same decimal number.", "quantifier": "all accepted files; all versions 0..99999999", "why_tests_cant": "2^64 header contents; a byte-order or nibble-order slip is only visible on asymmetric values.", "anchors": ["src/vgm/core.py: _read32", "src/vgm/core.py: _read_bcd", "src/vgm/core.py: Vgm.size", "src/vgm/core.py: Vgm.__init__"]}
{"id": "C03", "title": "The YM2151 clock is taken from the right header field", "statement": "Right after opening, clock('ym2151') is the 32-bit number at 0x30 when the version is 1.10 or later and the YM2413 clock at 0x10 before; clock('ym2413') is always the number at 0x10; supports(chip) is true exactly when that clock exists and is positive.", "quantifier": "all accepted files, all chip names", "why_tests_cant": "The choice depends on every version value and clock value, and the boundary at 1.10 is one of 10^8 values.", "anchors": ["src/vgm/core.py: Vgm.__init__", "src/vgm/core.py: Vgm.supports", "src/vgm/core.py: Vgm.clock"]}
{"id": "C04", "title": "The first command is read from the data offset", "statement": "Iteration starts at offset 0x40 for versions below 1.50 and at 0x34 + the number stored at 0x34 from 1.50 on, whatever lies in between, and yields exactly what parsing the file's bytes from that offset yields.", "quantifier": "all accepted files, including offsets past the end of the file", "why_tests_cant": "Offsets range over 2^32 values, forwards and backwards from the read position.", "anchors": ["src/vgm/core.py: Vgm.__init__", "src/vgm/core.py: Vgm.__next__"]}
{"id": "C05", "title": "gzip is transparent", "statement": "A file whose bytes start with 1f 8b and decompress to d is opened with the same outcome, header and command sequence as a file containing d itself, for every d that does not itself start with 1f 8b.", "quantifier": "all contents and every decompression function", "why_tests_cant": "Quantifies over all payloads and over the compressor; tests try one.", "anchors": ["src/vgm/core.py: reader"]}
{"id": "C06", "title": "Open readers do not disturb each other, clocks apart", "statement": "Whatever is done with other readers, in any interleaving, a reader gives the same size, version and commands as if it were alone. Its clock()/supports() answers are the exception: they are always those of the file opened last in the process (class-level dictionary).", "quantifier": "all pairs of files opened in any order", "why_tests_cant": "It is a property of histories of opens, not of a single call; every test opens one file at a time.", "anchors": ["src/vgm/core.py: Vgm.clocks", "src/vgm/core.py: Vgm.__init__"]}
{"id": "C07", "title": "Every command id consumes its documented operand bytes", "statement": "next() on a reader positioned at command byte b with enough bytes left consumes exactly 1 + n(b) bytes, n(b) being the operand length the VGM format gives for b (with the data-block and PCM-RAM-write sizes taken from their length fields), and leaves the rest untouched.", "quantifier": "all 256 command ids, all operand values, all following bytes", "why_tests_cant": "Needs every id combined with every operand content and length field; one wrong length desynchronises the whole rest of the file.", "anchors": ["src/vgm/core.py: command", "src/vgm/core.py: Vgm.__next__"]}
{"id": "C08", "title": "Well-formed command streams parse back to the same commands", "statement": "Encoding any finite list of VGM commands by the format's rules and iterating over the result yields exactly those commands (same ids, registers, values, wait lengths, payloads) in order and then stops.", "quantifier": "all finite lists of commands with in-range operands", "why_tests_cant": "Unbounded lists; framing errors compound only across sequences.", "anchors": ["src/vgm/core.py: command", "src/vgm/core.py: Vgm.__next__", "src/vgm/command.py: VgmCommand", "src/vgm/command.py: WaitCommand"]}
{"id": "C09", "title": "Iteration always terminates and always makes progress", "statement": "Every next() that yields a command consumes at least one byte and never rereads; iterating a file of n bytes yields at most n commands and then stops or raises.", "quantifier": "all byte strings, including malformed ones", "why_tests_cant": "Termination over all inputs cannot be observed by finite runs.", "anchors": ["src/vgm/core.py: Vgm.__next__", "src/vgm/core.py: command"]}
{"id": "C10", "title": "Truncated streams: exactly what is reported", "statement": "A stream cut in the middle of its last command raises EOFError for 0x54 and 0x61, struct.error inside the 6/11-byte header of 0x67/0x68, and is accepted silently with a short payload for every other command; all commands before the cut are yielded unchanged.", "quantifier": "all command ids and all cut points", "why_tests_cant": "Every cut point of every command.", "anchors": ["src/vgm/core.py: command", "src/vgm/core.py: _read8", "src/vgm/core.py: _read16"]}
{"id": "C11", "title": "The end-of-sound command ends nothing", "statement": "A 0x66 command has no effect at all on extraction: bytes after it (GD3 tags, padding) are interpreted as further commands, although the format says that nothing after 0x66 is.", "quantifier": "all streams and all trailing bytes", "why_tests_cant": "Depends on arbitrary trailing data.", "anchors": ["src/vgm/core.py: Vgm.__next__", "src/main.py: process_vgm_file", "src/vgm/command.py: EOSCommand"]}
{"id": "C12", "title": "The sample clock is the sum of the waits", "statement": "After processing any command stream the position used to stamp notes is the sum of the waits: n for 0x61 nn nn, 735 for 0x62, 882 for 0x63, n+1 for 0x7n; every other command adds nothing, the 0x8n commands included, although the format gives them a wait of n samples.", "quantifier": "all command streams of any length", "why_tests_cant": "Unbounded sums over arbitrary command sequences.", "anchors": ["src/vgm/command.py: WaitCommand", "src/vgm/core.py: command", "src/main.py: process_vgm_file", "src/vgm/ym2151/state.py: State.beat"]}
{"id": "C13", "title": "Channel configuration is the register file, field by field", "statement": "After any history of writes and waits, every field of channel_config(ch) and of its four operators equals the bit field the YM2151 register map assigns to it, taken from the last value written to the corresponding register (0 if never written). The second decay rate is the exception: only its low four bits are kept.", "quantifier": "all histories of register writes (any register, any byte) and waits; all channels, operators and fields", "why_tests_cant": "History-dependent: any earlier write could leak into a field.", "anchors": ["src/vgm/ym2151/state.py: State.apply", "src/vgm/ym2151/state.py: State.channel_config", "src/vgm/ym2151/config.py: ChannelConfig", "src/vgm/ym2151/config.py: OperatorConfig"]}
{"id": "C14", "title": "LFO settings follow the last relevant writes", "statement": "After any history, lfo and waveform come from the last writes to 0x18 and 0x1B, phs_md from the last write to 0x19 with bit 7 set and amp_md from the last write to 0x19 with bit 7 clear.", "quantifier": "all histories of register writes", "why_tests_cant": "One register feeds two independent fields; only interleaved histories distinguish them.", "anchors": ["src/vgm/ym2151/state.py: State.apply", "src/vgm/ym2151/state.py: State.__getattr__", "src/vgm/ym2151/config.py: BaseConfig"]}
{"id": "C15", "title": "Notes carry the pitch and panning in force at the key event", "statement": "Every recorded key event carries octave, note, key fraction and left/right bits from the last writes to its channel's pitch and panning registers before the event, and later writes never change it.", "quantifier": "all histories and all recorded events", "why_tests_cant": "Needs arbitrary later writes after each event.", "anchors": ["src/vgm/ym2151/state.py: State.apply", "src/vgm/ym2151/note.py: Note.__init__", "src/vgm/ym2151/config.py: NoteConfig"]}
{"id": "C16", "title": "A register write touches only what it addresses", "statement": "One register write leaves every channel and operator other than the addressed one, all stored instruments, all recorded notes and the sample clock unchanged (the key register aside).", "quantifier": "all states reachable by any history, all register/value pairs", "why_tests_cant": "Frame conditions over all states and all 65536 writes.", "anchors": ["src/vgm/ym2151/state.py: State.apply"]}
{"id": "C17", "title": "Unknown registers are ignored", "statement": "Writes to registers outside the modelled map (test, timers, CSM, IRQ flags) change nothing at all.", "quantifier": "all reachable states, all values, all other registers", "why_tests_cant": "All states times all values.", "anchors": ["src/vgm/ym2151/state.py: State.apply"]}
{"id": "C18", "title": "Decoded fields stay in their hardware ranges and applying never fails", "statement": "After any byte history every stored field is inside its bit width, there are always 8 channels of 4 operators, and apply() never raises.", "quantifier": "all histories of byte writes", "why_tests_cant": "Inductive invariant over unbounded histories.", "anchors": ["src/vgm/ym2151/state.py: State.apply", "src/vgm/ym2151/config.py: ChannelConfig"]}
{"id": "C19", "title": "Instruments are pairwise different and densely numbered", "statement": "At every moment no two stored instruments have the same parameters and the i-th instrument has id i.", "quantifier": "all histories", "why_tests_cant": "Uniqueness across unbounded histories.", "anchors": ["src/vgm/ym2151/state.py: State.apply", "src/vgm/ym2151/config.py: Config.compare", "src/vgm/ym2151/config.py: BaseConfig.__eq__", "src/vgm/ym2151/config.py: OperatorConfig.__eq__", "src/vgm/ym2151/config.py: ChannelConfig.__eq__"]}
{"id": "C20", "title": "Instruments and notes are append-only", "statement": "Processing more commands never removes, reorders or alters an instrument already stored or a note already recorded.", "quantifier": "all histories split at any point", "why_tests_cant": "Every prefix of every history.", "anchors": ["src/vgm/ym2151/state.py: State.apply", "src/vgm/ym2151/config.py: Config"]}
{"id": "C21", "title": "A note's instrument is the chip state at its key-on", "statement": "For every recorded note with config_id >= 0, the instrument with that id has exactly the LFO, channel, operator parameters and enabled-operator mask in force when the key was pressed; equal settings always reuse the same id and different settings never share one.", "quantifier": "all histories and all recorded notes", "why_tests_cant": "Requires relating each note to the prefix that produced it, with arbitrary writes afterwards.", "anchors": ["src/vgm/ym2151/state.py: State.apply", "src/vgm/ym2151/config.py: Config.compare"]}
{"id": "C22", "title": "Key-off creates nothing", "statement": "A key event with no operator enabled never adds an instrument, never adds a tick, and is recorded (if at all) with config_id -1; key-ons are never recorded with -1.", "quantifier": "all histories and events", "why_tests_cant": "All states.", "anchors": ["src/vgm/ym2151/state.py: State.apply"]}
{"id": "C23", "title": "Exactly which key events are recorded", "statement": "key_presses(ch) is exactly the sequence of key events addressed to ch, in order, from the first key-on (on any channel) at a non-zero sample position on; if no key-on precedes the first wait, nothing from the first key-on on is lost. Key-ons at position 0 before that are not recorded.", "quantifier": "all histories, all channels", "why_tests_cant": "The loss depends on the position of events in the history.", "anchors": ["src/vgm/ym2151/state.py: State.apply", "src/vgm/ym2151/state.py: State.key_presses"]}
{"id": "C24", "title": "Recorded notes are in chronological order", "statement": "For each channel the sample stamps of key_presses(ch) are non-decreasing, positive and never exceed the current sample clock.", "quantifier": "all histories", "why_tests_cant": "Inductive over histories.", "anchors": ["src/vgm/ym2151/state.py: State.apply", "src/vgm/ym2151/state.py: State.beat"]}
{"id": "C25", "title": "ticks() is the sorted set of key-on positions", "statement": "ticks() is strictly increasing and contains t exactly when some key-on happened at sample position t.", "quantifier": "all histories", "why_tests_cant": "Set semantics over unbounded histories.", "anchors": ["src/vgm/ym2151/state.py: State.ticks", "src/vgm/ym2151/state.py: State.apply"]}
{"id": "C26", "title": "Pitch and panning never create instruments", "statement": "Changing only pitch or panning registers and waits between two identical key-ons never creates a new instrument.", "quantifier": "all histories, all inserted pitch/panning writes", "why_tests_cant": "Arbitrary insertions into arbitrary histories.", "anchors": ["src/vgm/ym2151/state.py: State.apply", "src/vgm/ym2151/config.py: Config.compare"]}
{"id": "C27", "title": "The tick estimator scores the symmetric difference", "statement": "For each candidate length d the estimator's score is the number of early key-on positions (below 32000) not matched by another one d samples earlier, plus the number of positions shifted by d not matched and lying below the last early position; the matching loop always terminates.", "quantifier": "all sets of key-on positions, all candidate lengths", "why_tests_cant": "The loop exits through IndexError; its result over all sets needs an invariant.", "anchors": ["src/vgm/ym2151/state.py: State.ticks_per_note"]}
{"id": "C28", "title": "The estimate is the smallest best candidate", "statement": "ticks_per_note() always returns a length in 1000..7999 whose score is minimal among all 7000 candidates, and the smallest such length; with no early key-on it returns 1000.", "quantifier": "all histories", "why_tests_cant": "Optimality over all sets of positions.", "anchors": ["src/vgm/ym2151/state.py: State.ticks_per_note"]}
{"id": "C29", "title": "A steady rhythm is recovered exactly", "statement": "If the key-on positions below 32000 are a, a+p, a+2p, ... (at least two of them) with 1000 <= p < 8000, the estimate is exactly p.", "quantifier": "all offsets a, all periods p in range, all lengths", "why_tests_cant": "Infinitely many rhythms.", "anchors": ["src/vgm/ym2151/state.py: State.ticks_per_note"]}
{"id": "C30", "title": "Reported confidence is a percentage", "statement": "The table printed by ticks_per_note has ten lines: the first ten candidates ordered by score and then length; each confidence is between 0 and 100 and equals 100*(1 - score/(2n-1)) up to 1e-12, n being the number of early positions; scores lie between 1 and 2n-1.", "quantifier": "all histories with at least one early key-on", "why_tests_cant": "All sets of positions.", "anchors": ["src/vgm/ym2151/state.py: State.ticks_per_note"]}
{"id": "C31", "title": "Each tracker cell holds the last event falling into it", "statement": "In the exported song the line at (pattern p, track ch, line l) is present exactly when some recorded event of channel ch has sample // ticks_per_note = 64*p + l, and then shows the note, instrument and panning of the last such event.", "quantifier": "all recorded event logs, all positive ticks_per_note", "why_tests_cant": "All logs times all tick lengths, including collisions.", "anchors": ["src/extractors.py: extract_tracks_to_xrns", "src/xrns/parts/pattern.py: PatternPool.add_note"]}
{"id": "C32", "title": "The exported grid is well formed", "statement": "Every pattern has 8 tracks, every line number is in 0..63 and strictly increasing within a track, and there are exactly as many patterns as needed to hold the last event (none if there are no events).", "quantifier": "all event logs, all positive ticks_per_note", "why_tests_cant": "Shape invariant over unbounded logs.", "anchors": ["src/extractors.py: extract_tracks_to_xrns", "src/xrns/parts/pattern.py: PatternPool", "src/xrns/parts/pattern.py: Pattern"]}
{"id": "C33", "title": "The sequence plays every pattern once in order", "statement": "The exported pattern sequence is 0,1,...,n-1 for n patterns; no entry refers to a missing pattern.", "quantifier": "all songs", "why_tests_cant": "All sizes.", "anchors": ["src/extractors.py: extract_tracks_to_xrns", "src/xrns/parts/pattern_sequence.py: PatternSequence.add_pattern"]}
{"id": "C34", "title": "Instrument references resolve", "statement": "Every instrument column in the song is the upper-case hexadecimal form, padded to at least two digits, of an index below the number of exported instruments, reads back as the note's instrument id, and is absent exactly on note-offs. It has exactly two digits while there are at most 256 instruments; beyond that it can have more.", "quantifier": "all histories and all exported cells", "why_tests_cant": "Links two outputs over all histories.", "anchors": ["src/extractors.py: extract_tracks_to_xrns", "src/vgm/ym2151/state.py: State.apply"]}
{"id": "C35", "title": "Pitch names follow the chip's key codes", "statement": "For the twelve valid note codes and 8 octaves, the exported name is the chromatic pitch 12*octave + k+1 of the k-th code, distinct pairs get distinct names and higher codes get higher pitches. Over all 16 codes the order breaks, at code 15, which is shown as C# of the same octave.", "quantifier": "all key codes and octaves that can occur", "why_tests_cant": "Finite but relational: injectivity and monotonicity range over all pairs.", "anchors": ["src/vgm/ym2151/note.py: Note.xrns_note", "src/vgm/ym2151/note.py: _NOTE_LOOKUP_XRNS"]}
{"id": "C36", "title": "The panning column tells the output sides", "statement": "The panning column is empty exactly when both sides are on, '00' exactly for right-only and 'F0' otherwise, so left-only and muted notes look the same.", "quantifier": "all recorded notes", "why_tests_cant": "All pan states in all contexts.", "anchors": ["src/extractors.py: extract_tracks_to_xrns"]}
{"id": "C37", "title": "A recorded key-on is shown unless a later event takes its cell", "statement": "Every recorded key-on appears in the exported song at its row unless a later event of the same channel falls into the same row; in that case it can be lost.", "quantifier": "all event logs, all positive ticks_per_note", "why_tests_cant": "Depends on collisions among unboundedly many events.", "anchors": ["src/xrns/parts/pattern.py: PatternPool.add_note", "src/extractors.py: extract_tracks_to_xrns"]}
{"id": "C38", "title": "The exported tempo is 661500 / ticks_per_note", "statement": "For a tick length t of at least 1, beats_per_min of the exported song is the integer part of 60*44100/(4*t) = 661500/t, except for nine lengths (45, 90, 105, 180, 210, 375, 420, 750, 1500) where floating-point rounding makes it exactly one less; for negative lengths it is the negated value; length 0 raises ZeroDivisionError, and lengths whose note length exceeds the largest float (t >= 44100*(2^1024-2^970)) raise OverflowError.", "quantifier": "all integers t", "why_tests_cant": "Only nine values misbehave; a sampled test will not hit them.", "anchors": ["src/extractors.py: extract_tracks_to_xrns"]}
{"id": "C39", "title": "The CSV lists consecutive rows with the right notes", "statement": "The CSV data lines have total rows 0,1,...,R-1 in order, R being the row of the last event, with matching line and pattern columns, and each channel column shows the last event of that channel in that row or is empty; the export terminates.", "quantifier": "all event logs, all positive ticks_per_note", "why_tests_cant": "Merging eight unbounded streams.", "anchors": ["src/extractors.py: extract_tracks"]}
{"id": "C40", "title": "Which rows the CSV lacks", "statement": "Every row with an event appears in the CSV except the row of the last event, which is never written.", "quantifier": "all non-empty event logs", "why_tests_cant": "Universally false in a way tests with few rows overlook.", "anchors": ["src/extractors.py: extract_tracks"]}
{"id": "C41", "title": "The instrument JSON is valid and lossless", "statement": "The instrument file is a JSON array with one object per instrument in id order, from which every parameter of every instrument can be read back exactly; different instrument lists give different files.", "quantifier": "all histories", "why_tests_cant": "Round trip over all instrument lists.", "anchors": ["src/extractors.py: extract_instruments", "src/vgm/ym2151/config.py: ConfigEncoder", "src/vgm/ym2151/config.py: Config.repr_json", "src/vgm/ym2151/config.py: ChannelConfig.repr_json", "src/vgm/ym2151/config.py: OperatorConfig.repr_json", "src/vgm/ym2151/config.py: Operators.repr_json"]}
{"id": "C42", "title": "Nothing is written unless the whole input was read", "statement": "If the input cannot be opened, is not a VGM file, or is truncated or malformed so that parsing raises, no output file is created or touched; the song file is not touched either if building the song fails.", "quantifier": "all inputs, all option combinations, every failure point", "why_tests_cant": "Every possible failure point of every input.", "anchors": ["src/main.py: main", "src/extractors.py: extract_tracks_to_xrns", "src/extractors.py: extract_instruments"]}
{"id": "C43", "title": "The tick length used is the one requested, else the estimate", "statement": "With a non-zero -tn value that value is used for the export; with none, or 0, the estimate is used, and then the export never divides by zero, never fails and has a tempo between 82 and 661.", "quantifier": "all inputs and option values", "why_tests_cant": "All histories and options.", "anchors": ["src/main.py: main", "src/vgm/ym2151/state.py: State.ticks_per_note"]}
{"id": "C44", "title": "'-' means standard input/output", "statement": "smart_open opens named files, yields stdout/stdin for '-' or an empty name, closes exactly the files it opened, and fails on other modes. Reading the VGM from '-' never works, whatever stdin contains, since stdin is a text stream; '-i -' writes the JSON to stdout among the messages, and '-t -' writes a file named '-'.", "quantifier": "all names, modes and stream contents", "why_tests_cant": "All names, modes and contents.", "anchors": ["src/tools.py: smart_open", "src/main.py: main", "src/vgm/core.py: reader"]}
{"id": "C45", "title": "Stored instruments share no mutable state with the live chip state", "statement": "No later call can change a stored instrument or note through shared references: an object obtained as state.configs[i] stays state.configs[i] and everything reachable from it keeps its value, a Note object keeps its value, while channel_config(ch) is the live object and always shows the current settings. The program on mutable objects computes exactly what the same program on immutable values computes, and never writes an object it did not create.", "quantifier": "all histories, all later calls, any number of State objects in one process, any prior memory", "why_tests_cant": "Aliasing bugs appear only for particular later writes.", "anchors": ["src/vgm/ym2151/state.py: State.apply", "src/vgm/ym2151/config.py: BaseConfig.__deepcopy__", "src/vgm/ym2151/config.py: ChannelConfig.__deepcopy__", "src/vgm/ym2151/config.py: ChannelConfig.__init__"]}
{"id": "C46", "title": "D2R bit 4 does not distinguish instruments", "statement": "Two histories that differ only in bits 5 and 4 of D2R/DT2 writes give identical results, although bit 4 belongs to the decay rate, so two audibly different settings can share an instrument.", "quantifier": "all pairs of register settings", "why_tests_cant": "Relational over all pairs of settings.", "anchors": ["src/vgm/ym2151/state.py: State.apply"]}
{"id": "C47", "title": "What a negative or zero tick length does", "statement": "With a negative ticks_per_note the song export raises IndexError exactly when there is at least one recorded event; otherwise it writes an empty song with a negative or zero tempo. A zero length raises ZeroDivisionError and an enormous one OverflowError.", "quantifier": "all event logs, all negative tick lengths", "why_tests_cant": "All logs times all values.", "anchors": ["src/extractors.py: extract_tracks_to_xrns", "src/xrns/parts/pattern.py: PatternPool.add_note"]}
{"id": "C48", "title": "The rendered document mirrors the song", "statement": "The XML document tree has one pattern element per pattern, one track element per track, one line element per filled cell carrying that cell's index, note, instrument and panning, one sequence entry per pattern, one instrument element per instrument, and the song's tempo.", "quantifier": "all songs", "why_tests_cant": "Structure over all songs.", "anchors": ["src/xrns/xrns_serializer.py: XrnsSerializer"]}
{"id": "C49", "title": "Delaying the whole song delays every note", "statement": "Prepending a wait of k samples to a command stream whose key-ons are all at positive positions stamps every note exactly k later and changes nothing else.", "quantifier": "all streams, all k", "why_tests_cant": "Two-run relational property.", "anchors": ["src/vgm/ym2151/state.py: State.beat", "src/vgm/ym2151/state.py: State.apply"]}
{"id": "C50", "title": "Other chips' commands do not matter", "statement": "Removing every command that is neither a YM2151 write nor a wait from a stream leaves the resulting state unchanged.", "quantifier": "all command streams", "why_tests_cant": "Arbitrary insertions of arbitrary commands.", "anchors": ["src/main.py: process_vgm_file", "src/vgm/core.py: command"]}
{"id": "C51", "title": "Extraction is the history of the file's commands", "statement": "process_vgm_file on an opened file returns exactly the state obtained by making, on a fresh state, one apply call per YM2151 write and one beat call per wait, in file order; it raises exactly when reading the commands raises, with the same exception, and the calls made are always legal ones (byte registers and values, non-negative waits).", "quantifier": "all files (bytes), all decompressors", "why_tests_cant": "ranges over all files, well-formed or not", "anchors": ["src/main.py: process_vgm_file", "src/vgm/core.py: Vgm.__next__"]}
{"id": "C52", "title": "main() only works as a script", "statement": "Calling main() from another module (so that the script's global args does not exist) always raises - OSError if the input file cannot be opened, NameError otherwise - and writes nothing.", "quantifier": "all arguments, all file contents, all export requests", "why_tests_cant": "Quantifies over every file content and argument combination.", "anchors": ["src/main.py:main"]}
{"id": "C53", "title": "State objects are independent of each other", "statement": "In a process that creates any number of State objects and interleaves calls on them in any order, the notes, instruments, settings and clock of each depend only on the calls made on that object.", "quantifier": "all interleavings of State() and calls on any number of State objects", "why_tests_cant": "Unbounded number of objects and interleavings; sharing through default arguments, class attributes or aliases shows only for particular orders.", "anchors": ["src/vgm/ym2151/state.py: State.__init__", "src/vgm/ym2151/state.py: State.apply", "src/vgm/ym2151/config.py: ChannelConfig.__init__"]}
{"id": "C54", "title": "Waits can be split, merged and dropped when zero", "statement": "Replacing beat(a+b) by beat(a), beat(b) anywhere in a history, or dropping beat(0), changes nothing a client can see, immediately or after any later calls: events, channel settings, instruments, clock, estimate and exports.", "quantifier": "all histories, all a, b >= 0, all continuations", "why_tests_cant": "unbounded histories and continuations", "anchors": ["src/vgm/ym2151/state.py: State.apply", "src/vgm/ym2151/state.py: State.beat"]}
{"id": "C55", "title": "Redundant register writes can be dropped, key events never", "statement": "A write of the value a register already holds, or a write immediately overwritten by another write to the same register (for 0x19: same depth selector), can be dropped without any visible difference now or later, for every register but the key register 0x08; a repeated key write is a new event and does make a difference.", "quantifier": "all histories, registers, values, continuations", "why_tests_cant": "unbounded histories and continuations, 256 x 256 writes", "anchors": ["src/vgm/ym2151/state.py: State.apply", "src/vgm/ym2151/state.py: State.beat"]}
{"id": "C56", "title": "Independent writes commute", "statement": "Two writes to different registers other than the key register (or to the two depths of 0x19) can be exchanged, and a write other than a key event can be moved across a wait, without any visible difference now or later. Across a key event the order does matter.", "quantifier": "all histories, pairs of registers and values, waits, continuations", "why_tests_cant": "unbounded histories and continuations", "anchors": ["src/vgm/ym2151/state.py: State.apply", "src/vgm/ym2151/state.py: State.beat"]}
{"id": "C57", "title": "Exports depend on key events only", "statement": "Two histories whose key events agree (same values, samples, and settings and pitch in force at each) give the same events, instruments, tick list, estimate, CSV, instrument file and song, whatever else differs between them.", "quantifier": "all pairs of histories", "why_tests_cant": "relational property of two unbounded histories", "anchors": ["src/vgm/ym2151/state.py: State.apply", "src/vgm/ym2151/state.py: State.beat", "src/main.py: extract_tracks", "src/main.py: extract_tracks_to_xrns"]}
{"id": "C58", "title": "Scaling time and row length together changes nothing but the tempo", "statement": "Playing everything k times as slowly and choosing a row k times as long gives a song with the same patterns, sequence, instruments and tracks.", "quantifier": "all histories, all k > 0, all row lengths", "why_tests_cant": "relational property over unbounded histories", "anchors": ["src/vgm/ym2151/state.py: State.apply", "src/vgm/ym2151/state.py: State.beat", "src/main.py: extract_tracks", "src/main.py: extract_tracks_to_xrns"]}
{"id": "C59", "title": "A delay of k rows moves the song down k rows", "statement": "Inserting a wait of k whole rows at the front of a history moves every cell of the song down k rows across pattern boundaries and leaves the first k rows empty.", "quantifier": "all histories whose key-ons happen after sample 0, all k >= 0, all row lengths > 0, all cells", "why_tests_cant": "relational property over unbounded histories", "anchors": ["src/vgm/ym2151/state.py: State.apply", "src/vgm/ym2151/state.py: State.beat", "src/main.py: extract_tracks", "src/main.py: extract_tracks_to_xrns"]}
{"id": "C60", "title": "What every exported song contains", "statement": "Read back by element names, the Song.xml of any exported song has the tempo computed from the tick length, 4 lines per beat, 12 ticks per line, 4/4 signature, no shuffle, octave 3, name Untitled, artist FooBar, eight tracks named Track 1..Track 8 with their eight colours, one master and one send track with their mixers, and one instrument element per instrument.", "quantifier": "all states and tick lengths for which the export succeeds", "why_tests_cant": "ranges over all songs; checks the written document, not the in-memory song", "anchors": ["src/xrns/xrns_serializer.py: XrnsSerializer.render", "src/xrns/xml/song/renoise_song65.py: RenoiseSong", "src/xrns/writer.py: writer", "src/xrns/parts/song.py: Song", "src/xrns/parts/track.py: Tracks"]}
{"id": "C61", "title": "Song.xml is a faithful document", "statement": "For every song writing succeeds, produces one archive member Song.xml whose element tree is exactly the documented template (order, names, attributes, nothing else), and a consumer that looks elements up by name recovers every setting, track, pattern, line, note column and sequence entry. The number of lines per pattern is not written: songs differing only in it give the same document.", "quantifier": "all songs", "why_tests_cant": "structure over all songs; losslessness is a statement about all pairs of songs", "anchors": ["src/xrns/xrns_serializer.py: XrnsSerializer.render", "src/xrns/xml/song/renoise_song65.py: RenoiseSong", "src/xrns/writer.py: writer"]}
{"id": "C62", "title": "The exported song plays at the recorded speed", "statement": "For tick lengths 1..661500 the exported tempo B is at least 1 and a row of the document (60/(B*4) s) is never shorter than a row of the recording (t/44100 s) and longer by at most the factor 1+1/B.", "quantifier": "all states, all tick lengths 1..661500", "why_tests_cant": "the nine float dips and all rounding cases", "anchors": ["src/xrns/xrns_serializer.py: XrnsSerializer.render", "src/xrns/xml/song/renoise_song65.py: RenoiseSong", "src/xrns/writer.py: writer", "src/extractors.py: extract_tracks_to_xrns"]}
{"id": "C63", "title": "The printed estimate table is right", "statement": "ticks_per_note prints (after ten dots and a newline if show_progress is set) the heading and exactly ten lines 'length: c%': the ten best candidates of 1000..7999, best first (smaller mismatch score, then smaller length), c having two decimals and being 100*(1-score/(2n-1)) within 1/200 + 1e-12, between 0.00 and 100.00; the digits are the correct rounding, halves to even, of that expression evaluated in binary64.", "quantifier": "all register/wait histories, show_progress on or off", "why_tests_cant": "quantifies over all key-on patterns and all float roundings; a test sees a handful of tables", "anchors": ["src/vgm/ym2151/state.py: State.ticks_per_note"]}
{"id": "C64", "title": "The CSV's fraction column tells the position within the row", "statement": "In every data row of the CSV, the fifth field is 0.0 exactly if the time in the first field is a multiple of the tick length; otherwise it is a positive decimal number with two significant digits (fixed or exponent notation) within 5 percent, and within 1/200, of (t mod tpn)/tpn, up to the rounding of t/tpn to a float; the digits are the correct two-digit rounding, halves to even, of (t/tpn) % 1 evaluated in binary64.", "quantifier": "all histories with times below 2^53, all positive tick lengths", "why_tests_cant": "all quotients, all exponents, rounding carries like 0.995 -> 1.0", "anchors": ["src/extractors.py: extract_tracks"]}
{"id": "C65", "title": "What a run prints", "statement": "For a readable input standard output is exactly: the opening message, the estimate's output if no non-zero tick length was given, the tick length used, the instrument message (followed by the JSON if the target is '-'), and, unless the instruments could not be written, the song message. For any other input at most the opening message is printed.", "quantifier": "all files, all argument combinations, all writability of targets", "why_tests_cant": "whole-program output over all inputs and failure points", "anchors": ["src/main.py: main", "src/extractors.py: extract_instruments, extract_tracks_to_xrns", "src/tools.py: smart_open"]}
{"id": "C66", "title": "A command object tells what was read", "statement": "Every command a reader yields has as command_id the byte it was read from and as command_type the kind that byte stands for (YM2151 for 0x54, wait for 0x61-0x63 and 0x70-0x7F, end for 0x66, none otherwise), operands in range; YM2151Command.create(r, v) equals the object a reader makes of the bytes 54 r v; str() of any command object, also one made with arbitrary integers, has one of five fixed forms (lower-case hexadecimal without superfluous zeros, a minus sign before negative numbers), and two commands have equal text exactly if they agree in everything but the id of a wait and the operands of an uninterpreted command.", "quantifier": "all byte strings, all positions in them, all pairs of commands", "why_tests_cant": "all command bytes and operands in all contexts; injectivity of the text over all pairs", "anchors": ["src/vgm/command.py: VgmCommand, WaitCommand, EOSCommand", "src/vgm/ym2151/config.py: YM2151Command, create", "src/vgm/core.py: Vgm.__next__"]}
{"id": "C67", "title": "A reader that ended stays ended", "statement": "Once next() on a reader has reported the end of the iteration or an error, every later next() on it reports the end, whatever other readers are opened and used between the two calls.", "quantifier": "all sessions of opens and next calls on any number of readers and files", "why_tests_cant": "quantifies over all interleavings and all later calls", "anchors": ["src/vgm/core.py: Vgm.__iter__, Vgm.__next__"]}
{"id": "C68", "title": "Attributes by name", "statement": "After any history, the i-th instrument has under lfo, phs_md, amp_md, waveform, enabled_operators, operators, fb, ams, pms, connection, noise and noise_freq the settings of the i-th distinct key-on and AttributeError under any other public name; the State has lfo, phs_md, amp_md and waveform as last written, configs, and AttributeError under any other public name. For an object whose __init__ has not run (as copy and pickle make it) every look-up of data raises RecursionError: such objects cannot be copied or pickled.", "quantifier": "all histories, all attribute names, all recursion limits of at least two", "why_tests_cant": "all names and all histories; infinite recursion shows up only for states a test of normal use never makes", "anchors": ["src/vgm/ym2151/config.py: Config.__getattr__", "src/vgm/ym2151/state.py: State.__getattr__, __init__"]}
{"id": "C69", "title": "apply takes any integers", "statement": "State.apply and beat never raise, whatever integers are given; a call acts exactly like the call with the register and the value reduced modulo 256, except that the registers 08, 0F, 18, 19 and 1B are only meant when given exactly, and the values of 18 and 19 are taken as given.", "quantifier": "all histories over all integers, negative and arbitrarily large ones included", "why_tests_cant": "unbounded integers", "anchors": ["src/vgm/ym2151/state.py: State.apply, beat"]}
{"id": "C70", "title": "The song classes as a library", "statement": "For any song with any number of tracks and instruments, any sequence of add_note calls (any pattern, track and line numbers, negative ones counting from the end) and any add_pattern calls: each call succeeds or raises IndexError exactly according to whether the pattern and the track exist, a failed call leaves all entries as they are, and the written Song.xml read back has the patterns, tracks, the last entry of every cell and nothing else, the sequence in order, the given globals and the track names.", "quantifier": "all sequences of calls with all integers and texts, all song sizes", "why_tests_cant": "unbounded sequences of library calls followed by a whole-document read", "anchors": ["src/xrns/parts/song.py: Song", "src/xrns/parts/pattern.py: PatternPool.add_note", "src/xrns/parts/pattern_sequence.py: PatternSequence.add_pattern", "src/xrns/xrns_serializer.py"]}
{"id": "C71", "title": "From the bytes of a VGM file to the song", "statement": "For every readable input (gzipped or not), if a run writes a song, its file is the -t target and the document has, with the row length t requested or, without a request, the smallest best candidate for the early key-on positions: the tempo for t, one instrument per distinct key-on setting, eight tracks, exactly as many patterns as the last event needs, the sequence 0..n-1, and in every cell the last event the YM2151 register map gives for that channel and row. With a positive row length and writable targets the song is written and the run succeeds; a negative row length gives a song only if there are no events.", "quantifier": "all byte strings, all command-line arguments, all file-system permissions", "why_tests_cant": "the composition of reader, chip, estimator, song and serializer over all inputs", "anchors": ["src/main.py: main, process_vgm_file", "src/extractors.py: extract_tracks_to_xrns"]}
{"id": "C72", "title": "From the bytes of a VGM file to the instrument file", "statement": "For every readable input, the instrument text a run writes (to the -i target, or to standard output for '-') is a JSON array with one object per distinct key-on setting, in order of first use, showing all its parameters as the register map gives them.", "quantifier": "all byte strings, all command-line arguments", "why_tests_cant": "composition over all inputs", "anchors": ["src/main.py: main", "src/extractors.py: extract_instruments", "src/vgm/ym2151/config.py: ConfigEncoder"]}
{"id": "C73", "title": "A run depends on the key events only", "statement": "Two runs with the same options on any two readable inputs whose key events agree (time, channel, operators, settings and pitch in force) write the same files, end the same way and print the same after the opening line - whatever headers, compression, other chips' commands or writes between key events they have.", "quantifier": "all pairs of inputs, all options", "why_tests_cant": "hyperproperty over pairs of runs", "anchors": ["src/main.py: main"]}
{"id": "C74", "title": "What is on disk after a run", "statement": "After any run every file that is not named by -i or -t (the input included) is as before; after a successful run the -i file contains the instruments and the -t file the song, and the song if both names are the same. If the input cannot be read nothing changes.", "quantifier": "all file systems, all inputs, all options including equal names", "why_tests_cant": "all aliasing between input and targets, all failures", "anchors": ["src/main.py: main", "src/tools.py: smart_open"]}
{"id": "C75", "title": "Killed at any moment", "statement": "If the process is killed at any point of a run, the files are as before, or the -i file contains a beginning of the instrument text, or the -i file is complete and the -t file is torn or complete; never is the song touched before the instruments are complete, and no other file is ever touched.", "quantifier": "all crash points of all runs", "why_tests_cant": "crash points cannot be enumerated by tests", "anchors": ["src/main.py: main", "src/extractors.py: extract_instruments, extract_tracks_to_xrns"]}
{"id": "C76", "title": "The CSV export as a whole", "statement": "extract_tracks with a positive tick length writes to the named file (standard output for none, '' and '-') a text whose lines and comma-separated fields are the header and one row per song row before the last event's, with the events the register map gives, and closes what it opened; a target that cannot be opened gives OSError and no output. With tick length 0 the file gets just its header and the call raises ZeroDivisionError exactly if there is any event.", "quantifier": "all histories, tick lengths, names and permissions", "why_tests_cant": "all inputs and all failure points", "anchors": ["src/extractors.py: extract_tracks", "src/tools.py: smart_open"]}
{"id": "C77", "title": "CSV and song agree", "statement": "Row by row and channel by channel, the CSV field is empty exactly where the song has no line, and otherwise both show the same event.", "quantifier": "all histories and tick lengths, all rows and channels", "why_tests_cant": "two exporters compared on all inputs", "anchors": ["src/extractors.py: extract_tracks, extract_tracks_to_xrns"]}
{"id": "C78", "title": "A negative CSV tick length counts rows downwards", "statement": "extract_tracks with a negative tick length (both it and all times below 2^53 in size) never fails: the sheet has a row 0 and then, in order of time, exactly the rows that hold events (no blank rows), except the lowest one; each shows the time of the first event below it, that time's position within its row (Python's % 1, between 0 and 1, correctly rounded to two digits, halves to even), and the last event of the row per channel.", "quantifier": "all histories, all negative tick lengths, all targets", "why_tests_cant": "all inputs; float remainders of negative quotients", "anchors": ["src/extractors.py: extract_tracks"]}
{"id": "C79", "title": "The command line means what the usage says, or nothing happens", "statement": "A command line is accepted exactly if it consists of one file argument and any of the options -i/--instrument, -t/--track, -tn/--ticks-per-note (also abbreviated to an unambiguous beginning of the long name, or joined to their value: --track=x, -t=x, -tx), in any order, with -- before arguments that look like options; the last of several equal options counts, and the tick length is any integer Python's int() reads. Then main runs with these arguments and the exit status is 0 exactly if no exception left it, else 1. Any other command line opens, writes and prints (apart from help or usage) nothing and ends with status 2, or 0 if help was asked for. Every combination of file names, however strange, and tick length can be expressed.", "quantifier": "all lists of words, all files on disk", "why_tests_cant": "infinitely many command lines; abbreviations and joined forms interact (-tn5 is a song file n5)", "anchors": ["src/main.py: parser, main"]}
{"id": "C80", "title": "Text of a pattern cell in memory", "statement": "str() of the line object stored at row j of track ch of pattern p of a song built from a recording is note name, instrument number and panning value, separated by single blanks, with None for an absent instrument or panning; it describes the last key event of that channel in row 64*p+j.", "quantifier": "all write histories, all row lengths, all patterns, tracks and rows", "why_tests_cant": "cells come from arbitrary histories; order and separators matter for every value", "anchors": ["src/xrns/parts/pattern.py: Pattern.Line.__str__, Pattern.add_note"]}
{"id": "C81", "title": "Song.xml is well-formed and carries the song", "statement": "The text written as Song.xml is an XML document from which an XML reader and then a reader of the song format recover exactly the exported song: for every song made from a recording, and for every song made through the library whose names contain no carriage return or control characters (markup characters are fine). Songs with the same text are the same song.", "quantifier": "all songs, all texts of names, all recordings and row lengths", "why_tests_cant": "escaping must be right for every text, nesting and indentation for every tree", "anchors": ["src/xrns/writer.py: writer", "src/xrns/xrns_serializer.py: XrnsSerializer.render"]}
{"id": "C82", "title": "Cut or damaged compressed files are never half converted", "statement": "Reading a gzip-compressed file whose data cannot be decompressed to the end never ends quietly: opening it raises the decompressor's failure or succeeds with the header fields of every intact file that starts with the same bytes; iterating gives exactly the commands that could be recovered whole, which are a prefix of those of every such intact file, and then raises the failure. A conversion of it reports the failure (or that it is no VGM file) and writes no instrument file and no song. Without a failure, reading from the compressed stream is the same as reading the plain bytes.", "quantifier": "all recoverable data, all points of damage, all failures, all intact continuations, all command line arguments", "why_tests_cant": "the point of damage can be anywhere and the continuation is unknown; a cut plain file, in contrast, can be accepted silently", "anchors": ["src/vgm/core.py: reader, Vgm.__init__, Vgm.__next__, command", "src/main.py: main, process_vgm_file"]}
{"id": "C83", "title": "The bytes of the song file lead back to the song", "statement": "Writing a song leaves a zip archive that a reader following the format (end record, central directory, local header, CRC-32) accepts; it has exactly one member, called Song.xml, whose bytes are the UTF-8 of the text that was written. For every recording, unzipping, decoding, XML-reading and song-reading the file gives the song that was built. If up to four neighbouring bytes of the stored text are altered the archive is refused. With a clock outside 1980..2107 writing raises and leaves an archive without members.", "quantifier": "all recordings, all texts up to 2^30 bytes, all clocks, all positions and contents of damage of up to four bytes", "why_tests_cant": "the checksum, offsets and sizes depend on every byte of the text; damage can be anywhere; tests look at one song and one day", "anchors": ["src/xrns/writer.py: writer", "src/extractors.py: extract_tracks_to_xrns"]}
{"id": "C84", "title": "A song file is never half right", "statement": "Whenever the process is killed after the song file was opened (the writes arrive in order, the last perhaps in part; the header is written twice), the file holds no song for a reader following the zip format, or it is the finished file and holds the song that was built. A finished file that lost any number of bytes at its end holds no song.", "quantifier": "all recordings, all clocks, all moments of a kill, all lengths of truncation", "why_tests_cant": "the moments are as many as the bytes written, and an end-of-archive mark could by chance appear inside an unfinished file", "anchors": ["src/xrns/writer.py: writer", "src/extractors.py: extract_tracks_to_xrns"]}
{"id": "C85", "title": "From bytes to bytes", "statement": "Given a readable VGM file, a run that ends normally leaves at the song path bytes that unzip, decode and read as a song showing exactly the key events of the input's bytes (tempo, patterns, cells); at the instrument path the UTF-8 of a JSON text listing the instruments; and no other file changed, the input included. With the clock within 1980..2107 it ends normally exactly if the outputs can be opened and the song is one that can be exported (row length within the range of floats, no recorded notes if it is negative). Killed at any moment, the song file is as before, or holds no song, or holds the right song, and the instrument file is as before or a beginning of the right text. With a clock out of range the run raises and the song file holds no song. An unreadable input leaves the disk as it was.", "quantifier": "all readable and unreadable inputs, all options, all disks, clocks and moments of a kill; song files below 2^30 bytes", "why_tests_cant": "the composition of reader, chip, tempo, song, XML, CRC and archive over all inputs and kill points cannot be enumerated", "anchors": ["src/main.py: main", "src/extractors.py: extract_tracks_to_xrns, extract_instruments", "src/xrns/writer.py: writer"]}
{"id": "C86", "title": "From the command line to the bytes on disk", "statement": "Running the script with a command line the usage allows, on a readable VGM file: the exit status is 0 or 1, and 0 exactly if the requested outputs can be opened for writing and the song is one that can be exported (row length within the range of floats, and no recorded notes if it is negative); then the song path holds an archive whose Song.xml shows exactly the key events of the input's bytes and the instrument path a JSON text listing the instruments. Whatever the status, every other file is unchanged; killed at any moment, the song file is as before, or holds no song, or the right one. An unreadable input gives status 1 and leaves the disk as it was at every moment. A command line the usage does not allow touches no file and gives status 2, or 0 only if a word asks for help.", "quantifier": "all lists of words, all disks, all clocks within 1980..2107, all moments of a kill; song files below 2^30 bytes", "why_tests_cant": "the space of command lines, input files and kill points cannot be enumerated", "anchors": ["src/main.py: main, process_vgm_file", "src/extractors.py: extract_tracks_to_xrns, extract_instruments", "src/xrns/writer.py: writer"]}
{"id": "C87", "title": "Equality of configuration objects", "statement": "Two LFO settings, operators, pitches or channels are == exactly if they are of the same class and agree in every setting (True counting as 1 and False as 0) and, for channels, have the same number of operators, equal one by one; == is reflexive, symmetric and transitive; a configuration object is never == to anything of another class (numbers, texts, lists, enum members). A Config is == only to itself; config.compare(base, channel, operators) is true exactly if base and channel agree in all settings and the operators are equal.", "quantifier": "all heaps of configuration objects a client can build, whatever values their settings have, all pairs and triples", "why_tests_cant": "a test compares a few objects; a forgotten attribute is visible only if that attribute alone differs", "anchors": ["src/vgm/ym2151/config.py: BaseConfig, OperatorConfig, NoteConfig, ChannelConfig, Config, ConfigEncoder"]}
{"id": "C88", "title": "Copies of configuration objects are independent", "statement": "copy.deepcopy of an LFO setting, operator, pitch or channel gives a new object of the same class, equal to the old one, with the same settings and no other attributes; no existing object changes; copy and original have no object in common (neither the operator list nor an operator), so that whatever a client later does to the one leaves the other and its operators as they were. An operator that occurs several times in a channel occurs at the same places in its copy. Class(other) does the same as deepcopy(other) for an object of that class; Class() and Class(x) for a false x (0, False, '', an empty list) give a new object with the initial settings (switches off, numbers 0, LFO saw, four different new operators); Class(x) for any other number, text or enum member raises AttributeError. deepcopy of a Config gives no Config but a copy of its channel.", "quantifier": "all heaps, all objects, all later sequences of constructions, copies, assignments, list changes", "why_tests_cant": "aliasing shows only after particular later assignments", "anchors": ["src/vgm/ym2151/config.py: BaseConfig, OperatorConfig, NoteConfig, ChannelConfig, Config, ConfigEncoder"]}
{"id": "C89", "title": "Config objects share their defaults and do not forward assignments", "statement": "Config objects made without base (or channel) use the same one for the whole life of the process: a setting assigned through one of them is seen through all, also through those made later. config.name = x for any other name than the four private ones is seen by config.name, but by no comparison and in no JSON text. A Config made without operators has the number 0 there: it never compares equal to a set of operators, and its JSON shows 0.", "quantifier": "all earlier and later client calls, all names and values", "why_tests_cant": "sharing depends on the history of the process", "anchors": ["src/vgm/ym2151/config.py: BaseConfig, OperatorConfig, NoteConfig, ChannelConfig, Config, ConfigEncoder"]}
{"id": "C90", "title": "The JSON of configuration objects", "statement": "What json.dumps(x, cls=ConfigEncoder) writes is determined by x: ints, booleans and texts as they are, enum members by name, lists element by element, an operator, pitch, channel or Config by its documented keys (a channel with its first four operators as m1, c1, m2, c2 = operators 0, 2, 1, 3), a BaseConfig with all attributes it was ever given. If x has such a value it is written as soon as the recursion limit allows; a channel with fewer than four operators and anything that contains itself, at any depth, is never written; every object with plain settings (and four operators) is.", "quantifier": "all heaps of objects and lists a client can build, cyclic ones included, all recursion limits", "why_tests_cant": "cyclic and arbitrarily nested structures cannot be enumerated", "anchors": ["src/vgm/ym2151/config.py: BaseConfig, OperatorConfig, NoteConfig, ChannelConfig, Config, ConfigEncoder"]}
{"id": "C91", "title": "What the two spellings of a note event tell", "statement": "note.xrns_note() is 'Off' for a release and otherwise a two character name followed by the octave (one more for note code 14), str(note) is 'Key Off' for a release and otherwise the note's text; both raise KeyError exactly for a pressed note whose note code is outside 0..15. Of two events in the chip's range, str() is the same exactly if both are releases, or both are presses with the same instrument, octave, note code, output sides (neither side counts as left only) and key fraction (0 and 1 count as one). For the twelve valid note codes, xrns_note() is the same exactly if octave and note code are.", "quantifier": "all Note objects with integer fields, all pairs of them", "why_tests_cant": "ambiguity of a spelling is a statement about all pairs of events", "anchors": ["src/vgm/ym2151/note.py: Note.__init__, Note.__str__, Note.xrns_note, _NOTE_LOOKUP, _NOTE_LOOKUP_XRNS"]}
{"id": "C92", "title": "A run can be repeated", "statement": "What a run prints, writes and exits with depends on no file but its input, and what it leaves in an output does not depend on what was there before. If the input is not among the outputs, then after any number of earlier attempts of the same command line, at any times, each of them complete or killed at any moment, the run does exactly what it would have done on the original disk and leaves every file as it would have then; running it twice at the same time of day changes nothing the second time.", "quantifier": "all command lines, disks, decompressors, permissions, times, numbers of attempts and moments at which they are killed", "why_tests_cant": "crash points and histories of attempts cannot be enumerated", "anchors": ["src/main.py: main, __main__ block", "src/extractors.py: extract_instruments, extract_tracks_to_xrns", "src/xrns/writer.py: writer", "src/tools.py: smart_open"]}
{"id": "C93", "title": "Independent runs do not disturb each other", "statement": "For any set of command lines such that no input is an output of any of them and no file is an output of two: whatever the order in which they are started, however their single actions (opening, every write) are interleaved and whichever of them are killed when, a run that got to its end has left in its outputs exactly what it would have left alone; one that was killed has left them as a kill would alone, one not started has changed nothing, and no other file is changed. Run one after the other, every order gives the same disk.", "quantifier": "all lists of command lines, all schedules of their actions, all kills", "why_tests_cant": "the number of schedules is unbounded", "anchors": ["src/main.py: main, __main__ block", "src/extractors.py: extract_instruments, extract_tracks_to_xrns", "src/xrns/writer.py: writer", "src/tools.py: smart_open"]}
{"id": "C94", "title": "Writing over an input loses it, but nothing is half read", "statement": "The script does not refuse an output that is the input (or another run's input). At the end of any run, or when it is killed at any moment, every file is either as it was or cannot be taken for a recording: every run that is to read it exits with status 1 and changes no file. After a successful run all its outputs are of the second kind; so if one of them was its input, the run cannot be repeated.", "quantifier": "all command lines, disks, kill points, all later command lines", "why_tests_cant": "needs every crash point and every content of the files", "anchors": ["src/main.py: main, __main__ block", "src/extractors.py: extract_instruments, extract_tracks_to_xrns", "src/xrns/writer.py: writer", "src/tools.py: smart_open"]}
{"id": "C95", "title": "Every way a run can end", "statement": "Which exception leaves main, if any, is determined by: input not openable (OSError); standard input (its decoding error, else TypeError); damaged gzip data (the decompressor's exception); no VGM identifier (TypeError); incomplete header (EOFError); a cut register write or wait (EOFError) or block head (struct.error); then the instrument file not writable (OSError); then, if a song is wanted, a row length too large for a float (OverflowError), a negative one with notes (IndexError), the song file not writable (OSError), a clock outside 1980-2107 (ValueError, struct.error); in all other cases it ends normally. Each condition gives its outcome and every outcome has one of the conditions, for every input; no other exception is possible. A run that fails other than by the clock has changed at most the instrument file, which is then complete.", "quantifier": "all contents of the input, decompressors, permissions, times, arguments", "why_tests_cant": "unit tests raise the exceptions somebody thought of; that there are no others, and that the conditions are exact, is about all inputs", "anchors": ["src/main.py: main, __main__ block", "src/vgm/core.py: reader, VGMReader", "src/extractors.py: extract_instruments, extract_tracks_to_xrns", "src/xrns/writer.py: writer", "src/tools.py: smart_open"]}
{"id": "C96", "title": "A longer recording only adds", "statement": "Appending commands to a recording leaves everything already extracted in place: the event log of each channel and the list of instruments are only extended, no new event lies before the end of the old recording, every tracker row that was over before the old recording ended shows the same cell, tempo and song settings stay, instruments and patterns are only added; and once the recording is 32000 samples long the tempo estimate (its result and what it prints) does not change any more. (The row in which the old recording ended may change.)", "quantifier": "all recordings, all continuations, all row lengths, all rows and channels", "why_tests_cant": "prefix monotonicity over all pairs of recordings; a test compares one pair", "anchors": ["src/vgm/ym2151/state.py: State.apply, key_presses, ticks_per_note", "src/extractors.py: extract_tracks_to_xrns", "src/xrns/models.py: Song, PatternPool"]}
{"id": "C97", "title": "A track depends on its channel only", "statement": "Two recordings with the same waits and the same writes to the common registers and to the registers and key events of one channel - whatever they do on the other seven - give the same events for that channel from its first recorded key-on (same sound, pitch, panning and position; only the instrument numbers may differ) and the same tracker cells from that row on; before it both have at most key-offs (which may differ, as the log starts with the first key-on of any channel).", "quantifier": "all pairs of recordings that agree on a channel, all channels, row lengths and cells", "why_tests_cant": "non-interference: a test would have to try every behaviour of the other channels", "anchors": ["src/vgm/ym2151/state.py: State.apply, key_presses, ticks_per_note", "src/extractors.py: extract_tracks_to_xrns", "src/xrns/models.py: Song, PatternPool"]}
{"id": "C98", "title": "Pitch writes change only the note column", "statement": "Changing the values written to the pitch registers (key code, key fraction) leaves the instruments, the instrument file, the key-on positions, the tempo estimate and the song's tempo, patterns, sequence, instruments and panning untouched; key-offs stay key-offs; the logs differ in the pitch fields only. Moving all key codes by k octaves moves every note of the log and every note name of the song by exactly k octaves (if every key code has room and every key-on follows a key code of its channel; otherwise it stays).", "quantifier": "all recordings, all changes of the pitch writes, all k, row lengths and cells", "why_tests_cant": "quantifies over pairs of recordings differing in arbitrarily many writes", "anchors": ["src/vgm/ym2151/state.py: State.apply, key_presses, ticks_per_note", "src/extractors.py: extract_tracks_to_xrns", "src/xrns/models.py: Song, PatternPool"]}
{"id": "C99", "title": "Exactly what the song file tells", "statement": "Two recordings (with their row lengths) give the same song - and, written at the same time, the same song file byte for byte - if and only if they have the same tempo and the same number of instruments and, for every channel and every row, either no event, or last events that are both key-offs or key-ons with the same instrument number and the same note name, and in both cases the same panning text. Nothing else about a recording can be told from its song, and nothing of this is lost. Two instrument files are equal if and only if the instruments are.", "quantifier": "all pairs of recordings, all row lengths", "why_tests_cant": "full abstraction: quantifies over all pairs of recordings in both directions", "anchors": ["src/extractors.py: extract_tracks_to_xrns, extract_instruments", "src/xrns/xrns_serializer.py: XrnsSerializer", "src/xrns/writer.py: writer", "src/vgm/ym2151/note.py: Note.xrns_note"]}
{"id": "C100", "title": "Exactly what the CSV sheet tells", "statement": "Two recordings give the same CSV file for the same (positive) row length if and only if, for every row, the first event after the row is at the same time in both (or there is none in either), and, as long as there is one, each channel's last event in the row is, in both, absent, a key-off, or a key-on of the same instrument number with the same octave, note code, fine tuning (0 and 1 read the same) and side. In particular nothing of the last row of the recording is told, and the sheet and the song tell different things: neither determines the other.", "quantifier": "all pairs of recordings, all positive row lengths for which sample / row length stays in the range of floats, files and standard output", "why_tests_cant": "full abstraction: quantifies over all pairs of recordings in both directions", "anchors": ["src/extractors.py: extract_tracks", "src/vgm/ym2151/note.py: Note.__str__", "src/tools.py: smart_open"]}
{"id": "C101", "title": "The estimate depends on the distances of the early key-ons only", "statement": "Two recordings whose key-ons in the first 32000 samples are at the same positions, or all shifted by the same time, get the same estimate and the same printed table, whatever the channels, instruments, pitches and key-offs. In particular silence in front of a song does not change its estimate as long as it pushes no key-on beyond sample 32000; when it does, the estimate can change (refuted in general).", "quantifier": "all pairs of recordings, all shifts", "why_tests_cant": "relation between two unbounded recordings", "anchors": ["src/vgm/ym2151/state.py: State.ticks_per_note, State.ticks"]}
{"id": "C102", "title": "A stray key-on does not disturb a steady rhythm", "statement": "With five or more key-ons in the first 32000 samples at a steady distance of 1000 to 7999 samples and one more anywhere off their beat, the estimate is still that distance. Two stray key-ons, or one missing key-on, can double it (refuted in general).", "quantifier": "all recordings, all distances, starts, numbers of key-ons and positions of the stray one", "why_tests_cant": "quantifies over all rhythms and all positions of the stray key-on", "anchors": ["src/vgm/ym2151/state.py: State.ticks_per_note, State.ticks"]}
{"id": "C103", "title": "What the estimate makes of any steady rhythm", "statement": "With the key-ons of the first 32000 samples at a steady distance p (any positive p, any number of them), the estimate is 1000 if p is 8000 or more or all of them lie within less than 1000 samples, and otherwise the smallest multiple of p that is at least 1000.", "quantifier": "all recordings, all distances and numbers of key-ons", "why_tests_cant": "quantifies over all steady rhythms, without bounds on distance and number", "anchors": ["src/vgm/ym2151/state.py: State.ticks_per_note, State.ticks"]}
{"id": "C104", "title": "The record classes of the song format", "statement": "For each of the 28 classes the exporter uses: the constructor takes exactly the class's attributes without a fixed value (by keyword in any order, or by position in the order of the declarations; TypeError otherwise), what is not given is None, an empty list in the classes that only hold lists, or the fixed value; assigning an attribute changes no other. Whatever nest of such objects, lists, numbers, flags and texts is built, the written element has, for every attribute, exactly the elements telling its value, named after it (lines_per_beat as LinesPerBeat), in the order of the declarations but for the device lists, nothing for None, and nothing else; type, index and doc_version become XML attributes.", "quantifier": "all classes of the exporter, all arguments, all nested values", "why_tests_cant": "quantifies over all argument lists and over trees of objects of any depth", "anchors": ["src/xrns/xml/song/renoise_song65.py: RenoiseSong, GlobalSongData, SequencerTrack, Pattern, PatternLineNode, PatternLineNoteColumnNode, PatternSequence and the other classes the exporter instantiates", "src/xrns/writer.py: writer"]}
{"id": "C105", "title": "What is played is what is exported", "statement": "A player that sets up the LFO in front (and again whenever it likes), changes pitches between key events as it likes, loads the complete sound, pitch and panning of a channel into the chip's registers before each key-on, and whose register writes and waits are logged to a VGM file (any header of 64 bytes that says the commands follow), gets its score back from a run on that log (plain or gzipped): the instruments are the score's different sounds, in order of first use, with every parameter as loaded; each channel's log has each note and note end of the channel at its sample with the pitch and panning played; the song file shows them at the row the sample falls in, the instrument file lists the sounds; the guessed row length is the one for the times of the score's notes.  Each note not followed by another event of its channel in its row is seen there (pitch, instrument number, panning), each note end as Off.", "quantifier": "all scores (rests, notes, note ends, pitch changes, LFO changes; any length) beginning with a positive rest, all sounds within the register widths (D2R below 16, the noise on channel 7 only), all headers, all disks", "why_tests_cant": "quantifies over all scores and sounds: the inverse of the whole chain player - registers - file - song, of any length", "anchors": ["src/main.py: main", "src/vgm/core.py: reader, Vgm, command", "src/vgm/ym2151/state.py: State.apply, State.beat", "src/vgm/ym2151/config.py: Config", "src/extractors.py: extract_tracks_to_xrns, extract_instruments", "src/xrns/xrns_serializer.py: XrnsSerializer", "src/xrns/writer.py: writer"]}
{"id": "C106", "title": "However a performance is logged, the export is the same", "statement": "A log that differs from the full performance in any number of these ways has the same instruments, channel logs and exports: writes of values the chip already holds left out (a driver with a copy of the registers) or repeated; writes to registers without sound (timers, test, LFO reset); other values in bits without sound (CT1/CT2, unused bits); writes to different registers in another order; writes earlier or later between key events; rests split, joined or of length zero.  A file with such a log of a score, among commands of other chips, data blocks and all kinds of waits, with any header that says the commands follow, gives the song and instrument files of the score.", "quantifier": "all performances, all logs related by any number of such changes, all files with such logs", "why_tests_cant": "quantifies over all histories and all finite combinations of rewritings", "anchors": ["src/main.py: main", "src/vgm/core.py: reader, Vgm, command", "src/vgm/ym2151/state.py: State.apply, State.beat", "src/vgm/ym2151/config.py: Config", "src/extractors.py: extract_tracks_to_xrns, extract_instruments", "src/xrns/xrns_serializer.py: XrnsSerializer", "src/xrns/writer.py: writer"]}
{"id": "C107", "title": "A tune in time is found in time", "statement": "A log of notes or chords at an equal distance p of 1000 to 7999 samples (after any silence, at least two of them in the first 32000 samples), exported without -t, gives a song with the tempo of p, the tune's different sounds as instruments in order of first use, and chord i on row a/p + i (a the time of the first one, 64 rows a pattern): every note in the track of its channel with its pitch, the number of its sound and its panning, and no other note cells.  With empty chords among them, or another distance up to 65535, the same holds with -t p.  At any other distance without -t a row lasts the first multiple of p that is at least 1000 samples (1000 if p is 8000 or more or the chords before sample 32000 lie within 1000 samples), and a note is on the row it begins in unless a later note of its channel begins in the same row.  This needs notes that are held: where every note of a channel ends in the row it began in, no note of the channel is seen, only \"Off\".", "quantifier": "all tunes: any number of chords, any channels, sounds, pitches, distances and start, any LFO setting; for the last part all scores and row lengths", "why_tests_cant": "quantifies over all tunes and the whole path from the file's bytes through the tempo guess to the bytes of the song", "anchors": ["src/main.py: main", "src/vgm/core.py: reader, Vgm", "src/vgm/ym2151/state.py: State.apply, State.beat, State.ticks_per_note", "src/xrns/xrns_serializer.py", "src/xrns/writer.py"]}
{"id": "C108", "title": "The CSV sheet of a score, and of a tune", "statement": "Reading a log of a score, playing it and writing the sheet with rows of t samples (to a file or to standard output) gives under the column names one line for each row before the row of the last event: the time of the next event after the row, its place in the pattern, and for every channel the last event of the score in this row.  For a tune with chords every t samples: chord i is on line a/t + i - note, octave, fine tuning, number of the sound and side for each channel - next to the time of the chord after it; lines before the first chord are empty; the last chord is on no line.", "quantifier": "all scores and all tunes, row lengths, targets; the whole path from the file's bytes to the text", "why_tests_cant": "quantifies over all scores and tunes of any length", "anchors": ["src/extractors.py: extract_tracks", "src/tools.py: smart_open", "src/vgm/core.py: reader, Vgm", "src/vgm/ym2151/state.py: State.apply, State.beat, State.key_presses", "src/vgm/ym2151/note.py: Note"]}
{"id": "C109", "title": "A score from the shell", "statement": "The script run with any words the usage allows - options before or after the file, short or long, abbreviated, joined or separate, repeated - on a log of a score ends with status 0 when the outputs can be opened; the song file named last shows the score with the row length asked for (or found), the instrument file its sounds.  On a tune in time no tick option is needed.  It does not matter how the tune was logged (C106) and what else - commands of other chips, data blocks, any kinds of waits - is in the file.", "quantifier": "all command lines the usage allows, all scores and tunes, all disks with writable outputs", "why_tests_cant": "quantifies over all command lines and all scores; from the words to the bytes on disk", "anchors": ["src/main.py: main, args", "src/vgm/core.py: reader, Vgm", "src/vgm/ym2151/state.py: State.apply, State.beat, State.ticks_per_note", "src/xrns/xrns_serializer.py", "src/xrns/writer.py", "src/extractors.py"]}
