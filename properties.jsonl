{"id": "C01", "title": "Signature construction accepts exactly the valid time values", "statement": "Signature(n, d) succeeds exactly when n >= 0 and d is a positive power of two; it then exposes exactly n and d; in every other case it raises ValueError. Every signature returned by to, normalized, +, * and abs again satisfies this.", "quantifier": "every pair of integers (n, d), and every signature obtained from them by any operation", "why_tests_cant": "the power-of-two test is a bit trick; only finitely many integers can be tried", "anchors": ["src/melodia/core/signature.py:Signature.__init__", "src/melodia/core/signature.py:Signature.nominator", "src/melodia/core/signature.py:Signature.denominator"]}
{"id": "C02", "title": "Signature equality is equality of rational numbers", "statement": "a == b returns True exactly when the rationals a.nominator/a.denominator and b.nominator/b.denominator are equal; hence == is reflexive, symmetric and transitive.", "quantifier": "every pair (triple) of valid signatures", "why_tests_cant": "infinitely many representations of each value", "anchors": ["src/melodia/core/signature.py:Signature.__eq__", "src/melodia/core/signature.py:Signature._to_common_denominator"]}
{"id": "C03", "title": "Signature ordering is the ordering of rational numbers", "statement": "a < b, a <= b, a > b, a >= b return True exactly when the corresponding relation holds between the rational values of a and b; in particular a < b and b < a are never both True.", "quantifier": "every pair of valid signatures", "why_tests_cant": "tests compare a few pairs, and happen to use left operands with the larger denominator", "anchors": ["src/melodia/core/signature.py:Signature.__lt__", "src/melodia/core/signature.py:Signature.__le__", "src/melodia/core/signature.py:Signature.__gt__", "src/melodia/core/signature.py:Signature.__ge__", "src/melodia/core/signature.py:Signature._to_common_denominator"]}
{"id": "C04", "title": "Signature addition is exact rational addition", "statement": "a + b never raises, its rational value is the sum of the rational values of a and b, its denominator is the larger of the two denominators, and + is commutative and associative up to ==, with Signature(0, 1) neutral.", "quantifier": "every pair/triple of valid signatures", "why_tests_cant": "unbounded integers and denominators", "anchors": ["src/melodia/core/signature.py:Signature.__add__", "src/melodia/core/signature.py:Signature._to_common_denominator"]}
{"id": "C05", "title": "Signature multiplication is exact rational multiplication and abs is the identity", "statement": "a * b never raises and its rational value is the product of the values; * is commutative and associative, distributes over + up to ==, Signature(1, 1) is neutral; abs(a) never raises and has the same nominator and denominator as a.", "quantifier": "every pair/triple of valid signatures", "why_tests_cant": "unbounded integers and denominators", "anchors": ["src/melodia/core/signature.py:Signature.__mul__", "src/melodia/core/signature.py:Signature.__abs__"]}
{"id": "C06", "title": "Changing the denominator preserves the value", "statement": "s.to(d) succeeds exactly when d is a power of two with d >= s.denominator; the result has denominator exactly d and the same rational value as s; otherwise it raises ValueError.", "quantifier": "every valid signature and every integer d", "why_tests_cant": "unbounded", "anchors": ["src/melodia/core/signature.py:Signature.to"]}
{"id": "C07", "title": "normalized() is the canonical lowest-terms form", "statement": "s.normalized() always terminates without raising, preserves the rational value, returns a nominator and denominator with no common divisor other than 1, is idempotent, and a == b holds exactly when a.normalized() and b.normalized() have identical nominators and denominators.", "quantifier": "every valid signature (pair)", "why_tests_cant": "loop over unbounded integers; termination cannot be tested", "anchors": ["src/melodia/core/signature.py:Signature.normalized"]}
{"id": "C08", "title": "Notation round trip", "statement": "For every integer pitch, Tone.from_notation(Tone(pitch).to_notation(flag)) has pitch exactly pitch, for both values of transpose_down; to_notation never raises, and distinct pitches have distinct notations.", "quantifier": "every integer pitch (unbounded, negative included), both flags", "why_tests_cant": "unbounded pitches; tests cover a few dozen", "anchors": ["src/melodia/core/tone.py:Tone.to_notation", "src/melodia/core/tone.py:Tone.from_notation"]}
{"id": "C09", "title": "Meaning of notation", "statement": "For a letter A..G, any finite sequence of # and b in any order, and an optional (possibly negative, possibly zero padded) decimal octave, from_notation gives the pitch 12*octave + base(letter) + number of # - number of b, octave defaulting to 0.", "quantifier": "every string of the notation grammar", "why_tests_cant": "accidental sequences and octaves of any length", "anchors": ["src/melodia/core/tone.py:Tone.from_notation"]}
{"id": "C10", "title": "Strings that are not notation are rejected", "statement": "from_notation raises ValueError for every string that is not letter, accidentals, optional octave and nothing else.", "quantifier": "every string", "why_tests_cant": "infinitely many malformed strings", "anchors": ["src/melodia/core/tone.py:Tone.from_notation", "src/melodia/core/tone.py:_notation_regex"]}
{"id": "C11", "title": "Octave of a tone", "statement": "Tone(p).octave is the unique o with 12*o <= p < 12*o + 12; for each letter and each integer octave, the tone parsed from letter followed by octave reports exactly that octave; the octave printed by to_notation() is the octave of the tone.", "quantifier": "every integer pitch / letter / octave", "why_tests_cant": "floor division on negative unbounded integers", "anchors": ["src/melodia/core/tone.py:Tone.octave"]}
{"id": "C12", "title": "Transposition and tone ordering", "statement": "transposed(a) then transposed(b) equals transposed(a + b), transposed(0) and transposing up then down give the original back; the six tone comparisons form a total order that transposition preserves; transposing by 12*k changes the octave by exactly k.", "quantifier": "every pitch and all integer transpositions", "why_tests_cant": "unbounded", "anchors": ["src/melodia/core/tone.py:Tone.transposed", "src/melodia/core/tone.py:Tone.__lt__"]}
{"id": "C13", "title": "Frequencies follow equal temperament", "statement": "to_frequency(base) is base for A4, doubles when transposing up 12 semitones, multiplies by the same ratio 2^(1/12) for each semitone and is strictly increasing in pitch for positive base.", "quantifier": "every pitch and every positive base frequency", "why_tests_cant": "real-valued function on an infinite domain", "anchors": ["src/melodia/core/tone.py:Tone.to_frequency"]}
{"id": "C14", "title": "Note construction validates its arguments", "statement": "Note(tone, duration, velocity) succeeds exactly when tone is a Tone, an int or a string accepted by Tone.from_notation, duration is a Signature or a pair of integers accepted by Signature, and 0.0 <= velocity <= 1.0 (so NaN and infinities are rejected); it then exposes exactly those three components; otherwise it raises ValueError or TypeError.", "quantifier": "every combination of argument kinds and values", "why_tests_cant": "cartesian product of infinite domains including all floats", "anchors": ["src/melodia/core/note.py:Note.__init__"]}
{"id": "C15", "title": "Note modifiers change one component only", "statement": "transposed, with_duration and with_velocity return a note that differs from the original only in the named component; transposed never raises; with_duration / with_velocity raise exactly when the new component would be rejected by the constructor; transposing composes additively.", "quantifier": "every valid note and every argument", "why_tests_cant": "unbounded", "anchors": ["src/melodia/core/note.py:Note.transposed", "src/melodia/core/note.py:Note.with_duration", "src/melodia/core/note.py:Note.with_velocity"]}
{"id": "C16", "title": "Notes are totally ordered by (tone, duration, velocity)", "statement": "== on notes holds exactly when pitches, rational durations and velocities are equal, and is an equivalence; <, <=, >, >= are the lexicographic total order on (pitch, rational duration, velocity).", "quantifier": "every pair/triple of valid notes", "why_tests_cant": "infinite domain; tests only compare notes that differ in tone", "anchors": ["src/melodia/core/note.py:Note.__eq__", "src/melodia/core/note.py:Note.__lt__", "src/melodia/core/note.py:Note._as_triplet"]}
{"id": "C17", "title": "A track contains exactly the notes added to it", "statement": "After any history of add calls interleaved with iterations, iterating a track yields exactly the multiset of (position, note) pairs that were added: each yielded note is one of the added notes, unchanged, with a position of equal rational value, and none is lost or duplicated.", "quantifier": "every history of add / iterate operations of any length", "why_tests_cant": "histories are unbounded; internal rescaling and heap moves happen at arbitrary points", "anchors": ["src/melodia/core/track.py:Track.add", "src/melodia/core/track.py:Track.__iter__"]}
{"id": "C18", "title": "Iteration is in order of ascending positions", "statement": "After any history of operations, the positions yielded by iterating the track are non-decreasing as rational numbers, and notes at the same position come in non-decreasing tone order.", "quantifier": "every history of operations", "why_tests_cant": "depends on a sort run with the library's own comparison operators on every possible mix of denominators", "anchors": ["src/melodia/core/track.py:Track.__iter__", "src/melodia/core/track.py:Track.add"]}
{"id": "C19", "title": "Observing a track does not change it", "statement": "Iterating, len(), length, signature, ==, str and dumping leave the contents, the length, the signature and the number of notes unchanged, and iterating twice in a row yields identical sequences. Inserting an observation anywhere in a history changes no later observation.", "quantifier": "every history and every point at which an observation is inserted", "why_tests_cant": "all insertion points in all histories", "anchors": ["src/melodia/core/track.py:Track.__iter__", "src/melodia/core/track.py:Track.__eq__", "src/melodia/core/track.py:Track.__len__"]}
{"id": "C20", "title": "len(track) counts the notes", "statement": "After any history, len(track) is the number of notes passed to add so far (iterables counted with all their notes, nested iterables included).", "quantifier": "every history", "why_tests_cant": "unbounded histories", "anchors": ["src/melodia/core/track.py:Track.__len__", "src/melodia/core/track.py:Track.add"]}
{"id": "C21", "title": "length is the right-most note ending", "statement": "After any history of adds, track.length has the rational value max over all added notes of position + duration (0 for the empty track).", "quantifier": "every history of adds", "why_tests_cant": "depends on comparisons between all mixes of denominators met during a history", "anchors": ["src/melodia/core/track.py:Track.length", "src/melodia/core/track.py:Track.add"]}
{"id": "C22", "title": "Adding without a position appends", "statement": "track.add(what) without a position puts all the notes at the current track.length; starting from an empty track, appending groups of notes (e.g. chords) one after another puts group k exactly at the sum of the longest durations of the earlier groups, and the final length is the total.", "quantifier": "every sequence of appended groups", "why_tests_cant": "unbounded sequences and denominators", "anchors": ["src/melodia/core/track.py:Track.add"]}
{"id": "C23", "title": "Adding an iterable is adding each note at one position", "statement": "add(iterable, where) has the same effect as adding every note of it, in order, at the same position, also for nested iterables and when where is omitted (the position is determined once, before the first note).", "quantifier": "every nested iterable, every track state, every position", "why_tests_cant": "recursive structure of any depth", "anchors": ["src/melodia/core/track.py:Track.add"]}
{"id": "C24", "title": "A rejected add changes nothing", "statement": "If add raises because of its position argument (not a power-of-two denominator, negative nominator, wrong arity, wrong type), the track is unchanged; with a valid position and notes, add never raises.", "quantifier": "every track state and every argument", "why_tests_cant": "every state reachable by a history", "anchors": ["src/melodia/core/track.py:Track.add"]}
{"id": "C25", "title": "Track equality means equal signature and equal contents", "statement": "a == b holds exactly when the signatures are equal and both tracks contain the same notes at the same positions; hence it is reflexive, symmetric and transitive.", "quantifier": "every pair/triple of tracks", "why_tests_cant": "infinitely many tracks", "anchors": ["src/melodia/core/track.py:Track.__eq__"]}
{"id": "C26", "title": "Order of insertion is irrelevant", "statement": "Two tracks with equal signatures to which the same (note, position) pairs were added in different orders compare equal and iterate in the same order.", "quantifier": "every list of pairs and every permutation of it", "why_tests_cant": "factorially many orders", "anchors": ["src/melodia/core/track.py:Track.__eq__", "src/melodia/core/track.py:Track.add", "src/melodia/core/track.py:Track.__iter__"]}
{"id": "C27", "title": "Chords have the documented intervals", "statement": "For each of the 50 chord functions, the k-th note returned is the base tone transposed by the k-th interval of the generator table in scripts/generate_chords.py for that name; alias names give identical chords.", "quantifier": "all chord functions and every base tone", "why_tests_cant": "every base; and the generated file against the table", "anchors": ["src/melodia/music/chord.py:*", "scripts/generate_chords.py:chords"]}
{"id": "C28", "title": "Chord duration and velocity defaults", "statement": "All notes of a chord share one duration and one velocity: those given; where omitted, those of the base when the base is a Note, else 1/4 and 0.75. A chord call raises exactly when the base, duration or velocity is rejected by Tone/Note.", "quantifier": "every chord function and every argument combination", "why_tests_cant": "infinite argument space", "anchors": ["src/melodia/music/chord.py:_get_parameters"]}
{"id": "C29", "title": "Chords commute with transposition", "statement": "Building a chord on a transposed base gives the chord on the original base with every note transposed by the same amount; every chord starts with its base and is strictly ascending in pitch.", "quantifier": "all chord functions, every base and transposition", "why_tests_cant": "unbounded", "anchors": ["src/melodia/music/chord.py:*"]}
{"id": "C30", "title": "Variable-length quantities round trip", "statement": "For every non-negative integer n and any following bytes, reading the variable-length encoding that the writer produces for n gives n back and consumes exactly the bytes of the encoding.", "quantifier": "every non-negative integer and every suffix", "why_tests_cant": "unbounded integers; the encoder computes its own length from a bit length", "anchors": ["src/melodia/io/midi.py:MIDIWriter._format_var_len", "src/melodia/io/midi.py:MIDIReader._read_var_len"]}
{"id": "C31", "title": "Variable-length quantities follow the MIDI encoding", "statement": "The encoding of n is the base-128 representation of n, most significant digit first, without leading zero digits, with bit 7 set on all bytes but the last; it is at most 4 bytes long exactly when n < 2^28.", "quantifier": "every non-negative integer", "why_tests_cant": "unbounded integers", "anchors": ["src/melodia/io/midi.py:MIDIWriter._format_var_len"]}
{"id": "C32", "title": "dumps produces a well-formed Standard MIDI File", "statement": "Whenever dumps returns, the bytes are a format 0 Standard MIDI File: a 14 byte MThd chunk with length 6, format 0, one track and division pulses_per_quarter, then one MTrk chunk whose length field is its exact body size, whose body is a sequence of (variable-length delta, event) pairs: a time signature event, a tempo event, note-on/note-off events on the chosen channel with data bytes below 128, and a final end-of-track event and nothing after it.", "quantifier": "every track and every writer configuration", "why_tests_cant": "infinitely many tracks and configurations", "anchors": ["src/melodia/io/midi.py:MIDIWriter.dump", "src/melodia/io/midi.py:MIDIWriter.dumps"]}
{"id": "C33", "title": "Every accepted writer configuration can write", "statement": "A MIDIWriter whose constructor succeeded can dump every track whose tones are in MIDI range, whose signature fits the time signature event and with ordinary tempo; dumps raises only for tones out of range, signature or tempo that do not fit.", "quantifier": "every pulses_per_quarter in [1, 32767], channel in [0, 15], track", "why_tests_cant": "large configuration space", "anchors": ["src/melodia/io/midi.py:MIDIWriter.__init__", "src/melodia/io/midi.py:MIDIWriter.dump", "src/melodia/io/midi.py:MIDIWriter._format_signature"]}
{"id": "C34", "title": "A rejected dump writes nothing", "statement": "If dump raises because a note, the time signature or the tempo can not be represented, not a single byte has been written to the file; if it does not raise, exactly the bytes returned by dumps have been written.", "quantifier": "every track, configuration and failure point", "why_tests_cant": "all failure points in all tracks", "anchors": ["src/melodia/io/midi.py:MIDIWriter.dump"]}
{"id": "C35", "title": "Written events are the notes", "statement": "Decoding the delta times of the written events into absolute times, the note events are exactly: for each note a note-on at floor(4*ppq*position) and a note-off at that time plus floor(4*ppq*duration), on its MIDI pitch; times are non-decreasing, no note-off precedes its note-on, and there are as many note-offs as note-ons for each pitch.", "quantifier": "every track and configuration", "why_tests_cant": "all tracks and all interleavings of notes", "anchors": ["src/melodia/io/midi.py:MIDIWriter.dump", "src/melodia/io/midi.py:MIDIWriter._signature_to_pulses"]}
{"id": "C36", "title": "Pitch mapping", "statement": "The MIDI pitch of a note is 60 + pitch - middle_c; tones mapping outside [0, 127] make dump raise ValueError; reading with the same middle_c gives the same tone back, reading with another middle_c transposes by the difference. middle_c may equivalently be given as Tone, int or notation.", "quantifier": "every tone and every pair of middle_c settings", "why_tests_cant": "unbounded", "anchors": ["src/melodia/io/midi.py:MIDIWriter._format_note_on", "src/melodia/io/midi.py:MIDIReader._pitch_to_tone", "src/melodia/io/midi.py:MIDIWriter.__init__", "src/melodia/io/midi.py:MIDIReader.__init__"]}
{"id": "C37", "title": "Velocity mapping", "statement": "For every velocity the written byte is in [0, 127], monotone in the velocity, 0 for 0.0 and 127 for 1.0; the velocity read back is within 1/127 below (up to floating point rounding) the original, and writing a velocity that was read from a file gives the same byte again.", "quantifier": "every IEEE double in [0, 1]; every byte value", "why_tests_cant": "2^62 doubles; floating point rounding", "anchors": ["src/melodia/io/midi.py:MIDIWriter._format_note_on", "src/melodia/io/midi.py:MIDIReader._parse_track"]}
{"id": "C38", "title": "Writing quantises time downwards to pulses", "statement": "A position or duration of rational value x is written as floor(4*ppq*x) pulses whatever its representation; this is monotone, exact when the denominator divides 4*ppq, and two notes of the same tone where one ends before the other starts still do so after quantisation.", "quantifier": "every valid signature and ppq", "why_tests_cant": "unbounded", "anchors": ["src/melodia/io/midi.py:MIDIWriter._signature_to_pulses"]}
{"id": "C39", "title": "Reading quantises time downwards to 1/16384", "statement": "A time of t ticks at q ticks per quarter is read as a normalised signature whose value is at most t/(4q) and less than 1/16384 below it, monotone in t, and exact when q divides 4096*t; writing it again at the same resolution (q <= 4096) gives t or t - 1 pulses.", "quantifier": "every t >= 0 and q > 0", "why_tests_cant": "unbounded", "anchors": ["src/melodia/io/midi.py:MIDIReader._time_to_signature"]}
{"id": "C40", "title": "MIDI round trip", "statement": "For every track whose notes of equal tone do not overlap, with tones in MIDI range, positions and durations on the pulse grid and audible velocities, loads(dumps(track)) contains exactly the same notes at the same positions with the same durations and the same signature, velocities quantised to k/127; if the velocities already are of the form k/127 the loaded track compares equal to the original.", "quantifier": "every such track, every writer configuration (ppq, middle_c, channel, tempo)", "why_tests_cant": "infinitely many tracks, all interleavings of notes of different tones", "anchors": ["src/melodia/io/midi.py:dumps", "src/melodia/io/midi.py:loads", "src/melodia/io/midi.py:MIDIWriter.dump", "src/melodia/io/midi.py:MIDIReader.load"]}
{"id": "C41", "title": "No note is lost in a MIDI round trip", "statement": "For every track that can be dumped, loads(dumps(track)) has the same number of notes.", "quantifier": "every track that can be dumped", "why_tests_cant": "needs overlapping or inaudible notes to fail", "anchors": ["src/melodia/io/midi.py:MIDIWriter.dump", "src/melodia/io/midi.py:MIDIReader._parse_track"]}
{"id": "C42", "title": "Malformed input is reported as MIDIParsingError", "statement": "For every byte string, loads terminates and either returns a track or raises MIDIParsingError (or ValueError when an explicitly requested channel is absent).", "quantifier": "every byte string", "why_tests_cant": "all byte strings", "anchors": ["src/melodia/io/midi.py:MIDIReader.load", "src/melodia/io/midi.py:MIDIReader._parse_track", "src/melodia/io/midi.py:MIDIReader._read_chunks"]}
{"id": "C43", "title": "A truncated file is never accepted", "statement": "For every track, every proper prefix of the bytes written by dumps is rejected by loads with MIDIParsingError (so a crash at any point while writing is detected).", "quantifier": "every track and every truncation point", "why_tests_cant": "all crash points of all files", "anchors": ["src/melodia/io/midi.py:MIDIReader._read_chunks", "src/melodia/io/midi.py:MIDIWriter.dump"]}
{"id": "C44", "title": "Chunk sizes", "statement": "A chunk whose 4 byte size field is n is read as n bytes, for every n up to 2^32 - 1, so every dumped file can be loaded whatever its size.", "quantifier": "every chunk size", "why_tests_cant": "sizes of 16 MB and more", "anchors": ["src/melodia/io/midi.py:MIDIReader._read_chunks", "src/melodia/io/midi.py:MIDIWriter._format_chunk"]}
{"id": "C45", "title": "Unsupported events are skipped", "statement": "Inserting any well-formed event that is not a note event, a time signature, a channel prefix or end of track (other channel messages, other meta events, system exclusive, system common and real-time messages) with delta time 0 into a track changes nothing in the loaded track.", "quantifier": "every event, every insertion point, every payload", "why_tests_cant": "all payloads and positions", "anchors": ["src/melodia/io/midi.py:MIDIReader._parse_track", "src/melodia/io/midi.py:_event_lengths"]}
{"id": "C46", "title": "Running status", "statement": "Omitting the status byte of an event equal to the status of the previous event gives the same track as writing it explicitly.", "quantifier": "every event stream and every choice of omitted status bytes", "why_tests_cant": "all streams", "anchors": ["src/melodia/io/midi.py:MIDIReader._parse_track"]}
{"id": "C47", "title": "Channel selection", "statement": "load(channel=c) returns exactly the notes of channel c and raises ValueError when the file has no events on c; load() returns the notes of all channels together; a track dumped on channel c and loaded with channel=c is the track loaded with no channel given.", "quantifier": "every file and channel", "why_tests_cant": "all files", "anchors": ["src/melodia/io/midi.py:MIDIReader.load"]}
{"id": "C48", "title": "Signature of a merged track", "statement": "load() without a channel returns a track whose signature has the largest rational value among the signatures of the channels in the file.", "quantifier": "every file", "why_tests_cant": "all mixes of per-channel signatures", "anchors": ["src/melodia/io/midi.py:MIDIReader.load"]}
{"id": "C49", "title": "Pairing of note events", "statement": "The notes read for a channel are exactly these: scanning the events, a note starts at a note-on (velocity > 0) of a pitch that is not sounding and ends at the next note-off (or note-on with velocity 0) of that pitch; note-ons of sounding pitches, note-offs of silent pitches and notes never ended are ignored.", "quantifier": "every event sequence", "why_tests_cant": "all interleavings of events", "anchors": ["src/melodia/io/midi.py:MIDIReader._parse_track"]}
{"id": "C50", "title": "randomize_velocities changes velocities only, within bounds", "statement": "For valid parameters and whatever random numbers are drawn, randomize_velocities never raises and returns a track with the same signature and the same multiset of (position, tone, duration), every velocity lying in [minimum, max(minimum, maximum)]; invalid parameters (NaN included) raise ValueError.", "quantifier": "every track, every parameter value, every sequence of random draws (NaN and infinities included)", "why_tests_cant": "random draws; all floats", "anchors": ["src/melodia/processing/track.py:randomize_velocities"]}
{"id": "C51", "title": "randomize_velocities does not touch its input", "statement": "The input track has the same signature, contents, length and number of notes after the call, and the result is independent: adding to one later does not change the other.", "quantifier": "every track and every later history", "why_tests_cant": "all later histories", "anchors": ["src/melodia/processing/track.py:randomize_velocities"]}
{"id": "C52", "title": "Dumping depends on the contents only", "statement": "The bytes written depend only on the signature and the contents of the track, not on the order in which notes were added nor on whether the track was iterated before.", "quantifier": "every content and every insertion order", "why_tests_cant": "factorially many orders", "anchors": ["src/melodia/io/midi.py:MIDIWriter.dump"]}
{"id": "C53", "title": "Load then dump is stable", "statement": "Dumping a track that was loaded from a dumped file (same ppq, middle_c, tempo) and loading it again gives the same track: after one round trip nothing changes any more.", "quantifier": "every track", "why_tests_cant": "needs times off the grid to fail", "anchors": ["src/melodia/io/midi.py:MIDIReader._time_to_signature", "src/melodia/io/midi.py:MIDIWriter._signature_to_pulses"]}
{"id": "C54", "title": "Printed forms identify the value", "statement": "Distinct signatures (as pairs) have distinct str and repr, distinct tones have distinct str and repr, and the printed decimal numbers parse back to the printed integers.", "quantifier": "every pair of signatures / tones", "why_tests_cant": "unbounded", "anchors": ["src/melodia/core/signature.py:Signature.__str__", "src/melodia/core/signature.py:Signature.__repr__", "src/melodia/core/tone.py:Tone.__repr__"]}
{"id": "C55", "title": "Byte reader stays within its data", "statement": "Whatever sequence of reads and shifts the parser performs on any input, a read returns exactly the requested number of bytes that lie inside the chunk, or raises MIDIParsingError; it never returns fewer bytes and never bytes of another chunk.", "quantifier": "every chunk body and every parser execution", "why_tests_cant": "all inputs", "anchors": ["src/melodia/io/midi.py:_Reader.read", "src/melodia/io/midi.py:_Reader.shift"]}
{"id": "C58", "title": "A loaded track is an ordinary track", "statement": "Whatever file it was loaded from, a loaded track is one that could have been built by creating an empty track and adding notes, so everything proved about tracks applies to it.", "quantifier": "every byte string and channel", "why_tests_cant": "all files", "anchors": ["src/melodia/io/midi.py:MIDIReader.load", "src/melodia/io/midi.py:MIDIReader._parse_track"]}
{"id": "C59", "title": "Notes of one channel do not overlap", "statement": "In the track loaded for one channel of any file no two notes of equal tone overlap in time.", "quantifier": "every byte string and channel", "why_tests_cant": "all files", "anchors": ["src/melodia/io/midi.py:MIDIReader._parse_track"]}
{"id": "C60", "title": "Track objects are independent", "statement": "Whatever is done with a collection of Track objects (adding notes, chords and tracks, iterating, comparing, randomising, building tracks from tracks), an object changes only by the operations performed on it, and it changes as if it was the only object: no mutable list is ever shared between two tracks.", "quantifier": "every history over any number of objects, t == t included", "why_tests_cant": "all histories and all aliasings", "anchors": ["src/melodia/core/track.py:Track.add", "src/melodia/core/track.py:Track.__iter__", "src/melodia/core/track.py:Track.__eq__", "src/melodia/processing/track.py:randomize_velocities"]}
{"id": "C61", "title": "Adding notes in a loop over a track", "statement": "A loop that adds to a track what is computed from each entry of a track (the one looped over may be the same) stops, and has added exactly one thing for each entry there was.", "quantifier": "every pair of Track objects, equal or not, and every function of the entries", "why_tests_cant": "aliasing of the looped list, non-termination", "anchors": ["src/melodia/core/track.py:Track.add", "src/melodia/core/track.py:Track.__iter__", "src/melodia/io/midi.py:MIDIReader.load"]}
{"id": "C62", "title": "Printed notes and tracks read back", "statement": "eval(repr(note)) is the note: the same tone, duration and velocity, bit for bit; notes are printed alike only if they are the same. eval(repr(track)) is a track equal to the track printed: the same signature and the same notes at the same positions.", "quantifier": "every note and every track however it was built; every way of choosing digits that identify the float", "why_tests_cant": "all velocities, all tracks", "anchors": ["src/melodia/core/note.py:Note.__repr__", "src/melodia/core/track.py:Track.__repr__"]}
{"id": "C63", "title": "What str shows", "statement": "str(note) consists of the duration, the notation of the tone, and the velocity rounded to three decimals (nearest, ties to even); two notes with the same str have the same duration and tone, and velocities at most 1/1000 apart. str(track) shows the signature and the number of notes.", "quantifier": "every note, every track", "why_tests_cant": "all velocities", "anchors": ["src/melodia/core/note.py:Note.__str__", "src/melodia/core/track.py:Track.__str__"]}
{"id": "C57", "title": "Exactly which byte strings are accepted, and what they say", "statement": "A byte string is accepted by the reader if and only if it is a sequence of chunks in which every header describes one track of format 0 with a division in ticks and every track comes after a header and starts with well-formed events up to an end of track; the accepted bytes determine one division and one list of events (those of the last track), and the loaded tracks are the notes of these events; all other byte strings are rejected, with the parsing error except for the two failures of C42, each of which is characterised.", "quantifier": "every byte string, every channel argument", "why_tests_cant": "all byte strings", "anchors": ["src/melodia/io/midi.py:MIDIReader.load", "src/melodia/io/midi.py:MIDIReader._load_chunk", "src/melodia/io/midi.py:MIDIReader._parse_track"]}
{"id": "C64", "title": "Constructors and module functions", "statement": "Track, MIDIWriter and MIDIReader accept exactly the documented arguments and raise ValueError or TypeError for all others; a track with an invalid position in its contents is not built. The module function dumps writes what a writer with 96 pulses per quarter and middle C 'C3' writes on the given channel; loads reads it back: equal on the channel written, ValueError for other channels.", "quantifier": "every argument, every track meeting the conditions of C40", "why_tests_cant": "all arguments, all tracks", "anchors": ["src/melodia/core/track.py:Track.__init__", "src/melodia/io/midi.py:MIDIWriter.__init__", "src/melodia/io/midi.py:MIDIReader.__init__", "src/melodia/io/midi.py:dumps", "src/melodia/io/midi.py:loads"]}
{"id": "C65", "title": "Dumping succeeds, its size, and round trips from conditions on the contents alone", "statement": "A track with at most 2^28 notes, all ending before pulse 2^28 and in MIDI range, with a signature and a tempo that fit, is dumped, in 41 bytes plus 8 to 14 for each note. With at most 1198000 notes that also meet the conditions of C40, loading gives an equal track. In particular the random round-trip test of the project's test suite succeeds for every track it can draw.", "quantifier": "every track, every writer with at most 255 pulses per quarter, every draw of the test's generator", "why_tests_cant": "the test draws ten tracks", "anchors": ["src/melodia/io/midi.py:MIDIWriter.dump", "src/melodia/io/midi.py:loads", "tests/melodia/io/test_midi_serialize.py:random_track_without_overlaps"]}
{"id": "C66", "title": "The tempo of a number of beats per minute", "statement": "For a positive number of beats per minute the tempo is 60000000/bpm cut to an integer, up to one part in 2^53; it is exact for whole numbers and all multiples of 2^-27, and a faster speed never has a larger tempo. Zero raises ZeroDivisionError, NaN ValueError, too small numbers OverflowError; infinities give 0 and negative speeds the negated tempo. The tempo can be written exactly if the speed is infinite, above 60000000/(2^24-2^-30), or below -60000000/(1-2^-54).", "quantifier": "every float", "why_tests_cant": "all floats", "anchors": ["src/melodia/io/midi.py:MIDIWriter.dump"]}
{"id": "C67", "title": "The generator of the chord functions writes its table, and chord.py is what it writes", "statement": "generate_chords.py never raises. For every table whose rows list valid unreserved names separated by commas, have titles without quotes and backslashes and at least two notes, the text it writes is a Python module that defines exactly the functions of the table, in order, each returning a tuple with one note per interval of its row. For the table in the script the text is, character for character, src/melodia/music/chord.py, and the functions that file defines are the modelled ones.", "quantifier": "every table of chords", "why_tests_cant": "unbounded tables, names and intervals", "anchors": ["scripts/generate_chords.py:main", "src/melodia/music/chord.py"]}
{"id": "C68", "title": "Integers, chunks and fixed events are written and read exactly, for all arguments", "statement": "_read_8, _read_16, _read_24 and _read_32 return the big-endian value of the next one to four bytes, or raise MIDIParsingError and go to the end of the data. _format_chunk writes name, size and body, AssertionError exactly for names not of four bytes, OverflowError exactly for bodies of 2^32 bytes. _format_header_chunk raises AssertionError exactly for kinds other than 0, 1, 2 and OverflowError exactly for track numbers that are not 16 bit; _parse_header gives its arguments and the resolution back. _format_signature and _format_tempo raise OverflowError exactly if a field does not fit. read_event gives back the fields of a time signature and of note events, with or without running status; note-on with velocity 0 is note-off.", "quantifier": "every argument, reader position and previous status", "why_tests_cant": "all integers and byte strings", "anchors": ["src/melodia/io/midi.py:MIDIWriter._format_header_chunk", "src/melodia/io/midi.py:MIDIWriter._format_chunk", "src/melodia/io/midi.py:MIDIReader._parse_header", "src/melodia/io/midi.py:_Reader.read"]}
{"id": "C69", "title": "The machine for the source code is deterministic, and importing the modules gives the names and defaults the program uses", "statement": "The syntax trees of the modules are run by a small-step machine. An expression has at most one result. Running the module level code of core/tone.py and io/midi.py ends with the regular expression, the tone tables and the table of event lengths that the models use. Every default argument of every function evaluates to the value the machine uses for it, and parameters without default have none.", "quantifier": "every expression, environment, heap; every function and parameter of the source", "why_tests_cant": "a statement about all programs of the machine and all continuations", "anchors": ["src/melodia/core/tone.py", "src/melodia/io/midi.py"]}
{"id": "C70", "title": "The source of core/signature.py computes what the model says", "statement": "Running the syntax trees of Signature: the constructor for all integers, and for all valid signatures nominator, denominator, to, normalized, abs, str, repr, +, *, ==, !=, <, <=, > and >= give exactly the value or the exception of the model, and change no object.", "quantifier": "all integers, all valid signatures, every heap and continuation", "why_tests_cant": "unbounded integers and loops", "anchors": ["src/melodia/core/signature.py:Signature"]}
{"id": "C71", "title": "The source of core/tone.py computes what the model says", "statement": "Running the syntax trees of Tone: the constructor, from_notation for every string (with the regular expression executed by a backtracking matcher), pitch, octave, transposed, to_notation, to_frequency, str, repr and the comparisons give exactly the value or the exception of the model, and change no object.", "quantifier": "all integers, strings and floats, every table of Unicode digits, every heap and continuation", "why_tests_cant": "unbounded integers and strings", "anchors": ["src/melodia/core/tone.py:Tone"]}
{"id": "C72", "title": "The source of core/note.py computes what the model says", "statement": "Running the syntax trees of Note: the constructor for tones, integers, strings and other values, durations given as signature, tuple, list, string, bytes or something else, and every float velocity, with and without default arguments; tone, duration, velocity, transposed, with_duration, with_velocity, str, repr; and the comparisons of notes with valid durations give exactly the value or the exception of the model, and change no object.", "quantifier": "all arguments, every heap and continuation", "why_tests_cant": "unbounded arguments", "anchors": ["src/melodia/core/note.py:Note"]}
{"id": "C73", "title": "The source of music/chord.py computes what the model says", "statement": "Running the syntax tree of any of the 50 chord functions, with or without the optional arguments, gives the tuple of notes or the exception of the model.", "quantifier": "all functions, all arguments, every heap and continuation", "why_tests_cant": "unbounded arguments", "anchors": ["src/melodia/music/chord.py"]}
{"id": "C74", "title": "The source of core/track.py computes what the model says", "statement": "Running the syntax trees of Track: the constructor with any signature and content and with default arguments, add of notes and nested tuples or lists of them at any position or none, signature, length, len, str, iteration, ==, != and repr give exactly the value or the exception of the model, leave the track as the model says and change no object but the track and its list; and every run of such an expression ends this way when list.sort only looks at the answers of comparisons, which the sort of CPython does.", "quantifier": "all signatures, contents, tracks without zero denominators, every heap and continuation, every sort with the contract", "why_tests_cant": "unbounded histories, aliasing and nesting", "anchors": ["src/melodia/core/track.py:Track"]}
{"id": "C75", "title": "The source of the writing half of io/midi.py computes what the model says", "statement": "Running the syntax trees of MIDIWriter: the constructor with given and with default arguments, _signature_to_pulses, _format_note_on, _format_note_off, _format_var_len, _format_signature, _format_tempo, _format_chunk, _format_header_chunk, dump to a binary file at any position and dumps, and the functions dump and dumps of the module with given and with default arguments give exactly the value or the exception of the model, write to the file exactly the bytes the model says also when an exception stops them, leave the track as the model says and change no object but the track, its list and the file.", "quantifier": "all arguments, all tracks with valid positions and durations, every content and position of the file, every heap and continuation, every sort with the contract", "why_tests_cant": "unbounded tracks and files, effects before an exception", "anchors": ["src/melodia/io/midi.py:MIDIWriter", "src/melodia/io/midi.py:dump", "src/melodia/io/midi.py:dumps"]}
{"id": "C76", "title": "The source of processing/track.py computes what the model says", "statement": "Running the syntax tree of randomize_velocities with given and with default arguments gives exactly the new track or the exception of the model with the values that random.gauss gives, draws as many of them as the model says, sorts the given track as the model says and changes no other object.", "quantifier": "all floats, all tracks without zero denominators, every sequence of random values, every heap and continuation, every sort with the contract", "why_tests_cant": "unbounded tracks, all sequences of random values", "anchors": ["src/melodia/processing/track.py:randomize_velocities"]}
{"id": "C77", "title": "The source of the reading half of io/midi.py computes what the model says", "statement": "Running the syntax trees of _Reader and MIDIReader: the constructors, read, shift and len, _read_8, _read_16, _read_24, _read_32, _read_var_len, _parse_header, _pitch_to_tone, _time_to_signature, _parse_track with its inner function, load and loads with the generator of chunks, with and without a channel, and the functions load and loads of the module give exactly the new track, value or exception of the model and change no object but the file or the reader of bytes; where the model has RecursionError the number of active calls exceeds every bound.", "quantifier": "all byte strings, every file content and position, every channel, every heap and continuation, every sort with the contract", "why_tests_cant": "unbounded files, unbounded numbers of active calls", "anchors": ["src/melodia/io/midi.py:_Reader", "src/melodia/io/midi.py:MIDIReader", "src/melodia/io/midi.py:load", "src/melodia/io/midi.py:loads"]}
{"id": "C78", "title": "The randomised tests pass whatever is drawn", "statement": "Run from their syntax trees, test_midi_serialize and test_track_eq end without AssertionError or any other exception for every sequence of numbers that random.randint and random.choice can give; and for every track with notes in the range of MIDI, whole numbers of pulses, velocities of bytes and no overlaps, the expression t == midi.loads(midi.dumps(t)) is True and leaves the tracks that exist unchanged except for t being sorted.", "quantifier": "all draws, all tracks, every heap and continuation, every sort with the contract", "why_tests_cant": "the tests draw a few hundred of the numbers that are possible", "anchors": ["tests/melodia/io/test_midi_serialize.py:test_midi_serialize", "tests/melodia/core/test_track.py:test_track_eq", "src/melodia/io/midi.py:loads", "src/melodia/io/midi.py:dumps", "src/melodia/core/track.py:Track.__eq__"]}
{"id": "C79", "title": "The source itself violates what the refuted claims say, and passes the deterministic tests", "statement": "For each of the claims C03, C10, C16, C19, C21, C22, C25, C26, C33, C40, C41, C42, C44, C45, C47, C48, C52 and C53 whose full statement is refuted there is a program that calls the library and shows the violation; every run of its syntax tree with the trees of the library ends and shows it. Every run of the syntax trees of the project's deterministic tests ends as the test expects.", "quantifier": "all runs, whatever sqrt, gauss, randint, powers of two and printed floats are", "why_tests_cant": "shows that the refutations are about the code and not about the model", "anchors": ["src/melodia/core/signature.py:Signature.__lt__", "src/melodia/core/tone.py:Tone.from_notation", "src/melodia/core/track.py:Track.add", "src/melodia/io/midi.py:loads", "src/melodia/io/midi.py:dumps"]}
{"id": "C80", "title": "Laws of signatures, tones and notes hold when the source is run", "statement": "Every expression of any depth made of the operations on numbers, signatures, tones, notes and chords, run from the syntax trees of the library, gives the value or the exception that the models give. So + and * of signatures are commutative and associative, * distributes over +, normalized() and abs() keep the value, +, *, ==, to and normalized compute the expected fractions, Signature(n, d) is made exactly if n >= 0 and d is a power of two, from_notation undoes to_notation, transpositions add up, and the with_... methods of notes can be undone: each as an expression of the source that is True on every heap.", "quantifier": "all expressions, all values of the variables, every heap and continuation", "why_tests_cant": "expressions and operands without bound", "anchors": ["src/melodia/core/signature.py:Signature.__add__", "src/melodia/core/signature.py:Signature.__mul__", "src/melodia/core/signature.py:Signature.to", "src/melodia/core/tone.py:Tone.from_notation", "src/melodia/core/note.py:Note.transposed", "src/melodia/core/note.py:Note.with_duration"]}
{"id": "C81", "title": "Programs that use the library do what the models say", "statement": "For every program made of assignments, expressions, Track(), add, the readings of a track, == and != of tracks, midi.dumps, midi.loads, randomize_velocities, if, while, and for over a track, if the models give it a meaning then running its statements with the syntax trees of the library ends with the variables, tracks and random numbers of that meaning, or with its exception; tracks share nothing and keep their invariant, a track that nothing was added to is at most sorted, aliases see each other's changes and nothing else on the heap changes. So a loop that adds changed notes to a new track gives a new track with exactly these notes, and a copy made this way is equal to the original if notes of one pitch at one position have comparable durations.", "quantifier": "all programs, all states of variables and tracks, every heap, continuation and sort with the contract", "why_tests_cant": "programs of any length with loops, aliasing of tracks, the whole heap", "anchors": ["src/melodia/core/track.py:Track.add", "src/melodia/core/track.py:Track.__iter__", "src/melodia/core/track.py:Track.__eq__", "src/melodia/io/midi.py:loads", "src/melodia/io/midi.py:dumps", "src/melodia/processing/track.py:randomize_velocities"]}
{"id": "C82", "title": "Files are read and written by the source as the format says", "statement": "Running the source, midi.loads(b) and midi.loads(b, k) give, for every byte string b that is a file, a new track with exactly the notes of the note events of the file (of channel k; of all channels), ValueError if there is no channel k; if a status byte is missing the calls get deeper without end, if a division of 0 is needed AssertionError is raised, and for all other bytes MIDIParsingError. midi.dumps(t, bpm, k) gives, for every track made by a history of additions, a file with time signature, tempo, the note events of exactly the notes added, ordered by time, between 41 + 8 n and 41 + 14 n bytes long, or ValueError, OverflowError or ZeroDivisionError exactly if something does not fit. len(midi.loads(midi.dumps(x))) <= len(x), with equality if the notes of one tone are apart and audible. Nothing else on the heap changes.", "quantifier": "all byte strings, all histories of tracks, all tempos and channels, every heap, continuation and sort with the contract", "why_tests_cant": "unbounded files and tracks, all malformed inputs, the whole heap", "anchors": ["src/melodia/io/midi.py:loads", "src/melodia/io/midi.py:dumps", "src/melodia/io/midi.py:MIDIReader.load", "src/melodia/io/midi.py:MIDIWriter.dump"]}
{"id": "C83", "title": "A piece written note by note gives the track and the file it says", "statement": "Running the source, the statements x = Track((n, d)); x.add(Note(pitch, (n, d), velocity), where=(m, e)) for every line of a list of lines give a new track with signature n/d, as many notes as lines, exactly the notes of the lines at their positions and in order of position and pitch; if one of the pairs is not a signature or one of the velocities is not between 0 and 1, ValueError. midi.dumps(x, bpm, k) after that gives the file with the events of exactly these notes. If the notes of one tone do not overlap, are audible, last whole numbers of pulses and have velocities of MIDI bytes, the track read from midi.dumps(x) is equal to x. Nothing that was on the heap changes.", "quantifier": "all lists of lines, every heap, continuation and sort with the contract", "why_tests_cant": "programs of any length over all integers and floats, the whole heap", "anchors": ["src/melodia/core/track.py:Track.add", "src/melodia/core/note.py:Note.__init__", "src/melodia/core/signature.py:Signature.__init__", "src/melodia/io/midi.py:dumps", "src/melodia/io/midi.py:loads"]}
{"id": "C84", "title": "randomize_velocities changes velocities only, in runs of the source", "statement": "Running the source, randomize_velocities(x, minimum, maximum, mean, variance) with valid arguments gives a new track with the signature of x and exactly the notes of x except for the velocity, which lies between the bounds; random.gauss is called once per note; x looks the same afterwards and nothing else changes. With arguments that are not valid it raises ValueError and x is unchanged. With no arguments but x, the result written with midi.dumps is a file with the notes of x and velocity bytes between 63 and 127.", "quantifier": "all tracks built by the operations, all floats as arguments, all floats returned by random.gauss (NaN and infinities too), every heap and continuation", "why_tests_cant": "all outcomes of the random numbers, all tracks, the whole heap", "anchors": ["src/melodia/processing/track.py:randomize_velocities", "src/melodia/io/midi.py:dumps"]}
{"id": "C85", "title": "Numbers, events and chunks as bytes, in runs of the source", "statement": "Running the source, the methods of MIDIWriter give: _signature_to_pulses the floor of 4*ppq times the value; _format_var_len the digits of x to the base 128 without leading zeros, bit 7 set on all but the last, and the byte x mod 128 if x is negative; _format_note_on and _format_note_off the three bytes of the event, or ValueError if the pitch is outside 0..127; _format_signature, _format_tempo, _format_chunk and _format_header_chunk the bytes of the Standard MIDI File, OverflowError if a number does not fit and AssertionError for a wrong kind. The methods of MIDIReader _read_8, _read_16, _read_24, _read_32, _read_var_len and _parse_header read exactly these numbers and move past exactly their bytes, and raise MIDIParsingError if bytes are missing. _read_var_len of what _format_var_len(x) gives is x. _time_to_signature gives the largest multiple of 1/16384 that is not above the time, in lowest terms, ValueError for negative times; _signature_to_pulses of it is the time or one less, and the time if it is a multiple of 1/16384.", "quantifier": "all writers the constructor makes, all signatures, notes, integers and bytes, every heap and continuation", "why_tests_cant": "all integers, all bytes, the whole heap", "anchors": ["src/melodia/io/midi.py:MIDIWriter._format_var_len", "src/melodia/io/midi.py:MIDIWriter._signature_to_pulses", "src/melodia/io/midi.py:MIDIWriter._format_chunk", "src/melodia/io/midi.py:MIDIReader._read_var_len", "src/melodia/io/midi.py:MIDIReader._parse_header", "src/melodia/io/midi.py:MIDIReader._time_to_signature"]}
{"id": "C86", "title": "Writing and reading again changes nothing after the first time, in runs of the source", "statement": "Running the source, after b = midi.dumps(x); y = midi.loads(b, 0); c = midi.dumps(y) the comparison midi.loads(c) == y is True, and midi.dumps(midi.loads(c, 0)) == c is True: what is lost (velocities between two bytes) is lost the first time. This holds for all tracks with at least one note whose notes fit the file, are audible, last whole numbers of pulses and do not overlap if they have the same tone. Nothing else on the heap changes.", "quantifier": "all such tracks built by the operations with any velocities, every heap, continuation and sort with the contract", "why_tests_cant": "all tracks, all floats, the whole heap, and sequences of four calls", "anchors": ["src/melodia/io/midi.py:dumps", "src/melodia/io/midi.py:loads"]}
{"id": "C87", "title": "A voice of any file is taken over without change, in runs of the source", "statement": "Running the source, after y = midi.loads(b, k); c = midi.dumps(y); z = midi.loads(c) the comparison z == y is True. This holds for all byte strings b that are files (of any program, with any division, with other chunks, events and channels) and all channels k of them, if the note events of this channel have data bytes below 128 and times that are multiples of the 128th part of a whole note below 2^28/96 quarters, every note lasts some time, and there are at most 1198000 events. Nothing on the heap changes.", "quantifier": "all such files, every heap, continuation and sort with the contract", "why_tests_cant": "all files, the whole heap", "anchors": ["src/melodia/io/midi.py:loads", "src/melodia/io/midi.py:dumps", "src/melodia/io/midi.py:MIDIReader._time_to_signature"]}
{"id": "C88", "title": "A track is read from the channel it was written on and from no other, in runs of the source", "statement": "Running the source, for b = midi.dumps(x, q, k) with any channel k in 0..15 and any tempo q that fits: midi.loads(b, k) == x is True, midi.loads(b) == x is True, and midi.loads(b, j) raises ValueError for every other j. This holds for all tracks x with at least one note whose notes fit the file, are audible, last whole numbers of pulses, have velocities that are read for some byte, and do not overlap if they have the same tone. Nothing else on the heap changes.", "quantifier": "all such tracks built by the operations, all channels, all tempos that fit, every heap, continuation and sort with the contract", "why_tests_cant": "all tracks, tempos and channels, the whole heap", "anchors": ["src/melodia/io/midi.py:dumps", "src/melodia/io/midi.py:loads", "src/melodia/io/midi.py:MIDIReader.load"]}
{"id": "C89", "title": "Adding the notes of a track to another one, in runs of the source", "statement": "Running the source, after o = y.length; for p, q in x: y.add(q, where=p + o) the track y has its signature, len(y) is the sum of the two lengths before, and iterating over it yields exactly the notes it had and the notes of x, later by the value y.length had; with where=p the notes of x are at their own positions. x yields what it did before and nothing else on the heap changes.", "quantifier": "all pairs of different tracks built by the operations, every heap, continuation and sort with the contract", "why_tests_cant": "all tracks, the whole heap", "anchors": ["src/melodia/core/track.py:add", "src/melodia/core/track.py:__iter__", "src/melodia/core/track.py:length", "src/melodia/core/signature.py:__add__"]}
