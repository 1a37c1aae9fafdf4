# Formal model of meownoid/melodia in Coq 8.16.1

## Approach

The model is a shallow, executable Gallina transcription of the Python code, function by
function, with exceptions as values (`res A := Ok a | Err e`) and mutation as state returned.
Every definition of a model file cites the lines it transcribes.  Model files contain no proofs.
Specifications are written separately, in mathematics that does not mention the model's helpers:
rationals, reals, lists, permutations, base-128 digits, a grammar of MIDI files, a parser for
printed expressions.  The property theorems are in the `Prop*.v` files: statement, `exact lemma`,
`Print Assumptions`, and concrete examples beside them.

Properties are in `properties.jsonl`, their theorems and status in `MANIFEST.json`, the wrong
programs that were tried in `seeded/LOG.jsonl`.

### Files (`rocq/theories/`)

| kind | files |
|---|---|
| Python | `Py` (errors, integers, bytes, decimal strings), `PyFloat` (binary64), `PySort` (sort contract, `heappush`), `Timsort` (CPython's `list.sort`) |
| models | `Signature`, `Tone`, `Frequency` and `FrequencyFloat` (`Tone.to_frequency` over the reals and in binary64), `Note`, `Track`, `Show` (`__repr__`, `__str__` of notes and tracks), `Chord`, `MidiWriter`, `MidiReader`, `Processing`, `TrackObjects` (tracks as objects in a store), `ChordGen` (the generator script), `ChordText` (the text of `chord.py`) |
| source | `PyAst` (syntax trees and values), `PySource` (the trees of all modules), `PyRegex` (regular expressions), `PySem` (the machine), `PyProgram` (the program), `PyCounter` (the trees of `tools/counterexamples.py`), `PyTests` (those of the project's tests) |
| specifications | `SpecBase`, `TrackSpec`, `ChordSpec`, `MidiSpec`, `DumpSpec`, `ReaderSpec`, `AcceptSpec`, `TripSpec`, `ObjectSpec`, `FrequencySpec`, `ShowSpec`, `SourceSpec` (reading Python source text), `Client` (programs that use the library and their meaning) |
| proofs | `*Facts`, `*Props`, `Refine*` |
| theorems | `PropSignature` C01-C07, `PropTone` C08-C13, C54, `PropFrequency` C13, `PropNote` C14-C16, `PropTrack` C17-C26, `PropChord` C27-C29, `PropVarLen` C30-C31, `PropMidiValues` C37-C39, `PropWriter` C32-C36, `PropDump` C52, `PropReader` C42-C49, C55, `PropTrip` C40, C41, C53, C58, C59, `PropAccept` C57, `PropModule` C64, `PropSize` C65, `PropTempo` C66, `PropProcessing` C50, C51, C60, `PropFeed` C61, `PropShow` C62, C63, `PropSource` C67, `PropHelper` C68, `PropRefine` C69-C73, `PropRefineTrack` C74, `PropRefineDump` C75, `PropRefineProcess` C76, `PropRefineLoad` C77, `PropRefineTests` C78, `PropRefineCounter` C79, `PropRefineLaws` C80, `PropRefineClient`, `PropRefineClientRuns` and `PropRefineClientLaws` C81, `PropRefineFiles` C82, `PropRefineScore` C83, `PropRefineHumanize` C84, `PropRefineCodec` C85, `PropRefineStable` C86, `PropRefineOther` C87-C89 |
| tests | `Conformance`: the project's own test suite evaluated on the model |

A few definitions that occur in theorem statements are beside the proofs that use them and not in a
`*Spec` file: `tone_argument` (`NoteProps`), `eq_result` (`TrackProps`), `plain_bytes`
(`ChannelProps`), `last_pulse` and `spread` (`SizeProps`).

### Python and how it is rendered

* `int` is `Z`; `bytes` are `list Z`; strings are lists of code points.
* `float` (velocities, speeds, frequencies) is `spec_float` at precision 53 and emax 1024, the
  executable IEEE-754 of Coq's standard library, rounding to nearest even.  Properties of rounding are
  proved either from scratch with rationals (`RoundFacts`, `VelocityFacts`, no axioms) or with Flocq's
  correctness theorems (`RoundingFacts`, `FrequencyFloatProps`, `TempoProps`; over the reals).
* Union-typed arguments become sum types with an "other" constructor, so the `isinstance` dispatch and
  the `TypeError` branches are modelled.
* `list.sort` is a parameter `sort`.  Theorems hold for **every** function that meets
  `sort_contract` (`PySort`): the output is a permutation; of each adjacent pair x, y of the output the
  comparison answered x < y or not y < x; if the comparison is a strict weak order on the list the sort
  is stable.  `cpython_sort` (`Timsort`) transcribes CPython's algorithm including galloping and is
  proved to meet the contract for every comparison, so the contract is not vacuous; refutations and
  examples use it.
* `heapq.heappush` is modelled exactly.  Tuples compare by the first component that differs (`==`),
  then `<`.
* `str.isdigit`/`int` on non-ASCII digits: the table of Unicode decimal digits is a parameter `nd` with
  hypothesis `digit_table nd` (ASCII digits have their values, values are 0 to 9); `ascii_digit` is one.
* `pow` of the C library is a parameter with `pow_contract` (exact at integers, otherwise wrong by at
  most one unit in the last place); a correctly rounded `pow` is proved to meet it (`C13_pow_contract`).
* `float.__repr__` is a parameter with `digits_contract` (digits that denote the float when read);
  `shortest_digits` is proved to meet it (`C62_digits_contract`).
* Loops become structural recursion or recursion on fuel; running out is the separate error `OutOfFuel`
  and is proved impossible where it matters (it is not among the outcomes of C57).
* Unbounded recursion of the reader (a track that starts without a status byte) is the error
  `RecursionError`.
* Random draws are an arbitrary stream of floats.
* The generator script produces text; what the text means is given by a lexer and a parser for modules
  of chord functions (`SourceSpec`).  That a chord function computes what its text says
  (`chord_of`), and that `_get_parameters` is `get_parameters`, is a reading of the code.
* Iteration over a track while it is added to, and sharing between tracks, need object identity: that
  is `TrackObjects`, with lists as objects in a store, proved to agree with `Track` (`ObjectFacts`).

### The source code, and why the models are right

The models above are transcriptions, and a transcription can be wrong.  C69 and the claims after it
remove that doubt as far as they go: they are about the syntax trees of the source files themselves.

* `PySource` contains the trees.  `tools/source_trees.py` writes it from `/repo` with Python's own parser
  (annotations and docstrings are dropped, names of functions are qualified by class or module, variables
  that inner functions share are listed; `assert` becomes `if` and `raise`).  The functions of the two test
  modules that draw random numbers are there too, for C78.  This translation is trusted; it is one case per node type.
  `PyTests` has the deterministic tests (each `with pytest.raises` block is a program of its own that must end
  with that exception; left out: test_tone_to_frequency, test_track_add, test_midi_read_chunks and what follows
  an assignment to an attribute of a note, for which the machine has no rules), `PyCounter` the counterexamples.
* `PySem` is a machine with an explicit stack of what remains to be done, a heap for objects that
  change (lists, dictionaries, instances, files, shared variables, generators), and one rule per
  construct.  What has no rule (other operand types, other built-ins) makes it stop without a result, so
  a run that ends has used the modelled part of Python only.
* Left open in `Y : python` are the table of Unicode digits, the digits of printed floats, `2 ** y`, `sqrt`,
  `random.gauss`, `random.randint` (C78 supposes that it gives a number between its arguments; `random.choice`
  draws an index with it) and `list.sort`.
* Instances of classes whose attributes are assigned in `__init__` only are values, other instances live in
  the heap.  `is` is used with `None` only.  Generator expressions and `range` are evaluated to lists (the
  ones in the source are consumed at once).  Exceptions end the run (the source catches none).  There is no
  recursion limit.
* A theorem says: for all arguments, running the code ends with the value or exception of the model,
  whatever the rest of the program does with it (`K`).  For code that changes objects it also says what
  the heap is afterwards and what on it is unchanged (`brings`, `keeps`).
* `with io.BytesIO() as file:` is exported as an assignment (closing the buffer has no effect that is seen).
* The steps of the machine are a function, but for `list.sort` and `heappush`, which are relations: they
  need the answers of the comparison of every two elements, and a comparison that raises has no rule.
  C74_runs: for a sort that only looks at these answers (`natural`; C74_sort: that of CPython is one) every
  run of an expression goes on to the end the theorem states.
* The rules of `PySem` are trusted.  `tools/differential` tests them (this is testing, not proof): it generates programs in
  the covered part of Python, none of them code of the project, runs them on the machine and on CPython 3.11 and compares
  results, heaps and exceptions.  12000 programs; it found that `0 / -n` is `-0.0`, that a BytesIO is an Iterable and that a
  dictionary keeps the first of two equal keys (all three corrected, none of them of consequence for the code here);
  about one in forty stops at a construct without a rule, the others agree.  In the same way 25000 operations on floats
  (`floats.py`; the digits of `shortest_digits` differ from those of CPython for some numbers above 2^53 that are
  half way between two decimals, never for velocities) and 1500 sorts and pushes, also with comparisons that are no order (`sorts.py`).
  Known and without consequence: iterators start again when they are used twice, `isinstance` of an exception is false.

### What is not modelled

* Files other than in memory: short reads, errors of the operating system, `open`.  `dump` and `load`
  are modelled as functions on byte strings; what was written before an exception is modelled.
* Arguments outside the annotated types beyond those with an explicit branch in the code: elements that
  are not notes in iterables given to `Track.add`, integer or `Fraction` velocities and speeds, float
  nominators, subclasses of the classes of the project, attributes set from outside.
* Text of exception messages; `__hash__`; pickling; memory and time.  The exact depth at which CPython
  raises RecursionError: only whether the recursion ends.
* Of `scripts/generate_chords.py`, the command line and the writing of the file.
* Concurrency.  The code has none.

## Properties and results

46 properties are proved as stated; 21 have status partial.  Each of these 21 is false of the code as
stated; the refutation is a theorem `..._refuted`, the strongest true part a theorem `..._partial`, and
the statement in `properties.jsonl` is unchanged.

| id | result |
|---|---|
| C01, C02, C04-C07 | proved: signatures as rationals, powers of two, laws |
| C03 | **false**: `_to_common_denominator` swaps operands if the left denominator is smaller; exact behaviour of all four comparisons for every pair |
| C08, C09, C11, C12 | proved: notation of tones, octaves, transposition |
| C10 | **false**: `re.match` ignores trailing text; exactly which strings are accepted and as what |
| C13 | true over the reals; in binary64 **false** at the ends (overflow, underflow), error bound in between |
| C14, C15 | proved: construction and copies of notes |
| C16 | equality proved; order **false** (C03); exact behaviour for every pair |
| C17, C18, C20, C23, C24 | proved by an invariant over arbitrary histories of operations |
| C19 | **false** for the order of notes of one tone and position; everything else proved |
| C21, C22, C26 | **false** (C03); proved under conditions on denominators |
| C25 | **false** (`zip` stops at the shorter track); proved for equal lengths |
| C27-C29 | proved: 50 chord functions against the generator's table |
| C30, C31 | proved: variable-length quantities |
| C32, C34-C39 | proved: what is written, velocities, times |
| C33 | **false** above 255 pulses per quarter; proved below |
| C40, C41 | **false** for overlaps, empty notes, velocity 0 and 16 MB; proved for the rest |
| C42 | **false**: RecursionError and AssertionError; proved that only these, and when (C57) |
| C43, C46, C49, C55 | proved: truncated files, running status, pairing, no read past the end |
| C44 | **false**: three of four size bytes are used; proved below 2^24 |
| C45 | **false** for system exclusive; proved for every other message |
| C47, C48 | **false** for files without notes, resp. by C03; proved for the rest |
| C50, C51 | proved: randomize_velocities |
| C52, C53 | **false** by C03, resp. for resolutions not dividing 4096; proved for the rest |
| C54 | proved: printed forms of signatures and tones |
| C57 | proved: exactly which byte strings are accepted, and what they mean |
| C58, C59 | proved: loaded tracks are valid; notes of one tone are apart |
| C60 | proved: operations on one track object do not affect others |
| C61 | **false**: adding to the track the loop runs over does not end; proved for all other loops |
| C62 | notes proved, tracks **false** by C03 (order among notes of one tone and position); multiset proved |
| C63 | proved: `str` of notes and tracks |
| C64 | proved: constructors, `dumps`, `loads` |
| C65 | proved: size of files; round trips from conditions on the contents; the random test of the project |
| C66 | proved: the tempo for every float speed |
| C67 | proved: the generator writes its table, for every table; `chord.py` is its output |
| C68 | proved: integers, chunks, headers and events, for all arguments |
| C69 | proved: the machine is deterministic; importing the modules gives their names and defaults |
| C70-C73 | proved: the source of `signature.py`, `tone.py`, `note.py` and `chord.py` computes what the models say |
| C74 | proved: the same for `track.py`, with the effects on the track |
| C75 | proved: the same for the writing half of `midi.py`, with the effects on the track and the file |
| C76 | proved: the same for `processing/track.py`, whatever random.gauss and math.sqrt give |
| C77 | proved: the same for the reading half of `midi.py`; where the model has RecursionError, the run of the source exceeds every number of active calls (the machine has no recursion limit) |
| C78 | proved: the two tests of the project that draw random numbers pass whatever is drawn, and `t == midi.loads(midi.dumps(t))` is `True` for every track a MIDI file can hold, run from the source |
| C79 | proved: the violations in the theorems `..._refuted` of C03, C10, C16, C19, C21, C22, C25, C26, C33, C40-C42, C44, C45, C47, C48, C52, C53 happen when the source itself is run; the project's tests without random numbers pass on the machine |
| C80 | proved: adequacy for expressions of any depth (`RefineTerm`), and algebraic laws as expressions of the source that are True on every heap; floats given as velocities have to be binary64 numbers |
| C81 | proved: adequacy for programs with tracks, aliases, conditionals and loops (`Client`, `RefineStore`, `RefineClient`), and what loops that derive a track from another one compute; the meaning `exec` is partial: wrong operand types and adding to a track inside a loop over it have none |
| C82 | proved: what `midi.loads` does with every byte string (the notes of the events of the file, or which exception), what `midi.dumps` does with every track (the structure, notes and size of the file, or which exceptions) and how many notes survive both, as statements about runs of the source without the models of the reader and the writer |
| C83 | proved: programs that write a piece note by note (any number of lines of any numbers and floats), from their text to the track or ValueError, to the file, and back to an equal track |
| C84 | proved: randomize_velocities in runs of the source, for any numbers drawn: same notes but for velocities within the bounds, the old track looks the same, one draw per note; ValueError otherwise; and the bytes of the file written from the result |
| C85 | proved: what bytes the formatting methods of MIDIWriter give and what numbers the reading methods of MIDIReader get from which bytes, in runs of the source; reading a written variable-length number gives it back; ticks as signatures and back (within one tick, `q <= 4096`) |
| C86 | proved: the program that writes, reads, writes and reads again, in runs of the source: the second reading is equal to the first and the bytes stay the same, for tracks with at least one note of which nothing but velocities is lost (at most 1198000 notes) |
| C87 | proved: the program that reads a voice of a file of any program, writes it and reads it again, in runs of the source: the result is equal to what was read first, if the note events of the voice are on a grid of 1/128, have data bytes below 128 and last; an example shows that the grid is needed |
| C88 | proved: the programs that write a track with a tempo on a channel and read it from this channel, from all channels and from another channel, in runs of the source: equal, equal, ValueError; for tracks with at least one note of which nothing is lost in a file |
| C89 | proved: the programs that add the notes of one track to another, at its end or at their positions, in runs of the source; the end is what the property `length` says (see C21 for when this is the end of the last note) |

## Trusted base

* The Coq 8.16.1 kernel, including `vm_compute`.
* The reading of the Python code: the model files, and the semantics of Python recorded above.  It was
  compared with the project's test suite (`Conformance`), and for the functions named in C70-C89 it is
  replaced by the exported syntax trees and the rules of `PySem`.
* The contracts `sort_contract`, `digit_table`, `pow_contract`, `digits_contract` describe the
  interpreter and the C library; each has a witness.
* Flocq is used in proofs.  It adds no axiom of its own to any theorem.

### Axioms

`Print Assumptions` follows every theorem.  All theorems are "Closed under the global context" except
C13_partial, C13_float_base, C13_float_octave, C13_float_error, C13_float_increasing,
C13_float_refuted, C13_float_overflow, C13_float_underflow, C13_pow_contract, C66_tempo, C66_exact,
C66_monotone and C66_fits, which are about real numbers and use (at most) these four of the standard library:

* `ClassicalDedekindReals.sig_forall_dec`
* `ClassicalDedekindReals.sig_not_dec`
* `FunctionalExtensionality.functional_extensionality_dep`
* `Classical_Prop.classic`

`coqchk -o` lists, besides these four, names of the standard library that are parameters of its own
module types (`Rdefinitions.RbaseSymbolsImpl.*`, `Rdefinitions.RinvImpl.*`, `ssr.ssrunder.Under_rel.*`);
none is an axiom of this development or of Flocq.
No axioms, variables, hypotheses, admitted proofs, functors or module types are declared here, and no
kernel check is switched off.
