(** Properties of reading MIDI files (C42-C49, C55).

    Files, events, streams and the notes they describe are those of MidiSpec.v and ReaderSpec.v; a
    file is any list of bytes. *)
From Coq Require Import ZArith QArith Qround Qreduction List Bool Permutation Sorted.
From Verif Require Import Py PyFloat PySort Timsort Signature Tone Note Track MidiWriter MidiReader
  SpecBase TrackSpec MidiSpec ReaderSpec DumpSpec TimsortFacts TrackProps WriterFacts ReadFacts ReaderProps LoadProps TripSpec TripFacts TripProps ChannelProps.
Import ListNotations.
Open Scope Z_scope.

(** Load with the sort of CPython and middle C = C4; only what can be seen of the result. *)
Definition ex_load (file : bytes) (channel : option Z) : res (sig * list (Q * Z * Q * Q)) :=
  match load cpython_sort (mkMR 24) file channel with
  | Ok t => Ok (t_signature t, map value_of (yields cpython_sort t))
  | Err e => Err e
  end.
Definition ex_end : list (Z * midi_event) := [(0, MEndOfTrack)].
(** Two quarters on channel 0, the second one started while the first one sounds. *)
Definition ex_events : list (Z * midi_event) :=
  [(0, MNoteOn 0 60 127); (96, MNoteOn 0 64 127); (0, MNoteOn 0 60 0); (96, MNoteOff 0 64 0)].

(** C42: the full statement; it is false. *)
Print only_parsing_errors.
Theorem C42_refuted :
  forall sort,
  ~ only_parsing_errors sort /\
  (exists file, Forall is_byte file /\ forall m channel, load sort m file channel = Err RecursionError) /\
  (exists file, Forall is_byte file /\ forall m channel, load sort m file channel = Err AssertionError).
Proof. exact c42_refuted. Qed.
Print Assumptions C42_refuted.
(** C42: what holds.  Missing: the two other exceptions are possible, but only for the reasons given
    ([no_status], [zero_division]). *)
Theorem C42_partial :
  forall sort, sort_contract sort -> forall m file channel, Forall is_byte file ->
  match load sort m file channel with
  | Ok _ | Err MIDIParsingError => True
  | Err ValueError => channel <> None
  | Err RecursionError => no_status file
  | Err AssertionError => zero_division file
  | Err _ => False
  end.
Proof. exact c42_partial. Qed.
Print Assumptions C42_partial.
Example C42_ex :
  ex_load (smf 96 [0; 144; 60]) None = Err MIDIParsingError /\
  ex_load (smf 96 [0; 60; 64; 0; 255; 47; 0]) None = Err RecursionError /\
  ex_load (smf 0 (plain_bytes (ex_events ++ ex_end))) None = Err AssertionError /\
  ex_load (smf 96 (plain_bytes (ex_events ++ ex_end))) (Some 1) = Err ValueError /\
  ex_load (smf 96 (plain_bytes (ex_events ++ ex_end))) None =
    Ok (mkSig 4 4, [(0%Q, 36, (1 # 4)%Q, 1%Q); ((1 # 4)%Q, 40, (1 # 4)%Q, 1%Q)]).
Proof. repeat split; vm_compute; reflexivity. Qed.

(** C43 *)
Theorem C43_truncated :
  forall sort, sort_contract sort -> forall nd ppq middle_c bpm channel w,
  writer_new nd ppq middle_c bpm channel = Ok w ->
  forall s ops, valid_sig s -> Forall op_ok ops ->
  forall bs, dumps sort w (run sort (track_empty s) ops) = Ok bs ->
  forall before after, bs = before ++ after -> after <> [] ->
  forall m chan, load sort m before chan = Err MIDIParsingError.
Proof. exact c43_truncated. Qed.
Print Assumptions C43_truncated.
Example C43_ex : let bs := smf 96 (plain_bytes (ex_events ++ ex_end)) in
  forallb (fun n => match load cpython_sort (mkMR 24) (firstn n bs) None with Err MIDIParsingError => true | _ => false end)
    (seq 0 (length bs)) = true /\ length bs = 42%nat.
Proof. split; vm_compute; reflexivity. Qed.

(** C44: the full statement; it is false. *)
Print loads_what_was_dumped.
Theorem C44_refuted :
  forall sort, sort_contract sort -> ~ loads_what_was_dumped sort.
Proof. exact c44_refuted. Qed.
Print Assumptions C44_refuted.
(** C44: what goes wrong: the size is read modulo 2^24, and no larger file can be loaded. *)
Theorem C44_chunk :
  forall fuel m s name body rest, length name = 4%nat -> Z.of_nat (length body) < 2 ^ 32 ->
  let n := Z.to_nat (Z.of_nat (length body) mod 2 ^ 24) in
  load_loop (S fuel) m s (chunk name body ++ rest) =
  (let! s' := load_chunk m s name (firstn n body) in load_loop fuel m s' (skipn n body ++ rest)).
Proof. exact c44_chunk. Qed.
Print Assumptions C44_chunk.
Theorem C44_rejected :
  forall sort, sort_contract sort -> forall nd ppq middle_c bpm channel w,
  writer_new nd ppq middle_c bpm channel = Ok w ->
  forall s ops, valid_sig s -> Forall op_ok ops ->
  forall bs, dumps sort w (run sort (track_empty s) ops) = Ok bs ->
  22 + 2 ^ 24 <= Z.of_nat (length bs) ->
  forall m chan, load sort m bs chan = Err MIDIParsingError.
Proof. exact c44_rejected. Qed.
Print Assumptions C44_rejected.
(** C44: what holds.  Missing: chunks of 2^24 bytes and more. *)
Theorem C44_partial :
  forall sort, sort_contract sort -> forall nd ppq middle_c bpm channel w,
  writer_new nd ppq middle_c bpm channel = Ok w ->
  forall s ops, valid_sig s -> Forall op_ok ops ->
  forall bs, dumps sort w (run sort (track_empty s) ops) = Ok bs ->
  Z.of_nat (length bs) < 22 + 2 ^ 24 ->
  forall m, exists t, load sort m bs None = Ok t.
Proof. exact c44_partial. Qed.
Print Assumptions C44_partial.
Example C44_ex : let body := plain_bytes (ex_events ++ ex_end) in
  length body = 20%nat /\
  ex_load (smf_header 96 ++ [77; 84; 114; 107] ++ [1; 0; 0; 20] ++ body) None = ex_load (smf 96 body) None /\
  ex_load (smf_header 96 ++ [77; 84; 114; 107] ++ [0; 0; 0; 21] ++ body) None = Err MIDIParsingError.
Proof. repeat split; vm_compute; reflexivity. Qed.

(** C45: the full statement; it is false. *)
Print everything_skipped.
Theorem C45_refuted :
  forall sort, ~ everything_skipped sort.
Proof. exact c45_refuted. Qed.
Print Assumptions C45_refuted.
(** C45: what goes wrong: system exclusive messages and undefined status bytes stop the reader. *)
Theorem C45_exclusive :
  forall sort, forall m q evs b d dt s rest, 0 <= q <= 32767 ->
  stream_bytes None evs b -> evs_ok evs -> vlq_of d dt -> 128 <= s < 255 -> message_length s = None ->
  Z.of_nat (length (b ++ d ++ s :: rest)) < 2 ^ 24 ->
  forall channel, load sort m (smf q (b ++ d ++ s :: rest)) channel = Err MIDIParsingError.
Proof. exact c45_exclusive. Qed.
Print Assumptions C45_exclusive.
(** C45: what holds (also for events with a delta time).  Missing: system exclusive messages, where
    it is false. *)
Theorem C45_partial :
  forall sort, sort_contract sort -> forall m q b b' evs1 evs2 d e dt dt', 0 <= q <= 32767 ->
  unsupported e -> evs_ok (evs1 ++ (d, e) :: evs2) ->
  stream_bytes None (evs1 ++ later d evs2 ++ [(dt, MEndOfTrack)]) b ->
  stream_bytes None (evs1 ++ (d, e) :: evs2 ++ [(dt', MEndOfTrack)]) b' ->
  Z.of_nat (length b) < 2 ^ 24 -> Z.of_nat (length b') < 2 ^ 24 ->
  forall channel, load sort m (smf q b') channel = load sort m (smf q b) channel.
Proof. exact c45_partial. Qed.
Print Assumptions C45_partial.
Example C45_ex :
  let file evs := smf 96 (plain_bytes evs) in
  ex_load (file ([(0, MMeta 1 [65; 66]); (0, MOther 192 [5])] ++ ex_events ++ [(0, MOther 248 []); (0, MMeta 81 [7; 161; 32])] ++ ex_end)) None =
  ex_load (file (ex_events ++ ex_end)) None /\
  ex_load (smf 96 (plain_bytes ex_events ++ [0; 240; 1; 247] ++ plain_bytes ex_end)) None = Err MIDIParsingError.
Proof. repeat split; vm_compute; reflexivity. Qed.

(** C46: running status. *)
Theorem C46_running :
  forall sort, sort_contract sort -> forall m q b b' evs dt, 0 <= q <= 32767 ->
  stream_bytes None (evs ++ [(dt, MEndOfTrack)]) b -> stream_bytes None (evs ++ [(dt, MEndOfTrack)]) b' ->
  evs_ok evs -> Z.of_nat (length b) < 2 ^ 24 -> Z.of_nat (length b') < 2 ^ 24 ->
  forall channel, load sort m (smf q b) channel = load sort m (smf q b') channel.
Proof. exact c46_running. Qed.
Print Assumptions C46_running.
(** C46: more generally, only the note events and the time signatures matter. *)
Theorem C46_same_events :
  forall sort, sort_contract sort -> forall m q b b' evs evs' dt dt', 0 <= q <= 32767 ->
  stream_bytes None (evs ++ [(dt, MEndOfTrack)]) b -> stream_bytes None (evs' ++ [(dt', MEndOfTrack)]) b' ->
  evs_ok evs -> evs_ok evs' -> Z.of_nat (length b) < 2 ^ 24 -> Z.of_nat (length b') < 2 ^ 24 ->
  note_events_of evs = note_events_of evs' -> signatures_of (-1) evs = signatures_of (-1) evs' ->
  forall channel, load sort m (smf q b) channel = load sort m (smf q b') channel.
Proof. exact c46_same_events. Qed.
Print Assumptions C46_same_events.
Example C46_ex :
  ex_load (smf 96 ([0; 144; 60; 127;  96; 64; 127;  0; 60; 0;  96; 64; 0] ++ plain_bytes ex_end)) None =
  ex_load (smf 96 (plain_bytes (ex_events ++ ex_end))) None.
Proof. vm_compute. reflexivity. Qed.

(** C47: what the channels of a file are. *)
Theorem C47_channels :
  forall evs,
  NoDup (channels_of evs) /\
  forall c, In c (channels_of evs) <-> exists e, In e (note_events_of evs) /\ ne_channel e = c.
Proof. exact c47_channels_of. Qed.
Print Assumptions C47_channels.
(** C47: the full statements; they are false for files and tracks without notes. *)
Print other_channels_raise.
Print own_channel_is_all.
Theorem C47_refuted :
  sort_contract cpython_sort /\ ~ other_channels_raise cpython_sort /\ ~ own_channel_is_all cpython_sort.
Proof. exact c47_refuted. Qed.
Print Assumptions C47_refuted.
(** C47: what holds.  Missing: a file without note events is read as an empty track on channel 0. *)
Theorem C47_partial :
  forall sort, sort_contract sort -> forall m file, Forall is_byte file ->
  (exists e, forall channel, load sort m file channel = Err e) \/
  exists evs, evs_ok evs /\ has_track file evs /\
    let present := match channels_of evs with [] => [0] | l => l end in
    (forall c, In c present -> exists t, load sort m file (Some c) = Ok t) /\
    (forall c, ~ In c present -> load sort m file (Some c) = Err ValueError) /\
    exists t, load sort m file None = Ok t /\
      Permutation (map value_of (yields sort t)) (flat_map (of_channel sort m file) present).
Proof. exact c47_any_file. Qed.
Print Assumptions C47_partial.
(** C47: a dumped track.  Missing: tracks without notes; and the iteration order of notes that are
    not [consistent]. *)
Theorem C47_dumped_partial :
  forall sort, sort_contract sort -> forall ppq channel w c c' m s ops bs,
  trip sort ppq channel w c c' m s ops bs -> contents sort s ops <> [] ->
  exists t u, load sort m bs (Some channel) = Ok t /\ load sort m bs None = Ok u /\
    (forall c0, c0 <> channel -> load sort m bs (Some c0) = Err ValueError) /\
    (sval (t_signature t) == sval (t_signature u))%Q /\
    Permutation (map value_of (yields sort t)) (map value_of (yields sort u)) /\
    (consistent (yields sort t) -> eq_result sort t u = true /\ eq_result sort u t = true).
Proof. exact c47_dumped. Qed.
Print Assumptions C47_dumped_partial.
Example C47_ex : let file := smf 96 (plain_bytes (two_signatures ++ ex_end)) in
  ex_load file (Some 0) = Ok (mkSig 7 8, [(0%Q, 36, (1 # 4)%Q, Qred (fval (velocity_of_byte 64)))]) /\
  ex_load file (Some 1) = Ok (mkSig 3 4, [((1 # 4)%Q, 36, (1 # 4)%Q, Qred (fval (velocity_of_byte 64)))]) /\
  ex_load file (Some 2) = Err ValueError /\
  ex_load (smf 96 (plain_bytes ex_end)) (Some 0) = Ok (mkSig 4 4, []).
Proof. repeat split; vm_compute; reflexivity. Qed.

(** C48: the full statement; it is false. *)
Print merged_is_largest.
Theorem C48_refuted :
  sort_contract cpython_sort /\ ~ merged_is_largest cpython_sort.
Proof. exact c48_refuted. Qed.
Print Assumptions C48_refuted.
(** C48: what holds: it is the signature of some channel, and the largest one if the denominators
    never decrease in the order of the channels. *)
Theorem C48_partial :
  forall sort, sort_contract sort -> forall m file t, Forall is_byte file ->
  load sort m file None = Ok t ->
  exists evs, evs_ok evs /\ has_track file evs /\
    let present := match channels_of evs with [] => [0] | l => l end in
    (forall c, In c present -> exists u, load sort m file (Some c) = Ok u /\ t_signature u = chan_sig evs c) /\
    (exists c, In c present /\ (sval (chan_sig evs c) == sval (t_signature t))%Q) /\
    (StronglySorted Z.le (map (fun c => denominator (chan_sig evs c)) present) ->
     forall c, In c present -> (sval (chan_sig evs c) <= sval (t_signature t))%Q).
Proof. exact c48_partial. Qed.
Print Assumptions C48_partial.
Example C48_ex : let file n d n' d' := smf 96 (plain_bytes ([(0, MChannelPrefix 0); (0, MTimeSignature n d 24 8);
    (0, MChannelPrefix 1); (0, MTimeSignature n' d' 24 8)] ++ ex_events ++ [(0, MNoteOn 1 60 64); (96, MNoteOff 1 60 0)] ++ ex_end)) in
  let s f := match ex_load f None with Ok (s, _) => Some s | Err _ => None end in
  s (file 3 2 7 3) = Some (mkSig 7 8) /\ s (file 7 3 3 2) = Some (mkSig 3 4).
Proof. split; vm_compute; reflexivity. Qed.

(** C49: every file. *)
Theorem C49_any_file :
  forall sort, sort_contract sort -> forall m file c t, Forall is_byte file ->
  load sort m file (Some c) = Ok t ->
  exists q evs pairs, 0 <= q <= 32767 /\ evs_ok evs /\ has_track file evs /\
    let events := on_channel c (note_events_of evs) in
    notes_listed events pairs /\
    Permutation (map value_of (yields sort t)) (map (note_read (mr_delta m) q events) pairs) /\
    t_signature t = chan_sig evs c.
Proof. exact c49_any_file. Qed.
Print Assumptions C49_any_file.
(** C49: every stream of events. *)
Theorem C49_stream :
  forall sort, sort_contract sort -> forall m q b rest evs dt, 0 < q <= 32767 ->
  stream_bytes None (evs ++ [(dt, MEndOfTrack)]) b -> evs_ok evs -> Z.of_nat (length (b ++ rest)) < 2 ^ 24 ->
  forall c, let events := on_channel c (note_events_of evs) in
  events <> [] ->
  exists t pairs, load sort m (smf q (b ++ rest)) (Some c) = Ok t /\ notes_listed events pairs /\
    Permutation (map value_of (yields sort t)) (map (note_read (mr_delta m) q events) pairs) /\
    t_signature t = chan_sig evs c.
Proof. exact c49_stream. Qed.
Print Assumptions C49_stream.
(** C49: the list of notes is determined by the events. *)
Theorem C49_unique :
  forall l pairs pairs', notes_listed l pairs -> notes_listed l pairs' -> pairs = pairs'.
Proof. exact c49_unique. Qed.
Print Assumptions C49_unique.
Example C49_ex :
  ex_load (smf 96 (plain_bytes ([(0, MNoteOff 0 60 0); (0, MNoteOn 0 60 127); (48, MNoteOn 0 60 1); (48, MNoteOn 0 60 0); (0, MNoteOff 0 60 0);
     (0, MNoteOn 0 62 127)] ++ ex_end))) (Some 0) = Ok (mkSig 4 4, [(0%Q, 36, (1 # 4)%Q, 1%Q)]).
Proof. vm_compute. reflexivity. Qed.

(** C55: one read. *)
Theorem C55_read :
  forall data i n, 0 <= n -> 0 <= i <= Z.of_nat (length data) ->
  (i + n <= Z.of_nat (length data) ->
     read n (mkReader data i) = (mkReader data (i + n), Ok (slice data i n))) /\
  (Z.of_nat (length data) < i + n -> snd (read n (mkReader data i)) = Err MIDIParsingError).
Proof. exact c55_read. Qed.
Print Assumptions C55_read.
(** C55: every read and shift of every execution of the parser: with primitives that insist on
    staying inside the data the parser does the same. *)
Theorem C55_parser :
  forall data, Forall is_byte data ->
  parse_loop_with read shift = parse_loop /\
  let run_ := parse_loop (S (length data)) (mkPS None [] [] (-1) 0) (reader_new data) in
  parse_loop_with checked_read checked_shift (S (length data)) (mkPS None [] [] (-1) 0) (reader_new data) = run_ /\
  snd run_ <> Err KeyError /\ rd_data (fst run_) = data /\ 0 <= rd_idx (fst run_) <= Z.of_nat (length data).
Proof. exact c55_parser. Qed.
Print Assumptions C55_parser.
Theorem C55_header :
  forall data,
  parse_header_with read = parse_header /\
  parse_header_with checked_read (reader_new data) = parse_header (reader_new data) /\
  snd (parse_header (reader_new data)) <> Err KeyError.
Proof. exact c55_header. Qed.
Print Assumptions C55_header.
Example C55_ex : read 2 (mkReader [1; 2; 3; 4] 1) = (mkReader [1; 2; 3; 4] 3, Ok [2; 3]) /\
  snd (read 2 (mkReader [1; 2; 3; 4] 3)) = Err MIDIParsingError /\
  snd (checked_shift (-2) (mkReader [1; 2] 1)) = Err KeyError.
Proof. repeat split; vm_compute; reflexivity. Qed.
