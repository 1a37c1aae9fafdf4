(** The size of a dumped file and round trips with conditions on the contents alone (C65).

    [contents sort s ops] are the notes added with their positions (TrackSpec.v), [last_pulse] the
    pulse at which a note ends; [apart], [plain], [audible], [whole_note] and [byte_velocity] are the
    conditions of C40 (TripSpec.v).  [spread] is the generator of tests/melodia/io/test_midi_serialize.py
    (SizeProps.v). *)
From Coq Require Import ZArith QArith List Bool.
From Verif Require Import Py PyFloat PySort Timsort Signature Tone Note Track MidiWriter MidiReader
  SpecBase TrackSpec MidiSpec DumpSpec TimsortFacts TrackFacts TrackProps TripSpec SizeProps.
Import ListNotations.
Open Scope Z_scope.

(** C65: such a track is written, in 41 bytes and 8 to 14 more for each note. *)
Theorem C65_writes :
  forall sort, sort_contract sort -> forall nd ppq middle_c bpm channel w c,
  writer_new nd ppq middle_c bpm channel = Ok w -> tone_of_arg nd middle_c = Ok c -> ppq <= 255 ->
  forall s ops, valid_sig s -> Forall op_ok ops ->
  Forall (fun e => in_midi_range (pitch c) (snd e)) (contents sort s ops) -> sig_fits s -> tempo_fits bpm ->
  Forall (fun e => last_pulse ppq e < 2 ^ 28) (contents sort s ops) -> Z.of_nat (length (contents sort s ops)) <= 2 ^ 28 ->
  exists bs, dumps sort w (run sort (track_empty s) ops) = Ok bs /\
    41 + 8 * Z.of_nat (length (contents sort s ops)) <= Z.of_nat (length bs) <= 41 + 14 * Z.of_nat (length (contents sort s ops)).
Proof. exact c65_writes. Qed.
Print Assumptions C65_writes.
(** C65: and read again as an equal track. *)
Theorem C65_round_trip :
  forall sort, sort_contract sort -> forall nd ppq middle_c bpm channel w c nd' middle_c' m c',
  writer_new nd ppq middle_c bpm channel = Ok w -> tone_of_arg nd middle_c = Ok c -> ppq <= 255 ->
  midi_reader_new nd' middle_c' = Ok m -> tone_of_arg nd' middle_c' = Ok c' -> pitch c' = pitch c ->
  forall s ops, valid_sig s -> Forall op_ok ops ->
  Forall (fun e => in_midi_range (pitch c) (snd e)) (contents sort s ops) -> sig_fits s -> tempo_fits bpm ->
  Forall (fun e => last_pulse ppq e < 2 ^ 28) (contents sort s ops) ->
  Z.of_nat (length (contents sort s ops)) <= 1198000 ->
  ForallOrdPairs apart (contents sort s ops) -> TripSpec.plain (contents sort s ops) ->
  Forall audible (contents sort s ops) -> Forall (whole_note ppq) (contents sort s ops) -> Forall byte_velocity (contents sort s ops) ->
  exists bs t, dumps sort w (run sort (track_empty s) ops) = Ok bs /\ load sort m bs None = Ok t /\
    eq_result sort t (run sort (track_empty s) ops) = true /\ eq_result sort (run sort (track_empty s) ops) t = true /\
    map value_of (yields sort t) = map value_of (yields sort (run sort (track_empty s) ops)).
Proof. exact c65_round_trip. Qed.
Print Assumptions C65_round_trip.
(** C65: the random test of the project succeeds whatever is drawn. *)
Theorem C65_test_suite :
  forall sort, sort_contract sort -> forall k l, 0 <= k <= 100 -> Forall drawn l -> Z.of_nat (length l) <= 50000 ->
  let t := run sort (track_empty (mkSig k 16)) (spread 1 l) in
  exists bs u, midi_dumps sort t f_120 0 = Ok bs /\ midi_loads sort bs None = Ok u /\ eq_result sort t u = true.
Proof. exact c65_test_suite. Qed.
Print Assumptions C65_test_suite.

Definition ex_size_ops : list op :=
  [OAdd (WNote (mkNote (mkTone 36) (mkSig 1 4) f_one)) (Some (SA_sig (mkSig 0 1)));
   OAdd (WNote (mkNote (mkTone 40) (mkSig 40000 1) f_one)) (Some (SA_sig (mkSig 300000 1)))].
(** 8 bytes for the first note, 14 for the second, whose start and end are each a delta time of four
    bytes away. *)
Example C65_ex_size :
  match midi_dumps cpython_sort (run cpython_sort (track_empty (mkSig 3 4)) ex_size_ops) f_120 0 with
  | Ok bs => length bs
  | Err _ => 0%nat
  end = 63%nat /\
  match midi_dumps cpython_sort (run cpython_sort (track_empty (mkSig 3 4)) []) f_120 0 with
  | Ok bs => length bs
  | Err _ => 0%nat
  end = 41%nat.
Proof. split; vm_compute; reflexivity. Qed.

Example C65_ex :
  let t := run cpython_sort (track_empty (mkSig 17 16)) (spread 1 [(30, 0); (90, 100); (30, 7)]) in
  length (yields cpython_sort t) = 3%nat /\
  match midi_dumps cpython_sort t f_120 0 with
  | Ok bs => match midi_loads cpython_sort bs None with
             | Ok u => eq_result cpython_sort t u = true /\ length bs = 70%nat
             | Err _ => False
             end
  | Err _ => False
  end.
Proof. vm_compute. auto. Qed.
