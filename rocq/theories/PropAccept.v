(** Which byte strings the reader accepts and what they mean (C57).

    [file_says file q evs]: the bytes are chunks, the last track of which has the events [evs] under
    the division [q] (AcceptSpec.v); [status_missing] and [division_missing] describe the files on
    which the code fails with something other than its parsing error (C42). *)
From Coq Require Import ZArith QArith List Bool Permutation Lia.
From Verif Require Import Py PyFloat PySort Timsort Signature Tone Note Track MidiWriter MidiReader
  SpecBase TrackSpec MidiSpec ReaderSpec AcceptSpec TimsortFacts TrackProps LoadFacts LoadProps TripSpec ChannelProps AcceptProps.
Import ListNotations.
Open Scope Z_scope.

(** C57: which files are accepted, and how all the others fail. *)
Theorem C57_outcome :
  forall sort, sort_contract sort -> forall m file, Forall is_byte file ->
  ((exists t, load sort m file None = Ok t) <-> exists q evs, file_says file q evs) /\
  (load sort m file None = Err RecursionError <-> status_missing file) /\
  (load sort m file None = Err AssertionError <-> division_missing file) /\
  ((forall channel, load sort m file channel = Err MIDIParsingError) <->
     (forall q evs, ~ file_says file q evs) /\ ~ status_missing file /\ ~ division_missing file) /\
  (forall e channel, load sort m file channel = Err e ->
     e = MIDIParsingError \/ e = RecursionError \/ e = AssertionError \/ (e = ValueError /\ channel <> None)).
Proof. exact c57_outcome. Qed.
Print Assumptions C57_outcome.
(** C57: what is loaded from an accepted file. *)
Theorem C57_meaning :
  forall sort, sort_contract sort -> forall m file q evs, Forall is_byte file -> file_says file q evs ->
  let present := match channels_of evs with [] => [0] | l => l end in
  (forall c, In c present -> exists t pairs, load sort m file (Some c) = Ok t /\
     let events := on_channel c (note_events_of evs) in
     notes_listed events pairs /\
     Permutation (map value_of (yields sort t)) (map (note_read (mr_delta m) q events) pairs) /\
     t_signature t = chan_sig evs c) /\
  (forall c, ~ In c present -> load sort m file (Some c) = Err ValueError) /\
  exists t, load sort m file None = Ok t /\
    Permutation (map value_of (yields sort t)) (flat_map (of_channel sort m file) present).
Proof. exact c57_meaning. Qed.
Print Assumptions C57_meaning.
(** C57: a file says only one thing. *)
Theorem C57_unique :
  forall file q evs q' evs', file_says file q evs -> file_says file q' evs' -> q = q' /\ evs = evs'.
Proof. exact c57_unique. Qed.
Print Assumptions C57_unique.

(** A chunk of an unknown kind, a header with one byte more than usual, a track with two bytes after
    its end. *)
Definition ex_events : list (Z * midi_event) := [(0, MNoteOn 3 60 100); (96, MNoteOff 3 60 64)].
Definition ex_accepted : bytes :=
  [88; 89; 90; 90; 0; 0; 0; 2; 7; 7] ++
  [77; 84; 104; 100; 0; 0; 0; 7; 0; 0; 0; 1; 0; 96; 5] ++
  [77; 84; 114; 107; 0; 0; 0; 14] ++ (plain_bytes (ex_events ++ [(0, MEndOfTrack)]) ++ [1; 2]).
Example C57_ex_says : file_says ex_accepted 96 ex_events.
Proof.
  exists [([88; 89; 90; 90], [7; 7]); (name_header, [0; 0; 0; 1; 0; 96; 5]);
          (name_track, plain_bytes (ex_events ++ [(0, MEndOfTrack)]) ++ [1; 2])], (Some 96). split.
  - unfold ex_accepted.
    apply (C_cons [88; 89; 90; 90] [0; 0; 0; 2] [7; 7]); try reflexivity.
    apply (C_cons name_header [0; 0; 0; 7] [0; 0; 0; 1; 0; 96; 5]); try reflexivity.
    rewrite <- (app_nil_r (plain_bytes _ ++ _)).
    apply (C_cons name_track [0; 0; 0; 14]); try reflexivity. constructor.
  - change (says ((([] ++ [([88; 89; 90; 90], [7; 7])]) ++ [(name_header, [0; 0; 0; 1; 0; 96; 5])]) ++
      [(name_track, plain_bytes (ex_events ++ [(0, MEndOfTrack)]) ++ [1; 2])]) (Some 96) (Some (96, ex_events))).
    eapply Y_track; [apply Y_header with (q := None)| |discriminate].
    + apply Y_other; [constructor|discriminate|discriminate].
    + exists 0, 96, [5]. split; [reflexivity|]. split; [reflexivity|lia].
    + exists 0, (plain_bytes (ex_events ++ [(0, MEndOfTrack)])), [1; 2]. split; [reflexivity|]. split.
      * repeat split; repeat constructor; cbn; try lia; discriminate.
      * split; [lia|]. apply stream_bytes_read, plain_stream. repeat constructor; cbn; lia.
Qed.
(** Cut short, without a header, with a second track in the header: not accepted. *)
Example C57_ex :
  (match load cpython_sort (mkMR 24) ex_accepted (Some 3) with
   | Ok t => map value_of (yields cpython_sort t)
   | Err _ => []
   end) = [(0%Q, 36, (1 # 4)%Q, Qred (fval (velocity_of_byte 100)))] /\
  load cpython_sort (mkMR 24) ex_accepted (Some 0) = Err ValueError /\
  load cpython_sort (mkMR 24) (removelast ex_accepted) None = Err MIDIParsingError /\
  load cpython_sort (mkMR 24) (skipn 25 ex_accepted) None = Err MIDIParsingError /\
  load cpython_sort (mkMR 24) ([77; 84; 104; 100; 0; 0; 0; 6; 0; 1; 0; 1; 0; 96] ++ skipn 25 ex_accepted) None = Err MIDIParsingError /\
  load cpython_sort (mkMR 24) ([77; 84; 104; 100; 0; 0; 0; 6; 0; 0; 0; 2; 0; 96] ++ skipn 25 ex_accepted) None = Err MIDIParsingError /\
  load cpython_sort (mkMR 24) ([77; 84; 104; 100; 0; 0; 0; 6; 0; 0; 0; 1; 128; 0] ++ skipn 25 ex_accepted) None = Err MIDIParsingError.
Proof. repeat split; vm_compute; reflexivity. Qed.
