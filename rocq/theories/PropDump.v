(** What the written bytes depend on (C52). *)
From Coq Require Import ZArith QArith List Bool Permutation.
From Verif Require Import Py PyFloat PySort Timsort Signature Tone Note Track MidiWriter
  SpecBase TrackSpec TimsortFacts TrackProps WriterProps TripSpec DumpProps.
Import ListNotations.
Open Scope Z_scope.

(** C52 in full is [contents_determine_bytes]; it is false (two notes of one tone at one position
    whose durations differ and have different denominators are written in an order that depends on
    the order of insertion). *)
Theorem C52_refuted :
  sort_contract cpython_sort /\ ~ contents_determine_bytes cpython_sort.
Proof. exact c52_refuted. Qed.
Print Assumptions C52_refuted.
(** C52: what holds.  The exception or success, the number of bytes, and the bytes themselves when
    no two such notes exist. *)
Theorem C52_partial :
  forall sort, sort_contract sort -> forall nd ppq middle_c bpm channel w s ops ops',
  writer_new nd ppq middle_c bpm channel = Ok w -> valid_sig s -> Forall op_ok ops -> Forall op_ok ops' ->
  Permutation (map value_of (contents sort s ops)) (map value_of (contents sort s ops')) ->
  let o := dump sort w (run sort (track_empty s) ops) in
  let o' := dump sort w (run sort (track_empty s) ops') in
  d_result o = d_result o' /\ length (d_written o) = length (d_written o') /\
  (consistent (contents sort s ops) -> consistent (contents sort s ops') -> d_written o = d_written o').
Proof. exact c52_partial. Qed.
Print Assumptions C52_partial.
Definition ex_dump_ops : list op :=
  [OAdd (WNote (mkNote (mkTone 36) (mkSig 1 4) f_one)) (Some (SA_sig (mkSig 0 1)));
   OAdd (WNote (mkNote (mkTone 40) (mkSig 1 2) f_half)) (Some (SA_sig (mkSig 1 4)))].
Definition ex_dump_ops' : list op :=
  [OAdd (WNote (mkNote (mkTone 40) (mkSig 2 4) f_half)) (Some (SA_sig (mkSig 2 8))); OIter;
   OAdd (WNote (mkNote (mkTone 36) (mkSig 1 4) f_one)) (Some (SA_sig (mkSig 0 4)))].
Example C52_ex :
  Permutation (map value_of (contents cpython_sort (mkSig 3 4) ex_dump_ops)) (map value_of (contents cpython_sort (mkSig 3 4) ex_dump_ops')) /\
  midi_dumps cpython_sort (run cpython_sort (track_empty (mkSig 3 4)) ex_dump_ops) f_120 0 =
  midi_dumps cpython_sort (run cpython_sort (track_empty (mkSig 3 4)) ex_dump_ops') f_120 0.
Proof. split; [vm_compute; apply perm_swap|vm_compute; reflexivity]. Qed.
