(** Properties of dumping a track and loading it again (C40, C41, C53), and of loaded tracks (C58,
    C59).

    [trip sort ppq channel w c c' m s ops bs]: a writer [w] with [ppq] pulses per quarter on
    [channel] with middle C [c], a reader [m] with middle C [c'], and the track with signature [s]
    and history [ops], dumped as [bs]; [contents sort s ops] is what the history added
    (TripSpec.v). *)
From Coq Require Import ZArith QArith Qround Qreduction List Bool Permutation Sorted Lia.
From Verif Require Import Py PyFloat PySort Timsort Signature Tone Note Track MidiWriter MidiReader
  SpecBase TrackSpec MidiSpec ReaderSpec DumpSpec TimsortFacts TrackProps WriterFacts ReadFacts ReaderProps LoadProps TripSpec TripFacts TripProps StableProps.
Import ListNotations.
Open Scope Z_scope.

(** Two quarters and an eighth. *)
Definition ex_trip_ops : list op :=
  [OAdd (WNote (mkNote (mkTone 36) (mkSig 1 4) (velocity_of_byte 100))) (Some (SA_sig (mkSig 0 1)));
   OAdd (WNote (mkNote (mkTone 36) (mkSig 2 8) (velocity_of_byte 1))) (Some (SA_sig (mkSig 4 16)));
   OAdd (WNote (mkNote (mkTone 40) (mkSig 1 8) (velocity_of_byte 127))) (Some (SA_sig (mkSig 1 8)))].
(** Dump and load. *)
Definition ex_again (ops : list op) : res track :=
  match dumps cpython_sort default_writer (run cpython_sort (track_empty (mkSig 4 4)) ops) with
  | Ok bs => load cpython_sort (mkMR 24) bs None
  | Err e => Err e
  end.
Definition ex_values (r : res track) : list (Q * Z * Q * Q) :=
  match r with Ok t => map value_of (yields cpython_sort t) | Err _ => [] end.

(** C40: the full statement; it is false: a note of no duration at the start of another note does not
    overlap it, but may be lost, because durations are compared wrongly (C03). *)
Print round_trip.
Theorem C40_refuted :
  sort_contract cpython_sort /\ ~ round_trip cpython_sort.
Proof. exact c40_refuted. Qed.
Print Assumptions C40_refuted.
(** C40: what holds.  Missing: notes of one tone at one position (one of them has no duration) whose
    durations have different denominators; and files of 16 MB and more, which can not be loaded at
    all (C44). *)
Theorem C40_round_trip_partial :
  forall sort, sort_contract sort -> forall ppq channel w c c' m s ops bs,
  trip sort ppq channel w c c' m s ops bs ->
  ForallOrdPairs apart (contents sort s ops) -> consistent (contents sort s ops) ->
  Forall audible (contents sort s ops) -> Forall (whole_note ppq) (contents sort s ops) ->
  exists t, load sort m bs None = Ok t /\ (sval (t_signature t) == sval s)%Q /\
    Permutation (map value_of (yields sort t)) (map (requantised (pitch c' - pitch c)) (contents sort s ops)) /\
    (contents sort s ops <> [] -> exists u, load sort m bs (Some channel) = Ok u /\ t_signature u = s /\
      Permutation (map value_of (yields sort u)) (map (requantised (pitch c' - pitch c)) (contents sort s ops))).
Proof. exact c40_round_trip. Qed.
Print Assumptions C40_round_trip_partial.
Theorem C40_equal_partial :
  forall sort, sort_contract sort -> forall ppq channel w c c' m s ops bs,
  trip sort ppq channel w c c' m s ops bs -> pitch c' = pitch c ->
  ForallOrdPairs apart (contents sort s ops) -> plain (contents sort s ops) ->
  Forall audible (contents sort s ops) -> Forall (whole_note ppq) (contents sort s ops) -> Forall byte_velocity (contents sort s ops) ->
  exists t, load sort m bs None = Ok t /\
    eq_result sort t (run sort (track_empty s) ops) = true /\ eq_result sort (run sort (track_empty s) ops) t = true /\
    map value_of (yields sort t) = map value_of (yields sort (run sort (track_empty s) ops)).
Proof. exact c40_equal. Qed.
Print Assumptions C40_equal_partial.
(** The hypotheses can be met. *)
Example C40_setting : exists bs, trip cpython_sort 96 0 default_writer (mkTone 36) (mkTone 36) (mkMR 24) (mkSig 4 4) ex_trip_ops bs.
Proof.
  eexists. apply default_trip; [apply simple_ops_ok; vm_compute; reflexivity|vm_compute; reflexivity|vm_compute; reflexivity].
Qed.
Example C40_ex :
  (match ex_again ex_trip_ops with
   | Ok t => eq_result cpython_sort t (run cpython_sort (track_empty (mkSig 4 4)) ex_trip_ops)
   | Err _ => false
   end) = true /\
  ex_values (ex_again ex_trip_ops) =
    [(0%Q, 36, (1 # 4)%Q, Qred (fval (velocity_of_byte 100))); ((1 # 8)%Q, 40, (1 # 8)%Q, 1%Q); ((1 # 4)%Q, 36, (1 # 4)%Q, Qred (fval (velocity_of_byte 1)))].
Proof. split; vm_compute; reflexivity. Qed.

(** C41: the full statement; it is false. *)
Print no_note_lost.
Theorem C41_refuted :
  sort_contract cpython_sort /\ ~ no_note_lost cpython_sort.
Proof. exact c41_refuted. Qed.
Print Assumptions C41_refuted.
(** C41: what goes wrong: notes with velocity byte 0 are lost, too. *)
Theorem C41_quiet :
  forall sort, sort_contract sort -> forall ppq channel w c c' m s ops bs,
  trip sort ppq channel w c c' m s ops bs -> Forall (fun e => ~ audible e) (contents sort s ops) ->
  exists t, load sort m bs None = Ok t /\ track_len t = 0.
Proof. exact c41_quiet. Qed.
Print Assumptions C41_quiet.
(** C41: what holds.  Missing: notes of one tone that overlap, and notes with velocity byte 0, where
    it is false; and notes that are not [consistent]. *)
Theorem C41_partial :
  forall sort, sort_contract sort -> forall ppq channel w c c' m s ops bs,
  trip sort ppq channel w c c' m s ops bs ->
  ForallOrdPairs apart (contents sort s ops) -> consistent (contents sort s ops) -> Forall audible (contents sort s ops) ->
  exists t, load sort m bs None = Ok t /\ track_len t = track_len (run sort (track_empty s) ops) /\
    Permutation (map value_of (yields sort t)) (map (read_back ppq (pitch c' - pitch c)) (contents sort s ops)).
Proof. exact c41_partial. Qed.
Print Assumptions C41_partial.
(** C41: in any case no note is added. *)
Theorem C41_at_most :
  forall sort, sort_contract sort -> forall ppq channel w c c' m s ops bs,
  trip sort ppq channel w c c' m s ops bs ->
  exists t, load sort m bs None = Ok t /\ track_len t <= track_len (run sort (track_empty s) ops).
Proof. exact c41_at_most. Qed.
Print Assumptions C41_at_most.
Example C41_ex : ex_values (ex_again overlapping) = [(0%Q, 36, (1 # 2)%Q, Qred (fval (velocity_of_byte 63)))] /\
  length (ex_values (ex_again [OAdd (WNote (mkNote (mkTone 36) (mkSig 1 4) (velocity_of_byte 0))) None])) = 0%nat /\
  length (ex_values (ex_again ex_trip_ops)) = 3%nat.
Proof. repeat split; vm_compute; reflexivity. Qed.

(** C53: the full statement; it is false. *)
Print stable.
Theorem C53_refuted :
  sort_contract cpython_sort /\ ~ stable cpython_sort.
Proof. exact c53_refuted. Qed.
Print Assumptions C53_refuted.
(** C53: what holds.  Missing: resolutions that do not divide 4096 unless the times are whole pulses;
    and notes of one tone and position with different durations (one of them is 0). *)
Theorem C53_partial :
  forall sort, sort_contract sort -> forall ppq channel w c m s ops bs ch t1 s' ops' bs',
  trip sort ppq channel w c c m s ops bs -> load sort m bs ch = Ok t1 ->
  t1 = run sort (track_empty s') ops' -> trip sort ppq channel w c c m s' ops' bs' ->
  plain (contents sort s' ops') -> (ppq | 4096) \/ Forall (whole_note ppq) (contents sort s' ops') ->
  exists t2, load sort m bs' None = Ok t2 /\ eq_result sort t2 t1 = true /\ eq_result sort t1 t2 = true /\
    map value_of (yields sort t2) = map value_of (yields sort t1).
Proof. exact c53_partial. Qed.
Print Assumptions C53_partial.
Example C53_ex :
  map (fun v => fst (fst (fst v))) (ex_values (ex_again drifting)) = [(1365 # 16384)%Q] /\
  map (fun v => fst (fst (fst v))) (ex_values (ex_again (drifted 1365))) = [(661 # 8192)%Q].
Proof. split; vm_compute; reflexivity. Qed.

(** C58 *)
Theorem C58_loaded :
  forall sort, sort_contract sort -> forall m file channel t, Forall is_byte file ->
  load sort m file channel = Ok t ->
  exists s ops, valid_sig s /\ Forall op_ok ops /\ Forall (fun o => is_add o = true) ops /\ t = run sort (track_empty s) ops.
Proof. exact c58_loaded. Qed.
Print Assumptions C58_loaded.
Example C58_ex : match ex_again drifting with
  | Ok t => t = run cpython_sort (track_empty (mkSig 4 4)) (drifted 1365)
  | Err _ => False
  end.
Proof. vm_compute. reflexivity. Qed.

(** C59 *)
Theorem C59_apart :
  forall sort, sort_contract sort -> forall m file c t, Forall is_byte file ->
  load sort m file (Some c) = Ok t -> ForallOrdPairs apart (yields sort t).
Proof. exact c59_apart. Qed.
Print Assumptions C59_apart.
Example C59_ex : exists bs t, dumps cpython_sort default_writer (run cpython_sort (track_empty (mkSig 4 4)) overlapping) = Ok bs /\
  load cpython_sort (mkMR 24) bs (Some 0) = Ok t /\ map value_of (yields cpython_sort t) = ex_values (ex_again overlapping) /\
  ~ ForallOrdPairs apart (contents cpython_sort (mkSig 4 4) overlapping).
Proof.
  eexists _, _. split; [vm_compute; reflexivity|]. split; [vm_compute; reflexivity|]. split; [vm_compute; reflexivity|].
  intros H. inversion H as [|? ? H1 _]; subst. inversion H1 as [|? ? H2 _]; subst. destruct (H2 eq_refl) as [H3|H3]; vm_compute in H3; congruence.
Qed.
