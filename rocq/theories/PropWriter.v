(** Properties of writing MIDI files (C32-C36).

    The track is the result [run sort (track_empty s) ops] of any history of operations, [log] is
    what the history added (TrackSpec.v); files, events and streams are those of MidiSpec.v. *)
From Coq Require Import ZArith QArith Qround List Bool Permutation Sorted.
From Verif Require Import Py PyFloat PySort Timsort Signature Tone Note Track MidiWriter MidiReader
  SpecBase TrackSpec MidiSpec DumpSpec TimsortFacts WriterFacts WriterProps.
Import ListNotations.
Open Scope Z_scope.

(** Two notes, the second one starting when the first one ends, and one of no duration. *)
Definition ex_dump_ops : list op :=
  [OAdd (WNote (mkNote (mkTone 36) (mkSig 1 4) f_half)) None;
   OAdd (WNote (mkNote (mkTone 36) (mkSig 1 4) f_one)) None;
   OAdd (WNote (mkNote (mkTone 40) (mkSig 0 1) f_one)) (Some (SA_sig (mkSig 1 4)))].
Definition ex_writer (ppq : Z) : writer := mkWriter ppq (ppq * 4) 24 f_120 3.
Definition ex_body : bytes :=
  [0; 255; 88; 4; 3; 2; 96; 8;  0; 255; 81; 3; 7; 161; 32;
   0; 147; 60; 63;  96; 131; 60; 64;  0; 147; 60; 127;  0; 147; 64; 127;  0; 131; 64; 64;
   96; 131; 60; 64;  0; 255; 47; 0].
Example ex_writer_new : writer_new ascii_digit 96 default_middle_c f_120 3 = Ok (ex_writer 96).
Proof. reflexivity. Qed.

(** C32 *)
Theorem C32_file :
  forall sort, sort_contract sort -> forall nd ppq middle_c bpm channel w,
  writer_new nd ppq middle_c bpm channel = Ok w ->
  forall s ops, valid_sig s -> Forall op_ok ops ->
  forall bs, dumps sort w (run sort (track_empty s) ops) = Ok bs ->
  exists tempo notes body,
    bs = smf ppq body /\ Z.of_nat (length body) < 2 ^ 32 /\ Forall is_byte bs /\
    stream_bytes None ([(0, MTimeSignature (nominator s) (Z.log2 (denominator s)) ppq 8);
                        (0, MMeta 81 (be_bytes 3 tempo))] ++ notes ++ [(0, MEndOfTrack)]) body /\
    tempo_of_bpm bpm = Ok tempo /\ 0 <= tempo < 2 ^ 24 /\
    Forall (fun te => 0 <= fst te /\ exists p v, (snd te = MNoteOn channel p v \/ snd te = MNoteOff channel p v) /\
                        0 <= p < 128 /\ 0 <= v < 128) notes.
Proof. exact c32_file. Qed.
Print Assumptions C32_file.
(** C32: what [smf] says, byte by byte. *)
Theorem C32_layout :
  forall division body, 0 <= division < 65536 -> Z.of_nat (length body) < 2 ^ 32 ->
  exists size, smf division body =
    [77; 84; 104; 100; 0; 0; 0; 6; 0; 0; 0; 1; division / 256; division mod 256] ++ [77; 84; 114; 107] ++ size ++ body /\
  length size = 4%nat /\ fold_left (fun acc b => acc * 256 + b) size 0 = Z.of_nat (length body).
Proof. exact c32_layout. Qed.
Print Assumptions C32_layout.
Example C32_ex : dumps cpython_sort (ex_writer 96) (run cpython_sort (track_empty (mkSig 3 4)) ex_dump_ops) =
  Ok ([77; 84; 104; 100; 0; 0; 0; 6; 0; 0; 0; 1; 0; 96; 77; 84; 114; 107; 0; 0; 0; 43] ++ ex_body) /\
  length ex_body = 43%nat.
Proof. split; vm_compute; reflexivity. Qed.

(** C33: the full statement; it is false. *)
Print can_write.
Theorem C33_refuted :
  forall sort, sort_contract sort -> ~ can_write sort.
Proof. exact c33_refuted. Qed.
Print Assumptions C33_refuted.
(** C33: what goes wrong: no writer with more than 255 pulses per quarter ever writes anything. *)
Theorem C33_never :
  forall sort, sort_contract sort -> forall nd ppq middle_c bpm channel w,
  writer_new nd ppq middle_c bpm channel = Ok w -> 255 < ppq ->
  forall s ops, valid_sig s -> Forall op_ok ops ->
  d_written (dump sort w (run sort (track_empty s) ops)) = [] /\
  exists e, dumps sort w (run sort (track_empty s) ops) = Err e.
Proof. exact c33_never. Qed.
Print Assumptions C33_never.
(** C33: what holds.  Missing: pulses_per_quarter above 255, where it is false; and tracks whose
    body takes 2^32 bytes. *)
Theorem C33_partial :
  forall sort, sort_contract sort -> forall nd ppq middle_c bpm channel w c,
  writer_new nd ppq middle_c bpm channel = Ok w -> tone_of_arg nd middle_c = Ok c -> ppq <= 255 ->
  forall s ops, valid_sig s -> Forall op_ok ops ->
  Forall (fun e => in_midi_range (pitch c) (snd e)) (log sort (track_empty s) ops) ->
  sig_fits s -> tempo_fits bpm ->
  (exists bs, dumps sort w (run sort (track_empty s) ops) = Ok bs) \/
  (dumps sort w (run sort (track_empty s) ops) = Err OverflowError /\
   (Z.of_nat (length (log sort (track_empty s) ops)) <= 2 ^ 28 ->
    exists e, In e (log sort (track_empty s) ops) /\
      2 ^ 28 <= Qfloor (inject_Z (4 * ppq) * sval (fst e)) + Qfloor (inject_Z (4 * ppq) * sval (n_duration (snd e))))).
Proof. exact c33_partial. Qed.
Print Assumptions C33_partial.
Example C33_ex : dumps cpython_sort (ex_writer 480) (run cpython_sort (track_empty (mkSig 3 4)) ex_dump_ops) =
  Err OverflowError /\ tempo_fits f_120 /\ sig_fits (mkSig 3 4) /\
  Forall (fun e => in_midi_range 36 (snd e)) (log cpython_sort (track_empty (mkSig 3 4)) ex_dump_ops).
Proof.
  split; [vm_compute; reflexivity|]. split; [exists 500000; split; [vm_compute; reflexivity|split; [discriminate|reflexivity]]|].
  split; [split; vm_compute; discriminate|].
  change (log cpython_sort (track_empty (mkSig 3 4)) ex_dump_ops) with
    [(mkSig 0 1, mkNote (mkTone 36) (mkSig 1 4) f_half); (mkSig 1 4, mkNote (mkTone 36) (mkSig 1 4) f_one);
     (mkSig 1 4, mkNote (mkTone 40) (mkSig 0 1) f_one)].
  repeat constructor; discriminate.
Qed.

(** C34: a note, signature, resolution or tempo that can not be represented: nothing is written.  The
    only failure after something was written (the header) is a body of 2^32 bytes or more. *)
Theorem C34_nothing_written :
  forall sort, sort_contract sort -> forall nd ppq middle_c bpm channel w c,
  writer_new nd ppq middle_c bpm channel = Ok w -> tone_of_arg nd middle_c = Ok c ->
  forall s ops, valid_sig s -> Forall op_ok ops ->
  let o := dump sort w (run sort (track_empty s) ops) in
  (~ (Forall (fun e => in_midi_range (pitch c) (snd e)) (log sort (track_empty s) ops) /\
      sig_fits s /\ ppq <= 255 /\ tempo_fits bpm) ->
   d_written o = [] /\ exists e, d_result o = Err e /\ (e = ValueError \/ e = OverflowError \/ e = ZeroDivisionError)) /\
  (forall e, d_result o = Err e -> d_written o <> [] ->
     d_written o = smf_header ppq /\ e = OverflowError /\
     exists first notes body, length first = 2%nat /\
       Permutation (timed 0 notes) (flat_map (start_end ppq (pitch c) channel) (log sort (track_empty s) ops)) /\
       stream_bytes None (first ++ notes ++ [(0, MEndOfTrack)]) body /\ 2 ^ 32 <= Z.of_nat (length body)) /\
  (d_result o = Ok tt -> dumps sort w (run sort (track_empty s) ops) = Ok (d_written o)).
Proof. exact c34_nothing_written. Qed.
Print Assumptions C34_nothing_written.
Example C34_ex : let o := dump cpython_sort (ex_writer 96) (run cpython_sort (track_empty (mkSig 256 4)) ex_dump_ops) in
  d_written o = [] /\ d_result o = Err OverflowError.
Proof. split; vm_compute; reflexivity. Qed.

(** C35 *)
Theorem C35_notes :
  forall sort, sort_contract sort -> forall nd ppq middle_c bpm channel w c,
  writer_new nd ppq middle_c bpm channel = Ok w -> tone_of_arg nd middle_c = Ok c ->
  forall s ops, valid_sig s -> Forall op_ok ops ->
  forall bs, dumps sort w (run sort (track_empty s) ops) = Ok bs ->
  exists first notes body,
    bs = smf ppq body /\ length first = 2%nat /\ Forall (fun te => fst te = 0 /\ meta_of (snd te) <> None) first /\
    stream_bytes None (first ++ notes ++ [(0, MEndOfTrack)]) body /\
    Permutation (timed 0 notes) (flat_map (start_end ppq (pitch c) channel) (log sort (track_empty s) ops)) /\
    StronglySorted (fun x y => fst x <= fst y) (timed 0 notes) /\
    (forall before after, timed 0 notes = before ++ after -> forall p, (ends p before <= starts p before)%nat) /\
    (forall p, ends p (timed 0 notes) = starts p (timed 0 notes)).
Proof. exact c35_notes. Qed.
Print Assumptions C35_notes.
Example C35_ex : flat_map (start_end 96 36 3) (log cpython_sort (track_empty (mkSig 3 4)) ex_dump_ops) =
  [(0, MNoteOn 3 60 63); (96, MNoteOff 3 60 64); (96, MNoteOn 3 60 127); (192, MNoteOff 3 60 64);
   (96, MNoteOn 3 64 127); (96, MNoteOff 3 64 64)].
Proof. vm_compute. reflexivity. Qed.

(** C36: the pitch in the file. *)
Theorem C36_bytes :
  forall nd ppq middle_c bpm channel w c n,
  writer_new nd ppq middle_c bpm channel = Ok w -> tone_of_arg nd middle_c = Ok c -> valid_note n ->
  (in_midi_range (pitch c) n ->
    format_note_on w n = Ok [144 + channel; 60 + pitch (n_tone n) - pitch c; note_velocity n] /\
    format_note_off w n = Ok [128 + channel; 60 + pitch (n_tone n) - pitch c; 64]) /\
  (~ in_midi_range (pitch c) n -> format_note_on w n = Err ValueError /\ format_note_off w n = Err ValueError).
Proof. exact c36_bytes. Qed.
Print Assumptions C36_bytes.
Theorem C36_out_of_range :
  forall sort, sort_contract sort -> forall nd ppq middle_c bpm channel w c,
  writer_new nd ppq middle_c bpm channel = Ok w -> tone_of_arg nd middle_c = Ok c ->
  forall s ops, valid_sig s -> Forall op_ok ops ->
  ~ Forall (fun e => in_midi_range (pitch c) (snd e)) (log sort (track_empty s) ops) ->
  dumps sort w (run sort (track_empty s) ops) = Err ValueError.
Proof. exact c36_out_of_range. Qed.
Print Assumptions C36_out_of_range.
(** C36: reading it back. *)
Theorem C36_reading :
  forall nd middle_c m c n c',
  midi_reader_new nd middle_c = Ok m -> tone_of_arg nd middle_c = Ok c' ->
  pitch_to_tone m (60 + pitch (n_tone n) - c) = mkTone (pitch (n_tone n) + (pitch c' - c)).
Proof. exact c36_reading. Qed.
Print Assumptions C36_reading.
Theorem C36_equivalent :
  forall nd ppq bpm channel p t str,
  from_notation nd str = Ok t ->
  writer_new nd ppq (TA_int p) bpm channel = writer_new nd ppq (TA_tone (mkTone p)) bpm channel /\
  writer_new nd ppq (TA_str str) bpm channel = writer_new nd ppq (TA_tone t) bpm channel /\
  midi_reader_new nd (TA_int p) = midi_reader_new nd (TA_tone (mkTone p)) /\
  midi_reader_new nd (TA_str str) = midi_reader_new nd (TA_tone t).
Proof. exact c36_equivalent. Qed.
Print Assumptions C36_equivalent.
Example C36_ex : format_note_on (ex_writer 96) (mkNote (mkTone 103) (mkSig 1 4) f_one) = Ok [147; 127; 127] /\
  format_note_on (ex_writer 96) (mkNote (mkTone 104) (mkSig 1 4) f_one) = Err ValueError /\
  format_note_on (ex_writer 96) (mkNote (mkTone (-25)) (mkSig 1 4) f_one) = Err ValueError.
Proof. repeat split; vm_compute; reflexivity. Qed.
