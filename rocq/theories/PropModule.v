(** Constructors of tracks, writers and readers, and the functions dumps and loads of the module
    io.midi (C64).

    [tone_argument] and [position_of] say which arguments are a tone and a signature (NoteProps.v,
    TrackSpec.v). *)
From Coq Require Import ZArith QArith List Bool Permutation String.
From Verif Require Import Py PyFloat PySort Timsort Signature Tone Note Track MidiWriter MidiReader Show
  SpecBase TrackSpec MidiSpec DumpSpec TimsortFacts NoteProps TrackProps TripSpec TripProps ModuleProps.
Import ListNotations.
Open Scope Z_scope.

(** C64: a track is built exactly when its signature and every position are valid. *)
Theorem C64_track :
  forall sort sa content, Forall (fun c => op_ok (content_op c)) content ->
  (forall s, position_of sa = Some s -> (forall c a, In c content -> snd c = Some a -> position_of a <> None) ->
     track_new sa content = Ok (run sort (track_empty s) (map content_op content))) /\
  (position_of sa = None \/ (exists c a, In c content /\ snd c = Some a /\ position_of a = None) ->
     track_new sa content = Err ValueError \/ track_new sa content = Err TypeError).
Proof. exact c64_track. Qed.
Print Assumptions C64_track.
Example C64_ex_track :
  let quarter := WNote (mkNote (mkTone 60) (mkSig 1 4) f_half) in
  (exists t, track_new (SA_iter [EInt 3; EInt 4]) [(quarter, None); (quarter, Some (SA_iter [EInt 1; EInt 4]))] = Ok t /\
     length (yields cpython_sort t) = 2%nat) /\
  track_new (SA_iter [EInt 3; EInt 4]) [(quarter, None); (quarter, Some (SA_iter [EInt 1; EInt 3])); (quarter, None)] = Err ValueError /\
  track_new (SA_iter [EInt 3; EInt 4]) [(quarter, Some (SA_iter [EInt 1])); (quarter, None)] = Err TypeError /\
  track_new (SA_iter [EInt 3; EInt 5]) [] = Err ValueError.
Proof. split; [eexists; split; [vm_compute; reflexivity|reflexivity]|repeat split]. Qed.

(** C64: writers and readers. *)
Theorem C64_writer :
  forall nd ppq middle_c bpm channel, digit_table nd ->
  (forall c, tone_argument nd middle_c c -> 1 <= ppq <= 32767 -> 0 <= channel <= 15 ->
     writer_new nd ppq middle_c bpm channel = Ok (mkWriter ppq (4 * ppq) (60 - pitch c) bpm channel)) /\
  (~ (1 <= ppq <= 32767 /\ 0 <= channel <= 15) -> writer_new nd ppq middle_c bpm channel = Err ValueError) /\
  ((forall c, ~ tone_argument nd middle_c c) ->
     writer_new nd ppq middle_c bpm channel = Err ValueError \/ writer_new nd ppq middle_c bpm channel = Err TypeError).
Proof. exact c64_writer. Qed.
Print Assumptions C64_writer.
Theorem C64_reader :
  forall nd middle_c, digit_table nd ->
  (forall c, tone_argument nd middle_c c -> midi_reader_new nd middle_c = Ok (mkMR (60 - pitch c))) /\
  ((forall c, ~ tone_argument nd middle_c c) ->
     midi_reader_new nd middle_c = Err ValueError \/ midi_reader_new nd middle_c = Err TypeError).
Proof. exact c64_reader. Qed.
Print Assumptions C64_reader.
Example C64_ex_writer :
  writer_new ascii_digit 32767 (TA_str (lit "C4")) f_120 15 = Ok (mkWriter 32767 131068 12 f_120 15) /\
  writer_new ascii_digit 32768 (TA_str (lit "C4")) f_120 15 = Err ValueError /\
  writer_new ascii_digit 0 TA_other f_120 15 = Err ValueError /\
  writer_new ascii_digit 1 (TA_int 60) f_120 16 = Err ValueError /\
  writer_new ascii_digit 1 TA_other f_120 0 = Err TypeError /\
  writer_new ascii_digit 1 (TA_str (lit "H3")) f_120 0 = Err ValueError /\
  midi_reader_new ascii_digit (TA_str (lit "C4")) = Ok (mkMR 12).
Proof. repeat split. Qed.

(** C64: the module functions use 96 pulses per quarter and C3. *)
Theorem C64_dumps :
  forall sort t bpm channel,
  (~ 0 <= channel <= 15 -> midi_dumps sort t bpm channel = Err ValueError) /\
  (forall nd middle_c c w, digit_table nd -> tone_argument nd middle_c c -> pitch c = 36 ->
     writer_new nd 96 middle_c bpm channel = Ok w -> midi_dumps sort t bpm channel = dumps sort w t) /\
  (forall nd w, digit_table nd -> writer_new nd 96 (TA_str (lit "C3")) bpm channel = Ok w ->
     midi_dumps sort t bpm channel = dumps sort w t).
Proof. exact c64_dumps. Qed.
Print Assumptions C64_dumps.
Theorem C64_loads :
  forall sort file channel nd middle_c c m, digit_table nd -> tone_argument nd middle_c c -> pitch c = 36 ->
  midi_reader_new nd middle_c = Ok m -> midi_loads sort file channel = load sort m file channel.
Proof. exact c64_loads. Qed.
Print Assumptions C64_loads.
(** C64: what one writes the other reads.  The conditions are those of C40. *)
Theorem C64_round_trip :
  forall sort, sort_contract sort -> forall s ops bpm channel bs,
  valid_sig s -> Forall op_ok ops -> midi_dumps sort (run sort (track_empty s) ops) bpm channel = Ok bs ->
  Z.of_nat (length bs) < 22 + 2 ^ 24 ->
  ForallOrdPairs apart (contents sort s ops) -> plain (contents sort s ops) ->
  Forall audible (contents sort s ops) -> Forall (whole_note 96) (contents sort s ops) -> Forall byte_velocity (contents sort s ops) ->
  (exists t, midi_loads sort bs None = Ok t /\
     eq_result sort t (run sort (track_empty s) ops) = true /\ eq_result sort (run sort (track_empty s) ops) t = true) /\
  (contents sort s ops <> [] ->
   (exists u, midi_loads sort bs (Some channel) = Ok u /\
      Permutation (map value_of (yields sort u)) (map value_of (yields sort (run sort (track_empty s) ops)))) /\
   forall other, other <> channel -> midi_loads sort bs (Some other) = Err ValueError).
Proof. exact c64_round_trip. Qed.
Print Assumptions C64_round_trip.
Definition ex_module_ops : list op :=
  [OAdd (WNote (mkNote (mkTone 36) (mkSig 1 4) (velocity_of_byte 100))) (Some (SA_sig (mkSig 0 1)));
   OAdd (WNote (mkNote (mkTone 40) (mkSig 1 8) (velocity_of_byte 127))) (Some (SA_sig (mkSig 1 8)))].
Example C64_ex :
  match midi_dumps cpython_sort (run cpython_sort (track_empty (mkSig 3 4)) ex_module_ops) f_120 9 with
  | Ok bs => match midi_loads cpython_sort bs (Some 9), midi_loads cpython_sort bs None, midi_loads cpython_sort bs (Some 0) with
             | Ok u, Ok t, Err ValueError =>
                 eq_result cpython_sort u (run cpython_sort (track_empty (mkSig 3 4)) ex_module_ops) = true /\
                 eq_result cpython_sort t (run cpython_sort (track_empty (mkSig 3 4)) ex_module_ops) = true
             | _, _, _ => False
             end
  | Err _ => False
  end /\
  midi_dumps cpython_sort (run cpython_sort (track_empty (mkSig 3 4)) ex_module_ops) f_120 16 = Err ValueError.
Proof. vm_compute. auto. Qed.
