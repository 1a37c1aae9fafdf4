(** Specification vocabulary for dumping a track and loading it again. *)
From Coq Require Import ZArith QArith Qround Qreduction List Bool.
From Verif Require Import Py PyFloat PySort Signature Tone Note Track MidiWriter MidiReader SpecBase TrackSpec MidiSpec DumpSpec.
Import ListNotations.
Open Scope Z_scope.

(** Two placed notes do not overlap, or differ in tone. *)
Definition apart (e f : sig * note) : Prop :=
  pitch (n_tone (snd e)) = pitch (n_tone (snd f)) ->
  (note_end e <= sval (fst f))%Q \/ (note_end f <= sval (fst e))%Q.

(** No two notes of one tone start at one position with different durations. *)
Definition plain (l : list (sig * note)) : Prop :=
  forall e f, In e l -> In f l -> (sval (fst e) == sval (fst f))%Q ->
    pitch (n_tone (snd e)) = pitch (n_tone (snd f)) -> (sval (n_duration (snd e)) == sval (n_duration (snd f)))%Q.

(** The velocity byte is not 0. *)
Definition audible (e : sig * note) : Prop := note_velocity (snd e) <> 0.

(** A time is a whole number of pulses. *)
Definition whole (ppq : Z) (x : Q) : Prop := exists k, (inject_Z (4 * ppq) * x == inject_Z k)%Q.
Definition whole_note (ppq : Z) (e : sig * note) : Prop := whole ppq (sval (fst e)) /\ whole ppq (sval (n_duration (snd e))).

(** The velocity is one that is read for some byte. *)
Definition byte_velocity (e : sig * note) : Prop :=
  exists k, 0 <= k <= 127 /\ (fval (n_velocity (snd e)) == fval (velocity_of_byte k))%Q.

(** A time cut to pulses, then to 4096 steps per quarter. *)
Definition cut (ppq : Z) (x : Q) : Q := (Qfloor (inject_Z (4 * ppq) * x) * 4096 / ppq)%Z # 16384.

(** What remains of a note: times cut, velocity quantised, pitch moved by [shift]. *)
Definition read_back (ppq shift : Z) (e : sig * note) : Q * Z * Q * Q :=
  (Qred (cut ppq (sval (fst e))), pitch (n_tone (snd e)) + shift, Qred (cut ppq (sval (n_duration (snd e)))),
   Qred (fval (velocity_of_byte (note_velocity (snd e))))).

(** The same note with the velocity quantised and the pitch moved by [shift]. *)
Definition requantised (shift : Z) (e : sig * note) : Q * Z * Q * Q :=
  (Qred (sval (fst e)), pitch (n_tone (snd e)) + shift, Qred (sval (n_duration (snd e))),
   Qred (fval (velocity_of_byte (note_velocity (snd e))))).

(** The setting of a round trip: a writer, a reader and a track that was dumped. *)
Record trip (sort : sort_fn) (ppq channel : Z) (w : writer) (c c' : tone) (m : midi_reader)
    (s : sig) (ops : list op) (bs : bytes) : Prop := {
  trip_writer : exists nd middle_c bpm, writer_new nd ppq middle_c bpm channel = Ok w /\ tone_of_arg nd middle_c = Ok c;
  trip_reader : exists nd middle_c, midi_reader_new nd middle_c = Ok m /\ tone_of_arg nd middle_c = Ok c';
  trip_sig : valid_sig s;
  trip_ops : Forall op_ok ops;
  trip_dumped : dumps sort w (run sort (track_empty s) ops) = Ok bs;
  trip_size : Z.of_nat (length bs) < 22 + 2 ^ 24
}.
(** What was added. *)
Definition contents (sort : sort_fn) (s : sig) (ops : list op) : list (sig * note) := log sort (track_empty s) ops.
