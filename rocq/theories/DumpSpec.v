(** Specification vocabulary for dumped tracks. *)
From Coq Require Import ZArith QArith Qround List Bool.
From Verif Require Import Py PyFloat Signature Tone Note MidiWriter SpecBase MidiSpec.
Import ListNotations.
Open Scope Z_scope.

(** The MIDI pitch of a note when middle C (60) is the tone of pitch [c]. *)
Definition note_pitch (c : Z) (n : note) : Z := 60 + pitch (n_tone n) - c.
Definition in_midi_range (c : Z) (n : note) : Prop := 0 <= note_pitch c n <= 127.

(** A signature fits the time signature event: nominator and the exponent of the denominator each
    in a byte. *)
Definition sig_fits (s : sig) : Prop := nominator s <= 255 /\ denominator s <= 2 ^ 255.

(** The tempo int(60000000 / bpm) exists and fits in three bytes. *)
Definition tempo_fits (bpm : float) : Prop := exists k, tempo_of_bpm bpm = Ok k /\ 0 <= k < 2 ^ 24.

(** The velocity byte of a note (see C37). *)
Definition note_velocity (n : note) : Z := match velocity_byte (n_velocity n) with Ok k => k | Err _ => 0 end.

(** Start and end of a placed note: absolute times in pulses and events. *)
Definition start_end (ppq c channel : Z) (e : sig * note) : list (Z * midi_event) :=
  let on := Qfloor (inject_Z (4 * ppq) * sval (fst e)) in
  let len := Qfloor (inject_Z (4 * ppq) * sval (n_duration (snd e))) in
  [(on, MNoteOn channel (note_pitch c (snd e)) (note_velocity (snd e)));
   (on + len, MNoteOff channel (note_pitch c (snd e)) 64)].

(** Numbers of note-ons and note-offs of pitch [p]. *)
Definition starts (p : Z) (l : list (Z * midi_event)) : nat :=
  length (filter (fun te => match snd te with MNoteOn _ q _ => q =? p | _ => false end) l).
Definition ends (p : Z) (l : list (Z * midi_event)) : nat :=
  length (filter (fun te => match snd te with MNoteOff _ q _ => q =? p | _ => false end) l).
