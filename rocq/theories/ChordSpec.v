(** Specification vocabulary for chords. *)
From Coq Require Import ZArith List String.
From Verif Require Import Py PyFloat Signature Tone Note Chord SpecBase.
Import ListNotations.
Open Scope Z_scope.

(** The table of the generator script (scripts/generate_chords.py 80-112): names (aliases share a
    row) and notation, that is the semitones above the base. *)
Definition chord_rows : list (list string * list Z) :=
  [(["major"%string; "maj"%string], [0; 4; 7]);
   (["minor"%string; "min"%string], [0; 3; 7]);
   (["augmented"%string; "aug"%string], [0; 4; 8]);
   (["diminished"%string; "dim"%string], [0; 3; 6]);
   (["suspended4"%string; "sus4"%string], [0; 5; 7]);
   (["suspended2"%string; "sus2"%string], [0; 2; 7]);
   (["major7"%string; "maj7"%string], [0; 4; 7; 11]);
   (["minor7"%string; "min7"%string], [0; 3; 7; 10]);
   (["dominant7"%string; "dom7"%string], [0; 4; 7; 10]);
   (["dominant7b5"%string; "dom7b5"%string], [0; 4; 6; 10]);
   (["diminished7"%string; "dim7"%string], [0; 3; 6; 9]);
   (["minor7b5"%string; "min7b5"%string], [0; 3; 6; 10]);
   (["diminished_major7"%string], [0; 3; 6; 11]);
   (["minor_major7"%string], [0; 3; 7; 11]);
   (["augmented_major7"%string; "major7s5"%string; "maj7s5"%string], [0; 4; 8; 11]);
   (["augmented_minor7"%string; "augmented7"%string; "aug7"%string], [0; 4; 8; 10]);
   (["major9"%string; "maj9"%string], [0; 4; 7; 11; 14]);
   (["minor9"%string; "min9"%string], [0; 3; 7; 10; 14]);
   (["dominant9"%string; "dom9"%string], [0; 4; 7; 10; 14]);
   (["dominant_minor9"%string; "min7b9"%string], [0; 4; 7; 10; 13]);
   (["minor69"%string; "min69"%string], [0; 4; 7; 9; 14]);
   (["added9"%string; "add9"%string], [0; 4; 14]);
   (["major11"%string; "maj11"%string], [0; 4; 7; 11; 14; 17]);
   (["minor11"%string; "min11"%string], [0; 3; 7; 10; 14; 17]);
   (["dominant11"%string; "dom11"%string], [0; 4; 7; 10; 14; 17])].
(** The same, name by name. *)
Definition chord_table : list (string * list Z) :=
  flat_map (fun row => map (fun name => (name, snd row)) (fst row)) chord_rows.

(** The tone a base stands for. *)
Inductive base_means (nd : Z -> option Z) : base_arg -> tone -> Prop :=
| bm_int z : base_means nd (BA_int z) (mkTone z)
| bm_str s t : from_notation nd s = Ok t -> base_means nd (BA_str s) t
| bm_tone t : base_means nd (BA_tone t) t
| bm_note n : base_means nd (BA_note n) (n_tone n).

(** The duration of a chord: the one given, else that of a base note, else 1/4. *)
Inductive chord_duration : base_arg -> option sig_arg -> sig -> Prop :=
| cd_sig b s : chord_duration b (Some (SA_sig s)) s
| cd_pair b n d : 0 <= n -> pow2 d -> chord_duration b (Some (SA_iter [EInt n; EInt d])) (mkSig n d)
| cd_note n : chord_duration (BA_note n) None (n_duration n)
| cd_default b : (forall n, b <> BA_note n) -> chord_duration b None (mkSig 1 4).

(** The velocity of a chord: the one given, else that of a base note, else 0.75. *)
Inductive chord_velocity : base_arg -> option float -> float -> Prop :=
| cv_given b v : valid_velocity v -> chord_velocity b (Some v) v
| cv_note n : chord_velocity (BA_note n) None (n_velocity n)
| cv_default b : (forall n, b <> BA_note n) -> chord_velocity b None f_three_quarters.

(** Bases that Python code can have: a Note is valid. *)
Definition base_ok (b : base_arg) : Prop := forall n, b = BA_note n -> valid_note n.
Definition velocity_ok (v : option float) : Prop := forall f, v = Some f -> is_float f = true.

(** The base moved by some semitones (a string base has to be parsed first). *)
Inductive moved (k : Z) : base_arg -> base_arg -> Prop :=
| mv_int z : moved k (BA_int z) (BA_int (z + k))
| mv_tone t : moved k (BA_tone t) (BA_tone (mkTone (pitch t + k)))
| mv_note t d v : moved k (BA_note (mkNote t d v)) (BA_note (mkNote (mkTone (pitch t + k)) d v)).
