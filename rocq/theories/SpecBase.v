(** Specification vocabulary: what signatures, tones, notes and tracks mean, in terms that do not
    mention the model's functions.  Small on purpose. *)
From Coq Require Import ZArith QArith List Permutation.
From Verif Require Import Py PyFloat PySort Signature Tone Note Track.
Import ListNotations.
Open Scope Z_scope.

(** ** Signatures *)

(** A positive power of two. *)
Definition pow2 (d : Z) : Prop := exists k, 0 <= k /\ d = 2 ^ k.

(** A valid time value. *)
Definition valid_sig (s : sig) : Prop := 0 <= nominator s /\ pow2 (denominator s).

(** The rational number a signature stands for. *)
Definition sval (s : sig) : Q := nominator s # Z.to_pos (denominator s).

(** ** Floats *)

(** The rational value of a finite float (infinities and NaN have none; 0 is a dummy). *)
Definition fval (f : float) : Q :=
  match f with
  | S754_finite s m e => (inject_Z (if s then Z.neg m else Z.pos m) * 2 ^ e)%Q
  | _ => 0
  end.

Definition finite (f : float) : Prop :=
  match f with S754_zero _ | S754_finite _ _ _ => True | _ => False end.

(** ** Notes *)

(** A velocity a note may have: a finite binary64 number between 0 and 1. *)
Definition valid_velocity (v : float) : Prop :=
  is_float v = true /\ finite v /\ (0 <= fval v <= 1)%Q.

(** A note built from a valid duration and velocity. *)
Definition valid_note (n : note) : Prop :=
  valid_sig (n_duration n) /\ valid_velocity (n_velocity n).

(** Pitch, rational duration and rational velocity agree. *)
Definition note_same (a b : note) : Prop :=
  pitch (n_tone a) = pitch (n_tone b) /\ (sval (n_duration a) == sval (n_duration b))%Q /\
  (fval (n_velocity a) == fval (n_velocity b))%Q.

(** The lexicographic order on (pitch, duration, velocity). *)
Definition note_before (a b : note) : Prop :=
  pitch (n_tone a) < pitch (n_tone b) \/
  (pitch (n_tone a) = pitch (n_tone b) /\
   ((sval (n_duration a) < sval (n_duration b))%Q \/
    ((sval (n_duration a) == sval (n_duration b))%Q /\
     (fval (n_velocity a) < fval (n_velocity b))%Q))).

(** ** Notation *)

(** A table of decimal digits that a Python version may have: on ASCII it is what everybody knows,
    and digits are worth 0 to 9. *)
Definition digit_table (nd : Z -> option Z) : Prop :=
  (forall c, 0 <= c < 128 ->
     nd c = if ((48 <=? c) && (c <=? 57))%bool then Some (c - 48) else None) /\
  (forall c v, nd c = Some v -> 0 <= v <= 9).

(** Code points of the letters and the semitones above C they stand for. *)
Definition letters : list (Z * Z) :=
  [(65, 9); (66, 11); (67, 0); (68, 2); (69, 4); (70, 5); (71, 7)].

Definition sharp : Z := 35.
Definition flat : Z := 98.
Definition minus : Z := 45.

(** Value of a list of decimal digits, most significant first. *)
Fixpoint decimal (ds : list Z) : Z :=
  match ds with
  | [] => 0
  | d :: r => d * 10 ^ Z.of_nat (length r) + decimal r
  end.

Definition occurrences (c : Z) (s : list Z) : Z := Z.of_nat (count_occ Z.eq_dec s c).

(** [octave_text nd s o]: the string s is empty and o is 0, or s is a decimal number, perhaps with
    a minus sign and leading zeros, of value o. *)
Inductive octave_text (nd : Z -> option Z) : list Z -> Z -> Prop :=
| octave_none : octave_text nd [] 0
| octave_pos s ds : ds <> [] -> Forall2 (fun c d => nd c = Some d) s ds ->
    octave_text nd s (decimal ds)
| octave_neg s ds : ds <> [] -> Forall2 (fun c d => nd c = Some d) s ds ->
    octave_text nd (minus :: s) (- decimal ds).

(** [notation_text nd s p]: s is letter, accidentals, octave and it denotes the pitch p. *)
Inductive notation_text (nd : Z -> option Z) : list Z -> Z -> Prop :=
| notation_intro c base acc oct o :
    In (c, base) letters ->
    Forall (fun x => x = sharp \/ x = flat) acc ->
    octave_text nd oct o ->
    notation_text nd (c :: acc ++ oct)
      (12 * o + base + occurrences sharp acc - occurrences flat acc).
