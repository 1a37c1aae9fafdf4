(** Model of src/melodia/core/note.py.  No proofs in this file. *)
From Verif Require Import Py PyFloat Signature Tone.
Open Scope Z_scope.

(** class Note, its three slots (note.py 11). *)
Record note := mkNote { n_tone : tone; n_duration : sig; n_velocity : float }.

(** Argument documented as "Tone, integer or string". *)
Inductive tone_arg := TA_tone (t : tone) | TA_int (z : Z) | TA_str (s : pystr) | TA_other.

(** Default arguments (note.py 16-17). *)
Definition default_duration : sig := mkSig 1 4.
Definition default_velocity : float := f_three_quarters.

(** The end of Note.__init__ once tone and duration are known (note.py 50-53): NaN fails the
    chained comparison. *)
Definition note_init (t : tone) (d : sig) (velocity : float) : res note :=
  if negb (fle f_zero velocity && fle velocity f_one) then Err ValueError
  else Ok (mkNote t d velocity).

Section Digits.
Variable nd : Z -> option Z.

(** The dispatch on the tone argument (note.py 32-40). *)
Definition tone_of_arg (a : tone_arg) : res tone :=
  match a with
  | TA_tone t => Ok t
  | TA_int z => Ok (tone_new z)
  | TA_str s => from_notation nd s
  | TA_other => Err TypeError
  end.

(** Note.__init__ (note.py 13-53): tone first, then duration, then velocity. *)
Definition note_new (ta : tone_arg) (da : sig_arg) (velocity : float) : res note :=
  let! t := tone_of_arg ta in
  let! d := sig_of_arg da in
  note_init t d velocity.
End Digits.

(** Note.transposed (note.py 82-93): the tone passed on is a Tone and the duration a Signature, so
    the dispatch of __init__ takes them as they are. *)
Definition note_transposed (n : note) (k : Z) : res note :=
  note_init (tone_transposed (n_tone n) k) (n_duration n) (n_velocity n).

(** Note.with_duration (note.py 95-106). *)
Definition with_duration (n : note) (da : sig_arg) : res note :=
  let! d := sig_of_arg da in
  note_init (n_tone n) d (n_velocity n).

(** Note.with_velocity (note.py 108-119). *)
Definition with_velocity (n : note) (v : float) : res note :=
  note_init (n_tone n) (n_duration n) v.

(** Comparison of the triplets (tone, duration, velocity) (note.py 121-122): Python finds the first
    component whose values are not equal (by ==, or being the same object; == is reflexive here
    because a note never holds NaN) and applies the operator to it; if all are equal the operator
    is applied to the lengths, which are equal. *)
Definition triplet_cmp (ft : tone -> tone -> bool) (fs : sig -> sig -> bool)
           (fv : float -> float -> bool) (all_equal : bool) (a b : note) : bool :=
  if negb (tone_eq (n_tone a) (n_tone b)) then ft (n_tone a) (n_tone b)
  else if negb (sig_eq (n_duration a) (n_duration b)) then fs (n_duration a) (n_duration b)
  else if negb (feq (n_velocity a) (n_velocity b)) then fv (n_velocity a) (n_velocity b)
  else all_equal.

(** Note.__eq__ (note.py 145-152). *)
Definition note_eq (a b : note) : bool :=
  tone_eq (n_tone a) (n_tone b) && sig_eq (n_duration a) (n_duration b)
  && feq (n_velocity a) (n_velocity b).

(** Note.__le__, __lt__, __ge__, __gt__ (note.py 154-188). *)
Definition note_le : note -> note -> bool := triplet_cmp tone_le sig_le fle true.
Definition note_lt : note -> note -> bool := triplet_cmp tone_lt sig_lt flt false.
Definition note_ge : note -> note -> bool := triplet_cmp tone_ge sig_ge (fun a b => fle b a) true.
Definition note_gt : note -> note -> bool := triplet_cmp tone_gt sig_gt (fun a b => flt b a) false.
