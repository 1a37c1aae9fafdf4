(** Model of Tone.to_frequency (tone.py 148-156) in exact real arithmetic.
    The code computes [base * 2 ** ((self._pitch - 57) / 12)] in binary64; the rounding of the
    division, of C's pow and of the multiplication (and the OverflowError of pow for pitches above
    12300) are not modelled here. *)
From Coq Require Import ZArith Reals.
From Verif Require Import Py Tone.
Open Scope R_scope.

Definition to_frequency (t : tone) (base : R) : R :=
  base * Rpower 2 (IZR (pitch t - 57) / 12).
