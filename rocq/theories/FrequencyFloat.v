(** Model of Tone.to_frequency (tone.py 148-156) in binary64, as the code computes it.  No proofs here. *)
From Coq Require Import ZArith SpecFloat.
From Verif Require Import Py PyFloat Tone.
Open Scope Z_scope.

(** [a / b] on ints: the correctly rounded quotient, zero with the sign of b when a is zero;
    OverflowError when it is too large for a float (CPython long_true_divide). *)
Definition int_truediv (a b : Z) : res float :=
  if b =? 0 then Err ZeroDivisionError
  else if a =? 0 then Ok (S754_zero (b <? 0))
  else
    let '(mz, ez, lz) := SFdiv_core_binary prec emax (Z.abs a) 0 (Z.abs b) 0 in
    match binary_round_aux prec emax (xorb (a <? 0) (b <? 0)) mz ez lz with
    | S754_infinity _ => Err OverflowError
    | q => Ok q
    end.

(** tone.py 156.  [pow2 y] is [2 ** y], which is the pow function of the C library with its range
    errors turned into OverflowError; what is assumed of it is [pow_contract] of FrequencySpec.v. *)
Definition to_frequency_float (pow2 : float -> res float) (t : tone) (base : float) : res float :=
  let! y := int_truediv (pitch t - 57) 12 in
  let! x := pow2 y in
  Ok (fmul base x).
