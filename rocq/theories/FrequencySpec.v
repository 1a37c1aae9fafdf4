(** What is assumed of the C library's pow, and the real number a float stands for. *)
From Coq Require Import ZArith Reals.
From Verif Require Import Py PyFloat SpecBase.
Open Scope R_scope.

Definition fR (f : float) : R :=
  match f with
  | S754_finite s m e => IZR (if s then Zneg m else Zpos m) * powerRZ 2 e
  | _ => 0
  end.

(** [2 ** y] on floats: exact at integers, otherwise wrong by at most one part in 2^52 (one unit in the
    last place at most); OverflowError from 2^1024 on; zero far below the smallest number.  Nothing is
    assumed where the result is subnormal. *)
Definition pow_contract (pow2 : float -> res float) : Prop :=
  forall y, is_float y = true -> finite y ->
  (1024 <= fR y -> pow2 y = Err OverflowError) /\
  (-1022 <= fR y < 1024 -> exists z, pow2 y = Ok z /\ is_float z = true /\ finite z /\
     Rabs (fR z - Rpower 2 (fR y)) <= Rpower 2 (fR y) / 2 ^ 52 /\
     (forall k : Z, fR y = IZR k -> fR z = powerRZ 2 k)) /\
  (fR y <= -1076 -> pow2 y = Ok f_zero).
