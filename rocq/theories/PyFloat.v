(** Python floats: IEEE-754 binary64, as the executable, axiom-free [spec_float] of Coq's
    standard library at precision 53, emax 1024, rounding to nearest even.  No proofs here. *)
From Coq Require Import ZArith.
From Coq Require Export Floats.SpecFloat.
From Verif Require Import Py.
Open Scope Z_scope.

Definition prec : Z := 53.
Definition emax : Z := 1024.

Definition float := spec_float.

(** A [spec_float] is a genuine binary64 datum when it is canonical. *)
Definition is_float (f : float) : bool := valid_binary prec emax f.

(** Comparisons: every comparison with NaN is False. *)
Definition feq (a b : float) : bool := SFeqb a b.
Definition flt (a b : float) : bool := SFltb a b.
Definition fle (a b : float) : bool := SFleb a b.

Definition fmul (a b : float) : float := SFmul prec emax a b.
Definition fdiv (a b : float) : float := SFdiv prec emax a b.

(** Conversion of an [int] operand of a mixed int/float operation (correctly rounded; the
    OverflowError of huge integers does not occur for the constants and bytes converted here). *)
Definition float_of_Z (z : Z) : float := binary_normalize prec emax z 0 false.

(** [int(f)]: truncation towards zero; raises for NaN and infinities. *)
Definition int_of_float (f : float) : res Z :=
  match f with
  | S754_zero _ => Ok 0
  | S754_infinity _ => Err OverflowError
  | S754_nan => Err ValueError
  | S754_finite s m e =>
      let a := if 0 <=? e then Z.pos m * 2 ^ e else Z.pos m / 2 ^ (- e) in
      Ok (if s then - a else a)
  end.

(** Python's two-argument [min]/[max] on floats: the first argument unless the second is
    strictly smaller/greater. *)
Definition fmin (a b : float) : float := if flt b a then b else a.
Definition fmax (a b : float) : float := if flt a b then b else a.

(** Python's two-argument [min]/[max] on integers. *)
Definition imin (a b : Z) : Z := if b <? a then b else a.
Definition imax (a b : Z) : Z := if b >? a then b else a.

(** Float literals used by the code. *)
Definition f_zero : float := S754_zero false.                                    (* 0.0 *)
Definition f_one : float := S754_finite false 4503599627370496 (-52).            (* 1.0 *)
Definition f_three_quarters : float := S754_finite false 6755399441055744 (-53). (* 0.75 *)
Definition f_half : float := S754_finite false 4503599627370496 (-53).           (* 0.5 *)
Definition f_127 : float := float_of_Z 127.                                      (* 127.0 *)
Definition f_120 : float := float_of_Z 120.                                      (* 120.0 *)
