(** The tempo written for a number of beats per minute (C66).

    [fR f] is the real number a float stands for (FrequencySpec.v); [tempo_fits bpm] is the condition on
    the tempo in C32, C34 and C65: it exists and fits in three bytes (DumpSpec.v). *)
From Coq Require Import ZArith Reals.
From Verif Require Import Py PyFloat MidiWriter SpecBase DumpSpec FrequencySpec TempoProps.
Open Scope R_scope.

(** C66: the microseconds per beat, 60000000 / bpm cut to an integer.  The division rounds, so the
    result can be one too large if the quotient is less than one part in 2^53 below an integer. *)
Theorem C66_tempo :
  forall bpm, finite bpm -> 0 < fR bpm ->
  (powerRZ 2 1024 - powerRZ 2 970 <= 60000000 / fR bpm -> tempo_of_bpm bpm = Err OverflowError) /\
  (60000000 / fR bpm < powerRZ 2 1024 - powerRZ 2 970 -> exists k, tempo_of_bpm bpm = Ok k /\
     IZR k <= 60000000 / fR bpm * (1 + / 2 ^ 53) /\ 60000000 / fR bpm * (1 - / 2 ^ 53) < IZR k + 1 /\
     (forall n, (n <= 2 ^ 53)%Z -> IZR n <= 60000000 / fR bpm -> (n <= k)%Z)).
Proof. exact c66_tempo. Qed.
Print Assumptions C66_tempo.
Theorem C66_negative :
  forall bpm,
  tempo_of_bpm (SFopp bpm) = match tempo_of_bpm bpm with Ok k => Ok (- k)%Z | Err e => Err e end.
Proof. exact c66_negative. Qed.
Print Assumptions C66_negative.
Theorem C66_special :
  forall s,
  tempo_of_bpm S754_nan = Err ValueError /\ tempo_of_bpm (S754_zero s) = Err ZeroDivisionError /\ tempo_of_bpm (S754_infinity s) = Ok 0%Z.
Proof. exact c66_special. Qed.
Print Assumptions C66_special.
(** C66: no error for whole numbers and all other multiples of 2^-27. *)
Theorem C66_exact :
  forall bpm b, finite bpm -> (0 < b)%Z -> fR bpm = IZR b / 2 ^ 27 ->
  tempo_of_bpm bpm = Ok (60000000 * 2 ^ 27 / b)%Z.
Proof. exact c66_exact. Qed.
Print Assumptions C66_exact.
Theorem C66_monotone :
  forall a b j k, finite a -> finite b -> 0 < fR a <= fR b ->
  tempo_of_bpm a = Ok j -> tempo_of_bpm b = Ok k -> (k <= j)%Z.
Proof. exact c66_monotone. Qed.
Print Assumptions C66_monotone.
(** C66: when the tempo can be written.  Infinite speeds and negative ones beyond -60000000 can. *)
Theorem C66_fits :
  forall bpm, is_float bpm = true ->
  (tempo_fits bpm <-> (exists s, bpm = S754_infinity s) \/
     finite bpm /\ (60000000 < fR bpm * (2 ^ 24 - / 2 ^ 30) \/ fR bpm * (1 - / 2 ^ 54) < - 60000000)).
Proof. exact c66_fits. Qed.
Print Assumptions C66_fits.

Example C66_ex :
  tempo_of_bpm f_120 = Ok 500000%Z /\
  tempo_of_bpm (S754_finite false 6368371348078592 (-46)) = Ok 662983%Z /\ (* 90.5 *)
  tempo_of_bpm (S754_finite true 6368371348078592 (-46)) = Ok (-662983)%Z /\
  tempo_of_bpm (S754_finite false 1 (-1074)) = Err OverflowError.
Proof. repeat split; vm_compute; reflexivity. Qed.

(** 6666666.666666667 is more than 60000000 / 9, but the tempo is 9. *)
Example C66_ex_rounded : tempo_of_bpm (S754_finite false 7158278826666667 (-30)) = Ok 9%Z /\ (7158278826666667 * 9 > 60000000 * 2 ^ 30)%Z.
Proof. split; vm_compute; reflexivity. Qed.

(** The slowest speed that can be written, and the one before it. *)
Example C66_ex_slowest :
  tempo_of_bpm (S754_finite false 8053063680000001 (-51)) = Ok (2 ^ 24 - 1)%Z /\
  tempo_of_bpm (S754_finite false 8053063680000000 (-51)) = Ok (2 ^ 24)%Z.
Proof. split; vm_compute; reflexivity. Qed.

(** -60000000 and the next lower number. *)
Example C66_ex_negative :
  tempo_of_bpm (S754_finite true 8053063680000000 (-27)) = Ok (-1)%Z /\
  tempo_of_bpm (S754_finite true 8053063680000001 (-27)) = Ok 0%Z.
Proof. split; vm_compute; reflexivity. Qed.
