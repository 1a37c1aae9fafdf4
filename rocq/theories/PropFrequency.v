(** Tone.to_frequency as it is computed, in binary64 (C13). *)
From Coq Require Import ZArith Reals Lra.
From Verif Require Import Py PyFloat SpecBase Tone Frequency FrequencySpec FrequencyFloat FrequencyFloatProps.
Open Scope R_scope.

(** C13: for every pow of the C library that is exact at integers and off by at most one unit in the
    last place elsewhere ([pow_contract]).  The frequency of A4 is the base. *)
Theorem C13_float_base :
  forall pow2, pow_contract pow2 -> forall base, is_float base = true ->
  to_frequency_float pow2 (tone_new 57) base = Ok base.
Proof. exact c13_float_base. Qed.
Print Assumptions C13_float_base.
(** C13: every A is exact. *)
Theorem C13_float_octave :
  forall pow2, pow_contract pow2 -> forall k base,
  (-1022 <= k < 1024)%Z -> is_float base = true -> finite base ->
  powerRZ 2 (-1022) <= Rabs (fR base * powerRZ 2 k) < powerRZ 2 1024 ->
  exists f, to_frequency_float pow2 (tone_new (57 + 12 * k)) base = Ok f /\ is_float f = true /\ finite f /\ fR f = fR base * powerRZ 2 k.
Proof. exact c13_float_octave. Qed.
Print Assumptions C13_float_octave.
(** C13: every other tone is off by very little. *)
Theorem C13_float_error :
  forall pow2, pow_contract pow2 -> forall t base,
  (-12264 <= pitch t - 57 < 12288)%Z -> is_float base = true -> finite base ->
  powerRZ 2 (-1021) <= Rabs (to_frequency t (fR base)) <= powerRZ 2 1023 ->
  exists f, to_frequency_float pow2 t base = Ok f /\ is_float f = true /\ finite f /\
    Rabs (fR f - to_frequency t (fR base)) <= Rabs (to_frequency t (fR base)) * ((Rabs (IZR (pitch t - 57)) / 12 + 4) / 2 ^ 53).
Proof. exact c13_float_error. Qed.
Print Assumptions C13_float_error.
(** C13: higher tones have greater frequencies, as long as the numbers are normal. *)
Theorem C13_float_increasing :
  forall pow2, pow_contract pow2 -> forall t u base,
  (-12264 <= pitch t - 57)%Z -> (pitch t < pitch u)%Z -> (pitch u - 57 < 12288)%Z -> is_float base = true -> finite base -> 0 < fR base ->
  powerRZ 2 (-1021) <= to_frequency t (fR base) -> to_frequency u (fR base) <= powerRZ 2 1023 ->
  exists f g, to_frequency_float pow2 t base = Ok f /\ to_frequency_float pow2 u base = Ok g /\ flt f g = true.
Proof. exact c13_float_increasing. Qed.
Print Assumptions C13_float_increasing.
(** C13 of the computed numbers in full ([float_temperament], every pitch) is false: very high tones
    raise OverflowError, and all very low ones have the same frequency, 0. *)
Theorem C13_float_refuted :
  forall pow2, pow_contract pow2 -> ~ float_temperament pow2 /\
  (forall base, is_float base = true -> finite base -> exists f g,
    to_frequency_float pow2 (tone_new (-20000)) base = Ok f /\ to_frequency_float pow2 (tone_new (-13000)) base = Ok g /\ flt f g = false).
Proof. exact c13_float_refuted. Qed.
Print Assumptions C13_float_refuted.
Theorem C13_float_overflow :
  forall pow2, pow_contract pow2 -> forall t base, (12345 <= pitch t)%Z ->
  to_frequency_float pow2 t base = Err OverflowError.
Proof. exact c13_float_overflow. Qed.
Print Assumptions C13_float_overflow.
Theorem C13_float_underflow :
  forall pow2, pow_contract pow2 -> forall t base, (- 2 ^ 1000 <= pitch t <= -12855)%Z ->
  is_float base = true -> finite base -> exists s, to_frequency_float pow2 t base = Ok (S754_zero s).
Proof. exact c13_float_underflow. Qed.
Print Assumptions C13_float_underflow.
(** The contract can be met. *)
Theorem C13_pow_contract :
  exists pow2, pow_contract pow2.
Proof. exact pow_contract_met. Qed.
Print Assumptions C13_pow_contract.

Definition f_440 : float := float_of_Z 440.
Example C13_float_ex : forall pow2, pow_contract pow2 ->
  to_frequency_float pow2 (tone_new 57) f_440 = Ok f_440 /\
  (exists f, to_frequency_float pow2 (tone_new (57 + 12 * 2)) f_440 = Ok f /\ fR f = 1760) /\
  (exists f, to_frequency_float pow2 (tone_new (57 + 12 * -3)) f_440 = Ok f /\ fR f = 55).
Proof.
  intros pow2 Hp. assert (V : fR f_440 = 440) by (change f_440 with (S754_finite false 7740561859543040 (-44)); unfold fR; change (powerRZ 2 (-44)) with (/ 2 ^ 44); lra).
  assert (L : powerRZ 2 (-1022) <= 1) by (replace 1 with (powerRZ 2 0) by reflexivity; rewrite !powerRZ_Rpower by lra; left; apply Rpower_lt; [lra|apply IZR_lt; reflexivity]).
  assert (U : 2048 < powerRZ 2 1024) by (replace 2048 with (powerRZ 2 11) by (change (powerRZ 2 11) with (2 ^ 11); lra); rewrite !powerRZ_Rpower by lra; apply Rpower_lt; [lra|apply IZR_lt; reflexivity]).
  split; [apply C13_float_base; [exact Hp|reflexivity]|]. split.
  - destruct (C13_float_octave pow2 Hp 2 f_440) as (f & E & _ & _ & F); [split; [discriminate|reflexivity]|reflexivity|exact I| |exists f; split; [exact E|rewrite F, V; change (powerRZ 2 2) with (2 ^ 2); lra]].
    rewrite V. replace (440 * powerRZ 2 2) with 1760 by (change (powerRZ 2 2) with (2 ^ 2); lra). rewrite Rabs_pos_eq by lra. split; [lra|]. lra.
  - destruct (C13_float_octave pow2 Hp (-3) f_440) as (f & E & _ & _ & F); [split; [discriminate|reflexivity]|reflexivity|exact I| |exists f; split; [exact E|rewrite F, V; change (powerRZ 2 (-3)) with (/ 2 ^ 3); lra]].
    rewrite V. replace (440 * powerRZ 2 (-3)) with 55 by (change (powerRZ 2 (-3)) with (/ 2 ^ 3); lra). rewrite Rabs_pos_eq by lra. split; [lra|]. lra.
Qed.
