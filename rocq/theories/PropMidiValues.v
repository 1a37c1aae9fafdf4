(** Velocities and times in MIDI files (C37-C39). *)
From Coq Require Import ZArith QArith Qround List Bool.
From Verif Require Import Py PyFloat Signature Tone Note MidiWriter MidiReader
  SpecBase FloatFacts TimeFacts VelocityFacts.
Import ListNotations.
Open Scope Z_scope.

(** C37: the velocity byte is in range, 0 for 0 and 127 for 1. *)
Theorem C37_byte :
  forall v, valid_velocity v ->
  exists k, velocity_byte v = Ok k /\ 0 <= k <= 127 /\
    ((fval v == 0)%Q -> k = 0) /\ ((fval v == 1)%Q -> k = 127).
Proof. exact c37_byte. Qed.
Print Assumptions C37_byte.
(** C37: louder notes do not get a smaller byte. *)
Theorem C37_monotone :
  forall v u a b, valid_velocity v -> valid_velocity u ->
  velocity_byte v = Ok a -> velocity_byte u = Ok b -> (fval v <= fval u)%Q -> a <= b.
Proof. exact c37_monotone. Qed.
Print Assumptions C37_monotone.
(** C37: reading the byte back gives a legal velocity no larger than the original one and less than
    1/127 smaller, up to the rounding of one float operation (2^-52). *)
Theorem C37_read_back :
  forall v k, valid_velocity v -> velocity_byte v = Ok k ->
  valid_velocity (velocity_of_byte k) /\
  (fval (velocity_of_byte k) <= fval v + (1 # 2 ^ 52))%Q /\
  (fval v < fval (velocity_of_byte k) + (1 # 127) + (1 # 2 ^ 52))%Q.
Proof. exact c37_read_back. Qed.
Print Assumptions C37_read_back.
(** C37: a velocity that was read is written as the same byte. *)
Theorem C37_again :
  forall k, 0 <= k <= 127 ->
  valid_velocity (velocity_of_byte k) /\ velocity_byte (velocity_of_byte k) = Ok k.
Proof. exact c37_again. Qed.
Print Assumptions C37_again.
Example C37_ex : velocity_byte f_half = Ok 63 /\ velocity_byte (velocity_of_byte 63) = Ok 63 /\
  velocity_byte (velocity_of_byte 1) = Ok 1 /\ velocity_byte (fdiv f_one (float_of_Z 128)) = Ok 0.
Proof. repeat split; vm_compute; reflexivity. Qed.

(** C38: a time is written as the floor of its number of pulses. *)
Theorem C38_pulses :
  forall nd ppq middle_c bpm channel w s,
  writer_new nd ppq middle_c bpm channel = Ok w -> valid_sig s ->
  signature_to_pulses w s = Ok (Qfloor (inject_Z (4 * ppq) * sval s)).
Proof. exact c38_pulses. Qed.
Print Assumptions C38_pulses.
Theorem C38_monotone :
  forall nd ppq middle_c bpm channel w s t a b,
  writer_new nd ppq middle_c bpm channel = Ok w -> valid_sig s -> valid_sig t ->
  signature_to_pulses w s = Ok a -> signature_to_pulses w t = Ok b ->
  0 <= a /\ ((sval s <= sval t)%Q -> a <= b) /\ ((sval s == sval t)%Q -> a = b).
Proof. exact c38_monotone. Qed.
Print Assumptions C38_monotone.
(** C38: times on the pulse grid are exact. *)
Theorem C38_exact :
  forall nd ppq middle_c bpm channel w s,
  writer_new nd ppq middle_c bpm channel = Ok w -> valid_sig s ->
  (denominator s | 4 * ppq * nominator s) ->
  exists k, signature_to_pulses w s = Ok k /\ (inject_Z k / inject_Z (4 * ppq) == sval s)%Q.
Proof. exact c38_exact. Qed.
Print Assumptions C38_exact.
(** C38: a note that ends before another one begins also does so in pulses. *)
Theorem C38_disjoint :
  forall nd ppq middle_c bpm channel w p d q a b c,
  writer_new nd ppq middle_c bpm channel = Ok w -> valid_sig p -> valid_sig d -> valid_sig q ->
  (sval p + sval d <= sval q)%Q ->
  signature_to_pulses w p = Ok a -> signature_to_pulses w d = Ok b -> signature_to_pulses w q = Ok c ->
  a + b <= c.
Proof. exact c38_disjoint. Qed.
Print Assumptions C38_disjoint.
Example C38_ex : exists w, writer_new ascii_digit 96 default_middle_c f_one 0 = Ok w /\
  signature_to_pulses w (mkSig 3 8) = Ok 144 /\ signature_to_pulses w (mkSig 1 1024) = Ok 0 /\
  signature_to_pulses w (mkSig 3 512) = Ok 2.
Proof. eexists. split; [reflexivity|]. repeat split; vm_compute; reflexivity. Qed.

(** C39: a tick count is read as the largest multiple of 1/16384 not above it, in lowest terms. *)
Theorem C39_value :
  forall t q, 0 <= t -> 0 < q ->
  exists s, time_to_signature t q = Ok s /\ valid_sig s /\
    Z.gcd (nominator s) (denominator s) = 1 /\
    (sval s <= t # Z.to_pos (4 * q))%Q /\ ((t # Z.to_pos (4 * q)) < sval s + (1 # 16384))%Q /\
    ((q | 4096 * t) -> (sval s == t # Z.to_pos (4 * q))%Q).
Proof. exact c39_value. Qed.
Print Assumptions C39_value.
Theorem C39_monotone :
  forall t u q s r, 0 <= t <= u -> 0 < q ->
  time_to_signature t q = Ok s -> time_to_signature u q = Ok r -> (sval s <= sval r)%Q.
Proof. exact c39_monotone. Qed.
Print Assumptions C39_monotone.
(** C39: written again with the same division (at most 4096) it is the same number of pulses or one less;
    the same if it is a multiple of 1/16384. *)
Theorem C39_rewritten :
  forall nd q middle_c bpm channel w t s,
  writer_new nd q middle_c bpm channel = Ok w -> q <= 4096 -> 0 <= t ->
  time_to_signature t q = Ok s ->
  (signature_to_pulses w s = Ok t \/ signature_to_pulses w s = Ok (t - 1)) /\
  ((q | 4096 * t) -> signature_to_pulses w s = Ok t).
Proof. exact c39_rewritten. Qed.
Print Assumptions C39_rewritten.
Example C39_ex : time_to_signature 96 96 = Ok (mkSig 1 4) /\ time_to_signature 32 96 = Ok (mkSig 1365 16384) /\
  time_to_signature 0 96 = Ok (mkSig 0 1).
Proof. repeat split; vm_compute; reflexivity. Qed.
