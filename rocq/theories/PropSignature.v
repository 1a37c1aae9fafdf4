(** Properties of signatures (C01-C07).  Only theorems, examples and their assumptions. *)
From Coq Require Import ZArith QArith List Bool.
From Verif Require Import Py Signature SpecBase SigFacts SigProps.
Open Scope Z_scope.

(** C01: construction accepts exactly the valid time values. *)
Theorem C01_construct :
  forall n d : Z,
  (0 <= n /\ pow2 d -> exists s, sig_new n d = Ok s /\ nominator s = n /\ denominator s = d) /\
  (~ (0 <= n /\ pow2 d) -> sig_new n d = Err ValueError).
Proof. exact c01_construct. Qed.
Print Assumptions C01_construct.
(** C01: everything obtained by the operations is valid again ([built] is closure under them). *)
Theorem C01_closed :
  forall s, built s -> valid_sig s.
Proof. exact c01_closed. Qed.
Print Assumptions C01_closed.

Example C01_ex : sig_new 7 8 = Ok (mkSig 7 8) /\ sig_new 7 12 = Err ValueError /\
  sig_new (-1) 4 = Err ValueError /\ sig_new 3 0 = Err ValueError /\ sig_new 3 (-4) = Err ValueError.
Proof. repeat split. Qed.
Example C01_closed_ex : built (mkSig 11 8).
Proof.
  apply (built_add (mkSig 3 8) (mkSig 1 1)); [apply (built_new 3 8); reflexivity|
    apply (built_new 1 1); reflexivity|reflexivity].
Qed.

(** C02: equality is equality of rationals. *)
Theorem C02_equality :
  forall a b, valid_sig a -> valid_sig b ->
  (sig_eq a b = true <-> (sval a == sval b)%Q).
Proof. exact c02_equality. Qed.
Print Assumptions C02_equality.
Theorem C02_equivalence :
  (forall a, valid_sig a -> sig_eq a a = true) /\
  (forall a b, valid_sig a -> valid_sig b -> sig_eq a b = true -> sig_eq b a = true) /\
  (forall a b c, valid_sig a -> valid_sig b -> valid_sig c ->
     sig_eq a b = true -> sig_eq b c = true -> sig_eq a c = true).
Proof. exact c02_equivalence. Qed.
Print Assumptions C02_equivalence.
Example C02_ex : valid_sig (mkSig 1 2) /\ valid_sig (mkSig 4 8) /\
  sig_eq (mkSig 1 2) (mkSig 4 8) = true /\ sig_eq (mkSig 1 2) (mkSig 3 8) = false.
Proof. repeat split; try (apply (valid_pow 1 1) || apply (valid_pow 4 3)); discriminate. Qed.

(** C03: the full statement is [ordering_is_rational]; it is false of the code. *)
Print ordering_is_rational.
Theorem C03_refuted :
  (exists a b, valid_sig a /\ valid_sig b /\ sig_lt a b = true /\ sig_lt b a = true /\
     sig_le a b = true /\ sig_le b a = true /\ sig_eq a b = false) /\
  ~ ordering_is_rational.
Proof. exact c03_refuted. Qed.
Print Assumptions C03_refuted.
(** C03: what holds.  The comparison is right when the left denominator is at least the right one
    (in particular for equal denominators) and exactly reversed otherwise.  Missing: correctness
    when the left denominator is smaller, which is false. *)
Theorem C03_partial :
  forall a b, valid_sig a -> valid_sig b ->
  (denominator b <= denominator a ->
    (sig_lt a b = true <-> (sval a < sval b)%Q) /\
    (sig_le a b = true <-> (sval a <= sval b)%Q) /\
    (sig_gt a b = true <-> (sval b < sval a)%Q) /\
    (sig_ge a b = true <-> (sval b <= sval a)%Q)) /\
  (denominator a < denominator b ->
    (sig_lt a b = true <-> (sval b < sval a)%Q) /\
    (sig_le a b = true <-> (sval b <= sval a)%Q) /\
    (sig_gt a b = true <-> (sval a < sval b)%Q) /\
    (sig_ge a b = true <-> (sval a <= sval b)%Q)).
Proof. exact c03_partial. Qed.
Print Assumptions C03_partial.
Example C03_ex : valid_sig (mkSig 1 8) /\ valid_sig (mkSig 1 4) /\
  denominator (mkSig 1 4) <= denominator (mkSig 1 8) /\ sig_lt (mkSig 1 8) (mkSig 1 4) = true /\
  sig_lt (mkSig 1 4) (mkSig 1 8) = true.
Proof. repeat split; try (apply (valid_pow 1 3) || apply (valid_pow 1 2)); discriminate. Qed.

(** C04: addition is exact. *)
Theorem C04_add :
  forall a b, valid_sig a -> valid_sig b ->
  exists s, sig_add a b = Ok s /\ (sval s == sval a + sval b)%Q /\
    denominator s = Z.max (denominator a) (denominator b).
Proof. exact c04_add. Qed.
Print Assumptions C04_add.
Theorem C04_laws :
  forall a b c, valid_sig a -> valid_sig b -> valid_sig c ->
  sig_add a b = sig_add b a /\
  (exists ab bc l r, sig_add a b = Ok ab /\ sig_add ab c = Ok l /\ sig_add b c = Ok bc /\
     sig_add a bc = Ok r /\ sig_eq l r = true) /\
  (exists s, sig_add a (mkSig 0 1) = Ok s /\ sig_eq s a = true).
Proof. exact c04_laws. Qed.
Print Assumptions C04_laws.
Example C04_ex : sig_add (mkSig 1 2) (mkSig 3 8) = Ok (mkSig 7 8).
Proof. reflexivity. Qed.

(** C05: multiplication is exact, abs is the identity. *)
Theorem C05_mul :
  forall a b, valid_sig a -> valid_sig b ->
  exists s, sig_mul a b = Ok s /\ (sval s == sval a * sval b)%Q.
Proof. exact c05_mul. Qed.
Print Assumptions C05_mul.
Theorem C05_laws :
  forall a b c, valid_sig a -> valid_sig b -> valid_sig c ->
  sig_mul a b = sig_mul b a /\
  sig_mul a (mkSig 1 1) = Ok a /\
  (exists ab bc l, sig_mul a b = Ok ab /\ sig_mul ab c = Ok l /\ sig_mul b c = Ok bc /\
     sig_mul a bc = Ok l) /\
  (exists s ac bc l r, sig_add a b = Ok s /\ sig_mul s c = Ok l /\ sig_mul a c = Ok ac /\
     sig_mul b c = Ok bc /\ sig_add ac bc = Ok r /\ sig_eq l r = true) /\
  sig_abs a = Ok a.
Proof. exact c05_laws. Qed.
Print Assumptions C05_laws.
Example C05_ex : sig_mul (mkSig 3 2) (mkSig 5 8) = Ok (mkSig 15 16).
Proof. reflexivity. Qed.

(** C06: changing the denominator. *)
Theorem C06_to :
  forall s d, valid_sig s ->
  (pow2 d /\ denominator s <= d ->
     exists s', sig_to s d = Ok s' /\ denominator s' = d /\ (sval s' == sval s)%Q) /\
  (~ (pow2 d /\ denominator s <= d) -> sig_to s d = Err ValueError).
Proof. exact c06_to. Qed.
Print Assumptions C06_to.
Example C06_ex : sig_to (mkSig 3 4) 16 = Ok (mkSig 12 16) /\ sig_to (mkSig 3 4) 2 = Err ValueError /\
  sig_to (mkSig 3 4) 12 = Err ValueError.
Proof. repeat split. Qed.

(** C07: normalized. *)
Theorem C07_normalized :
  forall s, valid_sig s ->
  exists s', sig_normalized s = Ok s' /\ (sval s' == sval s)%Q /\
    Z.gcd (nominator s') (denominator s') = 1 /\ sig_normalized s' = Ok s'.
Proof. exact c07_normalized. Qed.
Print Assumptions C07_normalized.
Theorem C07_canonical :
  forall a b a' b', valid_sig a -> valid_sig b ->
  sig_normalized a = Ok a' -> sig_normalized b = Ok b' ->
  (sig_eq a b = true <->
   nominator a' = nominator b' /\ denominator a' = denominator b').
Proof. exact c07_canonical. Qed.
Print Assumptions C07_canonical.
Example C07_ex : sig_normalized (mkSig 12 32) = Ok (mkSig 3 8) /\
  sig_normalized (mkSig 0 16) = Ok (mkSig 0 1).
Proof. repeat split. Qed.
