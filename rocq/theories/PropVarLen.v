(** Properties of variable-length quantities (C30, C31). *)
From Coq Require Import ZArith QArith List Bool.
From Verif Require Import Py PyFloat PySort Signature Tone Note Track MidiWriter MidiReader
  SpecBase MidiSpec VarLenFacts.
Import ListNotations.
Open Scope Z_scope.

(** C30: what the writer produces for n is read back as n, whatever follows, and the reader stops
    right after it. *)
Theorem C30_round_trip :
  forall n suffix, 0 <= n -> exists bs, format_var_len n = Ok bs /\
  read_var_len (reader_new (bs ++ suffix)) =
    (mkReader (bs ++ suffix) (Z.of_nat (length bs)), Ok n).
Proof. exact c30_round_trip. Qed.
Print Assumptions C30_round_trip.
Example C30_ex : format_var_len 100000 = Ok [134; 141; 32] /\
  read_var_len (reader_new [134; 141; 32; 255]) = (mkReader [134; 141; 32; 255] 3, Ok 100000).
Proof. split; reflexivity. Qed.

(** C31: base 128, most significant digit first, no leading zeros, bit 7 on all but the last. *)
Theorem C31_encoding :
  forall n, 0 <= n -> exists ds,
  format_var_len n = Ok (with_bit7 ds) /\ Forall is_digit ds /\ value128 ds = n /\
  (ds = [0] \/ exists d r, ds = d :: r /\ d <> 0) /\
  ((length (with_bit7 ds) <= 4)%nat <-> n < 2 ^ 28).
Proof. exact c31_encoding. Qed.
Print Assumptions C31_encoding.
Example C31_ex : format_var_len 0 = Ok [0] /\ format_var_len 127 = Ok [127] /\
  format_var_len 128 = Ok [129; 0] /\ format_var_len 268435455 = Ok [255; 255; 255; 127] /\
  format_var_len 268435456 = Ok [129; 128; 128; 128; 0].
Proof. repeat split. Qed.
