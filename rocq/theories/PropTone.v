(** Properties of tones (C08-C13) and of printed forms (C54). *)
From Coq Require Import ZArith Reals List Bool Lra.
From Verif Require Import Py Signature Tone SpecBase DecFacts ToneFacts ToneProps Frequency FrequencyProps.
Import ListNotations.
Open Scope Z_scope.

(** C08: notation round trip, for every pitch, both flags and every digit table. *)
Theorem C08_round_trip :
  forall nd p flag, digit_table nd ->
  exists s, to_notation (tone_new p) flag = Ok s /\ from_notation nd s = Ok (tone_new p).
Proof. exact c08_round_trip. Qed.
Print Assumptions C08_round_trip.
Theorem C08_distinct :
  forall p q f g s,
  to_notation (tone_new p) f = Ok s -> to_notation (tone_new q) g = Ok s -> p = q.
Proof. exact c08_distinct. Qed.
Print Assumptions C08_distinct.
Example C08_ex : to_notation (tone_new (-2)) true = Ok [66; 98; 45; 49] /\ (* Bb-1 *)
  to_notation (tone_new 61) false = Ok [67; 35; 53] /\ (* C#5 *)
  from_notation ascii_digit [66; 98; 45; 49] = Ok (mkTone (-2)).
Proof. repeat split. Qed.
Example digit_table_ex : digit_table ascii_digit.
Proof. exact ascii_digit_table. Qed.

(** C09: meaning of notation. *)
Theorem C09_meaning :
  forall nd s p, digit_table nd -> notation_text nd s p ->
  from_notation nd s = Ok (mkTone p).
Proof. exact c09_meaning. Qed.
Print Assumptions C09_meaning.
(** G#b#bb-05 *)
Example C09_ex : notation_text ascii_digit [71; 35; 98; 35; 98; 98; 45; 48; 53] (12 * (-5) + 7 - 1).
Proof.
  exact (notation_intro ascii_digit 71 7 [35; 98; 35; 98; 98] [45; 48; 53] (-5)
    ltac:(cbn; tauto) ltac:(repeat constructor; (left; reflexivity) || (right; reflexivity))
    (octave_neg ascii_digit [48; 53] [0; 5] ltac:(discriminate) ltac:(repeat constructor))).
Qed.

(** C10: the full statement is [rejects_other_strings]; it is false of the code: "C4x" is accepted. *)
Print rejects_other_strings.
Theorem C10_refuted :
  forall nd, digit_table nd ->
  (exists s t, (forall p, ~ notation_text nd s p) /\ from_notation nd s = Ok t) /\
  ~ rejects_other_strings nd.
Proof. exact c10_refuted. Qed.
Print Assumptions C10_refuted.
(** C10: what holds.  Exactly the strings that do not start with a letter A-G are rejected, with
    ValueError; the others get the meaning of their longest prefix that is a notation.  Missing:
    rejection of text after that prefix, which is false. *)
Theorem C10_partial :
  forall nd s, digit_table nd ->
  ((forall c base r, In (c, base) letters -> s <> c :: r) -> from_notation nd s = Err ValueError) /\
  (forall c base r, In (c, base) letters -> s = c :: r ->
     exists prefix rest p, s = prefix ++ rest /\ notation_text nd prefix p /\
       (forall prefix' rest' p', s = prefix' ++ rest' -> notation_text nd prefix' p' ->
          (length prefix' <= length prefix)%nat) /\
       from_notation nd s = Ok (mkTone p)).
Proof. exact c10_partial. Qed.
Print Assumptions C10_partial.
Example C10_ex : from_notation ascii_digit [67; 52; 120] = Ok (mkTone 48) /\
  from_notation ascii_digit [72; 52] = Err ValueError /\ from_notation ascii_digit [] = Err ValueError.
Proof. repeat split. Qed.

(** C11: octaves. *)
Theorem C11_octave :
  forall p,
  12 * tone_octave (tone_new p) <= p < 12 * tone_octave (tone_new p) + 12 /\
  (forall o, 12 * o <= p < 12 * o + 12 -> o = tone_octave (tone_new p)).
Proof. exact c11_octave. Qed.
Print Assumptions C11_octave.
Theorem C11_parsed :
  forall nd c base oct o, digit_table nd -> In (c, base) letters ->
  octave_text nd oct o -> oct <> [] ->
  exists t, from_notation nd (c :: oct) = Ok t /\ tone_octave t = o.
Proof. exact c11_parsed. Qed.
Print Assumptions C11_parsed.
Theorem C11_printed :
  forall t flag, exists c acc,
  to_notation t flag = Ok (c :: acc ++ str_of_Z (tone_octave t)) /\
  (acc = [] \/ acc = [sharp] \/ acc = [flat]).
Proof. exact c11_printed. Qed.
Print Assumptions C11_printed.
Example C11_ex : octave_text ascii_digit [45; 51] (-3) /\ tone_octave (tone_new (-25)) = -3.
Proof.
  split; [|reflexivity].
  exact (octave_neg ascii_digit [51] [3] ltac:(discriminate) ltac:(repeat constructor)).
Qed.

(** C12: transposition and order. *)
Theorem C12_transposition :
  forall t a b,
  tone_transposed (tone_transposed t a) b = tone_transposed t (a + b) /\
  tone_transposed t 0 = t /\
  tone_transposed (tone_transposed t a) (- a) = t /\
  pitch (tone_transposed t a) = pitch t + a /\
  tone_octave (tone_transposed t (12 * a)) = tone_octave t + a.
Proof. exact c12_transposition. Qed.
Print Assumptions C12_transposition.
Theorem C12_order :
  forall x y z k,
  (tone_eq x y = true <-> x = y) /\
  (tone_lt x y = true <-> pitch x < pitch y) /\
  (tone_le x y = true <-> tone_lt x y = true \/ x = y) /\
  tone_gt x y = tone_lt y x /\ tone_ge x y = tone_le y x /\
  tone_lt x x = false /\
  (tone_lt x y = true -> tone_lt y z = true -> tone_lt x z = true) /\
  (tone_lt x y = true \/ x = y \/ tone_lt y x = true) /\
  tone_lt (tone_transposed x k) (tone_transposed y k) = tone_lt x y /\
  tone_le (tone_transposed x k) (tone_transposed y k) = tone_le x y /\
  tone_eq (tone_transposed x k) (tone_transposed y k) = tone_eq x y.
Proof. exact c12_order. Qed.
Print Assumptions C12_order.
Example C12_ex : tone_lt (mkTone (-5)) (mkTone 7) = true /\
  tone_octave (tone_transposed (mkTone (-1)) 24) = 1.
Proof. split; reflexivity. Qed.

(** C13: equal temperament, over the reals.  Missing: the binary64 rounding of the computation. *)
Open Scope R_scope.
Theorem C13_partial :
  forall t k base,
  to_frequency (tone_new 57) base = base /\
  to_frequency (tone_transposed t 12) base = 2 * to_frequency t base /\
  to_frequency (tone_transposed t 1) base = to_frequency t base * Rpower 2 (/ 12) /\
  to_frequency (tone_transposed t k) base = to_frequency t base * Rpower 2 (IZR k / 12) /\
  (0 < base -> 0 < to_frequency t base /\
     forall u, (pitch t < pitch u)%Z -> to_frequency t base < to_frequency u base).
Proof. exact c13_partial. Qed.
Print Assumptions C13_partial.
Example C13_ex : to_frequency (tone_transposed (tone_new 57) 12) 440 = 880.
Proof.
  destruct (C13_partial (tone_new 57) 0 440) as (H1 & H2 & _).
  rewrite H2, H1. lra.
Qed.
Open Scope Z_scope.

(** C54: printed forms. *)
Theorem C54_decimal :
  forall nd n m, digit_table nd ->
  octave_text nd (str_of_Z n) n /\ (octave_text nd (str_of_Z n) m -> m = n) /\
  (str_of_Z n = str_of_Z m -> n = m).
Proof. exact c54_decimal. Qed.
Print Assumptions C54_decimal.
Theorem C54_signatures :
  forall a b,
  (sig_str a = sig_str b -> a = b) /\ (sig_repr a = sig_repr b -> a = b).
Proof. exact c54_signatures. Qed.
Print Assumptions C54_signatures.
Theorem C54_tones :
  forall a b,
  (tone_str a = tone_str b -> a = b) /\ (tone_repr a = tone_repr b -> a = b).
Proof. exact c54_tones. Qed.
Print Assumptions C54_tones.
Example C54_ex : sig_str (mkSig 12 16) = [49; 50; 47; 49; 54] /\
  str_of_Z (-120) = [45; 49; 50; 48].
Proof. split; reflexivity. Qed.
