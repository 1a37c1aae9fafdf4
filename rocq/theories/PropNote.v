(** Properties of notes (C14-C16). *)
From Coq Require Import ZArith QArith List Bool.
From Verif Require Import Py PyFloat Signature Tone Note SpecBase DecFacts SigProps FloatFacts NoteProps.
Import ListNotations.
Open Scope Z_scope.

(** C14: the constructor.  [tone_argument] and [duration_argument] say which arguments are a tone
    and a duration; [is_float v] holds of every Python float, NaN and infinities included. *)
Theorem C14_note :
  forall nd ta da v, digit_table nd -> is_float v = true ->
  (forall t d, tone_argument nd ta t -> duration_argument da d -> valid_velocity v ->
     exists n, note_new nd ta da v = Ok n /\ n_tone n = t /\ n_duration n = d /\ n_velocity n = v) /\
  (~ (exists t d, tone_argument nd ta t /\ duration_argument da d /\ valid_velocity v) ->
     note_new nd ta da v = Err ValueError \/ note_new nd ta da v = Err TypeError).
Proof. exact c14_note. Qed.
Print Assumptions C14_note.
Example C14_ex :
  note_new ascii_digit (TA_str [65; 52]) (SA_iter [EInt 3; EInt 8]) f_half
    = Ok (mkNote (mkTone 57) (mkSig 3 8) f_half) /\
  note_new ascii_digit (TA_int 0) (SA_sig (mkSig 1 4)) S754_nan = Err ValueError /\
  note_new ascii_digit (TA_int 0) (SA_sig (mkSig 1 4)) (S754_infinity false) = Err ValueError /\
  note_new ascii_digit (TA_int 0) (SA_iter [EInt 1; EInt 3]) f_one = Err ValueError /\
  note_new ascii_digit (TA_int 0) (SA_iter [EInt 1]) f_one = Err TypeError /\
  note_new ascii_digit TA_other (SA_sig (mkSig 1 4)) f_one = Err TypeError.
Proof. repeat split. Qed.
Example C14_ex_velocity : valid_velocity f_half /\ ~ valid_velocity S754_nan.
Proof. split; [apply unit_test; reflexivity|]. intros (_ & [] & _). Qed.

(** C15: modifiers. *)
Theorem C15_transposed :
  forall n a b, valid_note n ->
  exists m, note_transposed n a = Ok m /\ pitch (n_tone m) = pitch (n_tone n) + a /\
    n_duration m = n_duration n /\ n_velocity m = n_velocity n /\
    note_transposed m b = note_transposed n (a + b).
Proof. exact c15_transposed. Qed.
Print Assumptions C15_transposed.
Theorem C15_with_duration :
  forall n da, valid_note n ->
  (forall d, duration_argument da d ->
     exists m, with_duration n da = Ok m /\ n_tone m = n_tone n /\ n_duration m = d /\
       n_velocity m = n_velocity n) /\
  ((forall d, ~ duration_argument da d) ->
     with_duration n da = Err ValueError \/ with_duration n da = Err TypeError).
Proof. exact c15_with_duration. Qed.
Print Assumptions C15_with_duration.
Theorem C15_with_velocity :
  forall n v, valid_note n -> is_float v = true ->
  (valid_velocity v ->
     exists m, with_velocity n v = Ok m /\ n_tone m = n_tone n /\ n_duration m = n_duration n /\
       n_velocity m = v) /\
  (~ valid_velocity v -> with_velocity n v = Err ValueError).
Proof. exact c15_with_velocity. Qed.
Print Assumptions C15_with_velocity.
Example C15_ex : valid_note (mkNote (mkTone 57) (mkSig 3 8) f_half) /\
  note_transposed (mkNote (mkTone 57) (mkSig 3 8) f_half) (-60) =
    Ok (mkNote (mkTone (-3)) (mkSig 3 8) f_half).
Proof.
  split; [|reflexivity]. split; [apply (valid_pow 3 3); discriminate|apply unit_test; reflexivity].
Qed.

(** C16: equality. *)
Theorem C16_equality :
  forall a b c, valid_note a -> valid_note b -> valid_note c ->
  (note_eq a b = true <-> note_same a b) /\
  note_eq a a = true /\
  (note_eq a b = true -> note_eq b a = true) /\
  (note_eq a b = true -> note_eq b c = true -> note_eq a c = true).
Proof. exact c16_equality. Qed.
Print Assumptions C16_equality.
(** C16: the full statement about the order is [notes_ordered]; it is false of the code. *)
Print notes_ordered.
Theorem C16_refuted :
  (exists a b, valid_note a /\ valid_note b /\ note_lt a b = true /\ note_lt b a = true /\
     note_eq a b = false) /\
  ~ notes_ordered.
Proof. exact c16_refuted. Qed.
Print Assumptions C16_refuted.
(** C16: what holds.  The order is the lexicographic one when the left duration has the larger (or
    the same) denominator; otherwise the durations are compared the wrong way round, everything
    else being right.  Missing: correctness in the second case, which is false. *)
Theorem C16_partial :
  forall a b, valid_note a -> valid_note b ->
  (denominator (n_duration b) <= denominator (n_duration a) ->
    (note_lt a b = true <-> note_before a b) /\
    (note_le a b = true <-> note_before a b \/ note_same a b) /\
    (note_gt a b = true <-> note_before b a) /\
    (note_ge a b = true <-> note_before b a \/ note_same a b)) /\
  (denominator (n_duration a) < denominator (n_duration b) ->
    (note_lt a b = true <-> note_before_rev a b) /\
    (note_le a b = true <-> note_before_rev a b \/ note_same a b) /\
    (note_gt a b = true <-> note_before_rev b a) /\
    (note_ge a b = true <-> note_before_rev b a \/ note_same a b)).
Proof. exact c16_partial. Qed.
Print Assumptions C16_partial.
(** The specification order is a strict total order. *)
Theorem C16_spec_order :
  forall a b c,
  ~ note_before a a /\
  (note_before a b -> note_before b c -> note_before a c) /\
  (note_before a b \/ note_same a b \/ note_before b a) /\
  (note_before a b -> ~ note_same a b /\ ~ note_before b a).
Proof. exact c16_spec_order. Qed.
Print Assumptions C16_spec_order.
Example C16_ex : note_lt (mkNote (mkTone 5) (mkSig 1 4) f_half) (mkNote (mkTone 5) (mkSig 2 4) f_half) = true
  /\ note_lt (mkNote (mkTone 5) (mkSig 1 4) f_half) (mkNote (mkTone 5) (mkSig 1 4) f_one) = true.
Proof. split; reflexivity. Qed.
