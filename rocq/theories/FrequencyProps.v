From Coq Require Import ZArith Reals Lra Lia.
From Verif Require Import Py Tone Frequency.
Open Scope R_scope.

Lemma freq_step : forall t k base,
  to_frequency (tone_transposed t k) base = to_frequency t base * Rpower 2 (IZR k / 12).
Proof.
  intros [p] k base. unfold to_frequency, tone_transposed, tone_new. cbn [pitch].
  rewrite Rmult_assoc, <- Rpower_plus. f_equal. f_equal.
  replace (p + k - 57)%Z with (p - 57 + k)%Z by lia. rewrite plus_IZR. field.
Qed.

Lemma c13_partial : forall t k base,
  to_frequency (tone_new 57) base = base /\
  to_frequency (tone_transposed t 12) base = 2 * to_frequency t base /\
  to_frequency (tone_transposed t 1) base = to_frequency t base * Rpower 2 (/ 12) /\
  to_frequency (tone_transposed t k) base = to_frequency t base * Rpower 2 (IZR k / 12) /\
  (0 < base -> 0 < to_frequency t base /\
     forall u, (pitch t < pitch u)%Z -> to_frequency t base < to_frequency u base).
Proof.
  intros t k base. split; [|split; [|split; [|split]]].
  - unfold to_frequency, tone_new. cbn [pitch]. replace (57 - 57)%Z with 0%Z by lia.
    replace (IZR 0 / 12) with 0 by field. rewrite Rpower_O by lra. ring.
  - rewrite freq_step. replace (IZR 12 / 12) with 1 by field. rewrite Rpower_1 by lra. ring.
  - rewrite freq_step. f_equal. f_equal. field.
  - apply freq_step.
  - intros Hb. unfold to_frequency. split.
    + apply Rmult_lt_0_compat; [assumption|]. apply exp_pos.
    + intros u Hu. apply Rmult_lt_compat_l; [assumption|].
      apply Rpower_lt; [lra|]. apply Rmult_lt_compat_r; [lra|]. apply IZR_lt. lia.
Qed.
