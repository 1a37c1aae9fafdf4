(** to_frequency in binary64 (C13). *)
From Coq Require Import ZArith Reals Lia Lra Psatz.
From Verif Require Import Py PyFloat SpecBase Tone Frequency FrequencyProps FrequencySpec FrequencyFloat RoundingFacts.
From Flocq Require Import Core.Core IEEE754.BinarySingleNaN.
Require Import Flocq.Prop.Relative Flocq.Prop.Mult_error.
Open Scope R_scope.

#[local] Instance prec_pos : Prec_gt_0 prec.
Proof. reflexivity. Qed.
#[local] Instance fexp_ok : Valid_exp fexp64.
Proof. apply (fexp_correct prec emax), prec_pos. Qed.

Lemma Rpower_bpow k : Rpower 2 (IZR k) = bpow radix2 k.
Proof. rewrite RoundingFacts.bpow_powerRZ. symmetry. apply powerRZ_Rpower. lra. Qed.

Lemma ln2_upper : ln 2 <= 3 / 4.
Proof.
  assert (H : 2 <= exp (3 / 4)).
  { replace (3 / 4) with (IZR 12 * / 16) by field.
    assert (E : exp (IZR 12 * / 16) = exp (/ 16) ^ 12).
    { rewrite <- Rpower_pow by apply exp_pos. unfold Rpower. rewrite ln_exp, INR_IZR_INZ. reflexivity. }
    rewrite E. apply Rle_trans with ((17 / 16) ^ 12); [lra|]. apply pow_incr. split; [lra|].
    pose proof (exp_ineq1 (/ 16)). lra. }
  rewrite <- (ln_exp (3 / 4)). destruct H as [H|H]; [left; apply ln_increasing; lra|right; rewrite <- H; reflexivity].
Qed.

Lemma ln2_lower : 0 < ln 2.
Proof. rewrite <- ln_1. apply ln_increasing; lra. Qed.

Lemma exp_lower x : 1 + x <= exp x.
Proof. destruct (Req_dec x 0) as [->|H]; [rewrite exp_0; lra|left; apply exp_ineq1, H]. Qed.

(** Powers of two with a small exponent. *)
Lemma Rpower_small d : Rabs d <= / 3 -> Rabs (Rpower 2 d - 1) <= Rabs d.
Proof.
  intros H. unfold Rpower. pose proof ln2_upper. pose proof ln2_lower.
  assert (B : Rabs d * ln 2 <= 3 / 4 * Rabs d) by (pose proof (Rabs_pos d); nra).
  apply Rabs_le. split.
  - pose proof (exp_lower (d * ln 2)). pose proof (Rabs_pos d).
    assert (- (Rabs d * ln 2) <= d * ln 2) by (pose proof (Rle_abs (- d)); rewrite Rabs_Ropp in *; nra). lra.
  - destruct (Rle_or_lt d 0) as [Hd|Hd].
    + assert (exp (d * ln 2) <= 1). { rewrite <- exp_0. destruct (Rle_lt_or_eq_dec _ _ Hd) as [L|E]; [left; apply exp_increasing; nra|right; rewrite E, Rmult_0_l; reflexivity]. }
      pose proof (Rabs_pos d). lra.
    + rewrite Rabs_pos_eq in * by lra. set (x := d * ln 2) in *.
      pose proof (exp_lower (- x)) as L. rewrite exp_Ropp in L.
      assert (P : 0 < exp x) by apply exp_pos.
      assert (Q : (1 - x) * exp x <= 1). { apply Rmult_le_reg_r with (/ exp x); [apply Rinv_0_lt_compat, P|]. rewrite Rmult_assoc, Rinv_r by lra. lra. }
      assert (X : 0 <= x <= 3 / 4 * d) by (unfold x; nra).
      assert ((1 - x) * (exp x - 1) <= x) by lra.
      assert (x <= (1 - x) * d) by nra. nra.
Qed.

Lemma rnd_relative x : bpow radix2 (-1022) <= Rabs x -> Rabs (rnd x - x) <= Rabs x * / 2 ^ 53.
Proof.
  intros H. pose proof (relative_error_N_FLT radix2 (-1074) 53 eq_refl (fun n => negb (Z.even n)) x H) as E.
  change (bpow radix2 (-53 + 1)) with (/ IZR (2 ^ 52)) in E. unfold rnd. change fexp64 with (FLT_exp (-1074) 53) in *.
  replace (/ 2 ^ 53) with (/ 2 * / IZR (2 ^ 52)) by (change (2 ^ 52)%Z with 4503599627370496%Z; lra).
  rewrite (Rmult_comm (Rabs x)). exact E.
Qed.

Lemma rnd_relative_ex x : bpow radix2 (-1022) <= Rabs x -> exists c, Rabs c <= / 2 ^ 53 /\ rnd x = x * (1 + c).
Proof.
  intros H. pose proof (rnd_relative x H) as E. assert (X : x <> 0).
  { intros ->. rewrite Rabs_R0 in H. pose proof (bpow_gt_0 radix2 (-1022)). lra. }
  exists ((rnd x - x) / x). split; [|field; exact X].
  unfold Rdiv. rewrite Rabs_mult, Rabs_inv. apply Rmult_le_reg_r with (Rabs x); [apply Rabs_pos_lt, X|].
  rewrite Rmult_assoc, Rinv_l by (apply Rabs_no_R0, X). lra.
Qed.

Lemma two_errors a b ea eb : Rabs a <= ea -> Rabs b <= eb -> Rabs ((1 + a) * (1 + b) - 1) <= ea + eb + ea * eb.
Proof.
  intros Ha Hb. replace ((1 + a) * (1 + b) - 1) with (a + b + a * b) by ring.
  eapply Rle_trans; [apply Rabs_triang|]. apply Rplus_le_compat.
  - eapply Rle_trans; [apply Rabs_triang|]. lra.
  - rewrite Rabs_mult. apply Rmult_le_compat; auto using Rabs_pos.
Qed.

Lemma rnd_IZR k : (Z.abs k < 2 ^ 53)%Z -> rnd (IZR k) = IZR k.
Proof.
  intros H. apply round_generic; [typeclasses eauto|]. change fexp64 with (FLT_exp (-1074) 53). apply generic_format_FLT.
  apply (FLT_spec _ _ _ _ (Float radix2 k 0)); cbn [Fnum Fexp]; [unfold F2R; cbn; ring|exact H|lia].
Qed.

(** The exponent. *)
Lemma exponent_ok p : (-12264 <= p - 57 < 12288)%Z ->
  exists y, int_truediv (p - 57) 12 = Ok y /\ is_float y = true /\ finite y /\ -1022 <= fR y < 1024 /\
    Rabs (fR y - IZR (p - 57) / 12) <= Rabs (IZR (p - 57) / 12) * / 2 ^ 53.
Proof.
  intros Hp. set (y := IZR (p - 57) / 12).
  assert (B : -1022 <= y <= 1024 - / 12).
  { unfold y. split.
    - apply Rmult_le_reg_r with 12; [lra|]. unfold Rdiv. rewrite Rmult_assoc, Rinv_l by lra. rewrite Rmult_1_r. rewrite <- mult_IZR. apply IZR_le. lia.
    - apply Rmult_le_reg_r with 12; [lra|]. unfold Rdiv. rewrite Rmult_assoc, Rinv_l by lra. rewrite Rmult_1_r.
      replace ((1024 - / 12) * 12) with (IZR 12287) by field. apply IZR_le. lia. }
  assert (E : Rabs (rnd y - y) <= Rabs y * / 2 ^ 53).
  { destruct (Z.eq_dec (p - 57) 0) as [H0|H0].
    - unfold y. rewrite H0. unfold Rdiv. rewrite Rmult_0_l. replace (rnd 0) with 0 by (symmetry; apply round_0; typeclasses eauto).
      rewrite Rminus_0_r, Rabs_R0. lra.
    - apply rnd_relative. apply Rle_trans with (/ 12).
      + apply Rle_trans with (bpow radix2 (-4)); [apply bpow_le; lia|]. change (bpow radix2 (-4)) with (/ 16). lra.
      + unfold y, Rdiv. rewrite Rabs_mult, (Rabs_pos_eq (/ 12)) by lra. rewrite <- abs_IZR.
        assert (1 <= IZR (Z.abs (p - 57))) by (apply IZR_le; lia). lra. }
  assert (A : Rabs y <= 1024) by (apply Rabs_le; lra).
  assert (R2 : -1022 <= rnd y < 1024).
  { split.
    - rewrite <- (rnd_IZR (-1022)) by reflexivity. apply round_le; [typeclasses eauto|typeclasses eauto|lra].
    - apply Rabs_le_inv in E. lra. }
  destruct (truediv_round (p - 57) 12 ltac:(lia)) as [H _]. fold y in H.
  destruct H as (f & H1 & H2 & H3 & H4).
  - apply Rle_lt_trans with 1024; [apply Rabs_le; lra|]. change 1024 with (bpow radix2 10). apply bpow_lt. reflexivity.
  - exists f. rewrite H4. auto.
Qed.

(** The product, up to the errors of its parts. *)
Lemma c13_float_error : forall pow2, pow_contract pow2 -> forall t base,
  (-12264 <= pitch t - 57 < 12288)%Z -> is_float base = true -> finite base ->
  powerRZ 2 (-1021) <= Rabs (to_frequency t (fR base)) <= powerRZ 2 1023 ->
  exists f, to_frequency_float pow2 t base = Ok f /\ is_float f = true /\ finite f /\
    Rabs (fR f - to_frequency t (fR base)) <= Rabs (to_frequency t (fR base)) * ((Rabs (IZR (pitch t - 57)) / 12 + 4) / 2 ^ 53).
Proof.
  intros pow2 Hpow [p] base Hp Hb Fb HF. cbn [pitch] in *. rewrite <- !RoundingFacts.bpow_powerRZ in HF.
  destruct (exponent_ok p Hp) as (Y & EY & HY & FY & BY & DY). unfold to_frequency_float. cbn [pitch]. rewrite EY. cbn [bind].
  destruct (Hpow Y HY FY) as (_ & H & _). destruct (H BY) as (z & Ez & Hz & Fz & Dz & _). rewrite Ez. cbn [bind]. clear H.
  eexists. split; [reflexivity|].
  unfold to_frequency in *. cbn [pitch] in *. set (y := IZR (p - 57) / 12) in *. set (F := fR base * Rpower 2 y) in *.
  assert (AY : Rabs y = Rabs (IZR (p - 57)) / 12) by (unfold y, Rdiv; rewrite Rabs_mult, (Rabs_pos_eq (/ 12)) by lra; reflexivity).
  rewrite <- AY. clear AY.
  assert (A : 0 <= Rabs y <= 1024).
  { split; [apply Rabs_pos|]. unfold y. apply Rabs_le. assert (IZR (-12288) <= IZR (p - 57) <= IZR 12288) by (split; apply IZR_le; lia). lra. }
  (* the three relative errors *)
  set (a := Rpower 2 (fR Y - y) - 1). assert (Ha : Rabs a <= Rabs y * / 2 ^ 53).
  { eapply Rle_trans; [apply Rpower_small|exact DY]. eapply Rle_trans; [exact DY|]. lra. }
  assert (PY : Rpower 2 (fR Y) = Rpower 2 y * (1 + a)).
  { unfold a. replace (1 + (Rpower 2 (fR Y - y) - 1)) with (Rpower 2 (fR Y - y)) by ring. rewrite <- Rpower_plus. f_equal. ring. }
  assert (P0 : 0 < Rpower 2 (fR Y)) by apply exp_pos.
  set (b := (fR z - Rpower 2 (fR Y)) / Rpower 2 (fR Y)). assert (Hb' : Rabs b <= / 2 ^ 52).
  { unfold b, Rdiv. rewrite Rabs_mult, Rabs_inv, (Rabs_pos_eq (Rpower 2 (fR Y))) by lra. apply Rmult_le_reg_r with (Rpower 2 (fR Y)); [exact P0|].
    rewrite Rmult_assoc, Rinv_l by lra. lra. }
  assert (PZ : fR z = Rpower 2 (fR Y) * (1 + b)) by (unfold b; field; lra).
  assert (PB : fR base * fR z = F * ((1 + a) * (1 + b))) by (rewrite PZ, PY; unfold F; ring).
  pose proof (two_errors a b _ _ Ha Hb') as Hab. set (ab := (1 + a) * (1 + b) - 1) in *. replace ((1 + a) * (1 + b)) with (1 + ab) in PB by (unfold ab; ring).
  assert (Hab' : Rabs ab <= / 2 ^ 40) by (eapply Rle_trans; [exact Hab|]; lra).
  pose proof (Rabs_le_inv _ _ Hab') as Hab2.
  assert (AP : Rabs (fR base * fR z) = Rabs F * (1 + ab)) by (rewrite PB, Rabs_mult, (Rabs_pos_eq (1 + ab)) by lra; reflexivity).
  destruct (rnd_relative_ex (fR base * fR z)) as (c & Hc & Ec).
  { rewrite AP. replace (-1021)%Z with (-1022 + 1)%Z in HF by reflexivity. rewrite bpow_plus in HF. change (bpow radix2 1) with 2 in HF.
    pose proof (bpow_gt_0 radix2 (-1022)). nra. }
  pose proof (Rabs_le_inv _ _ Hc) as Hc2.
  assert (HR : Rabs (rnd (fR base * fR z)) < bpow radix2 emax).
  { rewrite Ec, Rabs_mult, AP, (Rabs_pos_eq (1 + c)) by lra. change emax with (1023 + 1)%Z. rewrite bpow_plus. change (bpow radix2 1) with 2.
    pose proof (bpow_gt_0 radix2 1023). pose proof (Rabs_pos F).
    apply Rle_lt_trans with (bpow radix2 1023 * ((1 + / 2 ^ 40) * (1 + / 2 ^ 53))); [|nra].
    rewrite Rmult_assoc. apply Rmult_le_compat; [apply Rabs_pos| |lra|]; [apply Rmult_le_pos; lra|]. apply Rmult_le_compat; lra. }
  destruct (fmul_round base z Hb Hz Fb Fz HR) as (V & FF & EE). split; [exact V|]. split; [exact FF|].
  rewrite EE, Ec, PB. replace (F * (1 + ab) * (1 + c) - F) with (F * ((1 + ab) * (1 + c) - 1)) by ring. rewrite Rabs_mult.
  apply Rmult_le_compat_l; [apply Rabs_pos|]. eapply Rle_trans; [apply (two_errors _ _ _ _ Hab Hc)|]. lra.
Qed.

Lemma flt_fR f g : is_float f = true -> is_float g = true -> finite f -> finite g -> (flt f g = true <-> fR f < fR g).
Proof.
  intros Hf Hg Ff Fg. pose proof (Bltb_correct prec emax (SF2B f Hf) (SF2B g Hg)) as H.
  rewrite !is_finite_SF2B, !B2R_SF2B, <- !fR_SF2R in H. unfold Bltb in H. rewrite !B2SF_SF2B in H.
  unfold flt. rewrite H by (apply finite_SF; assumption). split; [intros E|intros E; apply Rlt_bool_true, E].
  destruct (Rlt_bool_spec (fR f) (fR g)); [assumption|discriminate].
Qed.

(** Higher tones have greater frequencies, as long as everything is a normal number. *)
Lemma c13_float_increasing : forall pow2, pow_contract pow2 -> forall t u base,
  (-12264 <= pitch t - 57)%Z -> (pitch t < pitch u)%Z -> (pitch u - 57 < 12288)%Z -> is_float base = true -> finite base -> 0 < fR base ->
  powerRZ 2 (-1021) <= to_frequency t (fR base) -> to_frequency u (fR base) <= powerRZ 2 1023 ->
  exists f g, to_frequency_float pow2 t base = Ok f /\ to_frequency_float pow2 u base = Ok g /\ flt f g = true.
Proof.
  intros pow2 Hpow t u base H1 H2 H3 Hb Fb B0 HL HH.
  destruct (c13_partial t 0 (fR base)) as (_ & _ & _ & _ & H). destruct (H B0) as [Pt Lt]. specialize (Lt u H2). clear H.
  set (Ft := to_frequency t (fR base)) in *. set (Fu := to_frequency u (fR base)) in *.
  assert (Rt : powerRZ 2 (-1021) <= Rabs Ft <= powerRZ 2 1023) by (rewrite Rabs_pos_eq by lra; lra).
  assert (Ru : powerRZ 2 (-1021) <= Rabs Fu <= powerRZ 2 1023) by (rewrite Rabs_pos_eq by lra; lra).
  destruct (c13_float_error pow2 Hpow t base ltac:(lia) Hb Fb Rt) as (f & Ef & Vf & Nf & Df).
  destruct (c13_float_error pow2 Hpow u base ltac:(lia) Hb Fb Ru) as (g & Eg & Vg & Ng & Dg).
  exists f, g. split; [exact Ef|]. split; [exact Eg|]. apply flt_fR; try assumption.
  fold Ft in Df. fold Fu in Dg.
  assert (K : 26 / 25 * Ft <= Fu).
  { assert (EU : tone_transposed t (pitch u - pitch t) = u) by (destruct t as [p], u as [q]; unfold tone_transposed, tone_new; cbn; f_equal; lia).
    unfold Fu. rewrite <- EU at 1. rewrite freq_step. fold Ft. rewrite Rmult_comm. apply Rmult_le_compat_l; [lra|].
    apply Rle_trans with (1 + / 12 * ln 2).
    - assert (1 / 2 < ln 2) by (pose proof ln_lt_2; lra). lra.
    - eapply Rle_trans; [apply exp_lower|]. unfold Rpower. apply Rge_le, Rle_ge. assert (Q : / 12 * ln 2 <= IZR (pitch u - pitch t) / 12 * ln 2).
      { apply Rmult_le_compat_r; [left; apply ln2_lower|]. assert (1 <= IZR (pitch u - pitch t)) by (apply IZR_le; lia). lra. }
      destruct Q as [Q|Q]; [left; apply exp_increasing, Q|right; rewrite Q; reflexivity]. }
  assert (S : forall t', (-12264 <= pitch t' - 57 < 12288)%Z -> (Rabs (IZR (pitch t' - 57)) / 12 + 4) / 2 ^ 53 <= / 2 ^ 40).
  { intros t' Ht. assert (Rabs (IZR (pitch t' - 57)) <= 12288); [|lra]. apply Rabs_le. split; [apply Rle_trans with (IZR (-12288)); [lra|]|]; apply IZR_le; lia. }
  pose proof (S t ltac:(lia)) as S1. pose proof (S u ltac:(lia)) as S2. rewrite (Rabs_pos_eq Ft) in Df by lra. rewrite (Rabs_pos_eq Fu) in Dg by lra.
  assert (Df' : Rabs (fR f - Ft) <= Ft * / 2 ^ 40) by (eapply Rle_trans; [exact Df|apply Rmult_le_compat_l; lra]).
  assert (Dg' : Rabs (fR g - Fu) <= Fu * / 2 ^ 40) by (eapply Rle_trans; [exact Dg|apply Rmult_le_compat_l; lra]).
  apply Rabs_le_inv in Df'. apply Rabs_le_inv in Dg'. lra.
Qed.

(** The frequency of an A. *)
Lemma c13_float_octave : forall pow2, pow_contract pow2 -> forall k base,
  (-1022 <= k < 1024)%Z -> is_float base = true -> finite base ->
  powerRZ 2 (-1022) <= Rabs (fR base * powerRZ 2 k) < powerRZ 2 1024 ->
  exists f, to_frequency_float pow2 (tone_new (57 + 12 * k)) base = Ok f /\ is_float f = true /\ finite f /\ fR f = fR base * powerRZ 2 k.
Proof.
  intros pow2 Hpow k base Hk Hb Fb HF. rewrite <- !RoundingFacts.bpow_powerRZ in *.
  destruct (exponent_ok (57 + 12 * k) ltac:(lia)) as (Y & EY & HY & FY & BY & _). unfold to_frequency_float, tone_new. cbn [pitch]. rewrite EY. cbn [bind].
  assert (VY : fR Y = IZR k).
  { destruct (truediv_round (57 + 12 * k - 57) 12 ltac:(lia)) as [H _]. replace (57 + 12 * k - 57)%Z with (12 * k)%Z in * by lia.
    replace (IZR (12 * k) / 12) with (IZR k) in H by (rewrite mult_IZR; field). rewrite rnd_IZR in H by lia.
    destruct H as (f & H1 & _ & _ & H2); [|congruence].
    rewrite <- abs_IZR. apply Rlt_le_trans with (IZR 1025); [apply IZR_lt; lia|]. apply Rle_trans with (bpow radix2 11); [change (bpow radix2 11) with 2048; lra|].
    apply bpow_le. discriminate. }
  destruct (Hpow Y HY FY) as (_ & H & _). destruct (H BY) as (z & Ez & Hz & Fz & _ & Dz). rewrite Ez. cbn [bind]. clear H.
  specialize (Dz k VY). rewrite <- RoundingFacts.bpow_powerRZ in Dz. eexists. split; [reflexivity|].
  assert (RR : rnd (fR base * fR z) = fR base * bpow radix2 k).
  { rewrite Dz. apply round_generic; [typeclasses eauto|]. change fexp64 with (FLT_exp (-1074) 53).
    apply mult_bpow_exact_FLT; [exact (float_format base Hb)|].
    assert (X : fR base <> 0). { intros E. rewrite E, Rmult_0_l, Rabs_R0 in HF. pose proof (bpow_gt_0 radix2 (-1022)). lra. }
    assert (M : (-1021 <= mag radix2 (fR base * bpow radix2 k))%Z).
    { apply (mag_ge_bpow radix2 _ (-1021)). exact (proj1 HF). }
    rewrite mag_mult_bpow in M by exact X. lia. }
  destruct (fmul_round base z Hb Hz Fb Fz) as (V & FF & EE); [rewrite RR; exact (proj2 HF)|].
  rewrite EE, RR. auto.
Qed.

Lemma fR_one : fR f_one = 1.
Proof. unfold fR, f_one. rewrite <- RoundingFacts.bpow_powerRZ. change (bpow radix2 (-52)) with (/ 4503599627370496). lra. Qed.

(** A4 itself: the base, whatever it is. *)
Lemma c13_float_base : forall pow2, pow_contract pow2 -> forall base, is_float base = true ->
  to_frequency_float pow2 (tone_new 57) base = Ok base.
Proof.
  intros pow2 Hpow base Hb. unfold to_frequency_float, tone_new. cbn [pitch]. change (int_truediv (57 - 57) 12) with (Ok f_zero). cbn [bind].
  destruct (Hpow f_zero eq_refl I) as (_ & H & _). cbn [fR f_zero] in H. destruct H as (z & Ez & Hz & Fz & _ & Dz); [lra|].
  rewrite Ez. cbn [bind]. f_equal. specialize (Dz 0%Z eq_refl). change (powerRZ 2 0) with 1 in Dz.
  assert (z = f_one) as -> by (apply fR_inj; try assumption; try reflexivity; [rewrite Dz; lra|rewrite Dz, fR_one; reflexivity]).
  destruct (Req_dec (fR base) 0) as [E0|E0].
  - destruct base as [s|s| |s m e]; try (cbn; rewrite ?xorb_false_r; reflexivity).
    exfalso. rewrite fR_SF2R in E0. cbn [SF2R] in E0. apply eq_0_F2R in E0. destruct s; discriminate.
  - assert (Fb : finite base) by (destruct base; cbn in *; try exact I; congruence).
    assert (E : rnd (fR base * fR f_one) = fR base) by (rewrite fR_one, Rmult_1_r; apply rnd_float, Hb).
    assert (L : Rabs (fR base) < bpow radix2 emax).
    { rewrite fR_SF2R, <- (B2R_SF2B prec emax base Hb). apply abs_B2R_lt_emax. }
    destruct (fmul_round base f_one Hb eq_refl Fb I) as (V & FF & EE); [rewrite E; exact L|]. rewrite E in EE.
    apply fR_inj; try assumption; congruence.
Qed.

(** Where it does not work: tones too high. *)
Lemma c13_float_overflow : forall pow2, pow_contract pow2 -> forall t base, (12345 <= pitch t)%Z ->
  to_frequency_float pow2 t base = Err OverflowError.
Proof.
  intros pow2 Hpow [p] base Hp. cbn [pitch] in Hp. unfold to_frequency_float. cbn [pitch].
  destruct (truediv_round (p - 57) 12 ltac:(lia)) as [H1 H2].
  destruct (Rlt_or_le (Rabs (rnd (IZR (p - 57) / 12))) (bpow radix2 emax)) as [L|L].
  - destruct (H1 L) as (f & E & Vf & Ff & Ef). rewrite E. cbn [bind]. destruct (Hpow f Vf Ff) as (H & _ & _). rewrite H; [reflexivity|].
    rewrite Ef, <- (rnd_IZR 1024) by reflexivity. apply round_le; [typeclasses eauto|typeclasses eauto|].
    apply Rmult_le_reg_r with 12; [lra|]. unfold Rdiv. rewrite Rmult_assoc, Rinv_l, Rmult_1_r by lra. rewrite <- mult_IZR. apply IZR_le. lia.
  - rewrite (H2 L). reflexivity.
Qed.

(** Where it does not work: tones too low, down to the pitches whose division overflows. *)
Lemma c13_float_underflow : forall pow2, pow_contract pow2 -> forall t base, (- 2 ^ 1000 <= pitch t <= -12855)%Z ->
  is_float base = true -> finite base -> exists s, to_frequency_float pow2 t base = Ok (S754_zero s).
Proof.
  intros pow2 Hpow [p] base Hp Hb Fb. cbn [pitch] in Hp. unfold to_frequency_float. cbn [pitch].
  destruct (truediv_round (p - 57) 12 ltac:(lia)) as [H1 _].
  assert (B : - bpow radix2 1001 <= IZR (p - 57) / 12 <= IZR (-1076)).
  { split.
    - rewrite <- (IZR_Zpower radix2 1001) by discriminate. apply Rmult_le_reg_r with 12; [lra|]. unfold Rdiv. rewrite Rmult_assoc, Rinv_l, Rmult_1_r by lra.
      rewrite <- opp_IZR, <- mult_IZR. apply IZR_le. change (Z.pow radix2 1001) with (2 * 2 ^ 1000)%Z. lia.
    - apply Rmult_le_reg_r with 12; [lra|]. unfold Rdiv. rewrite Rmult_assoc, Rinv_l, Rmult_1_r by lra. rewrite <- mult_IZR. apply IZR_le. lia. }
  assert (R : rnd (- bpow radix2 1001) <= rnd (IZR (p - 57) / 12) <= rnd (IZR (-1076))) by (split; apply round_le; typeclasses eauto || apply B).
  rewrite rnd_IZR in R by reflexivity.
  assert (E : rnd (- bpow radix2 1001) = - bpow radix2 1001).
  { apply round_generic; [typeclasses eauto|]. apply generic_format_opp, generic_format_bpow. vm_compute. discriminate. }
  rewrite E in R.
  destruct H1 as (f & Ef & Vf & Ff & Rf).
  - apply Rle_lt_trans with (bpow radix2 1001); [|apply bpow_lt; reflexivity]. apply Rabs_le. pose proof (bpow_gt_0 radix2 1001). lra.
  - rewrite Ef. cbn [bind]. destruct (Hpow f Vf Ff) as (_ & _ & H). rewrite H by lra. cbn [bind].
    destruct base as [s|s| |s m e]; try contradiction; cbn; eexists; reflexivity.
Qed.

(** C13 of the computed numbers, in full: higher tones have greater frequencies. *)
Definition float_temperament (pow2 : PyFloat.float -> res PyFloat.float) : Prop :=
  forall base t u, is_float base = true -> finite base -> 0 < fR base -> (pitch t < pitch u)%Z ->
  exists f g, to_frequency_float pow2 t base = Ok f /\ to_frequency_float pow2 u base = Ok g /\ flt f g = true.

Lemma c13_float_refuted : forall pow2, pow_contract pow2 -> ~ float_temperament pow2 /\
  (forall base, is_float base = true -> finite base -> exists f g,
    to_frequency_float pow2 (tone_new (-20000)) base = Ok f /\ to_frequency_float pow2 (tone_new (-13000)) base = Ok g /\ flt f g = false).
Proof.
  intros pow2 Hpow. split.
  - intros H. destruct (H f_one (tone_new 57) (tone_new 12345) eq_refl I) as (f & g & _ & E & _); [rewrite fR_one; lra|reflexivity|].
    rewrite c13_float_overflow in E; [discriminate|exact Hpow|reflexivity||cbn; lia].
  - intros base Hb Fb.
    destruct (c13_float_underflow pow2 Hpow (tone_new (-20000)) base) as [s E]; try assumption; [split; [vm_compute|cbn]; discriminate|].
    destruct (c13_float_underflow pow2 Hpow (tone_new (-13000)) base) as [s' E']; try assumption; [split; [vm_compute|cbn]; discriminate|].
    exists (S754_zero s), (S754_zero s'). auto.
Qed.

(** Some function meets the contract: 2^y, correctly rounded. *)
Lemma pow_contract_met : exists pow2, pow_contract pow2.
Proof.
  set (near := fun x : R => SpecFloat.binary_normalize prec emax (ZnearestE (scaled_mantissa radix2 fexp64 x)) (cexp radix2 fexp64 x) false).
  exists (fun y => if Rle_dec 1024 (fR y) then Err OverflowError else if Rle_dec (fR y) (-1076) then Ok f_zero else Ok (near (Rpower 2 (fR y)))).
  assert (N : forall x, Rabs (rnd x) < bpow radix2 emax -> is_float (near x) = true /\ finite (near x) /\ fR (near x) = rnd x).
  { intros x Hx. unfold near. rewrite normalize_equiv. set (b := binary_normalize _ _ _ _ _ _ _ _).
    pose proof (binary_normalize_correct prec emax RoundingFacts.prec_pos prec_small mode_NE (ZnearestE (scaled_mantissa radix2 fexp64 x)) (cexp radix2 fexp64 x) false) as H. cbv zeta in H.
    fold b in H. change (F2R (Float radix2 (ZnearestE (scaled_mantissa radix2 fexp64 x)) (cexp radix2 fexp64 x))) with (rnd x) in H.
    change (round_mode mode_NE) with ZnearestE in H.
    assert (E : round radix2 fexp64 ZnearestE (rnd x) = rnd x) by (apply round_generic; [typeclasses eauto|apply generic_format_round; typeclasses eauto]).
    rewrite E, Rlt_bool_true in H by exact Hx. destruct H as (H1 & H2 & _). split; [apply valid_binary_B2SF|]. split.
    - apply finite_SF. rewrite is_finite_SF_B2SF. exact H2.
    - rewrite fR_SF2R, SF2R_B2SF. exact H1. }
  intros y Hy Fy. split; [|split].
  - intros H. destruct (Rle_dec 1024 (fR y)); [reflexivity|contradiction].
  - intros H. destruct (Rle_dec 1024 (fR y)); [lra|]. destruct (Rle_dec (fR y) (-1076)); [lra|].
    eexists. split; [reflexivity|]. set (x := Rpower 2 (fR y)). 
    assert (P : 0 < x) by apply exp_pos.
    assert (L : bpow radix2 (-1022) <= Rabs x).
    { rewrite Rabs_pos_eq by lra. rewrite <- Rpower_bpow. destruct (Rle_lt_or_eq_dec _ _ (proj1 H)) as [l|l]; [left; apply Rpower_lt; lra|right; unfold x; rewrite <- l; reflexivity]. }
    pose proof (rnd_relative x L) as D. rewrite (Rabs_pos_eq x) in D by lra.
    assert (U : Rabs (rnd x) < bpow radix2 emax).
    { assert (YB : fR y <= 1024 - bpow radix2 (-43)).
      { change 1024 with (bpow radix2 10) at 1. change (-43)%Z with (fexp64 10). rewrite <- (pred_bpow radix2 fexp64 10).
        apply pred_ge_gt; [typeclasses eauto|apply float_format, Hy|apply generic_format_bpow; vm_compute; discriminate|]. exact (proj2 H). }
      assert (X : x * (1 + / 2 ^ 44) <= bpow radix2 emax).
      { change emax with 1024%Z. rewrite <- Rpower_bpow. replace 1024 with (fR y + (1024 - fR y)) at 1 by ring. rewrite Rpower_plus. fold x.
        apply Rmult_le_compat_l; [lra|]. unfold Rpower. eapply Rle_trans; [|apply exp_lower].
        change (bpow radix2 (-43)) with (/ 8796093022208) in YB. assert (1 / 2 < ln 2) by (pose proof ln_lt_2; lra). 
        assert (/ 8796093022208 <= 1024 - fR y) by lra. nra. }
      apply Rabs_le_inv in D. rewrite Rabs_pos_eq by lra. nra. }
    destruct (N x U) as (V & F & E). split; [exact V|]. split; [exact F|]. rewrite E. split; [lra|].
    intros k Ek. unfold x. rewrite Ek, Rpower_bpow, <- RoundingFacts.bpow_powerRZ. apply round_generic; [typeclasses eauto|].
    assert (-1022 <= k)%Z by (apply le_IZR; lra). apply (generic_format_FLT_bpow radix2 (-1074) 53); lia.
  - intros H. destruct (Rle_dec 1024 (fR y)); [lra|]. destruct (Rle_dec (fR y) (-1076)); [reflexivity|contradiction].
Qed.
