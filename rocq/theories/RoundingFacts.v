(** The float operations round correctly (from Flocq). *)
From Coq Require Import ZArith Reals Lia Lra Psatz.
From Verif Require Import Py PyFloat SpecBase FrequencySpec FrequencyFloat.
From Flocq Require Import Core.Core IEEE754.BinarySingleNaN.
Require Import Flocq.Prop.Relative.
Open Scope R_scope.

#[local] Instance prec_pos : Prec_gt_0 prec.
Proof. reflexivity. Qed.
#[local] Instance prec_small : Prec_lt_emax prec emax.
Proof. reflexivity. Qed.

Notation fexp64 := (SpecFloat.fexp prec emax).
Definition rnd (x : R) : R := round radix2 fexp64 ZnearestE x.

#[local] Instance fexp_ok : Valid_exp fexp64.
Proof. apply (fexp_correct prec emax), prec_pos. Qed.

Lemma bpow_powerRZ e : bpow radix2 e = powerRZ 2 e.
Proof. rewrite <- (bpow_powerRZ radix2). reflexivity. Qed.

Lemma fR_SF2R f : fR f = SF2R radix2 f.
Proof.
  destruct f as [s|s| |s m e]; try reflexivity. cbn [fR SF2R]. unfold F2R. cbn [Fnum Fexp]. rewrite bpow_powerRZ.
  destruct s; reflexivity.
Qed.

Lemma finite_SF f : finite f <-> is_finite_SF f = true.
Proof. destruct f; cbn; split; congruence || auto. Qed.

Lemma nearest_even_equiv s m l : round_nearest_even m l = choice_mode mode_NE s m l.
Proof. destruct l as [|[]]; try reflexivity. cbn. unfold Round.cond_incr. destruct (Z.even m); reflexivity. Qed.

Lemma round_aux_equiv s m e l : SpecFloat.binary_round_aux prec emax s m e l = binary_round_aux prec emax mode_NE s m e l.
Proof.
  unfold SpecFloat.binary_round_aux, binary_round_aux. destruct (SpecFloat.shr_fexp _ _ _ _ _) as [mrs e']. cbn zeta.
  rewrite (nearest_even_equiv s). reflexivity.
Qed.

Lemma round_equiv s m e : SpecFloat.binary_round prec emax s m e = binary_round prec emax mode_NE s m e.
Proof.
  unfold SpecFloat.binary_round, binary_round, shl_align_fexp. destruct (SpecFloat.shl_align _ _ _) as [mz ez]. apply round_aux_equiv.
Qed.

Lemma normalize_equiv m e z : SpecFloat.binary_normalize prec emax m e z = B2SF (binary_normalize prec emax _ _ mode_NE m e z).
Proof. destruct m as [|p|p]; cbn; rewrite ?B2SF_SF2B; try reflexivity; apply round_equiv. Qed.

(** Numbers that a float stands for are rounded to themselves. *)
Lemma float_format f : is_float f = true -> generic_format radix2 fexp64 (fR f).
Proof.
  intros H. rewrite fR_SF2R. rewrite <- (B2R_SF2B prec emax f H). apply generic_format_B2R.
Qed.

Lemma rnd_float f : is_float f = true -> rnd (fR f) = fR f.
Proof. intros H. apply round_generic; [typeclasses eauto|apply float_format, H]. Qed.

Lemma fR_inj f g : is_float f = true -> is_float g = true -> finite f -> finite g -> fR f <> 0 -> fR f = fR g -> f = g.
Proof.
  intros Hf Hg Ff Fg H0 HE. rewrite !fR_SF2R in *. rewrite <- (B2SF_SF2B prec emax f Hf), <- (B2SF_SF2B prec emax g Hg). f_equal.
  assert (H1 : is_finite_strict_SF f = true) by (destruct f; cbn in *; congruence || contradiction).
  assert (H2 : is_finite_strict_SF g = true) by (rewrite HE in H0; destruct g; cbn in *; congruence || contradiction).
  apply B2R_inj; rewrite ?is_finite_strict_SF2B, ?B2R_SF2B; assumption.
Qed.

(** The product of two finite floats. *)
Lemma fmul_round a b : is_float a = true -> is_float b = true -> finite a -> finite b -> Rabs (rnd (fR a * fR b)) < bpow radix2 emax ->
  is_float (fmul a b) = true /\ finite (fmul a b) /\ fR (fmul a b) = rnd (fR a * fR b).
Proof.
  intros Ha Hb Fa Fb HR.
  assert (Z0 : rnd 0 = 0) by (apply round_0; typeclasses eauto).
  destruct a as [sa|sa| |sa ma ea], b as [sb|sb| |sb mb eb]; try contradiction; unfold fmul; cbn [SFmul fR] in *; rewrite ?Rmult_0_l, ?Rmult_0_r, ?Z0;
    try (split; [reflexivity|split; [exact I|reflexivity]]).
  pose proof (Bmult_correct_aux prec emax _ _ mode_NE sa ma ea Ha sb mb eb Hb) as H. cbv zeta in H.
  rewrite round_aux_equiv. set (z := binary_round_aux _ _ _ _ _ _ _) in *. destruct H as [V H].
  change (IZR (if sa then Z.neg ma else Z.pos ma) * powerRZ 2 ea) with (fR (S754_finite sa ma ea)) in *.
  change (IZR (if sb then Z.neg mb else Z.pos mb) * powerRZ 2 eb) with (fR (S754_finite sb mb eb)) in *.
  rewrite !fR_SF2R in *. cbn [SF2R] in HR. rewrite Rlt_bool_true in H by exact HR. destruct H as (H1 & H2 & _).
  split; [exact V|]. split; [apply finite_SF, H2|]. exact H1.
Qed.

(** The quotient of two integers. *)
Lemma truediv_round a b : (0 < b)%Z ->
  (Rabs (rnd (IZR a / IZR b)) < bpow radix2 emax ->
     exists f, int_truediv a b = Ok f /\ is_float f = true /\ finite f /\ fR f = rnd (IZR a / IZR b)) /\
  (bpow radix2 emax <= Rabs (rnd (IZR a / IZR b)) -> int_truediv a b = Err OverflowError).
Proof.
  intros Hb. unfold int_truediv. replace (b =? 0)%Z with false by (symmetry; apply Z.eqb_neq; lia).
  destruct (Z.eqb_spec a 0) as [->|Ha].
  - replace (b <? 0)%Z with false by (symmetry; apply Z.ltb_ge; lia). unfold Rdiv. rewrite Rmult_0_l. replace (rnd 0) with 0 by (symmetry; apply round_0; typeclasses eauto). split.
    + intros _. exists f_zero. repeat split.
    + rewrite Rabs_R0. intros H. exfalso. pose proof (bpow_gt_0 radix2 emax). lra.
  - destruct b as [|pb|pb]; try lia. set (s := (a <? 0)%Z). assert (EA : exists pa, Z.abs a = Z.pos pa) by (exists (Z.to_pos (Z.abs a)); lia).
    destruct EA as [pa EA]. rewrite EA. cbn [Z.abs].
    pose proof (Bdiv_correct_aux prec emax _ _ mode_NE s pa 0 false pb 0) as H. cbv zeta in H.
    assert (EX : F2R (Float radix2 (SpecFloat.cond_Zopp s (Z.pos pa)) 0) = IZR a).
    { unfold F2R. cbn [Fnum Fexp bpow]. rewrite Rmult_1_r. f_equal. unfold s. destruct (Z.ltb_spec a 0); cbn; lia. }
    assert (EY : F2R (Float radix2 (SpecFloat.cond_Zopp false (Z.pos pb)) 0) = IZR (Z.pos pb)).
    { unfold F2R. cbn [Fnum Fexp bpow SpecFloat.cond_Zopp]. apply Rmult_1_r. }
    rewrite EX, EY in H. change (round_mode mode_NE) with ZnearestE in H. fold (rnd (IZR a / IZR (Z.pos pb))) in H.
    change (Z.pos pb <? 0)%Z with false.
    destruct (SFdiv_core_binary _ _ _ _ _ _) as [[mz ez] lz]. rewrite round_aux_equiv. set (z := binary_round_aux _ _ _ _ _ _ _) in *.
    destruct H as [V H]. split; intros HR.
    + rewrite Rlt_bool_true in H by exact HR. destruct H as (H1 & H2 & _). exists z.
      split; [destruct z; [reflexivity|discriminate|discriminate|reflexivity]|]. split; [exact V|]. split; [apply finite_SF, H2|].
      rewrite fR_SF2R. exact H1.
    + rewrite Rlt_bool_false in H by exact HR. rewrite H. reflexivity.
Qed.
