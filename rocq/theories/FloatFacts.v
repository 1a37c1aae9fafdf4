(** Comparison of binary64 numbers is comparison of their rational values.  No axioms. *)
From Coq Require Import ZArith QArith Qpower Lia List Bool ZifyBool.
From Verif Require Import Py PyFloat SpecBase.
Open Scope Z_scope.

Lemma digits2_bounds m : 2 ^ (Z.pos (digits2_pos m) - 1) <= Z.pos m < 2 ^ Z.pos (digits2_pos m).
Proof.
  induction m as [m IH|m IH|]; cbn [digits2_pos].
  - rewrite Pos2Z.inj_succ. replace (Z.succ (Z.pos (digits2_pos m)) - 1) with
      (Z.succ (Z.pos (digits2_pos m) - 1)) by lia.
    rewrite !Z.pow_succ_r by lia. lia.
  - rewrite Pos2Z.inj_succ. replace (Z.succ (Z.pos (digits2_pos m)) - 1) with
      (Z.succ (Z.pos (digits2_pos m) - 1)) by lia.
    rewrite !Z.pow_succ_r by lia. lia.
  - cbn. lia.
Qed.

(** A canonical mantissa: at most 53 bits, and exactly 53 unless the exponent is minimal. *)
Lemma bounded_spec m e : bounded prec emax m e = true ->
  -1074 <= e <= 971 /\ Z.pos m < 2 ^ 53 /\ (e = -1074 \/ 2 ^ 52 <= Z.pos m).
Proof.
  unfold bounded, canonical_mantissa, fexp, emin, prec, emax. rewrite andb_true_iff.
  intros [H1 H2]. apply Zeq_bool_eq in H1. apply Zle_bool_imp_le in H2.
  pose proof (digits2_bounds m) as [Hl Hu].
  assert (Hd : Z.pos (digits2_pos m) <= 53) by lia.
  split; [lia|]. split.
  - apply Z.lt_le_trans with (1 := Hu). apply Z.pow_le_mono_r; lia.
  - destruct (Z.eq_dec e (-1074)) as [He|He]; [left; exact He|right].
    assert (Z.pos (digits2_pos m) = 53) as Hd' by lia. rewrite Hd' in Hl. exact Hl.
Qed.

(** Value times 2^1074. *)
Definition scaled (f : float) : Z :=
  match f with
  | S754_finite s m e => (if s then Z.neg m else Z.pos m) * 2 ^ (e + 1074)
  | _ => 0
  end.

Definition big : positive := Z.to_pos (2 ^ 1074).

Lemma big_val : Z.pos big = 2 ^ 1074.
Proof. unfold big. rewrite Z2Pos.id; [reflexivity|apply Z.pow_pos_nonneg; lia]. Qed.

Lemma Qpower2_pos k : 0 <= k -> (2 ^ k == inject_Z (2 ^ k))%Q.
Proof.
  intros Hk. change (2%Q) with (inject_Z 2). symmetry. apply Zpower_Qpower. assumption.
Qed.

Lemma scaled_val f : is_float f = true -> (fval f == (scaled f # big))%Q.
Proof.
  intros Hf. destruct f as [s|s| |s m e]; cbn [fval scaled]; try (unfold Qeq; cbn; reflexivity).
  apply bounded_spec in Hf. destruct Hf as (He & _).
  set (z := if s then Z.neg m else Z.pos m).
  assert (E : (2 ^ e == inject_Z (2 ^ (e + 1074)) / inject_Z (2 ^ 1074))%Q).
  { replace e with ((e + 1074) + (-1074)) at 1 by lia.
    rewrite Qpower_plus by discriminate. rewrite Qpower2_pos by lia.
    change (-1074) with (Z.opp 1074). rewrite Qpower_opp, Qpower2_pos by lia. reflexivity. }
  rewrite E. rewrite (Qmake_Qdiv _ big), big_val. rewrite inject_Z_mult.
  unfold Qdiv. ring.
Qed.

Lemma scaled_lt_exp m1 e1 m2 e2 :
  bounded prec emax m1 e1 = true -> bounded prec emax m2 e2 = true -> e1 < e2 ->
  Z.pos m1 * 2 ^ (e1 + 1074) < Z.pos m2 * 2 ^ (e2 + 1074).
Proof.
  intros H1 H2 He. apply bounded_spec in H1, H2. destruct H1 as (R1 & U1 & _), H2 as (R2 & _ & L2).
  destruct L2 as [L2|L2]; [lia|].
  assert (Hp : 2 ^ (e2 + 1074) = 2 * 2 ^ (e2 - e1 - 1) * 2 ^ (e1 + 1074)).
  { replace (e2 + 1074) with (1 + (e2 - e1 - 1) + (e1 + 1074)) by lia.
    rewrite !Z.pow_add_r by lia. change (2 ^ 1) with 2. ring. }
  rewrite Hp.
  assert (0 < 2 ^ (e2 - e1 - 1)) by (apply Z.pow_pos_nonneg; lia).
  assert (0 < 2 ^ (e1 + 1074)) by (apply Z.pow_pos_nonneg; lia).
  assert (2 ^ 53 = 2 * 2 ^ 52) by reflexivity.
  rewrite Z.mul_assoc. apply Z.mul_lt_mono_pos_r; [assumption|]. nia.
Qed.

(** The comparison used by [==], [<] and [<=]. *)
Lemma SFcompare_scaled a b : is_float a = true -> is_float b = true -> finite a -> finite b ->
  SFcompare a b = Some (Z.compare (scaled a) (scaled b)).
Proof.
  intros Ha Hb Fa Fb.
  assert (Hpos : forall m e, bounded prec emax m e = true -> 0 < Z.pos m * 2 ^ (e + 1074)).
  { intros m e H. apply bounded_spec in H. pose proof (Z.pow_pos_nonneg 2 (e + 1074)). lia. }
  destruct a as [s1|s1| |s1 m1 e1], b as [s2|s2| |s2 m2 e2]; try contradiction; cbn [SFcompare scaled].
  - reflexivity.
  - pose proof (Hpos _ _ Hb). destruct s2; f_equal; symmetry.
    + apply Z.compare_gt_iff. lia.
    + apply Z.compare_lt_iff. lia.
  - pose proof (Hpos _ _ Ha). destruct s1; f_equal; symmetry.
    + apply Z.compare_lt_iff. lia.
    + apply Z.compare_gt_iff. lia.
  - pose proof (Hpos _ _ Ha) as P1. pose proof (Hpos _ _ Hb) as P2. cbn in Ha, Hb. f_equal.
    destruct s1, s2; symmetry.
    + destruct (Z.compare_spec e1 e2) as [->|He|He].
      * change (Z.neg m1) with (- Z.pos m1). change (Z.neg m2) with (- Z.pos m2).
        rewrite !Z.mul_opp_l, Z.compare_opp.
        change (Pos.compare_cont Eq m1 m2) with (Pos.compare m1 m2).
        rewrite <- Pos.compare_antisym. change (m2 ?= m1)%positive with (Z.pos m2 ?= Z.pos m1).
        symmetry. rewrite !(Z.mul_comm _ (2 ^ _)). apply Zmult_compare_compat_l.
        apply bounded_spec in Hb. pose proof (Z.pow_pos_nonneg 2 (e2 + 1074)). lia.
      * apply Z.compare_gt_iff. pose proof (scaled_lt_exp _ _ _ _ Ha Hb He). lia.
      * apply Z.compare_lt_iff. pose proof (scaled_lt_exp _ _ _ _ Hb Ha He). lia.
    + apply Z.compare_lt_iff. lia.
    + apply Z.compare_gt_iff. lia.
    + destruct (Z.compare_spec e1 e2) as [->|He|He].
      * change (Pos.compare_cont Eq m1 m2) with (Z.pos m1 ?= Z.pos m2).
        symmetry. rewrite !(Z.mul_comm _ (2 ^ _)). apply Zmult_compare_compat_l.
        apply bounded_spec in Hb. pose proof (Z.pow_pos_nonneg 2 (e2 + 1074)). lia.
      * apply Z.compare_lt_iff. pose proof (scaled_lt_exp _ _ _ _ Ha Hb He). lia.
      * apply Z.compare_gt_iff. pose proof (scaled_lt_exp _ _ _ _ Hb Ha He). lia.
Qed.

Section Cmp.
Variables a b : float.
Hypothesis Ha : is_float a = true.
Hypothesis Hb : is_float b = true.
Hypothesis Fa : finite a.
Hypothesis Fb : finite b.

Lemma feq_scaled : feq a b = (scaled a =? scaled b).
Proof.
  unfold feq, SFeqb. rewrite SFcompare_scaled by assumption.
  destruct (Z.compare_spec (scaled a) (scaled b)) as [H|H|H]; symmetry.
  - rewrite H. apply Z.eqb_refl.
  - apply Z.eqb_neq. lia.
  - apply Z.eqb_neq. lia.
Qed.
Lemma flt_scaled : flt a b = (scaled a <? scaled b).
Proof.
  unfold flt, SFltb. rewrite SFcompare_scaled by assumption. unfold Z.ltb. 
  destruct (scaled a ?= scaled b); reflexivity.
Qed.
Lemma fle_scaled : fle a b = (scaled a <=? scaled b).
Proof.
  unfold fle, SFleb. rewrite SFcompare_scaled by assumption. unfold Z.leb.
  destruct (scaled a ?= scaled b); reflexivity.
Qed.

Lemma feq_val : feq a b = true <-> (fval a == fval b)%Q.
Proof.
  rewrite feq_scaled, (scaled_val a Ha), (scaled_val b Hb), Z.eqb_eq.
  unfold Qeq. cbn [Qnum Qden]. pose proof (Pos2Z.is_pos big). nia.
Qed.
Lemma flt_val : flt a b = true <-> (fval a < fval b)%Q.
Proof.
  rewrite flt_scaled, (scaled_val a Ha), (scaled_val b Hb), Z.ltb_lt.
  unfold Qlt. cbn [Qnum Qden]. pose proof (Pos2Z.is_pos big). nia.
Qed.
Lemma fle_val : fle a b = true <-> (fval a <= fval b)%Q.
Proof.
  rewrite fle_scaled, (scaled_val a Ha), (scaled_val b Hb), Z.leb_le.
  unfold Qle. cbn [Qnum Qden]. pose proof (Pos2Z.is_pos big). nia.
Qed.
End Cmp.

Lemma f_zero_float : is_float f_zero = true. Proof. reflexivity. Qed.
Lemma f_one_float : is_float f_one = true. Proof. reflexivity. Qed.
Lemma f_one_val : (fval f_one == 1)%Q. Proof. vm_compute. reflexivity. Qed.
Lemma f_zero_val : (fval f_zero == 0)%Q. Proof. reflexivity. Qed.

(** The test [0.0 <= v <= 1.0]. *)
Lemma unit_test v : is_float v = true ->
  (fle f_zero v && fle v f_one = true <-> valid_velocity v).
Proof.
  intros Hv. rewrite andb_true_iff. unfold valid_velocity. split.
  - intros [H0 H1].
    assert (Fv : finite v) by (destruct v as [s|s| |s m e]; [exact I|destruct s; discriminate|discriminate|exact I]).
    apply fle_val in H0; [|reflexivity|assumption|exact I|assumption].
    apply fle_val in H1; [|assumption|reflexivity|assumption|exact I].
    rewrite f_zero_val in H0. rewrite f_one_val in H1. repeat split; assumption.
  - intros (_ & Fv & H0 & H1). split.
    + apply fle_val; [reflexivity|assumption|exact I|assumption|rewrite f_zero_val; exact H0].
    + apply fle_val; [assumption|reflexivity|assumption|exact I|rewrite f_one_val; exact H1].
Qed.
