(** The tempo written for a number of beats per minute (C66). *)
From Coq Require Import ZArith Reals Lia Lra Psatz Bool.
From Verif Require Import Py PyFloat MidiWriter SpecBase DumpSpec FrequencySpec FrequencyFloat RoundingFacts FrequencyFloatProps.
From Flocq Require Import Core.Core IEEE754.BinarySingleNaN.
Require Import Flocq.Prop.Relative.
Open Scope R_scope.

#[local] Instance prec_pos : Prec_gt_0 prec.
Proof. reflexivity. Qed.
#[local] Instance prec_small : Prec_lt_emax prec emax.
Proof. reflexivity. Qed.
#[local] Instance fexp_ok : Valid_exp fexp64.
Proof. apply (fexp_correct prec emax), prec_pos. Qed.

(** The quotient of two finite floats. *)
Lemma fdiv_round a b : finite a -> finite b -> fR a <> 0 -> fR b <> 0 ->
  (Rabs (rnd (fR a / fR b)) < bpow radix2 emax ->
     is_float (fdiv a b) = true /\ finite (fdiv a b) /\ fR (fdiv a b) = rnd (fR a / fR b)) /\
  (bpow radix2 emax <= Rabs (rnd (fR a / fR b)) -> exists s, fdiv a b = S754_infinity s).
Proof.
  intros Fa Fb Ha Hb.
  destruct a as [sa|sa| |sa ma ea], b as [sb|sb| |sb mb eb]; try contradiction; cbn [fR] in Ha, Hb; try lra. clear Ha Hb.
  pose proof (Bdiv_correct_aux prec emax _ _ mode_NE sa ma ea sb mb eb) as H. cbv zeta in H.
  rewrite !fR_SF2R. cbn [SF2R]. change (round_mode mode_NE) with ZnearestE in H.
  fold (rnd (F2R (Float radix2 (SpecFloat.cond_Zopp sa (Z.pos ma)) ea) / F2R (Float radix2 (SpecFloat.cond_Zopp sb (Z.pos mb)) eb))) in H.
  unfold fdiv. cbn [SFdiv].
  destruct (SFdiv_core_binary _ _ _ _ _ _) as [[mz ez] lz]. rewrite round_aux_equiv. set (z := binary_round_aux _ _ _ _ _ _ _) in *.
  destruct H as [V H]. split; intros HR.
  - rewrite Rlt_bool_true in H by exact HR. destruct H as (H1 & H2 & _).
    split; [exact V|]. split; [apply finite_SF, H2|]. exact H1.
  - rewrite Rlt_bool_false in H by exact HR. rewrite H. eexists. reflexivity.
Qed.

(** int of a finite float cuts off the fraction. *)
Lemma int_of_float_cut f : finite f -> exists k, int_of_float f = Ok k /\
  (0 <= fR f -> IZR k <= fR f < IZR k + 1) /\ (fR f <= 0 -> IZR k - 1 < fR f <= IZR k).
Proof.
  intros F. destruct f as [s|s| |s m e]; try contradiction.
  - exists 0%Z. split; [reflexivity|]. cbn [fR]. lra.
  - set (a := (if (0 <=? e)%Z then Z.pos m * 2 ^ e else Z.pos m / 2 ^ (- e))%Z).
    assert (A : IZR a <= IZR (Z.pos m) * powerRZ 2 e < IZR a + 1).
    { rewrite <- RoundingFacts.bpow_powerRZ. unfold a. destruct (Z.leb_spec 0 e) as [L|L].
      - rewrite <- (IZR_Zpower radix2) by lia. rewrite <- mult_IZR. change (Zaux.radix_val radix2) with 2%Z. lra.
      - replace (bpow radix2 e) with (/ IZR (2 ^ (- e))).
        2:{ replace e with (- (- e))%Z at 2 by lia. rewrite bpow_opp. rewrite <- (IZR_Zpower radix2) by lia. reflexivity. }
        assert (P : (0 < 2 ^ (- e))%Z) by (apply Z.pow_pos_nonneg; lia). pose proof (IZR_lt _ _ P) as PR.
        pose proof (Z.mul_div_le (Z.pos m) _ P) as D1. pose proof (Z.mul_succ_div_gt (Z.pos m) _ P) as D2.
        apply IZR_le in D1. apply IZR_lt in D2. rewrite mult_IZR in D1, D2. rewrite succ_IZR in D2.
        split.
        + apply (Rmult_le_reg_r (IZR (2 ^ - e))); [lra|]. rewrite Rmult_assoc, Rinv_l by lra. lra.
        + apply (Rmult_lt_reg_r (IZR (2 ^ - e))); [lra|]. rewrite Rmult_assoc, Rinv_l by lra. lra. }
    exists (if s then - a else a)%Z. split; [reflexivity|]. cbn [fR].
    assert (P : 0 < IZR (Z.pos m) * powerRZ 2 e).
    { apply Rmult_lt_0_compat; [apply (IZR_lt 0); lia|]. rewrite <- RoundingFacts.bpow_powerRZ. apply bpow_gt_0. }
    destruct s; [|split; intros; lra].
    change (Z.neg m) with (- Z.pos m)%Z. rewrite !opp_IZR. split; intros; lra.
Qed.

Lemma rnd_mono x y : x <= y -> rnd x <= rnd y.
Proof. apply round_le; typeclasses eauto. Qed.
Lemma rnd_opp x : rnd (- x) = - rnd x.
Proof. unfold rnd. apply round_NE_opp. Qed.
Lemma rnd_0 : rnd 0 = 0.
Proof. apply round_0; typeclasses eauto. Qed.

Lemma rnd_bpow n : (-1074 <= n)%Z -> rnd (bpow radix2 n) = bpow radix2 n.
Proof.
  intros H. apply round_generic; [typeclasses eauto|]. apply generic_format_bpow. unfold SpecFloat.fexp, SpecFloat.emin, prec, emax. lia.
Qed.

Lemma rnd_int n : (Z.abs n <= 2 ^ 53)%Z -> rnd (IZR n) = IZR n.
Proof.
  intros H. destruct (Z.eq_dec (Z.abs n) (2 ^ 53)) as [E|E]; [|apply rnd_IZR; lia].
  assert (B : IZR (2 ^ 53) = bpow radix2 53) by (apply (IZR_Zpower radix2); lia).
  destruct (Z.abs_eq_or_opp n) as [A|A]; rewrite A in E; [|apply Z.eq_opp_l in E]; rewrite E.
  - rewrite B. apply rnd_bpow. lia.
  - rewrite opp_IZR, rnd_opp, B. f_equal. apply rnd_bpow. lia.
Qed.

(** Below a power of two nothing is rounded up to it before the middle of the last gap. *)
Lemma rnd_below n x : (-1021 <= n)%Z -> 0 <= x < bpow radix2 n - bpow radix2 (n - 54) -> rnd x < bpow radix2 n.
Proof.
  intros Hn [H0 H]. destruct (Rle_or_lt (bpow radix2 (n - 1)) x) as [L|L].
  - pose proof (error_le_half_ulp radix2 fexp64 (fun z => negb (Z.even z)) x) as E. fold (rnd x) in E.
    assert (P : 0 < bpow radix2 (n - 1)) by apply bpow_gt_0.
    assert (P' : 0 < bpow radix2 (n - 54)) by apply bpow_gt_0.
    rewrite ulp_neq_0 in E by lra. unfold cexp in E.
    rewrite (mag_unique_pos radix2 x n) in E by lra.
    replace (fexp64 n) with (n - 54 + 1)%Z in E by (unfold SpecFloat.fexp, SpecFloat.emin, prec, emax; lia).
    rewrite bpow_plus in E. change (bpow radix2 1) with 2 in E. apply Rabs_le_inv in E. lra.
  - apply Rle_lt_trans with (bpow radix2 (n - 1)); [|apply bpow_lt; lia].
    rewrite <- (rnd_bpow (n - 1)) by lia. apply rnd_mono. lra.
Qed.

(** From the middle on it is. *)
Lemma rnd_above_24 x : bpow radix2 24 - bpow radix2 (24 - 54) <= x -> bpow radix2 24 <= rnd x.
Proof.
  intros H. apply rnd_mono in H. eapply Rle_trans; [|exact H]. right.
  assert (M : bpow radix2 24 - bpow radix2 (24 - 54) = IZR (2 ^ 54 - 1) / IZR (2 ^ 30)).
  { change (bpow radix2 24) with (IZR 16777216). change (bpow radix2 (24 - 54)) with (/ IZR 1073741824).
    change (2 ^ 54 - 1)%Z with 18014398509481983%Z. change (2 ^ 30)%Z with 1073741824%Z. lra. }
  rewrite M. destruct (truediv_round (2 ^ 54 - 1) (2 ^ 30) ltac:(lia)) as [T _]. rewrite <- M in T.
  destruct T as (f & E & _ & _ & F).
  - rewrite Rabs_pos_eq.
    + apply Rle_lt_trans with (rnd (bpow radix2 24)); [apply rnd_mono; pose proof (bpow_gt_0 radix2 (24 - 54)); lra|].
      rewrite rnd_bpow by lia. apply bpow_lt. reflexivity.
    + rewrite <- rnd_0. apply rnd_mono. assert (bpow radix2 (24 - 54) <= bpow radix2 24) by (apply bpow_le; lia). lra.
  - rewrite <- M, <- F. vm_compute in E. injection E as <-. cbn [fR]. rewrite <- RoundingFacts.bpow_powerRZ.
    change (bpow radix2 (-28)) with (/ IZR 268435456). change (bpow radix2 24) with (IZR 16777216). lra.
Qed.

Lemma rnd_above_0 x : 1 - bpow radix2 (0 - 54) <= x -> 1 <= rnd x.
Proof.
  intros H. apply rnd_mono in H. eapply Rle_trans; [|exact H]. right.
  assert (M : 1 - bpow radix2 (0 - 54) = IZR (2 ^ 54 - 1) / IZR (2 ^ 54)).
  { change (bpow radix2 (0 - 54)) with (/ IZR 18014398509481984).
    change (2 ^ 54 - 1)%Z with 18014398509481983%Z. change (2 ^ 54)%Z with 18014398509481984%Z. lra. }
  rewrite M. destruct (truediv_round (2 ^ 54 - 1) (2 ^ 54) ltac:(lia)) as [T _]. rewrite <- M in T.
  destruct T as (f & E & _ & _ & F).
  - rewrite Rabs_pos_eq.
    + apply Rle_lt_trans with (rnd (bpow radix2 0)); [apply rnd_mono; pose proof (bpow_gt_0 radix2 (0 - 54)); change (bpow radix2 0) with 1; lra|].
      rewrite rnd_bpow by lia. apply bpow_lt. reflexivity.
    + rewrite <- rnd_0. apply rnd_mono. assert (bpow radix2 (0 - 54) <= bpow radix2 0) by (apply bpow_le; lia). change (bpow radix2 0) with 1 in *. lra.
  - rewrite <- M, <- F. vm_compute in E. injection E as <-. cbn [fR]. rewrite <- RoundingFacts.bpow_powerRZ.
    change (bpow radix2 (-52)) with (/ IZR 4503599627370496). lra.
Qed.

Lemma rnd_above_1024 x : bpow radix2 1024 - bpow radix2 970 <= x -> bpow radix2 emax <= rnd x.
Proof.
  intros H. apply rnd_mono in H. eapply Rle_trans; [|exact H].
  assert (M : bpow radix2 1024 - bpow radix2 970 = IZR (2 ^ 1024 - 2 ^ 970) / IZR 1).
  { rewrite minus_IZR. rewrite <- !(IZR_Zpower radix2) by lia. change (Zaux.radix_val radix2) with 2%Z. lra. }
  rewrite M. destruct (truediv_round (2 ^ 1024 - 2 ^ 970) 1 ltac:(lia)) as [T _]. rewrite <- M in T.
  destruct (Rle_or_lt (bpow radix2 emax) (rnd (IZR (2 ^ 1024 - 2 ^ 970) / IZR 1))) as [L|L]; [exact L|exfalso].
  destruct T as (f & E & _).
  - rewrite Rabs_pos_eq; [rewrite M; exact L|]. rewrite <- rnd_0. apply rnd_mono. assert (bpow radix2 970 <= bpow radix2 1024) by (apply bpow_le; lia). lra.
  - vm_compute in E. discriminate.
Qed.

(** ** The tempo *)

Lemma minute : finite (float_of_Z 60000000) /\ fR (float_of_Z 60000000) = 60000000.
Proof.
  change (float_of_Z 60000000) with (S754_finite false 8053063680000000 (-27)). split; [exact I|].
  cbn [fR]. rewrite <- RoundingFacts.bpow_powerRZ. change (bpow radix2 (-27)) with (/ IZR 134217728). lra.
Qed.

Lemma tempo_cases bpm : finite bpm -> fR bpm <> 0 ->
  (Rabs (rnd (60000000 / fR bpm)) < bpow radix2 emax ->
     exists k, tempo_of_bpm bpm = Ok k /\
       (0 <= rnd (60000000 / fR bpm) -> IZR k <= rnd (60000000 / fR bpm) < IZR k + 1) /\
       (rnd (60000000 / fR bpm) <= 0 -> IZR k - 1 < rnd (60000000 / fR bpm) <= IZR k)) /\
  (bpow radix2 emax <= Rabs (rnd (60000000 / fR bpm)) -> tempo_of_bpm bpm = Err OverflowError).
Proof.
  intros F H. destruct minute as [M1 M2].
  assert (Z : feq bpm f_zero = false) by (destruct bpm as [s|s| |s m e]; try contradiction; destruct s; reflexivity).
  unfold tempo_of_bpm. rewrite Z.
  destruct (fdiv_round _ bpm M1 F ltac:(rewrite M2; lra) H) as [D1 D2]. rewrite M2 in D1, D2. split; intros HR.
  - destruct (D1 HR) as (_ & G & E). destruct (int_of_float_cut _ G) as (k & K1 & K2 & K3). exists k. rewrite E in K2, K3. auto.
  - destruct (D2 HR) as [s ->]. reflexivity.
Qed.

Lemma c66_special : forall s,
  tempo_of_bpm S754_nan = Err ValueError /\ tempo_of_bpm (S754_zero s) = Err ZeroDivisionError /\ tempo_of_bpm (S754_infinity s) = Ok 0%Z.
Proof. intros s. repeat split; destruct s; vm_compute; reflexivity. Qed.

Lemma c66_negative : forall bpm,
  tempo_of_bpm (SFopp bpm) = match tempo_of_bpm bpm with Ok k => Ok (- k)%Z | Err e => Err e end.
Proof.
  intros bpm. change tempo_of_bpm with (fun bpm => if feq bpm f_zero then Err ZeroDivisionError
    else int_of_float (fdiv (S754_finite false 8053063680000000 (-27)) bpm)). cbv beta.
  destruct bpm as [s|s| |s m e]; try reflexivity; [destruct s; reflexivity|].
  replace (feq (SFopp (S754_finite s m e)) f_zero) with false by (destruct s; reflexivity).
  replace (feq (S754_finite s m e) f_zero) with false by (destruct s; reflexivity).
  unfold fdiv. cbn [SFopp SFdiv xorb]. destruct (SFdiv_core_binary _ _ _ _ _ _) as [[mz ez] lz].
  unfold SpecFloat.binary_round_aux.
  destruct (SpecFloat.shr_fexp _ _ _ _ _) as [mrs e']. cbn zeta. destruct (SpecFloat.shr_fexp _ _ _ _ _) as [mrs' e''].
  destruct (SpecFloat.shr_m mrs') as [|p|p]; destruct s; try reflexivity; cbn [negb xorb];
    destruct (Z.leb e'' (emax - prec)); try reflexivity.
  cbn [int_of_float]. f_equal. lia.
Qed.

Lemma minute_over x y : 0 < x <= y -> 0 < 60000000 / y <= 60000000 / x.
Proof.
  intros H. split; [apply Rdiv_lt_0_compat; lra|]. apply Rmult_le_compat_l; [lra|]. apply Rinv_le; lra.
Qed.

Lemma c66_tempo : forall bpm, finite bpm -> 0 < fR bpm ->
  (powerRZ 2 1024 - powerRZ 2 970 <= 60000000 / fR bpm -> tempo_of_bpm bpm = Err OverflowError) /\
  (60000000 / fR bpm < powerRZ 2 1024 - powerRZ 2 970 -> exists k, tempo_of_bpm bpm = Ok k /\
     IZR k <= 60000000 / fR bpm * (1 + / 2 ^ 53) /\ 60000000 / fR bpm * (1 - / 2 ^ 53) < IZR k + 1 /\
     (forall n, (n <= 2 ^ 53)%Z -> IZR n <= 60000000 / fR bpm -> (n <= k)%Z)).
Proof.
  intros bpm F H. destruct (minute_over (fR bpm) (fR bpm) ltac:(lra)) as [Q _]. destruct (tempo_cases bpm F ltac:(lra)) as [T1 T2].
  set (q := 60000000 / fR bpm) in *. rewrite <- !RoundingFacts.bpow_powerRZ.
  assert (R0 : 0 <= rnd q) by (rewrite <- rnd_0; apply rnd_mono; lra). rewrite Rabs_pos_eq in T1, T2 by exact R0. split; intros L.
  - apply T2, rnd_above_1024, L.
  - destruct T1 as (k & E & K & _); [apply (rnd_below 1024); [lia|]; change (1024 - 54)%Z with 970%Z; lra|]. specialize (K R0).
    exists k. split; [exact E|].
    assert (B : IZR k <= q * (1 + / 2 ^ 53) /\ q * (1 - / 2 ^ 53) < IZR k + 1).
    { assert (I53 : 0 < / 2 ^ 53 < 1) by lra.
      destruct (Rle_or_lt (bpow radix2 (-1022)) q) as [N|N].
      - pose proof (rnd_relative q) as R. rewrite (Rabs_pos_eq q) in R by lra. specialize (R N). apply Rabs_le_inv in R. lra.
      - assert (rnd q <= bpow radix2 (-1022)) by (rewrite <- rnd_bpow by lia; apply rnd_mono; lra).
        assert (bpow radix2 (-1022) <= / 2) by (change (/ 2) with (bpow radix2 (-1)); apply bpow_le; lia).
        assert (k < 1)%Z by (apply lt_IZR; lra). assert (-1 < k)%Z by (apply lt_IZR; lra). assert (k = 0)%Z by lia. subst k.
        split; nra. }
    destruct B as [B1 B2]. split; [exact B1|]. split; [exact B2|].
    intros n Hn Hq. destruct (Z_lt_le_dec n 0) as [N|N].
    + assert (-1 < k)%Z by (apply lt_IZR; lra). lia.
    + apply rnd_mono in Hq. rewrite rnd_int in Hq by lia. assert (n < k + 1)%Z by (apply lt_IZR; rewrite plus_IZR; lra). lia.
Qed.

Lemma c66_exact : forall bpm b, finite bpm -> (0 < b)%Z -> fR bpm = IZR b / 2 ^ 27 ->
  tempo_of_bpm bpm = Ok (60000000 * 2 ^ 27 / b)%Z.
Proof.
  intros bpm b F Hb E. pose proof (IZR_lt _ _ Hb) as PB.
  assert (P : 0 < fR bpm) by (rewrite E; lra).
  destruct (c66_tempo bpm F P) as [_ T].
  assert (Q : 60000000 / fR bpm = IZR (60000000 * 2 ^ 27) / IZR b).
  { rewrite E, mult_IZR. change (2 ^ 27)%Z with 134217728%Z. field. lra. }
  rewrite Q in T. set (N := (60000000 * 2 ^ 27)%Z) in *.
  assert (QB : IZR N / IZR b <= IZR N).
  { assert (1 <= IZR b) by (apply (IZR_le 1); lia). assert (0 < IZR N) by (apply (IZR_lt 0); reflexivity).
    apply (Rmult_le_reg_r (IZR b)); [lra|]. unfold Rdiv. rewrite Rmult_assoc, Rinv_l by lra. nra. }
  destruct T as (k & T1 & T2 & _ & T3).
  - eapply Rle_lt_trans; [exact QB|]. rewrite <- !RoundingFacts.bpow_powerRZ.
    apply Rlt_le_trans with (bpow radix2 53); [rewrite <- (IZR_Zpower radix2) by lia; apply IZR_lt; reflexivity|].
    assert (bpow radix2 1024 = 2 * bpow radix2 1023) by (change 1024%Z with (1 + 1023)%Z; rewrite bpow_plus; reflexivity).
    assert (bpow radix2 53 <= bpow radix2 1023) by (apply bpow_le; lia).
    assert (bpow radix2 970 <= bpow radix2 1023) by (apply bpow_le; lia). lra.
  - rewrite T1. f_equal.
    pose proof (Z.mul_div_le N b Hb) as D1. pose proof (Z.mul_succ_div_gt N b Hb) as D2.
    assert (D3 : (N / b <= N)%Z) by (apply Z.div_le_upper_bound; [exact Hb|]; assert (0 < N)%Z by reflexivity; nia).
    assert (L : (N / b <= k)%Z).
    { apply T3; [assert (N <= 2 ^ 53)%Z by discriminate; lia|].
      apply (Rmult_le_reg_r (IZR b)); [lra|]. unfold Rdiv. rewrite Rmult_assoc, Rinv_l by lra.
      rewrite <- mult_IZR, Rmult_1_r. apply IZR_le. lia. }
    assert (U : (k * b < N + 1)%Z).
    { apply lt_IZR. rewrite mult_IZR, plus_IZR. apply (Rmult_le_compat_r (IZR b)) in T2; [|lra].
      replace (IZR N / IZR b * (1 + / 2 ^ 53) * IZR b) with (IZR N + IZR N * / 2 ^ 53) in T2 by (field; lra).
      assert (IZR N < 2 ^ 53) by (change N with 8053063680000000%Z; lra). lra. }
    nia.
Qed.

Lemma c66_monotone : forall a b j k, finite a -> finite b -> 0 < fR a <= fR b ->
  tempo_of_bpm a = Ok j -> tempo_of_bpm b = Ok k -> (k <= j)%Z.
Proof.
  intros a b j k Fa Fb H Ea Eb. destruct (minute_over _ _ H) as [Q1 Q2].
  destruct (tempo_cases a Fa ltac:(lra)) as [A1 A2]. destruct (tempo_cases b Fb ltac:(lra)) as [B1 B2].
  assert (R0 : 0 <= rnd (60000000 / fR b)) by (rewrite <- rnd_0; apply rnd_mono; lra).
  assert (R1 : rnd (60000000 / fR b) <= rnd (60000000 / fR a)) by (apply rnd_mono; lra).
  rewrite Rabs_pos_eq in A1, A2, B1, B2 by lra.
  destruct (Rlt_or_le (rnd (60000000 / fR a)) (bpow radix2 emax)) as [L|L]; [|rewrite (A2 L) in Ea; discriminate].
  destruct (A1 L) as (j' & Ej & J & _). destruct (B1 ltac:(lra)) as (k' & Ek & K & _).
  rewrite Ea in Ej. rewrite Eb in Ek. injection Ej as <-. injection Ek as <-. specialize (J ltac:(lra)). specialize (K R0).
  assert (k < j + 1)%Z by (apply lt_IZR; rewrite plus_IZR; lra). lia.
Qed.

Lemma fR_opp f : fR (SFopp f) = - fR f.
Proof. destruct f as [s|s| |s m e]; cbn [SFopp fR]; try lra. destruct s; cbn [negb]; change (Z.neg m) with (- Z.pos m)%Z; rewrite opp_IZR; lra. Qed.
Lemma finite_opp f : finite f -> finite (SFopp f).
Proof. destruct f; cbn; auto. Qed.

Lemma over_lt x c : 0 < x -> (60000000 / x < c <-> 60000000 < x * c).
Proof.
  intros H. split; intros L.
  - apply (Rmult_lt_compat_r x) in L; [|exact H]. unfold Rdiv in L. rewrite Rmult_assoc, Rinv_l in L by lra. lra.
  - apply (Rmult_lt_reg_r x); [exact H|]. unfold Rdiv. rewrite Rmult_assoc, Rinv_l by lra. lra.
Qed.

(** Tempos below a power of two, of positive speeds. *)
Lemma tempo_below bpm c n : finite bpm -> 0 < fR bpm -> (-1021 <= n <= 24)%Z -> bpow radix2 n = IZR c ->
  (forall x, bpow radix2 n - bpow radix2 (n - 54) <= x -> bpow radix2 n <= rnd x) ->
  ((exists k, tempo_of_bpm bpm = Ok k /\ (0 <= k < c)%Z) <-> 60000000 < fR bpm * (bpow radix2 n - bpow radix2 (n - 54))).
Proof.
  intros F H Hn Hc Ab. destruct (minute_over (fR bpm) (fR bpm) ltac:(lra)) as [Q _].
  destruct (tempo_cases bpm F ltac:(lra)) as [T1 T2]. rewrite <- over_lt by exact H. set (q := 60000000 / fR bpm) in *.
  assert (R0 : 0 <= rnd q) by (rewrite <- rnd_0; apply rnd_mono; lra). rewrite Rabs_pos_eq in T1, T2 by exact R0.
  assert (E24 : bpow radix2 n <= bpow radix2 emax) by (apply bpow_le; unfold emax; lia).
  split.
  - intros (k & E & K). destruct (Rlt_or_le q (bpow radix2 n - bpow radix2 (n - 54))) as [L|L]; [exact L|exfalso].
    apply Ab in L. destruct (Rlt_or_le (rnd q) (bpow radix2 emax)) as [L'|L']; [|rewrite (T2 L') in E; discriminate].
    destruct (T1 L') as (k' & E' & K' & _). rewrite E in E'. injection E' as <-. specialize (K' R0).
    rewrite Hc in L. assert (c < k + 1)%Z by (apply lt_IZR; rewrite plus_IZR; lra). lia.
  - intros L. pose proof (rnd_below n q ltac:(lia) ltac:(lra)) as L'. destruct T1 as (k & E & K & _); [lra|]. specialize (K R0).
    exists k. split; [exact E|]. split.
    + assert (-1 < k)%Z by (apply lt_IZR; lra). lia.
    + apply lt_IZR. rewrite <- Hc. lra.
Qed.

Lemma c66_fits : forall bpm, is_float bpm = true ->
  (tempo_fits bpm <-> (exists s, bpm = S754_infinity s) \/
     finite bpm /\ (60000000 < fR bpm * (2 ^ 24 - / 2 ^ 30) \/ fR bpm * (1 - / 2 ^ 54) < - 60000000)).
Proof.
  intros bpm HF. unfold tempo_fits. destruct (c66_special true) as (S1 & S2 & S3). destruct (c66_special false) as (_ & S2' & S3').
  assert (A : forall bpm, finite bpm -> 0 < fR bpm ->
    ((exists k, tempo_of_bpm bpm = Ok k /\ (0 <= k < 2 ^ 24)%Z) <-> 60000000 < fR bpm * (2 ^ 24 - / 2 ^ 30)) /\
    ((exists k, tempo_of_bpm bpm = Ok k /\ (0 <= k < 1)%Z) <-> 60000000 < fR bpm * (1 - / 2 ^ 54))).
  { clear bpm HF. intros bpm F H. split.
    - rewrite (tempo_below bpm (2 ^ 24) 24 F H ltac:(lia) eq_refl rnd_above_24).
      change (bpow radix2 24) with (IZR 16777216). change (bpow radix2 (24 - 54)) with (/ IZR 1073741824).
      replace (IZR 16777216 - / IZR 1073741824) with (2 ^ 24 - / 2 ^ 30) by lra. reflexivity.
    - rewrite (tempo_below bpm 1 0 F H ltac:(lia) eq_refl rnd_above_0).
      change (bpow radix2 0) with 1. change (bpow radix2 (0 - 54)) with (/ IZR 18014398509481984).
      replace (/ IZR 18014398509481984) with (/ 2 ^ 54) by lra. reflexivity. }
  destruct bpm as [s|s| |s m e].
  - split.
    + intros (k & E & _). destruct s; congruence.
    + intros [[t E]|[_ [L|L]]]; [discriminate| |]; cbn [fR] in L; lra.
  - split; [intros _; left; eauto|]. intros _. exists 0%Z. split; [destruct s; assumption|lia].
  - split.
    + intros (k & E & _). congruence.
    + intros [[t E]|[[] _]]. discriminate.
  - set (f := S754_finite s m e) in *. assert (F : finite f) by exact I.
    assert (D : 0 < fR f \/ 0 < fR (SFopp f)).
    { rewrite fR_opp. unfold f. cbn [fR]. assert (0 < IZR (Z.pos m)) by (apply (IZR_lt 0); lia).
      rewrite <- RoundingFacts.bpow_powerRZ. pose proof (bpow_gt_0 radix2 e). destruct s; [right; change (Z.neg m) with (- Z.pos m)%Z; rewrite opp_IZR|left]; nra. }
    assert (X : 0 < 2 ^ 24 - / 2 ^ 30 /\ 0 < 1 - / 2 ^ 54) by lra.
    destruct D as [D|D].
    + destruct (A f F D) as [A1 _]. rewrite A1. split; [intros L; right; auto|].
      intros [[t E]|[_ [L|L]]]; [discriminate|exact L|]. exfalso. nra.
    + destruct (A _ (finite_opp f F) D) as [_ A2]. rewrite fR_opp in *. rewrite (c66_negative f) in A2. split.
      * intros (k & E & K). right. split; [exact F|]. right. rewrite E in A2.
        assert (T : 60000000 < - fR f * (1 - / 2 ^ 54)); [|lra]. apply A2.
        (* a negative speed has a tempo of at most 0 *)
        destruct (tempo_cases f F ltac:(lra)) as [T1 T2].
        destruct (Rlt_or_le (Rabs (rnd (60000000 / fR f))) (bpow radix2 emax)) as [L|L]; [|rewrite (T2 L) in E; discriminate].
        destruct (T1 L) as (k' & E' & _ & K'). rewrite E in E'. injection E' as <-.
        assert (N : 60000000 / fR f <= 0).
        { replace (60000000 / fR f) with (- (60000000 / - fR f)) by (field; lra). destruct (minute_over (- fR f) (- fR f) ltac:(lra)). lra. }
        apply rnd_mono in N. rewrite rnd_0 in N. specialize (K' N).
        assert (k < 1)%Z by (apply lt_IZR; lra). exists (- k)%Z. split; [reflexivity|lia].
      * intros [[t E]|[_ [L|L]]]; [discriminate|exfalso; nra|].
        destruct (proj2 A2 ltac:(lra)) as (k & E & K). destruct (tempo_of_bpm f) as [j|?]; [|discriminate].
        exists j. split; [reflexivity|]. assert ((- j)%Z = k) by congruence. lia.
Qed.
