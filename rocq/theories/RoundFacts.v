(** Rounding to nearest even: what the multiplication of [SpecFloat] computes, as a rational number,
    and that it is monotone. *)
From Coq Require Import ZArith QArith Qround Qpower Bool Lia ZifyBool Lqa.
From Verif Require Import Py PyFloat SpecBase FloatFacts.
Open Scope Z_scope.

(** ** Rounding a quotient of integers to an integer *)
Definition rne (a b : Z) : Z :=
  let q := a / b in
  let r := a mod b in
  if 2 * r <? b then q else if b <? 2 * r then q + 1 else if Z.even q then q else q + 1.

Lemma rne_scale a b c : 0 < b -> 0 < c -> rne (a * c) (b * c) = rne a b.
Proof.
  intros Hb Hc. unfold rne. rewrite Z.div_mul_cancel_r by lia. rewrite Z.mul_mod_distr_r by lia.
  replace (2 * (a mod b * c) <? b * c) with (2 * (a mod b) <? b) by (apply eq_true_iff_eq; rewrite !Z.ltb_lt; nia).
  replace (b * c <? 2 * (a mod b * c)) with (b <? 2 * (a mod b)) by (apply eq_true_iff_eq; rewrite !Z.ltb_lt; nia).
  reflexivity.
Qed.

Lemma rne_near a b : 0 < b -> 2 * (rne a b * b) - b <= 2 * a <= 2 * (rne a b * b) + b.
Proof.
  intros Hb. unfold rne. pose proof (Z.div_mod a b ltac:(lia)). pose proof (Z.mod_pos_bound a b Hb).
  set (q := a / b) in *. set (r := a mod b) in *.
  destruct (Z.ltb_spec (2 * r) b); [nia|]. destruct (Z.ltb_spec b (2 * r)); [nia|].
  destruct (Z.even q); nia.
Qed.

Lemma rne_mono a a' b : 0 < b -> a <= a' -> rne a b <= rne a' b.
Proof.
  intros Hb H. unfold rne.
  pose proof (Z.div_mod a b ltac:(lia)). pose proof (Z.mod_pos_bound a b Hb).
  pose proof (Z.div_mod a' b ltac:(lia)). pose proof (Z.mod_pos_bound a' b Hb).
  assert (Hq : a / b <= a' / b) by (apply Z.div_le_mono; lia).
  set (q := a / b) in *. set (r := a mod b) in *. set (q' := a' / b) in *. set (r' := a' mod b) in *.
  destruct (Z.eq_dec q q') as [E|E].
  - assert (r <= r') by nia. rewrite <- E.
    destruct (Z.ltb_spec (2 * r) b), (Z.ltb_spec (2 * r') b), (Z.ltb_spec b (2 * r)), (Z.ltb_spec b (2 * r'));
      destruct (Z.even q); lia.
  - destruct (2 * r <? b), (2 * r' <? b), (b <? 2 * r), (b <? 2 * r'), (Z.even q), (Z.even q'); lia.
Qed.

Lemma rne_int k b : 0 < b -> rne (k * b) b = k.
Proof.
  intros Hb. unfold rne. rewrite Z.div_mul, Z.mod_mul by lia. replace (2 * 0 <? b) with true by lia. reflexivity.
Qed.

(** ** The same on rational numbers *)
Definition rneQ (x : Q) : Z := rne (Qnum x) (Z.pos (Qden x)).

Lemma rneQ_mono x y : (x <= y)%Q -> rneQ x <= rneQ y.
Proof.
  intros H. unfold rneQ, Qle in *. destruct x as [a b], y as [c d]. cbn [Qnum Qden] in *.
  rewrite <- (rne_scale a (Z.pos b) (Z.pos d)) by lia. rewrite <- (rne_scale c (Z.pos d) (Z.pos b)) by lia.
  rewrite (Z.mul_comm (Z.pos d)). apply rne_mono; lia.
Qed.
Lemma rneQ_comp x y : (x == y)%Q -> rneQ x = rneQ y.
Proof. intros H. apply Z.le_antisymm; apply rneQ_mono; rewrite H; apply Qle_refl. Qed.
Lemma rneQ_Z k : rneQ (inject_Z k) = k.
Proof. unfold rneQ. cbn [Qnum Qden inject_Z]. rewrite <- (Z.mul_1_r k) at 1. apply (rne_int k 1). lia. Qed.
Lemma rneQ_ge x k : (inject_Z k <= x)%Q -> k <= rneQ x.
Proof. intros H. rewrite <- (rneQ_Z k) at 1. apply rneQ_mono, H. Qed.
Lemma rneQ_le x k : (x <= inject_Z k)%Q -> rneQ x <= k.
Proof. intros H. rewrite <- (rneQ_Z k). apply rneQ_mono, H. Qed.
Lemma rneQ_near x : (x - (1 # 2) <= inject_Z (rneQ x) <= x + (1 # 2))%Q.
Proof.
  unfold rneQ. destruct x as [a b]. cbn [Qnum Qden]. pose proof (rne_near a (Z.pos b) ltac:(lia)) as H.
  set (k := rne a (Z.pos b)) in *. unfold Qle, Qminus, Qplus, Qopp, inject_Z. cbn [Qnum Qden]. lia.
Qed.

(** ** Powers of two *)
Lemma pow2Q_pos k : (0 < 2 ^ k)%Q.
Proof. apply Qpower_0_lt. reflexivity. Qed.
Lemma pow2Q_add a b : (2 ^ (a + b) == 2 ^ a * 2 ^ b)%Q.
Proof. apply Qpower_plus. discriminate. Qed.
Lemma pow2Q_Z k : 0 <= k -> (2 ^ k == inject_Z (2 ^ k))%Q.
Proof. apply Qpower2_pos. Qed.
Lemma pow2Q_nz k : ~ (2 ^ k == 0)%Q.
Proof. intros H. pose proof (pow2Q_pos k) as P. rewrite H in P. discriminate. Qed.
Lemma pow2Q_le a b : a <= b -> (2 ^ a <= 2 ^ b)%Q.
Proof.
  intros H. replace b with (a + (b - a)) by lia. rewrite pow2Q_add, (pow2Q_Z (b - a)) by lia.
  rewrite <- (Qmult_1_r (2 ^ a)) at 1. rewrite !(Qmult_comm (2 ^ a)). apply Qmult_le_compat_r; [|apply Qlt_le_weak, pow2Q_pos].
  change 1%Q with (inject_Z 1). rewrite <- Zle_Qle. assert (0 < 2 ^ (b - a)) by (apply Z.pow_pos_nonneg; lia). lia.
Qed.

(** ** Shifting right with guard and sticky bit *)
Lemma iter_add {A} (f : A -> A) n m x : Nat.iter (n + m) f x = Nat.iter n f (Nat.iter m f x).
Proof. induction n as [|n IH]; [reflexivity|]. cbn [Nat.iter plus]. change (Nat.iter (S ?k) f ?y) with (f (Nat.iter k f y)). rewrite IH. reflexivity. Qed.
Lemma iter_pos_nat {A} (f : A -> A) p x : iter_pos f p x = Nat.iter (Pos.to_nat p) f x.
Proof.
  revert x. induction p as [p IH|p IH|]; intros x; cbn [iter_pos].
  - rewrite !IH. rewrite Pos2Nat.inj_xI. cbn [Nat.iter]. replace (S (2 * Pos.to_nat p)) with (Pos.to_nat p + Pos.to_nat p + 1)%nat by lia.
    rewrite !iter_add. reflexivity.
  - rewrite !IH. rewrite Pos2Nat.inj_xO. replace (2 * Pos.to_nat p)%nat with (Pos.to_nat p + Pos.to_nat p)%nat by lia.
    rewrite iter_add. reflexivity.
  - reflexivity.
Qed.

Lemma shr_1_spec m r s : 0 <= m -> shr_1 (Build_shr_record m r s) = Build_shr_record (m / 2) (Z.odd m) (r || s).
Proof.
  intros Hm. destruct m as [|p|p]; [reflexivity| |lia].
  destruct p as [p|p|]; cbn [shr_1]; f_equal.
  - change (Z.pos p~1) with (2 * Z.pos p + 1). apply Z.div_unique with 1; lia.
  - change (Z.pos p~0) with (2 * Z.pos p). rewrite Z.mul_comm, Z.div_mul by lia. reflexivity.
Qed.

Lemma shr_n_spec m : 0 <= m -> forall n, Nat.iter (S n) shr_1 (Build_shr_record m false false) =
  Build_shr_record (m / 2 ^ Z.of_nat (S n)) (Z.odd (m / 2 ^ Z.of_nat n)) (negb (m mod 2 ^ Z.of_nat n =? 0)).
Proof.
  intros Hm n. induction n as [|n IH].
  - cbn [Nat.iter]. rewrite shr_1_spec by exact Hm. change (2 ^ Z.of_nat 1) with 2. change (2 ^ Z.of_nat 0) with 1.
    rewrite Z.div_1_r, Z.mod_1_r. reflexivity.
  - change (Nat.iter (S (S n)) shr_1 ?x) with (shr_1 (Nat.iter (S n) shr_1 x)). rewrite IH.
    rewrite shr_1_spec by (apply Z.div_pos; [exact Hm|apply Z.pow_pos_nonneg; lia]).
    assert (P : 0 < 2 ^ Z.of_nat n) by (apply Z.pow_pos_nonneg; lia).
    rewrite (Nat2Z.inj_succ (S n)), !(Nat2Z.inj_succ n), (Z.pow_succ_r 2 (Z.succ (Z.of_nat n))), !Z.pow_succ_r by lia.
    set (D := 2 ^ Z.of_nat n) in *. rewrite Z.div_div by lia. f_equal; [f_equal; ring|].
    rewrite (Z.mul_comm 2 D). rewrite Z.rem_mul_r by lia.
    pose proof (Z.mod_pos_bound m D P). rewrite (Zmod_odd (m / D)).
    destruct (Z.odd (m / D)); destruct (Z.eqb_spec (m mod D) 0) as [E|E]; cbn [orb negb].
    + symmetry. apply negb_true_iff. apply Z.eqb_neq. lia.
    + symmetry. apply negb_true_iff. apply Z.eqb_neq. lia.
    + rewrite E. replace (0 + D * 0) with 0 by lia. reflexivity.
    + symmetry. apply negb_true_iff. apply Z.eqb_neq. lia.
Qed.

Lemma shr_round m n : 0 <= m ->
  let mrs := Nat.iter (S n) shr_1 (Build_shr_record m false false) in
  round_nearest_even (shr_m mrs) (loc_of_shr_record mrs) = rne m (2 ^ Z.of_nat (S n)).
Proof.
  intros Hm mrs. subst mrs. rewrite shr_n_spec by exact Hm. cbn [shr_m].
  assert (P : 0 < 2 ^ Z.of_nat n) by (apply Z.pow_pos_nonneg; lia).
  rewrite (Nat2Z.inj_succ n), Z.pow_succ_r by lia. set (D := 2 ^ Z.of_nat n) in *.
  unfold rne. rewrite (Z.mul_comm 2 D). rewrite (Z.rem_mul_r m D 2) by lia.
  pose proof (Z.mod_pos_bound m D P). rewrite (Zmod_odd (m / D)).
  destruct (Z.odd (m / D)); destruct (Z.eqb_spec (m mod D) 0) as [E|E]; cbn [loc_of_shr_record negb round_nearest_even].
  - rewrite E. replace (2 * (0 + D * 1) <? D * 2) with false by lia. replace (D * 2 <? 2 * (0 + D * 1)) with false by lia.
    reflexivity.
  - replace (2 * (m mod D + D * 1) <? D * 2) with false by lia. replace (D * 2 <? 2 * (m mod D + D * 1)) with true by lia.
    reflexivity.
  - rewrite E. replace (2 * (0 + D * 0) <? D * 2) with true by lia. reflexivity.
  - replace (2 * (m mod D + D * 0) <? D * 2) with true by lia. reflexivity.
Qed.

(** ** The exponent of the result and the rounded value *)

(** Exponent of the last place of a number of [d] digits before the binary point. *)
Definition last_place (d : Z) : Z := Z.max (d - 53) (-1074).

Lemma fexp_eq d : fexp prec emax d = last_place d.
Proof. unfold fexp, last_place, emin, prec, emax. reflexivity. Qed.

(** [x] rounded to a multiple of 2^F. *)
Definition rounded (x : Q) (F : Z) : Q := inject_Z (rneQ (x / 2 ^ F)) * 2 ^ F.

Lemma rounded_exact m e F : F <= e -> (rounded (inject_Z m * 2 ^ e) F == inject_Z m * 2 ^ e)%Q.
Proof.
  intros H. unfold rounded.
  assert (E : (inject_Z m * 2 ^ e / 2 ^ F == inject_Z (m * 2 ^ (e - F)))%Q).
  { rewrite inject_Z_mult, <- (pow2Q_Z (e - F)) by lia. replace e with (F + (e - F)) at 1 by lia. rewrite pow2Q_add.
    field. apply pow2Q_nz. }
  rewrite (rneQ_comp _ _ E), rneQ_Z, inject_Z_mult, <- (pow2Q_Z (e - F)) by lia.
  replace e with (F + (e - F)) at 2 by lia. rewrite pow2Q_add. ring.
Qed.

Lemma rounded_shift m e n : 0 <= n -> (rounded (inject_Z m * 2 ^ e) (e + n) == inject_Z (rne m (2 ^ n)) * 2 ^ (e + n))%Q.
Proof.
  intros Hn. unfold rounded. apply Qmult_inj_r; [apply pow2Q_nz|]. apply inject_Z_injective.
  assert (P : 0 < 2 ^ n) by (apply Z.pow_pos_nonneg; lia).
  assert (E : (inject_Z m * 2 ^ e / 2 ^ (e + n) == m # Z.to_pos (2 ^ n))%Q).
  { rewrite pow2Q_add, (pow2Q_Z n) by lia.
    assert (Hm : (m # Z.to_pos (2 ^ n) == inject_Z m / inject_Z (2 ^ n))%Q).
    { rewrite Qmake_Qdiv. rewrite Z2Pos.id by lia. reflexivity. }
    rewrite Hm. field. split; [|apply pow2Q_nz]. change 0%Q with (inject_Z 0). rewrite inject_Z_injective. lia. }
  rewrite (rneQ_comp _ _ E). unfold rneQ. cbn [Qnum Qden]. rewrite Z2Pos.id by lia. reflexivity.
Qed.

Lemma Zdigits2_bounds m : 0 < m -> 2 ^ (Zdigits2 m - 1) <= m < 2 ^ Zdigits2 m /\ 1 <= Zdigits2 m.
Proof.
  intros H. destruct m as [|p|p]; try lia. cbn [Zdigits2]. split; [apply digits2_bounds|]. lia.
Qed.
Lemma Zdigits2_le m k : 0 < m -> m < 2 ^ k -> 0 <= k -> Zdigits2 m <= k.
Proof.
  intros H1 H2 Hk. pose proof (Zdigits2_bounds m H1) as [[H3 _] H4].
  assert (2 ^ (Zdigits2 m - 1) < 2 ^ k) by lia. apply Z.pow_lt_mono_r_iff in H; lia.
Qed.

Definition nonneg_float (f : float) : Prop :=
  match f with S754_zero _ => True | S754_finite s _ _ => s = false | _ => False end.

Lemma round_value m e : e <= 900 -> Zdigits2 (Z.pos m) + e <= 900 ->
  let F := last_place (Zdigits2 (Z.pos m) + e) in
  let r := binary_round_aux prec emax false (Z.pos m) e loc_Exact in
  nonneg_float r /\ (fval r == rounded (inject_Z (Z.pos m) * 2 ^ e) F)%Q.
Proof.
  intros He Hd F r. subst r. unfold binary_round_aux, shr_fexp. rewrite fexp_eq. fold F.
  cbn [shr_record_of_loc]. pose proof (Zdigits2_bounds (Z.pos m) ltac:(lia)) as [Hm Hd1].
  set (d := Zdigits2 (Z.pos m)) in *.
  destruct (F - e) as [|n|n] eqn:En; cbn [shr].
  - (* no shift *) cbn [shr_m loc_of_shr_record round_nearest_even]. rewrite fexp_eq. fold d. fold F. rewrite En. cbn [shr shr_m].
    replace (Zle_bool e (emax - prec)) with true by (symmetry; apply Zle_imp_le_bool; unfold emax, prec; lia).
    split; [reflexivity|]. cbn [fval]. rewrite rounded_exact by lia. reflexivity.
  - (* shift by n *)
    rewrite iter_pos_nat. destruct (Pos.to_nat n) as [|k] eqn:Ek; [lia|].
    rewrite shr_round by lia.
    assert (Hn : Z.of_nat (S k) = F - e) by lia. rewrite Hn.
    assert (En' : e + Z.pos n = F) by lia. rewrite En'.
    pose proof (rounded_shift (Z.pos m) e (F - e) ltac:(lia)) as HR.
    replace (e + (F - e)) with F in HR by lia.
    set (q := rne (Z.pos m) (2 ^ (F - e))) in *.
    assert (P : 0 < 2 ^ (F - e)) by (apply Z.pow_pos_nonneg; lia).
    assert (Hq0 : 0 <= q).
    { unfold q. rewrite <- (rne_int 0 (2 ^ (F - e)) P). apply rne_mono; lia. }
    assert (Hq1 : q <= 2 ^ 53).
    { unfold q. rewrite <- (rne_int (2 ^ 53) (2 ^ (F - e)) P). apply rne_mono; [exact P|].
      rewrite <- Z.pow_add_r by lia. apply Z.le_trans with (2 ^ d); [lia|]. apply Z.pow_le_mono_r; [lia|].
      unfold F, last_place. lia. }
    assert (HFe : F <= 900 /\ -1074 <= F) by (unfold F, last_place; lia).
    assert (Hsame : Zdigits2 q <= 53 -> last_place (Zdigits2 q + F) - F <= 0) by (unfold last_place; lia).
    rewrite fexp_eq. destruct (Z.eq_dec q (2 ^ 53)) as [Eq|Eq].
    + rewrite Eq in *. change (Zdigits2 (2 ^ 53)) with 54. cbn [shr_record_of_loc].
      assert (last_place (54 + F) - F = 1) as -> by (unfold last_place; lia).
      cbn [shr iter_pos]. change (shr_1 (Build_shr_record (2 ^ 53) false false)) with (Build_shr_record 4503599627370496 false false).
      cbn [shr_m]. replace (Zle_bool (F + 1) (emax - prec)) with true by (symmetry; apply Zle_imp_le_bool; unfold emax, prec; lia).
      split; [reflexivity|]. cbn [fval]. rewrite HR, pow2Q_add. change (2 ^ 53) with (4503599627370496 * 2). rewrite inject_Z_mult.
      change (2 ^ 1)%Q with (inject_Z 2). ring.
    + assert (Hs : last_place (Zdigits2 q + F) - F <= 0).
      { destruct (Z.eq_dec q 0) as [->|Hz]; [cbn [Zdigits2]; unfold last_place; lia|].
        apply Hsame. apply Zdigits2_le; lia. }
      assert (Es : shr (shr_record_of_loc q loc_Exact) F (last_place (Zdigits2 q + F) - F) = (shr_record_of_loc q loc_Exact, F)).
      { unfold shr. destruct (last_place (Zdigits2 q + F) - F); try reflexivity. lia. }
      cbn [shr_record_of_loc] in Es |- *. rewrite Es. cbn [shr_m]. destruct q as [|q|q]; [| |lia].
      * split; [exact I|]. cbn [fval]. rewrite HR. change (inject_Z 0) with 0%Q. ring.
      * replace (Zle_bool F (emax - prec)) with true by (symmetry; apply Zle_imp_le_bool; unfold emax, prec; lia).
        split; [reflexivity|]. cbn [fval]. rewrite HR. reflexivity.
  - cbn [shr_m loc_of_shr_record round_nearest_even]. rewrite fexp_eq. fold d. fold F. rewrite En. cbn [shr shr_m].
    replace (Zle_bool e (emax - prec)) with true by (symmetry; apply Zle_imp_le_bool; unfold emax, prec; lia).
    split; [reflexivity|]. cbn [fval]. rewrite rounded_exact by lia. reflexivity.
Qed.

(** ** Monotonicity *)

(** d is the number of digits of x before the binary point. *)
Definition ndigits (x : Q) (d : Z) : Prop := (2 ^ (d - 1) <= x < 2 ^ d)%Q.

Lemma ndigits_me m e : 0 < m -> ndigits (inject_Z m * 2 ^ e) (Zdigits2 m + e).
Proof.
  intros H. destruct (Zdigits2_bounds m H) as [[H1 H2] H3]. unfold ndigits. split.
  - replace (Zdigits2 m + e - 1) with (Zdigits2 m - 1 + e) by lia. rewrite pow2Q_add, (pow2Q_Z (Zdigits2 m - 1)) by lia.
    apply Qmult_le_compat_r; [rewrite <- Zle_Qle; exact H1|apply Qlt_le_weak, pow2Q_pos].
  - rewrite pow2Q_add, (pow2Q_Z (Zdigits2 m)) by lia. apply Qmult_lt_compat_r; [apply pow2Q_pos|]. rewrite <- Zlt_Qlt. exact H2.
Qed.

Lemma pow2Q_lt_inv a b : (2 ^ a < 2 ^ b)%Q -> a < b.
Proof.
  intros H. destruct (Z.lt_ge_cases a b) as [L|L]; [exact L|]. exfalso. apply pow2Q_le in L.
  apply (Qlt_not_le _ _ H L).
Qed.

Lemma ndigits_mono x y d d' : ndigits x d -> ndigits y d' -> (x <= y)%Q -> d <= d'.
Proof.
  intros [H1 _] [_ H2] H. assert (d - 1 < d'); [|lia]. apply pow2Q_lt_inv.
  eapply Qle_lt_trans; [exact H1|]. eapply Qle_lt_trans; [exact H|exact H2].
Qed.

Lemma Qdiv_mono x y c : (0 < c)%Q -> (x <= y)%Q -> (x / c <= y / c)%Q.
Proof. intros Hc H. apply Qmult_le_compat_r; [exact H|]. apply Qlt_le_weak, Qinv_lt_0_compat, Hc. Qed.

Lemma rounded_mono_same x y F : (x <= y)%Q -> (rounded x F <= rounded y F)%Q.
Proof.
  intros H. unfold rounded. apply Qmult_le_compat_r; [|apply Qlt_le_weak, pow2Q_pos].
  rewrite <- Zle_Qle. apply rneQ_mono, Qdiv_mono; [apply pow2Q_pos|exact H].
Qed.
Lemma rounded_pow k F : F <= k -> (rounded (2 ^ k) F == 2 ^ k)%Q.
Proof.
  intros H. assert (E : (2 ^ k == inject_Z 1 * 2 ^ k)%Q) by ring.
  pose proof (rounded_exact 1 k F H) as R. unfold rounded in *.
  assert (E' : (2 ^ k / 2 ^ F == inject_Z 1 * 2 ^ k / 2 ^ F)%Q) by (rewrite <- E; reflexivity).
  rewrite (rneQ_comp _ _ E'), R. ring.
Qed.
Lemma rounded_comp x y F : (x == y)%Q -> (rounded x F == rounded y F)%Q.
Proof.
  intros H. apply Qle_antisym; apply rounded_mono_same; rewrite H; apply Qle_refl.
Qed.

Lemma rounded_mono x y d d' : ndigits x d -> ndigits y d' -> (x <= y)%Q ->
  (rounded x (last_place d) <= rounded y (last_place d'))%Q.
Proof.
  intros Hx Hy H. pose proof (ndigits_mono _ _ _ _ Hx Hy H) as Hd.
  destruct (Z.eq_dec (last_place d) (last_place d')) as [E|E]; [rewrite E; apply rounded_mono_same, H|].
  assert (L : last_place d < last_place d') by (unfold last_place in *; lia).
  assert (Hd' : last_place d' = d' - 53) by (unfold last_place in *; lia).
  assert (Hlt : d < d') by (unfold last_place in *; lia).
  apply Qle_trans with (2 ^ (d' - 1))%Q.
  - rewrite <- (rounded_pow (d' - 1) (last_place d)) by lia. apply rounded_mono_same.
    apply Qlt_le_weak. eapply Qlt_le_trans; [apply Hx|]. apply pow2Q_le. lia.
  - rewrite <- (rounded_pow (d' - 1) (last_place d')) by lia. apply rounded_mono_same, Hy.
Qed.

Lemma rounded_near x F : (x - 2 ^ (F - 1) <= rounded x F <= x + 2 ^ (F - 1))%Q.
Proof.
  unfold rounded. pose proof (rneQ_near (x / 2 ^ F)) as [H1 H2].
  assert (E2 : (2 ^ (F - 1) == (1 # 2) * 2 ^ F)%Q).
  { replace F with ((F - 1) + 1) at 2 by lia. rewrite pow2Q_add. change (2 ^ 1)%Q with 2%Q. field. }
  pose proof (pow2Q_pos F) as P.
  assert (E3 : (x - (1 # 2) * 2 ^ F == (x / 2 ^ F - (1 # 2)) * 2 ^ F)%Q) by (field; apply pow2Q_nz).
  assert (E4 : (x + (1 # 2) * 2 ^ F == (x / 2 ^ F + (1 # 2)) * 2 ^ F)%Q) by (field; apply pow2Q_nz).
  rewrite E2, E3, E4. split; (apply Qmult_le_compat_r; [assumption|apply Qlt_le_weak, P]).
Qed.

(** ** Truncation *)
Lemma int_of_nonneg r : nonneg_float r -> int_of_float r = Ok (Qfloor (fval r)).
Proof.
  intros H. destruct r as [s|s| |s m e]; try contradiction; [reflexivity|]. cbn in H. subst s.
  cbn [int_of_float fval]. f_equal. destruct (Z.leb_spec 0 e) as [He|He].
  - rewrite <- (Qfloor_Z (Z.pos m * 2 ^ e)). apply Qfloor_comp. rewrite inject_Z_mult, (pow2Q_Z e) by lia. reflexivity.
  - assert (P : 0 < 2 ^ (- e)) by (apply Z.pow_pos_nonneg; lia).
    assert (E : (inject_Z (Z.pos m) * 2 ^ e == Z.pos m # Z.to_pos (2 ^ (- e)))%Q).
    { rewrite (Qmake_Qdiv (Z.pos m) (Z.to_pos (2 ^ (- e)))), Z2Pos.id by lia. rewrite <- (pow2Q_Z (- e)) by lia. unfold Qdiv. rewrite <- Qpower_opp. rewrite Z.opp_involutive. reflexivity. }
    rewrite (Qfloor_comp _ _ E). unfold Qfloor. rewrite Z2Pos.id by lia. reflexivity.
Qed.
