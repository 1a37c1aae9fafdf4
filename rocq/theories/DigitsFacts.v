(** The digits [shortest_digits] chooses identify the float (they meet [digits_contract]), and rounding to
    three decimals. *)
From Coq Require Import ZArith QArith Qpower Qabs Lia Lqa List Bool String ZifyBool.
From Verif Require Import Py PyFloat Note Show SpecBase ShowSpec DecFacts FloatFacts.
Import ListNotations.
Open Scope Z_scope.

(** ** Rounding *)
Lemma half_even_spec n d : 0 < d ->
  2 * Z.abs (n - half_even n d * d) <= d /\ (2 * Z.abs (n - half_even n d * d) = d -> Z.even (half_even n d) = true).
Proof.
  intros Hd. unfold half_even. pose proof (Z.div_mod n d ltac:(lia)) as E. pose proof (Z.mod_pos_bound n d Hd) as B.
  set (q := n / d) in *. set (r := n mod d) in *. clearbody q r. subst n.
  destruct (Z.ltb_spec (2 * r) d) as [H1|H1]; [|destruct (Z.ltb_spec d (2 * r)) as [H2|H2]].
  - replace (d * q + r - q * d) with r by ring. lia.
  - replace (d * q + r - (q + 1) * d) with (r - d) by ring. lia.
  - destruct (Z.even q) eqn:Ev.
    + replace (d * q + r - q * d) with r by ring. split; [lia|]. intros _. exact Ev.
    + replace (d * q + r - (q + 1) * d) with (r - d) by ring. split; [lia|]. intros _.
      change (q + 1) with (Z.succ q). rewrite Z.even_succ. rewrite <- Z.negb_even, Ev. reflexivity.
Qed.

(** ** Powers *)
Lemma pow2_split e : (2 ^ e == inject_Z (2 ^ Z.max e 0) / inject_Z (2 ^ Z.max (- e) 0))%Q.
Proof.
  destruct (Z.le_ge_cases 0 e) as [H|H].
  - rewrite Z.max_l, Z.max_r by lia. rewrite Qpower2_pos by exact H. change (inject_Z (2 ^ 0)) with 1%Q. field.
  - rewrite Z.max_r, Z.max_l by lia. change (inject_Z (2 ^ 0)) with 1%Q. rewrite <- Qpower2_pos by lia.
    rewrite Qpower_opp. field. apply Qpower_not_0. discriminate.
Qed.

Lemma pow10_pos k : 0 <= k -> (10 ^ k == inject_Z (10 ^ k))%Q.
Proof. intros Hk. change (10%Q) with (inject_Z 10). symmetry. apply Zpower_Qpower. exact Hk. Qed.

Lemma pow10_split e : (10 ^ e == inject_Z (10 ^ Z.max e 0) / inject_Z (10 ^ Z.max (- e) 0))%Q.
Proof.
  destruct (Z.le_ge_cases 0 e) as [H|H].
  - rewrite Z.max_l, Z.max_r by lia. rewrite pow10_pos by exact H. change (inject_Z (10 ^ 0)) with 1%Q. field.
  - rewrite Z.max_r, Z.max_l by lia. change (inject_Z (10 ^ 0)) with 1%Q. rewrite <- pow10_pos by lia.
    rewrite Qpower_opp. field. apply Qpower_not_0. discriminate.
Qed.

Lemma zpow_pos b k : 0 < b -> 0 < b ^ Z.max k 0.
Proof. intros H. apply Z.pow_pos_nonneg; lia. Qed.

Lemma inject_pos z : 0 < z -> (0 < inject_Z z)%Q.
Proof. intros H. unfold Qlt. cbn. lia. Qed.

Definition lower (m : positive) (e : Z) : Z := if ((Z.pos m =? 2 ^ 52) && (-1074 <? e))%bool then 4 * Z.pos m - 1 else 4 * Z.pos m - 2.

(** [reads_back] compares rational numbers. *)
Lemma reads_back_val m e D j : reads_back m e D j = true <->
  (inject_Z (lower m e) * 2 ^ (e - 2) < inject_Z D * 10 ^ j)%Q /\ (inject_Z D * 10 ^ j < inject_Z (4 * Z.pos m + 2) * 2 ^ (e - 2))%Q.
Proof.
  unfold reads_back. fold (lower m e). cbv zeta. rewrite andb_true_iff, !Z.ltb_lt.
  rewrite (pow2_split (e - 2)), (pow10_split j). replace (- (e - 2)) with (2 - e) by lia.
  pose proof (zpow_pos 2 (e - 2) ltac:(lia)) as A1. pose proof (zpow_pos 2 (2 - e) ltac:(lia)) as A2.
  pose proof (zpow_pos 10 j ltac:(lia)) as A3. pose proof (zpow_pos 10 (- j) ltac:(lia)) as A4.
  set (a1 := 2 ^ Z.max (e - 2) 0) in *. set (a2 := 2 ^ Z.max (2 - e) 0) in *.
  set (a3 := 10 ^ Z.max j 0) in *. set (a4 := 10 ^ Z.max (- j) 0) in *. clearbody a1 a2 a3 a4.
  assert (HG : forall x y, (inject_Z x * (inject_Z a1 / inject_Z a2) < inject_Z y * (inject_Z a3 / inject_Z a4))%Q <-> x * (a4 * a1) < y * a3 * a2).
  { intros x y. assert (I2 := inject_pos a2 A2). assert (I4 := inject_pos a4 A4).
    rewrite <- (Qmult_lt_r _ _ (inject_Z a2 * inject_Z a4)) by (apply Qmult_lt_0_compat; assumption).
    assert (E1 : (inject_Z x * (inject_Z a1 / inject_Z a2) * (inject_Z a2 * inject_Z a4) == inject_Z (x * (a4 * a1)))%Q)
      by (rewrite !inject_Z_mult; field; intros H; rewrite H in I2; discriminate I2).
    assert (E2 : (inject_Z y * (inject_Z a3 / inject_Z a4) * (inject_Z a2 * inject_Z a4) == inject_Z (y * a3 * a2))%Q)
      by (rewrite !inject_Z_mult; field; intros H; rewrite H in I4; discriminate I4).
    rewrite E1, E2, <- Zlt_Qlt. reflexivity. }
  assert (HG' : forall x y, (inject_Z y * (inject_Z a3 / inject_Z a4) < inject_Z x * (inject_Z a1 / inject_Z a2))%Q <-> y * a3 * a2 < x * (a4 * a1)).
  { intros x y. assert (I2 := inject_pos a2 A2). assert (I4 := inject_pos a4 A4).
    rewrite <- (Qmult_lt_r _ _ (inject_Z a2 * inject_Z a4)) by (apply Qmult_lt_0_compat; assumption).
    assert (E1 : (inject_Z x * (inject_Z a1 / inject_Z a2) * (inject_Z a2 * inject_Z a4) == inject_Z (x * (a4 * a1)))%Q)
      by (rewrite !inject_Z_mult; field; intros H; rewrite H in I2; discriminate I2).
    assert (E2 : (inject_Z y * (inject_Z a3 / inject_Z a4) * (inject_Z a2 * inject_Z a4) == inject_Z (y * a3 * a2))%Q)
      by (rewrite !inject_Z_mult; field; intros H; rewrite H in I4; discriminate I4).
    rewrite E1, E2, <- Zlt_Qlt. reflexivity. }
  rewrite HG, HG'. reflexivity.
Qed.

(** ** The neighbours of a float *)
Lemma above m e g : bounded prec emax m e = true -> is_float g = true ->
  Z.pos m * 2 ^ (e + 1074) < scaled g -> (Z.pos m + 1) * 2 ^ (e + 1074) <= scaled g.
Proof.
  intros Hm Hg H. pose proof (bounded_spec m e Hm) as (He & _ & _).
  assert (P : 0 < 2 ^ (e + 1074)) by (apply Z.pow_pos_nonneg; lia).
  destruct g as [s|s| |s m' e']; cbn [scaled] in *; try nia.
  cbn [is_float valid_binary] in Hg. destruct s.
  - pose proof (bounded_spec m' e' Hg). assert (0 < 2 ^ (e' + 1074)) by (apply Z.pow_pos_nonneg; lia). nia.
  - destruct (Z.lt_ge_cases e' e) as [L|L]; [pose proof (scaled_lt_exp _ _ _ _ Hg Hm L); lia|].
    assert (EP : 2 ^ (e' + 1074) = 2 ^ (e' - e) * 2 ^ (e + 1074)) by (rewrite <- Z.pow_add_r by lia; f_equal; lia).
    rewrite EP in *. set (k := 2 ^ (e' - e)) in *. set (p := 2 ^ (e + 1074)) in *. clearbody k p. rewrite Z.mul_assoc in *.
    apply Z.mul_le_mono_nonneg_r; [lia|]. apply Z.mul_lt_mono_pos_r in H; lia.
Qed.

Lemma below m e g : bounded prec emax m e = true -> is_float g = true ->
  scaled g < Z.pos m * 2 ^ (e + 1074) -> 2 * scaled g <= (lower m e - 2 * Z.pos m) * 2 ^ (e + 1074).
Proof.
  intros Hm Hg H. pose proof (bounded_spec m e Hm) as (He & HU & HL).
  assert (P : 0 < 2 ^ (e + 1074)) by (apply Z.pow_pos_nonneg; lia).
  assert (HB : lower m e = 4 * Z.pos m - 1 \/ lower m e = 4 * Z.pos m - 2) by (unfold lower; destruct (_ && _)%bool; auto).
  assert (HN : scaled g <= 0 -> 2 * scaled g <= (lower m e - 2 * Z.pos m) * 2 ^ (e + 1074)) by (intros; nia).
  destruct g as [s|s| |s m' e']; cbn [scaled] in *; try (apply HN; lia).
  cbn [is_float valid_binary] in Hg. pose proof (bounded_spec m' e' Hg) as (He' & HU' & _).
  assert (P' : 0 < 2 ^ (e' + 1074)) by (apply Z.pow_pos_nonneg; lia).
  destruct s; [apply HN; nia|]. clear HN.
  destruct (Z.lt_trichotomy e' e) as [L|[L|L]].
  - assert (HM : 2 ^ 52 <= Z.pos m) by lia.
    assert (EP : 2 ^ (e + 1074) = 2 ^ (e - e') * 2 ^ (e' + 1074)) by (rewrite <- Z.pow_add_r by lia; f_equal; lia). rewrite EP in *. clear EP.
    assert (2 <= 2 ^ (e - e')) by (change 2 with (2 ^ 1) at 1; apply Z.pow_le_mono_r; lia).
    change (2 ^ 53) with (2 * 2 ^ 52) in HU'. unfold lower.
    set (k := 2 ^ (e - e')) in *. set (b := 2 ^ 52) in *. set (p := 2 ^ (e' + 1074)) in *. clearbody k p b.
    destruct ((Z.pos m =? b) && (-1074 <? e))%bool eqn:E; [nia|].
    assert (b + 1 <= Z.pos m) by lia. nia.
  - subst e'. assert (Z.pos m' < Z.pos m) by nia. nia.
  - pose proof (scaled_lt_exp _ _ _ _ Hm Hg L). lia.
Qed.

Lemma reads_back_nearest m e D j : bounded prec emax m e = true -> reads_back m e D j = true ->
  only_nearest (inject_Z D * 10 ^ j)%Q (S754_finite false m e).
Proof.
  intros Hm HR. apply reads_back_val in HR. destruct HR as [HR1 HR2]. pose proof (bounded_spec m e Hm) as (He & _ & _).
  split; [exact Hm|]. split; [exact I|]. intros g Hg Fg N.
  set (q := (inject_Z D * 10 ^ j)%Q) in *.
  set (S := inject_Z (2 ^ 1074)). assert (SP : (0 < S)%Q) by (apply inject_pos, Z.pow_pos_nonneg; lia).
  assert (HV : forall f, is_float f = true -> (fval f * S == inject_Z (scaled f))%Q).
  { intros f Hf. rewrite (scaled_val f Hf), (Qmake_Qdiv _ big), big_val. fold S. field. intros H. rewrite H in SP. discriminate SP. }
  pose proof (HV g Hg) as Vg. pose proof (HV (S754_finite false m e) Hm) as Vv. cbn [scaled] in Vv.
  set (P := 2 ^ (e + 1074)) in *. assert (PP : 0 < P) by (apply Z.pow_pos_nonneg; lia).
  assert (H4 : (2 ^ (e - 2) * S * 4 == inject_Z P)%Q).
  { unfold S, P. rewrite <- !Qpower2_pos by lia. change 4%Q with (2 ^ 2)%Q. rewrite <- !Qpower_plus by discriminate. replace (e - 2 + 1074 + 2) with (e + 1074) by lia. reflexivity. }
  assert (R1 : (inject_Z (lower m e * P) < 4 * (q * S))%Q).
  { rewrite inject_Z_mult, <- H4. setoid_replace (inject_Z (lower m e) * (2 ^ (e - 2) * S * 4))%Q with (inject_Z (lower m e) * 2 ^ (e - 2) * (S * 4))%Q by ring.
    setoid_replace (4 * (q * S))%Q with (q * (S * 4))%Q by ring. apply Qmult_lt_r; [lra|exact HR1]. }
  assert (R2 : (4 * (q * S) < inject_Z ((4 * Z.pos m + 2) * P))%Q).
  { rewrite inject_Z_mult, <- H4. setoid_replace (inject_Z (4 * Z.pos m + 2) * (2 ^ (e - 2) * S * 4))%Q with (inject_Z (4 * Z.pos m + 2) * 2 ^ (e - 2) * (S * 4))%Q by ring.
    setoid_replace (4 * (q * S))%Q with (q * (S * 4))%Q by ring. apply Qmult_lt_r; [lra|exact HR2]. }
  assert (HS : forall x, (Qabs x * S == Qabs (x * S))%Q) by (intros x; rewrite Qabs_Qmult, (Qabs_pos S) by lra; reflexivity).
  apply (Qmult_lt_r _ _ S SP). rewrite !HS.
  setoid_replace ((fval (S754_finite false m e) - q) * S)%Q with (inject_Z (Z.pos m * P) - q * S)%Q by (rewrite <- Vv; ring).
  setoid_replace ((fval g - q) * S)%Q with (inject_Z (scaled g) - q * S)%Q by (rewrite <- Vg; ring).
  assert (NE : scaled g <> Z.pos m * P).
  { intros E. apply N. apply (Qmult_inj_r _ _ S); [lra|]. rewrite Vg, Vv, E. reflexivity. }
  assert (RL : lower m e = 4 * Z.pos m - 1 \/ lower m e = 4 * Z.pos m - 2) by (unfold lower; destruct (_ && _)%bool; auto).
  set (x := (q * S)%Q) in *. clearbody x.
  destruct (Z.lt_ge_cases (Z.pos m * P) (scaled g)) as [L|L].
  - pose proof (above m e g Hm Hg L) as HA. fold P in HA.
    assert (B1 : (inject_Z (Z.pos m * P) + inject_Z P <= inject_Z (scaled g))%Q) by (rewrite <- inject_Z_plus, <- Zle_Qle; lia).
    assert (B2 : (4 * x < 4 * inject_Z (Z.pos m * P) + 2 * inject_Z P)%Q).
    { eapply Qlt_le_trans; [exact R2|]. change 4%Q with (inject_Z 4). change 2%Q with (inject_Z 2). rewrite <- !inject_Z_mult, <- inject_Z_plus, <- Zle_Qle. lia. }
    assert (B3 : (0 < inject_Z P)%Q) by (apply inject_pos; exact PP).
    apply Qabs_case; intros; apply Qabs_case; intros; lra.
  - assert (L' : scaled g < Z.pos m * P) by lia. pose proof (below m e g Hm Hg L') as HA. fold P in HA.
    assert (B1 : (2 * inject_Z (scaled g) <= inject_Z ((lower m e - 2 * Z.pos m) * P))%Q) by (change 2%Q with (inject_Z 2); rewrite <- inject_Z_mult, <- Zle_Qle; lia).
    assert (B2 : (inject_Z ((lower m e - 2 * Z.pos m) * P) + 2 * inject_Z (Z.pos m * P) == inject_Z (lower m e * P))%Q).
    { change 2%Q with (inject_Z 2). rewrite <- inject_Z_mult, <- inject_Z_plus. apply inject_Z_injective. ring. }
    assert (B3 : (inject_Z (scaled g) < inject_Z (Z.pos m * P))%Q) by (rewrite <- Zlt_Qlt; exact L').
    apply Qabs_case; intros; apply Qabs_case; intros; lra.
Qed.

(** ** Seventeen digits are enough *)
Lemma decimal_bounds ds : digits_ok ds -> 0 <= decimal ds < 10 ^ Z.of_nat (List.length ds).
Proof.
  induction 1 as [|d ds Hd _ IH]; [cbn; lia|]. cbn [decimal List.length]. rewrite Nat2Z.inj_succ, Z.pow_succ_r by lia.
  fold (List.length ds) in *. nia.
Qed.

Lemma str_length z : 0 < z -> let L := Z.of_nat (List.length (str_of_Z z)) in 1 <= L /\ 10 ^ (L - 1) <= z < 10 ^ L.
Proof.
  intros Hz. destruct (str_of_Z_spec z) as (ds & H0 & Hd & Hv & Hh & ->). replace (z <? 0) with false by lia. cbn [app].
  rewrite map_length. cbv zeta. destruct ds as [|d ds]; [congruence|]. rewrite Z.abs_eq in Hv by lia.
  inversion Hd as [|? ? Hd1 Hd2]; subst. pose proof (decimal_bounds ds Hd2) as B. pose proof (decimal_bounds _ Hd) as B'.
  split; [cbn [List.length]; lia|]. split; [|apply B'].
  replace (Z.of_nat (List.length (d :: ds)) - 1) with (Z.of_nat (List.length ds)) by (cbn [List.length]; lia).
  cbn [decimal]. destruct Hh as [Hh|Hh]; [cbn [hd] in Hh; assert (0 < 10 ^ Z.of_nat (List.length ds)) by (apply Z.pow_pos_nonneg; lia); nia|].
  injection Hh as -> ->. cbn in Hz. lia.
Qed.

Definition exact (m : positive) (e : Z) : Q := (inject_Z (Z.pos m) * 2 ^ e)%Q.

Lemma point_spec m e : -1074 <= e -> (10 ^ (point m e - 1) <= exact m e)%Q /\ (exact m e < 10 ^ point m e)%Q.
Proof.
  intros He. unfold point.
  set (A := Z.pos m * 2 ^ Z.max e 0 * 10 ^ 330). set (B := 2 ^ Z.max (- e) 0).
  assert (BP : 0 < B) by (apply zpow_pos; lia).
  assert (EN : (if 0 <=? e then Z.pos m * 2 ^ e * 10 ^ 330 else Z.pos m * 10 ^ 330 / 2 ^ (- e)) = A / B).
  { unfold A, B. destruct (Z.leb_spec 0 e).
    - rewrite (Z.max_r (- e)), Z.max_l by lia. rewrite Z.pow_0_r, Z.div_1_r. reflexivity.
    - rewrite (Z.max_l (- e)), (Z.max_r e) by lia. rewrite Z.pow_0_r, Z.mul_1_r. reflexivity. }
  rewrite EN. clear EN.
  assert (EX : (exact m e * 10 ^ 330 == inject_Z A / inject_Z B)%Q).
  { unfold exact, A, B. rewrite (pow2_split e), (pow10_pos 330) by lia. rewrite !inject_Z_mult. field.
    pose proof (inject_pos _ BP) as H. unfold B in H. intros E. rewrite E in H. discriminate H. }
  assert (AB : B <= A).
  { assert (B <= 2 ^ 1074) by (unfold B; apply Z.pow_le_mono_r; lia).
    assert (2 ^ 1074 <= 10 ^ 330) by (vm_compute; discriminate).
    assert (1 <= Z.pos m * 2 ^ Z.max e 0) by (pose proof (zpow_pos 2 e ltac:(lia)); nia).
    unfold A. assert (10 ^ 330 <= Z.pos m * 2 ^ Z.max e 0 * 10 ^ 330) by nia. lia. }
  assert (NP : 0 < A / B) by (apply Z.div_str_pos; lia).
  destruct (str_length (A / B) NP) as (L1 & L2 & L3). set (L := Z.of_nat (List.length (str_of_Z (A / B)))) in *. clearbody L.
  pose proof (Z.mul_div_le A B BP) as F1. pose proof (Z.mul_succ_div_gt A B BP) as F2.
  assert (G1 : 10 ^ (L - 1) * B <= A) by nia. assert (G2 : A < 10 ^ L * B) by nia. clearbody A B.
  assert (TP : (0 < 10 ^ 330)%Q) by reflexivity. assert (IB := inject_pos B BP).
  assert (SP : forall k, (10 ^ (k - 330) * 10 ^ 330 == 10 ^ k)%Q).
  { intros k. rewrite <- Qpower_plus by discriminate. replace (k - 330 + 330) with k by lia. reflexivity. }
  split.
  - apply (Qmult_le_r _ _ (10 ^ 330)); [exact TP|]. replace (L - 330 - 1) with ((L - 1) - 330) by lia. rewrite SP, EX, pow10_pos by lia.
    apply (Qmult_le_r _ _ (inject_Z B) IB). setoid_replace (inject_Z A / inject_Z B * inject_Z B)%Q with (inject_Z A) by (field; intros E; rewrite E in IB; discriminate IB).
    rewrite <- inject_Z_mult, <- Zle_Qle. exact G1.
  - apply (Qmult_lt_r _ _ (10 ^ 330)); [exact TP|]. rewrite SP, EX, pow10_pos by lia.
    apply (Qmult_lt_r _ _ (inject_Z B) IB). setoid_replace (inject_Z A / inject_Z B * inject_Z B)%Q with (inject_Z A) by (field; intros E; rewrite E in IB; discriminate IB).
    rewrite <- inject_Z_mult, <- Zlt_Qlt. exact G2.
Qed.

Lemma scaled_decimal_spec m e j : (2 * Qabs (exact m e - inject_Z (scaled_decimal m e j) * 10 ^ j) <= 10 ^ j)%Q.
Proof.
  unfold scaled_decimal, exact. rewrite (pow2_split e), (pow10_split j).
  pose proof (zpow_pos 2 e ltac:(lia)) as A1. pose proof (zpow_pos 2 (- e) ltac:(lia)) as A2.
  pose proof (zpow_pos 10 j ltac:(lia)) as A3. pose proof (zpow_pos 10 (- j) ltac:(lia)) as A4.
  set (a1 := 2 ^ Z.max e 0) in *. set (a2 := 2 ^ Z.max (- e) 0) in *.
  set (a3 := 10 ^ Z.max j 0) in *. set (a4 := 10 ^ Z.max (- j) 0) in *. clearbody a1 a2 a3 a4.
  destruct (half_even_spec (Z.pos m * a1 * a4) (a2 * a3) ltac:(nia)) as [H _].
  set (D := half_even (Z.pos m * a1 * a4) (a2 * a3)) in *. clearbody D.
  assert (I2 := inject_pos a2 A2). assert (I4 := inject_pos a4 A4).
  assert (IP : (0 < inject_Z a2 * inject_Z a4)%Q) by (apply Qmult_lt_0_compat; assumption).
  apply (Qmult_le_r _ _ (inject_Z a2 * inject_Z a4) IP).
  set (X := (inject_Z (Z.pos m) * (inject_Z a1 / inject_Z a2) - inject_Z D * (inject_Z a3 / inject_Z a4))%Q).
  assert (EX : (2 * Qabs X * (inject_Z a2 * inject_Z a4) == inject_Z (2 * Z.abs (Z.pos m * a1 * a4 - D * (a2 * a3))))%Q).
  { rewrite inject_Z_mult. change (inject_Z (Z.abs ?z)) with (Qabs (inject_Z z)).
    setoid_replace (2 * Qabs X * (inject_Z a2 * inject_Z a4))%Q with (2 * (Qabs X * Qabs (inject_Z a2 * inject_Z a4)))%Q by (rewrite (Qabs_pos (inject_Z a2 * inject_Z a4)) by lra; ring).
    rewrite <- Qabs_Qmult. change (inject_Z 2) with 2%Q. apply Qmult_comp; [reflexivity|]. apply Qabs_wd. unfold X.
    unfold Zminus. rewrite inject_Z_plus, inject_Z_opp, !inject_Z_mult. field. split; intros E; [rewrite E in I4; discriminate I4|rewrite E in I2; discriminate I2]. }
  rewrite EX.
  setoid_replace (inject_Z a3 / inject_Z a4 * (inject_Z a2 * inject_Z a4))%Q with (inject_Z (a2 * a3)).
  - rewrite <- Zle_Qle. exact H.
  - rewrite inject_Z_mult. field. intros E; rewrite E in I4; discriminate I4.
Qed.

Lemma seventeen m e : bounded prec emax m e = true -> reads_back m e (scaled_decimal m e (point m e - 17)) (point m e - 17) = true.
Proof.
  intros Hm. pose proof (bounded_spec m e Hm) as (He & HU & _). apply reads_back_val.
  pose proof (scaled_decimal_spec m e (point m e - 17)) as HS. destruct (point_spec m e ltac:(lia)) as [HP _].
  set (q := (inject_Z (scaled_decimal m e (point m e - 17)) * 10 ^ (point m e - 17))%Q) in *. clearbody q.
  assert (HT : (10 ^ (point m e - 17) * inject_Z (10 ^ 16) <= exact m e)%Q).
  { eapply Qle_trans; [|exact HP]. rewrite <- pow10_pos by lia. rewrite <- Qpower_plus by discriminate.
    replace (point m e - 17 + 16) with (point m e - 1) by lia. apply Qle_refl. }
  set (t := (10 ^ (point m e - 17))%Q) in *. clearbody t.
  set (u := (2 ^ (e - 2))%Q). assert (UP : (0 < u)%Q) by (apply Qpower_0_lt; reflexivity).
  assert (EX : (exact m e == inject_Z (4 * Z.pos m) * u)%Q).
  { unfold exact, u. rewrite inject_Z_mult. change (inject_Z 4) with (2 ^ 2)%Q.
    setoid_replace (2 ^ 2 * inject_Z (Z.pos m) * 2 ^ (e - 2))%Q with (inject_Z (Z.pos m) * (2 ^ (e - 2) * 2 ^ 2))%Q by ring.
    rewrite <- Qpower_plus by discriminate. replace (e - 2 + 2) with e by lia. reflexivity. }
  rewrite EX in *. clear EX HP.
  assert (HA : (2 * (inject_Z (4 * Z.pos m) * u - q) <= t /\ 2 * (q - inject_Z (4 * Z.pos m) * u) <= t)%Q).
  { revert HS. apply Qabs_case; intros; split; lra. }
  destruct HA as [H1 H2]. clear HS.
  assert (HW : lower m e = 4 * Z.pos m - 1 /\ Z.pos m = 2 ^ 52 \/ lower m e = 4 * Z.pos m - 2).
  { unfold lower. destruct ((Z.pos m =? 2 ^ 52) && (-1074 <? e))%bool eqn:E; [left; split; [reflexivity|lia]|right; reflexivity]. }
  assert (K : exists w, lower m e = 4 * Z.pos m - w /\ w <= 2 /\ 2 * Z.pos m < w * 10 ^ 16).
  { destruct HW as [[-> ->]| ->]; [exists 1|exists 2]; (split; [reflexivity|]; split; [lia|]); [reflexivity|].
    eapply Z.lt_trans; [apply (Z.mul_lt_mono_pos_l 2 (Z.pos m) (2 ^ 53)); [lia|exact HU]|reflexivity]. }
  destruct K as (w & KW & K2 & K3).
  assert (MU : (2 * inject_Z (Z.pos m) * u < inject_Z w * inject_Z (10 ^ 16) * u)%Q).
  { apply (Qmult_lt_r _ _ u UP). change 2%Q with (inject_Z 2). rewrite <- !inject_Z_mult, <- Zlt_Qlt. exact K3. }
  assert (TU : (t < 2 * (inject_Z w * u))%Q).
  { apply (Qmult_lt_r _ _ (inject_Z (10 ^ 16))); [reflexivity|]. eapply Qle_lt_trans; [exact HT|].
    rewrite inject_Z_mult. change (inject_Z 4) with 4%Q. lra. }
  assert (WU : (inject_Z w * u <= 2 * u)%Q) by (apply (Qmult_le_r _ _ u UP); change 2%Q with (inject_Z 2); rewrite <- Zle_Qle; exact K2).
  rewrite KW. split.
  - unfold Zminus. rewrite inject_Z_plus, inject_Z_opp. lra.
  - rewrite inject_Z_plus. change (inject_Z 2) with 2%Q. lra.
Qed.

Lemma search_reads m e k : forall fuel n, bounded prec emax m e = true -> k = point m e -> n + Z.of_nat fuel = 17 ->
  let (D, j) := search_digits fuel m e k n in reads_back m e D j = true.
Proof.
  induction fuel as [|f IH]; intros n Hm -> E; cbn [search_digits].
  - replace n with 17 by lia. apply seventeen. exact Hm.
  - destruct (reads_back m e (scaled_decimal m e (point m e - n)) (point m e - n)) eqn:ER; [exact ER|].
    apply IH; [exact Hm|reflexivity|lia].
Qed.

Lemma strip_value : forall fuel D j, (inject_Z (fst (strip_zeros fuel D j)) * 10 ^ snd (strip_zeros fuel D j) == inject_Z D * 10 ^ j)%Q /\
  (0 < D -> 0 < fst (strip_zeros fuel D j)).
Proof.
  induction fuel as [|f IH]; intros D j; cbn [strip_zeros]; [split; [reflexivity|auto]|].
  destruct (Z.eqb_spec (D mod 10) 0) as [E|E]; [|split; [reflexivity|auto]].
  destruct (IH (D / 10) (j + 1)) as [H1 H2]. assert (ED : D = D / 10 * 10) by (pose proof (Z.div_mod D 10); lia). split.
  - rewrite H1. rewrite ED at 2. rewrite inject_Z_mult, Qpower_plus by discriminate. change (10 ^ 1)%Q with 10%Q. change (inject_Z 10) with 10%Q. ring.
  - intros H. apply H2. lia.
Qed.

Lemma shortest_contract : digits_contract shortest_digits.
Proof.
  intros m e (Hm & _ & _). cbn [is_float valid_binary] in Hm. unfold is_float, valid_binary in Hm.
  unfold shortest_digits. pose proof (search_reads m e (point m e) 16 1 Hm eq_refl eq_refl) as HR.
  destruct (search_digits 16 m e (point m e) 1) as [D j].
  pose proof (reads_back_nearest m e D j Hm HR) as HN. apply reads_back_val in HR. destruct HR as [HR _].
  destruct (strip_value 20 D j) as [H1 H2]. split.
  - apply H2. assert (HP : (0 < inject_Z D * 10 ^ j)%Q).
    { eapply Qle_lt_trans; [|exact HR]. apply Qmult_le_0_compat; [|apply Qlt_le_weak, Qpower_0_lt; reflexivity].
      change 0%Q with (inject_Z 0). rewrite <- Zle_Qle. unfold lower. destruct (_ && _)%bool; lia. }
    destruct (Z.le_gt_cases D 0) as [L|L]; [|exact L]. exfalso. apply (Qlt_not_le _ _ HP).
    setoid_replace 0%Q with (0 * 10 ^ j)%Q by ring. apply Qmult_le_compat_r; [|apply Qlt_le_weak, Qpower_0_lt; reflexivity].
    change 0%Q with (inject_Z 0). rewrite <- Zle_Qle. exact L.
  - destruct HN as (A & B & C). split; [exact A|]. split; [exact B|]. intros g Hg Fg N. rewrite H1. apply C; assumption.
Qed.
