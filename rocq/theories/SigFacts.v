From Coq Require Import ZArith Znumtheory QArith Lia List Bool ZifyBool.
From Verif Require Import Py Signature SpecBase.
Import ListNotations.
Open Scope Z_scope.

Lemma pow2_pos d : pow2 d -> 0 < d.
Proof. intros (k & Hk & ->). apply Z.pow_pos_nonneg; lia. Qed.

Lemma land_pow2 d : 0 < d -> (Z.land d (d - 1) = 0 <-> pow2 d).
Proof.
  intros Hd; split.
  - intros H. exists (Z.log2 d). split; [apply Z.log2_nonneg|].
    destruct (Z.log2_spec d Hd) as [Hlo Hhi].
    destruct (Z.eq_dec d (2 ^ Z.log2 d)) as [E|E]; [exact E|exfalso].
    assert (Hlog : Z.log2 (d - 1) = Z.log2 d).
    { apply Z.log2_unique; [apply Z.log2_nonneg|]. lia. }
    assert (Hb : Z.testbit (Z.land d (d - 1)) (Z.log2 d) = true).
    { rewrite Z.land_spec. apply andb_true_intro; split.
      - apply Z.bit_log2; lia.
      - rewrite <- Hlog. apply Z.bit_log2.
        assert (1 <= 2 ^ Z.log2 d) by (apply Z.lt_pred_le, Z.pow_pos_nonneg; [lia|apply Z.log2_nonneg]).
        lia. }
    rewrite H, Z.bits_0 in Hb. discriminate.
  - intros (k & Hk & ->).
    replace (2 ^ k - 1) with (Z.ones k) by (rewrite Z.ones_equiv; lia).
    rewrite Z.land_ones by lia. apply Z.mod_same.
    apply Z.pow_nonzero; lia.
Qed.

Lemma pow2_mul a b : pow2 a -> pow2 b -> pow2 (a * b).
Proof.
  intros (k & Hk & ->) (j & Hj & ->). exists (k + j). split; [lia|].
  rewrite Z.pow_add_r; lia.
Qed.

Lemma pow2_1 : pow2 1.
Proof. exists 0; split; reflexivity || lia. Qed.

(** The larger of two powers of two is a multiple of the smaller, by a power of two. *)
Lemma pow2_divide a b : pow2 a -> pow2 b -> a <= b -> b = b / a * a /\ pow2 (b / a).
Proof.
  intros Ha Hb Hle. pose proof (pow2_pos _ Ha) as Pa.
  destruct Ha as (k & Hk & ->), Hb as (j & Hj & ->).
  assert (k <= j) by (apply Z.pow_le_mono_r_iff in Hle; lia).
  replace j with ((j - k) + k) by lia. rewrite Z.pow_add_r by lia.
  rewrite Z.div_mul by lia. split; [lia|]. exists (j - k). split; [lia|reflexivity].
Qed.

(** ** Construction *)

Lemma sig_new_ok n d : 0 <= n -> pow2 d -> sig_new n d = Ok (mkSig n d).
Proof.
  intros Hn Hd. unfold sig_new. pose proof (pow2_pos _ Hd) as Pd.
  apply (land_pow2 d Pd) in Hd.
  replace (negb _) with false; [reflexivity|]. rewrite Hd. lia.
Qed.

Lemma sig_new_err n d : ~ (0 <= n /\ pow2 d) -> sig_new n d = Err ValueError.
Proof.
  intros H. unfold sig_new.
  destruct (n >=? 0) eqn:E1; [|reflexivity]. destruct (d >? 0) eqn:E2; [|reflexivity].
  destruct (Z.land d (d - 1) =? 0) eqn:E3; [|reflexivity].
  exfalso; apply H. split; [lia|]. apply land_pow2; lia.
Qed.

Lemma sig_new_inv n d s : sig_new n d = Ok s -> s = mkSig n d /\ 0 <= n /\ pow2 d.
Proof.
  unfold sig_new. intros H.
  destruct (n >=? 0) eqn:E1; [|discriminate]. destruct (d >? 0) eqn:E2; [|discriminate].
  destruct (Z.land d (d - 1) =? 0) eqn:E3; [|discriminate].
  injection H as <-. repeat split; try lia. apply land_pow2; lia.
Qed.

Lemma sig_new_valid n d s : sig_new n d = Ok s -> valid_sig s.
Proof. intros H. apply sig_new_inv in H. destruct H as (-> & Hn & Hd). split; assumption. Qed.

Lemma sig_new_cases n d :
  (exists s, sig_new n d = Ok s) \/ sig_new n d = Err ValueError.
Proof.
  unfold sig_new. destruct (negb _); [right|left; eexists]; reflexivity.
Qed.

(** ** Common denominator *)

Section Common.
Variables a b : sig.
Hypothesis Ha : valid_sig a.
Hypothesis Hb : valid_sig b.

Let n1 := nominator a.
Let d1 := denominator a.
Let n2 := nominator b.
Let d2 := denominator b.

Lemma common_ge : d2 <= d1 ->
  exists q, to_common_denominator a b = (n1, q * n2, d1) /\ d1 = q * d2 /\ 0 < q.
Proof.
  unfold to_common_denominator. fold n1 d1 n2 d2. intros Hle.
  pose proof (pow2_pos _ (proj2 Ha)) as P1. pose proof (pow2_pos _ (proj2 Hb)) as P2.
  destruct (pow2_divide d2 d1 (proj2 Hb) (proj2 Ha) Hle) as [Hd Hq].
  destruct (d1 =? d2) eqn:E.
  - exists 1. apply Z.eqb_eq in E. rewrite Z.mul_1_l. repeat split; try lia.
  - replace (d1 >? d2) with true by lia. exists (d1 / d2).
    split; [reflexivity|]. split; [exact Hd|exact (pow2_pos _ Hq)].
Qed.

Lemma common_lt : d1 < d2 ->
  exists q, to_common_denominator a b = (n2, q * n1, d2) /\ d2 = q * d1 /\ 0 < q.
Proof.
  unfold to_common_denominator. fold n1 d1 n2 d2. intros Hlt.
  assert (Hle : d1 <= d2) by lia.
  destruct (pow2_divide d1 d2 (proj2 Ha) (proj2 Hb) Hle) as [Hd Hq].
  replace (d1 =? d2) with false by lia. replace (d1 >? d2) with false by lia.
  exists (d2 / d1). split; [reflexivity|]. split; [exact Hd|exact (pow2_pos _ Hq)].
Qed.

(** Comparison operators in terms of cross products. *)

Lemma sig_eq_cross : sig_eq a b = true <-> n1 * d2 = n2 * d1.
Proof.
  pose proof (pow2_pos _ (proj2 Ha)) as P1. pose proof (pow2_pos _ (proj2 Hb)) as P2.
  fold d1 in P1. fold d2 in P2. unfold sig_eq.
  destruct (Z_le_gt_dec d2 d1) as [Hle|Hgt].
  - destruct (common_ge Hle) as (q & -> & Hd & Hq). rewrite Z.eqb_eq. rewrite Hd. nia.
  - destruct (common_lt ltac:(lia)) as (q & -> & Hd & Hq). rewrite Z.eqb_eq. rewrite Hd. nia.
Qed.

Lemma sig_lt_ge : d2 <= d1 -> (sig_lt a b = true <-> n1 * d2 < n2 * d1).
Proof.
  intros Hle. unfold sig_lt. pose proof (pow2_pos _ (proj2 Hb)) as P2. fold d2 in P2.
  destruct (common_ge Hle) as (q & -> & Hd & Hq). rewrite Z.ltb_lt, Hd. nia.
Qed.
Lemma sig_le_ge : d2 <= d1 -> (sig_le a b = true <-> n1 * d2 <= n2 * d1).
Proof.
  intros Hle. unfold sig_le. pose proof (pow2_pos _ (proj2 Hb)) as P2. fold d2 in P2.
  destruct (common_ge Hle) as (q & -> & Hd & Hq). rewrite Z.leb_le, Hd. nia.
Qed.
Lemma sig_gt_ge : d2 <= d1 -> (sig_gt a b = true <-> n2 * d1 < n1 * d2).
Proof.
  intros Hle. unfold sig_gt. pose proof (pow2_pos _ (proj2 Hb)) as P2. fold d2 in P2.
  destruct (common_ge Hle) as (q & -> & Hd & Hq). rewrite Z.gtb_lt, Hd. nia.
Qed.
Lemma sig_ge_ge : d2 <= d1 -> (sig_ge a b = true <-> n2 * d1 <= n1 * d2).
Proof.
  intros Hle. unfold sig_ge. pose proof (pow2_pos _ (proj2 Hb)) as P2. fold d2 in P2.
  destruct (common_ge Hle) as (q & -> & Hd & Hq). rewrite Z.geb_le, Hd. nia.
Qed.

(** With the smaller denominator on the left every comparison is answered the wrong way round. *)
Lemma sig_lt_lt : d1 < d2 -> (sig_lt a b = true <-> n2 * d1 < n1 * d2).
Proof.
  intros Hlt. unfold sig_lt. pose proof (pow2_pos _ (proj2 Ha)) as P1. fold d1 in P1.
  destruct (common_lt Hlt) as (q & -> & Hd & Hq). rewrite Z.ltb_lt, Hd. nia.
Qed.
Lemma sig_le_lt : d1 < d2 -> (sig_le a b = true <-> n2 * d1 <= n1 * d2).
Proof.
  intros Hlt. unfold sig_le. pose proof (pow2_pos _ (proj2 Ha)) as P1. fold d1 in P1.
  destruct (common_lt Hlt) as (q & -> & Hd & Hq). rewrite Z.leb_le, Hd. nia.
Qed.
Lemma sig_gt_lt : d1 < d2 -> (sig_gt a b = true <-> n1 * d2 < n2 * d1).
Proof.
  intros Hlt. unfold sig_gt. pose proof (pow2_pos _ (proj2 Ha)) as P1. fold d1 in P1.
  destruct (common_lt Hlt) as (q & -> & Hd & Hq). rewrite Z.gtb_lt, Hd. nia.
Qed.
Lemma sig_ge_lt : d1 < d2 -> (sig_ge a b = true <-> n1 * d2 <= n2 * d1).
Proof.
  intros Hlt. unfold sig_ge. pose proof (pow2_pos _ (proj2 Ha)) as P1. fold d1 in P1.
  destruct (common_lt Hlt) as (q & -> & Hd & Hq). rewrite Z.geb_le, Hd. nia.
Qed.

(** Addition: the result is valid, on the larger denominator, with the right cross product. *)
Lemma sig_add_spec : exists s, sig_add a b = Ok s /\ valid_sig s /\
  denominator s = Z.max d1 d2 /\ nominator s * (d1 * d2) = (n1 * d2 + n2 * d1) * denominator s.
Proof.
  destruct Ha as [Ha1 Ha2], Hb as [Hb1 Hb2].
  pose proof (pow2_pos _ Ha2) as P1. pose proof (pow2_pos _ Hb2) as P2.
  fold d1 in P1, Ha2. fold d2 in P2, Hb2. fold n1 in Ha1. fold n2 in Hb1. unfold sig_add.
  destruct (Z_le_gt_dec d2 d1) as [Hle|Hgt].
  - destruct (common_ge Hle) as (q & -> & Hd & Hq).
    rewrite sig_new_ok by (assumption || nia).
    eexists; split; [reflexivity|]. cbn [nominator denominator].
    split; [split; cbn [nominator denominator]; [nia|assumption]|].
    split; [lia|]. rewrite Hd. ring.
  - destruct (common_lt ltac:(lia)) as (q & -> & Hd & Hq).
    rewrite sig_new_ok by (assumption || nia).
    eexists; split; [reflexivity|]. cbn [nominator denominator].
    split; [split; cbn [nominator denominator]; [nia|assumption]|].
    split; [lia|]. rewrite Hd. ring.
Qed.
End Common.

(** ** The rational value *)

Lemma sval_eq a b : valid_sig a -> valid_sig b ->
  ((sval a == sval b)%Q <-> nominator a * denominator b = nominator b * denominator a).
Proof.
  intros [_ Ha] [_ Hb]. apply pow2_pos in Ha, Hb. unfold sval, Qeq. cbn [Qnum Qden].
  rewrite !Z2Pos.id by assumption. reflexivity.
Qed.
Lemma sval_lt a b : valid_sig a -> valid_sig b ->
  ((sval a < sval b)%Q <-> nominator a * denominator b < nominator b * denominator a).
Proof.
  intros [_ Ha] [_ Hb]. apply pow2_pos in Ha, Hb. unfold sval, Qlt. cbn [Qnum Qden].
  rewrite !Z2Pos.id by assumption. reflexivity.
Qed.
Lemma sval_le a b : valid_sig a -> valid_sig b ->
  ((sval a <= sval b)%Q <-> nominator a * denominator b <= nominator b * denominator a).
Proof.
  intros [_ Ha] [_ Hb]. apply pow2_pos in Ha, Hb. unfold sval, Qle. cbn [Qnum Qden].
  rewrite !Z2Pos.id by assumption. reflexivity.
Qed.
Lemma sval_nonneg a : valid_sig a -> (0 <= sval a)%Q.
Proof. intros [Ha _]. unfold sval, Qle. cbn. lia. Qed.

Lemma sig_eq_sval a b : valid_sig a -> valid_sig b -> (sig_eq a b = true <-> (sval a == sval b)%Q).
Proof. intros Ha Hb. rewrite sig_eq_cross, sval_eq by assumption. reflexivity. Qed.

Lemma sig_eq_refl a : sig_eq a a = true.
Proof. unfold sig_eq, to_common_denominator. rewrite Z.eqb_refl. apply Z.eqb_refl. Qed.

Lemma sig_eq_sym a b : valid_sig a -> valid_sig b -> sig_eq a b = sig_eq b a.
Proof.
  intros Ha Hb. apply eq_true_iff_eq. rewrite !sig_eq_sval by assumption.
  split; intros H; symmetry; exact H.
Qed.

Lemma sig_eq_trans a b c : valid_sig a -> valid_sig b -> valid_sig c ->
  sig_eq a b = true -> sig_eq b c = true -> sig_eq a c = true.
Proof.
  intros Ha Hb Hc. rewrite !sig_eq_sval by assumption. apply Qeq_trans.
Qed.

Lemma sig_add_val a b : valid_sig a -> valid_sig b ->
  exists s, sig_add a b = Ok s /\ valid_sig s /\
    denominator s = Z.max (denominator a) (denominator b) /\ (sval s == sval a + sval b)%Q.
Proof.
  intros Ha Hb. destruct (sig_add_spec a b Ha Hb) as (s & E & Hs & Hd & Hn).
  exists s. repeat (split; [assumption|]).
  pose proof (pow2_pos _ (proj2 Ha)). pose proof (pow2_pos _ (proj2 Hb)).
  pose proof (pow2_pos _ (proj2 Hs)).
  unfold sval, Qeq, Qplus. cbn [Qnum Qden]. rewrite Pos2Z.inj_mul, !Z2Pos.id by assumption.
  lia.
Qed.

Lemma sig_mul_val a b : valid_sig a -> valid_sig b ->
  exists s, sig_mul a b = Ok s /\ valid_sig s /\
    nominator s = nominator a * nominator b /\ denominator s = denominator a * denominator b /\
    (sval s == sval a * sval b)%Q.
Proof.
  intros [Ha1 Ha2] [Hb1 Hb2]. unfold sig_mul.
  pose proof (pow2_pos _ Ha2) as Pa. pose proof (pow2_pos _ Hb2) as Pb.
  rewrite sig_new_ok by (apply pow2_mul || nia; assumption).
  eexists; split; [reflexivity|]. split; [split; [cbn; nia|apply pow2_mul; assumption]|].
  split; [reflexivity|]. split; [reflexivity|].
  unfold sval, Qeq, Qmult. cbn [Qnum Qden nominator denominator].
  rewrite Pos2Z.inj_mul, !Z2Pos.id by nia. reflexivity.
Qed.

Lemma sig_abs_val a : valid_sig a -> sig_abs a = Ok a.
Proof.
  intros [Ha1 Ha2]. unfold sig_abs. rewrite Z.abs_eq by assumption.
  rewrite sig_new_ok by assumption. destruct a; reflexivity.
Qed.

(** ** to *)
Lemma sig_to_ok s d : valid_sig s -> pow2 d -> denominator s <= d ->
  exists s', sig_to s d = Ok s' /\ valid_sig s' /\ denominator s' = d /\ (sval s' == sval s)%Q.
Proof.
  intros Hs Hd Hle. unfold sig_to. pose proof (pow2_pos _ Hd) as Pd.
  pose proof (pow2_pos _ (proj2 Hs)) as Ps.
  pose proof (proj2 (land_pow2 d Pd) Hd) as Hl. rewrite Hl.
  replace (negb _) with false by lia.
  destruct (d =? denominator s) eqn:E.
  - rewrite sig_new_ok by apply Hs. eexists; split; [reflexivity|].
    apply Z.eqb_eq in E. cbn [denominator]. split; [exact Hs|]. split; [lia|].
    destruct s; reflexivity.
  - replace (d >? denominator s) with true by lia.
    destruct (pow2_divide (denominator s) d (proj2 Hs) Hd Hle) as [Hdiv Hq].
    pose proof (pow2_pos _ Hq) as Pq. destruct Hs as [Hs1 Hs2].
    rewrite sig_new_ok by (assumption || nia).
    eexists; split; [reflexivity|]. cbn [denominator nominator].
    split; [split; cbn; [nia|assumption]|]. split; [reflexivity|].
    unfold sval, Qeq. cbn [Qnum Qden nominator denominator].
    rewrite !Z2Pos.id by assumption. rewrite Hdiv at 2. ring.
Qed.

Lemma sig_to_err s d : valid_sig s -> ~ (pow2 d /\ denominator s <= d) ->
  sig_to s d = Err ValueError.
Proof.
  intros Hs H. unfold sig_to.
  destruct (d >? 0) eqn:E1; [|reflexivity].
  destruct (Z.land d (d - 1) =? 0) eqn:E2; [|reflexivity]. cbn [andb negb].
  assert (Hp : pow2 d) by (apply land_pow2; lia).
  assert (d < denominator s) by (destruct (Z_lt_le_dec d (denominator s)); [assumption|tauto]).
  replace (d =? denominator s) with false by lia.
  replace (d >? denominator s) with false by lia. reflexivity.
Qed.

(** ** normalized *)
Lemma land1_even n : Z.land n 1 = 0 <-> n mod 2 = 0.
Proof. change 1 with (Z.ones 1). rewrite Z.land_ones by lia. reflexivity. Qed.

Lemma norm_loop_spec k : forall fuel n d,
  0 <= n -> 0 <= k -> d = 2 ^ k -> k < Z.of_nat fuel ->
  exists j, 0 <= j <= k /\ norm_loop fuel n d = Ok (n / 2 ^ j, 2 ^ (k - j)) /\
    n = n / 2 ^ j * 2 ^ j /\ (k - j = 0 \/ (n / 2 ^ j) mod 2 = 1).
Proof.
  intros fuel. revert k. induction fuel as [|fuel IH]; intros k n d Hn Hk -> Hf; [lia|].
  destruct (Z.eq_dec k 0) as [->|Hk0].
  - cbn [norm_loop]. rewrite Z.pow_0_r. rewrite andb_false_r.
    exists 0. rewrite Z.pow_0_r, Z.div_1_r, Z.mul_1_r. repeat split; lia.
  - assert (Hgt : 2 ^ k > 1).
    { replace k with (1 + (k - 1)) by lia. rewrite Z.pow_add_r by lia.
      pose proof (Z.pow_pos_nonneg 2 (k - 1)). lia. }
    cbn [norm_loop]. replace (2 ^ k >? 1) with true by lia. rewrite andb_true_r.
    destruct (Z.land n 1 =? 0) eqn:E.
    + apply Z.eqb_eq, land1_even in E.
      rewrite !Z.shiftr_div_pow2 by lia. change (2 ^ 1) with 2.
      assert (Hn2 : n = 2 * (n / 2)) by (pose proof (Z.div_mod n 2); lia).
      assert (H2k : 2 ^ k / 2 = 2 ^ (k - 1)).
      { replace k with (1 + (k - 1)) at 1 by lia. rewrite Z.pow_add_r, Z.mul_comm by lia.
        apply Z.div_mul; lia. }
      rewrite H2k.
      destruct (IH (k - 1) (n / 2) (2 ^ (k - 1))) as (j & Hj & Hl & Hm & Hc);
        [apply Z.div_pos; lia|lia|reflexivity|lia|].
      exists (j + 1). rewrite Hl.
      assert (Hdiv : n / 2 / 2 ^ j = n / 2 ^ (j + 1)).
      { rewrite Z.pow_add_r, Z.mul_comm by lia. change (2 ^ 1) with 2.
        rewrite Z.div_div; [reflexivity|lia|apply Z.pow_pos_nonneg; lia]. }
      rewrite Hdiv in *. replace (k - 1 - j) with (k - (j + 1)) in * by lia.
      split; [lia|]. split; [reflexivity|]. split; [|lia].
      rewrite Z.pow_add_r by lia. change (2 ^ 1) with 2.
      pose proof (f_equal (fun x => 2 * x) Hm) as Hm2. cbv beta in Hm2. rewrite <- Hn2 in Hm2.
      rewrite Z.pow_add_r in Hm2 by lia. change (2 ^ 1) with 2 in Hm2. lia.
    + exists 0. rewrite Z.pow_0_r, Z.div_1_r, Z.mul_1_r, Z.sub_0_r.
      split; [lia|]. split; [reflexivity|]. split; [lia|]. right.
      apply Z.eqb_neq in E. rewrite land1_even in E. pose proof (Z.mod_pos_bound n 2). lia.
Qed.

Lemma norm_loop_fuel_pow2 k : 0 <= k -> k < Z.of_nat (S (Z.to_nat (Z.log2 (2 ^ k)))).
Proof. intros Hk. rewrite Z.log2_pow2 by assumption. lia. Qed.

Lemma sig_normalized_spec s : valid_sig s ->
  exists s', sig_normalized s = Ok s' /\ valid_sig s' /\ (sval s' == sval s)%Q /\
    (denominator s' = 1 \/ nominator s' mod 2 = 1) /\
    exists q, 0 < q /\ nominator s = nominator s' * q /\ denominator s = denominator s' * q.
Proof.
  intros [Hn (k & Hk & Hd)]. unfold sig_normalized.
  destruct (norm_loop_spec k (S (Z.to_nat (Z.log2 (denominator s)))) (nominator s) (denominator s))
    as (j & Hj & Hl & Hm & Hc); [assumption|assumption|assumption|
    rewrite Hd; apply norm_loop_fuel_pow2; assumption|].
  rewrite Hl. cbn [bind].
  assert (P2j : 0 < 2 ^ j) by (apply Z.pow_pos_nonneg; lia).
  assert (Hnn : 0 <= nominator s / 2 ^ j) by (apply Z.div_pos; lia).
  assert (Hpow : pow2 (2 ^ (k - j))) by (exists (k - j); split; [lia|reflexivity]).
  rewrite sig_new_ok by assumption.
  assert (Hden : denominator s = 2 ^ (k - j) * 2 ^ j).
  { rewrite <- Z.pow_add_r by lia. replace (k - j + j) with k by lia. exact Hd. }
  eexists; split; [reflexivity|]. cbn [nominator denominator].
  split; [split; assumption|]. split.
  - pose proof (pow2_pos _ Hpow). unfold sval, Qeq. cbn [Qnum Qden nominator denominator].
    rewrite !Z2Pos.id by nia. rewrite Hden. rewrite Hm at 2. ring.
  - split.
    + destruct Hc as [Hc|Hc]; [left|right; exact Hc]. rewrite Hc. reflexivity.
    + exists (2 ^ j). repeat split; assumption.
Qed.

Lemma pow2_odd_coprime n d : pow2 d -> d = 1 \/ n mod 2 = 1 -> Z.gcd n d = 1.
Proof.
  intros (k & Hk & ->) [E|E].
  - rewrite E. apply Z.gcd_1_r.
  - pattern k. apply natlike_ind; [apply Z.gcd_1_r| |exact Hk].
    intros x Hx IH. rewrite Z.pow_succ_r by assumption.
    apply Zgcd_1_rel_prime. apply rel_prime_mult.
    + apply rel_prime_sym. apply prime_rel_prime; [apply prime_2|]. intros [q Hq]. rewrite Hq in E.
      rewrite Z.mod_mul in E; lia.
    + apply Zgcd_1_rel_prime. assumption.
Qed.

Lemma normalized_unique a b : valid_sig a -> valid_sig b ->
  Z.gcd (nominator a) (denominator a) = 1 -> Z.gcd (nominator b) (denominator b) = 1 ->
  (sval a == sval b)%Q -> a = b.
Proof.
  intros Ha Hb Ga Gb E. apply sval_eq in E; [|assumption..].
  pose proof (pow2_pos _ (proj2 Ha)) as Pa. pose proof (pow2_pos _ (proj2 Hb)) as Pb.
  assert (D1 : (denominator a | denominator b)).
  { apply Gauss with (nominator a).
    - exists (nominator b). lia.
    - apply rel_prime_sym, Zgcd_1_rel_prime, Ga. }
  assert (D2 : (denominator b | denominator a)).
  { apply Gauss with (nominator b).
    - exists (nominator a). lia.
    - apply rel_prime_sym, Zgcd_1_rel_prime, Gb. }
  assert (D : denominator a = denominator b).
  { apply Z.divide_antisym_nonneg; lia || assumption. }
  destruct a as [na da], b as [nb db]. cbn in *. subst. f_equal. nia.
Qed.
