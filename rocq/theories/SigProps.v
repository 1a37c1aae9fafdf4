(** Proofs of the signature properties (C01-C07). *)
From Coq Require Import ZArith Znumtheory QArith Lia List Bool ZifyBool.
From Verif Require Import Py Signature SpecBase SigFacts.
Import ListNotations.
Open Scope Z_scope.

Lemma c01_construct : forall n d : Z,
  (0 <= n /\ pow2 d -> exists s, sig_new n d = Ok s /\ nominator s = n /\ denominator s = d) /\
  (~ (0 <= n /\ pow2 d) -> sig_new n d = Err ValueError).
Proof.
  intros n d. split.
  - intros [Hn Hd]. exists (mkSig n d). rewrite sig_new_ok by assumption. repeat split; reflexivity.
  - apply sig_new_err.
Qed.

(** Everything the API can build. *)
Inductive built : sig -> Prop :=
| built_new n d s : sig_new n d = Ok s -> built s
| built_to a d s : built a -> sig_to a d = Ok s -> built s
| built_normalized a s : built a -> sig_normalized a = Ok s -> built s
| built_add a b s : built a -> built b -> sig_add a b = Ok s -> built s
| built_mul a b s : built a -> built b -> sig_mul a b = Ok s -> built s
| built_abs a s : built a -> sig_abs a = Ok s -> built s.

Lemma c01_closed : forall s, built s -> valid_sig s.
Proof.
  intros s H. induction H.
  - eapply sig_new_valid; eassumption.
  - unfold sig_to in *. destruct (negb _); [discriminate|].
    destruct (d =? _); [eapply sig_new_valid; eassumption|].
    destruct (d >? _); [eapply sig_new_valid; eassumption|discriminate].
  - unfold sig_normalized in *. destruct (norm_loop _ _ _) as [[n d]|e]; [|discriminate].
    eapply sig_new_valid; eassumption.
  - unfold sig_add in *. destruct (to_common_denominator a b) as [[n1 n2] d].
    eapply sig_new_valid; eassumption.
  - eapply sig_new_valid; eassumption.
  - eapply sig_new_valid; eassumption.
Qed.

Lemma c02_equality : forall a b, valid_sig a -> valid_sig b ->
  (sig_eq a b = true <-> (sval a == sval b)%Q).
Proof. exact sig_eq_sval. Qed.

Lemma c02_equivalence :
  (forall a, valid_sig a -> sig_eq a a = true) /\
  (forall a b, valid_sig a -> valid_sig b -> sig_eq a b = true -> sig_eq b a = true) /\
  (forall a b c, valid_sig a -> valid_sig b -> valid_sig c ->
     sig_eq a b = true -> sig_eq b c = true -> sig_eq a c = true).
Proof.
  split; [intros a _; apply sig_eq_refl|]. split; [|exact sig_eq_trans].
  intros a b Ha Hb H. rewrite sig_eq_sym; assumption.
Qed.

(** The full statement of C03, which the code violates. *)
Definition ordering_is_rational : Prop :=
  forall a b, valid_sig a -> valid_sig b ->
    (sig_lt a b = true <-> (sval a < sval b)%Q) /\
    (sig_le a b = true <-> (sval a <= sval b)%Q) /\
    (sig_gt a b = true <-> (sval b < sval a)%Q) /\
    (sig_ge a b = true <-> (sval b <= sval a)%Q).

Lemma valid_pow n k : 0 <= n -> 0 <= k -> valid_sig (mkSig n (2 ^ k)).
Proof. intros Hn Hk. split; [exact Hn|]. exists k. split; [exact Hk|reflexivity]. Qed.

Lemma c03_refuted :
  (exists a b, valid_sig a /\ valid_sig b /\ sig_lt a b = true /\ sig_lt b a = true /\
     sig_le a b = true /\ sig_le b a = true /\ sig_eq a b = false) /\
  ~ ordering_is_rational.
Proof.
  pose proof (valid_pow 1 1 ltac:(lia) ltac:(lia)) as Ha.
  pose proof (valid_pow 1 2 ltac:(lia) ltac:(lia)) as Hb.
  split.
  - exists (mkSig 1 2), (mkSig 1 4). repeat split; try apply Ha; try apply Hb; reflexivity.
  - intros H. destruct (H _ _ Ha Hb) as [[H1 _] _]. specialize (H1 eq_refl). discriminate H1.
Qed.

Lemma c03_partial : forall a b, valid_sig a -> valid_sig b ->
  (denominator b <= denominator a ->
    (sig_lt a b = true <-> (sval a < sval b)%Q) /\
    (sig_le a b = true <-> (sval a <= sval b)%Q) /\
    (sig_gt a b = true <-> (sval b < sval a)%Q) /\
    (sig_ge a b = true <-> (sval b <= sval a)%Q)) /\
  (denominator a < denominator b ->
    (sig_lt a b = true <-> (sval b < sval a)%Q) /\
    (sig_le a b = true <-> (sval b <= sval a)%Q) /\
    (sig_gt a b = true <-> (sval a < sval b)%Q) /\
    (sig_ge a b = true <-> (sval a <= sval b)%Q)).
Proof.
  intros a b Ha Hb. rewrite !sval_lt, !sval_le by assumption.
  split; intros Hd.
  - split; [apply sig_lt_ge; assumption|]. split; [apply sig_le_ge; assumption|].
    split; [apply sig_gt_ge; assumption|apply sig_ge_ge; assumption].
  - split; [apply sig_lt_lt; assumption|]. split; [apply sig_le_lt; assumption|].
    split; [apply sig_gt_lt; assumption|apply sig_ge_lt; assumption].
Qed.

Lemma c04_add : forall a b, valid_sig a -> valid_sig b ->
  exists s, sig_add a b = Ok s /\ (sval s == sval a + sval b)%Q /\
    denominator s = Z.max (denominator a) (denominator b).
Proof.
  intros a b Ha Hb. destruct (sig_add_val a b Ha Hb) as (s & E & _ & Hd & Hv).
  exists s. repeat split; assumption.
Qed.

Lemma c04_laws : forall a b c, valid_sig a -> valid_sig b -> valid_sig c ->
  sig_add a b = sig_add b a /\
  (exists ab bc l r, sig_add a b = Ok ab /\ sig_add ab c = Ok l /\ sig_add b c = Ok bc /\
     sig_add a bc = Ok r /\ sig_eq l r = true) /\
  (exists s, sig_add a (mkSig 0 1) = Ok s /\ sig_eq s a = true).
Proof.
  intros a b c Ha Hb Hc.
  destruct (sig_add_val a b Ha Hb) as (ab & E1 & V1 & D1 & Q1).
  destruct (sig_add_val b a Hb Ha) as (ba & E1' & V1' & D1' & Q1').
  destruct (sig_add_val b c Hb Hc) as (bc & E2 & V2 & D2 & Q2).
  destruct (sig_add_val ab c V1 Hc) as (l & E3 & V3 & D3 & Q3).
  destruct (sig_add_val a bc Ha V2) as (r & E4 & V4 & D4 & Q4).
  assert (V0 : valid_sig (mkSig 0 1)) by (apply (valid_pow 0 0); lia).
  destruct (sig_add_val a _ Ha V0) as (z & E5 & V5 & D5 & Q5).
  split; [|split].
  - rewrite E1, E1'. f_equal.
    assert (Hd : denominator ab = denominator ba) by lia.
    assert (Hv : (sval ab == sval ba)%Q) by (rewrite Q1, Q1'; ring).
    apply sval_eq in Hv; [|assumption..]. pose proof (pow2_pos _ (proj2 V1)).
    destruct ab as [x1 x2], ba as [y1 y2]. cbn in Hd, Hv, H. rewrite <- Hd in Hv |- *. f_equal. nia.
  - exists ab, bc, l, r. repeat (split; [assumption|]). apply sig_eq_sval; [assumption..|].
    rewrite Q3, Q1, Q4, Q2. ring.
  - exists z. split; [assumption|]. apply sig_eq_sval; [assumption..|]. rewrite Q5.
    unfold sval at 2. cbn [nominator denominator]. change (0 # Z.to_pos 1)%Q with 0%Q. ring.
Qed.

Lemma c05_mul : forall a b, valid_sig a -> valid_sig b ->
  exists s, sig_mul a b = Ok s /\ (sval s == sval a * sval b)%Q.
Proof.
  intros a b Ha Hb. destruct (sig_mul_val a b Ha Hb) as (s & E & _ & _ & _ & Hv).
  exists s. split; assumption.
Qed.

Lemma c05_laws : forall a b c, valid_sig a -> valid_sig b -> valid_sig c ->
  sig_mul a b = sig_mul b a /\
  sig_mul a (mkSig 1 1) = Ok a /\
  (exists ab bc l, sig_mul a b = Ok ab /\ sig_mul ab c = Ok l /\ sig_mul b c = Ok bc /\
     sig_mul a bc = Ok l) /\
  (exists s ac bc l r, sig_add a b = Ok s /\ sig_mul s c = Ok l /\ sig_mul a c = Ok ac /\
     sig_mul b c = Ok bc /\ sig_add ac bc = Ok r /\ sig_eq l r = true) /\
  sig_abs a = Ok a.
Proof.
  intros a b c Ha Hb Hc.
  destruct (sig_mul_val a b Ha Hb) as (ab & E1 & V1 & N1 & D1 & Q1).
  destruct (sig_mul_val b c Hb Hc) as (bc & E2 & V2 & N2 & D2 & Q2).
  destruct (sig_mul_val ab c V1 Hc) as (l & E3 & V3 & N3 & D3 & Q3).
  destruct (sig_mul_val a bc Ha V2) as (r & E4 & V4 & N4 & D4 & Q4).
  destruct (sig_mul_val a c Ha Hc) as (ac & E5 & V5 & N5 & D5 & Q5).
  destruct (sig_add_val a b Ha Hb) as (s & E6 & V6 & D6 & Q6).
  destruct (sig_mul_val s c V6 Hc) as (sc & E7 & V7 & N7 & D7 & Q7).
  destruct (sig_add_val ac bc V5 V2) as (t & E8 & V8 & D8 & Q8).
  split; [|split; [|split; [|split]]].
  - unfold sig_mul. f_equal; ring.
  - unfold sig_mul. cbn [nominator denominator]. rewrite !Z.mul_1_r.
    rewrite sig_new_ok by apply Ha. destruct a; reflexivity.
  - exists ab, bc, l. repeat (split; [assumption|]). rewrite E4. f_equal.
    destruct l, r. cbn in *. f_equal; subst; rewrite ?N1, ?N2, ?D1, ?D2; ring.
  - exists s, ac, bc, sc, t. repeat (split; [assumption|]).
    apply sig_eq_sval; [assumption..|]. rewrite Q7, Q8, Q6, Q5, Q2. ring.
  - apply sig_abs_val; assumption.
Qed.

Lemma c06_to : forall s d, valid_sig s ->
  (pow2 d /\ denominator s <= d ->
     exists s', sig_to s d = Ok s' /\ denominator s' = d /\ (sval s' == sval s)%Q) /\
  (~ (pow2 d /\ denominator s <= d) -> sig_to s d = Err ValueError).
Proof.
  intros s d Hs. split.
  - intros [Hd Hle]. destruct (sig_to_ok s d Hs Hd Hle) as (s' & E & _ & D & Q).
    exists s'. repeat split; assumption.
  - apply sig_to_err; assumption.
Qed.

Lemma sig_normalized_gcd s : valid_sig s ->
  exists s', sig_normalized s = Ok s' /\ valid_sig s' /\ (sval s' == sval s)%Q /\
    Z.gcd (nominator s') (denominator s') = 1.
Proof.
  intros Hs. destruct (sig_normalized_spec s Hs) as (s' & E & V & Q & C & _).
  exists s'. repeat (split; [assumption|]). apply pow2_odd_coprime; [apply V|assumption].
Qed.

Lemma c07_normalized : forall s, valid_sig s ->
  exists s', sig_normalized s = Ok s' /\ (sval s' == sval s)%Q /\
    Z.gcd (nominator s') (denominator s') = 1 /\ sig_normalized s' = Ok s'.
Proof.
  intros s Hs. destruct (sig_normalized_gcd s Hs) as (s' & E & V & Q & G).
  exists s'. repeat (split; [assumption|]).
  destruct (sig_normalized_gcd s' V) as (s2 & E2 & V2 & Q2 & G2).
  rewrite E2. f_equal. apply normalized_unique; assumption.
Qed.

Lemma c07_canonical : forall a b a' b', valid_sig a -> valid_sig b ->
  sig_normalized a = Ok a' -> sig_normalized b = Ok b' ->
  (sig_eq a b = true <->
   nominator a' = nominator b' /\ denominator a' = denominator b').
Proof.
  intros a b a' b' Ha Hb Ea Eb.
  destruct (sig_normalized_gcd a Ha) as (x & E & V & Q & G). rewrite Ea in E. injection E as <-.
  destruct (sig_normalized_gcd b Hb) as (y & E & V' & Q' & G'). rewrite Eb in E. injection E as <-.
  rewrite sig_eq_sval by assumption. split.
  - intros H. assert (a' = b') as ->.
    { apply normalized_unique; [assumption..|]. rewrite Q, Q'. exact H. }
    split; reflexivity.
  - intros [H1 H2]. rewrite <- Q, <- Q'. unfold sval. rewrite H1, H2. reflexivity.
Qed.
