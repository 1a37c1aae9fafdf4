(** Pulses and ticks (C38, C39). *)
From Coq Require Import ZArith QArith Qround Qreduction List Bool Lia ZifyBool Lqa.
From Verif Require Import Py PyFloat PySort Signature Tone Note Track MidiWriter MidiReader
  SpecBase SigFacts SigProps.
Import ListNotations.
Open Scope Z_scope.

(** ** Writing *)
Definition writer_ok (w : writer) : Prop :=
  1 <= w_ppq w <= 32767 /\ w_ppw w = 4 * w_ppq w /\ 0 <= w_channel w <= 15.

Lemma writer_new_ok nd ppq c bpm ch w : writer_new nd ppq c bpm ch = Ok w ->
  writer_ok w /\ w_ppq w = ppq /\ w_bpm w = bpm /\ w_channel w = ch /\
  exists t, tone_of_arg nd c = Ok t /\ w_delta w = 60 - pitch t.
Proof.
  unfold writer_new. destruct ((1 <=? ppq) && (ppq <=? 32767)) eqn:E1; cbn [negb]; [|discriminate].
  destruct ((0 <=? ch) && (ch <=? 15)) eqn:E2; cbn [negb]; [|discriminate].
  destruct (tone_of_arg nd c) as [t|e]; cbn [bind]; [|discriminate].
  intros H. injection H as <-. unfold writer_ok. cbn [w_ppq w_ppw w_channel w_bpm w_delta]. split; [lia|]. repeat split. exists t. auto.
Qed.

(** The number of pulses of a rational time at [ppq] pulses per quarter. *)
Definition pulses (ppq : Z) (x : Q) : Z := Qfloor (inject_Z (4 * ppq) * x).

Lemma pulses_comp ppq x y : (x == y)%Q -> pulses ppq x = pulses ppq y.
Proof. intros H. unfold pulses. apply Qfloor_comp. rewrite H. reflexivity. Qed.

Lemma pulses_sig ppq s : valid_sig s -> pulses ppq (sval s) = 4 * ppq * nominator s / denominator s.
Proof.
  intros [_ Hd]. apply pow2_pos in Hd. unfold pulses, sval, Qfloor, Qmult, inject_Z. cbn [Qnum Qden].
  rewrite Pos.mul_1_l, Z2Pos.id by lia. reflexivity.
Qed.

Lemma signature_to_pulses_ok w s : writer_ok w -> valid_sig s ->
  signature_to_pulses w s = Ok (pulses (w_ppq w) (sval s)).
Proof.
  intros (_ & Hw & _) Hs. unfold signature_to_pulses.
  destruct (sig_normalized_spec s Hs) as (s' & E & Hs' & Hv & _). rewrite E. cbn [bind].
  rewrite Hw, <- pulses_sig by exact Hs'. f_equal. apply pulses_comp, Hv.
Qed.

Lemma pulses_mono ppq x y : 0 <= ppq -> (x <= y)%Q -> pulses ppq x <= pulses ppq y.
Proof.
  intros Hp H. unfold pulses. apply Qfloor_resp_le. rewrite !(Qmult_comm (inject_Z (4 * ppq))).
  apply Qmult_le_compat_r; [exact H|]. change 0%Q with (inject_Z 0). rewrite <- Zle_Qle. lia.
Qed.
Lemma pulses_nonneg ppq x : 0 <= ppq -> (0 <= x)%Q -> 0 <= pulses ppq x.
Proof.
  intros Hp Hx. change 0 with (Qfloor 0). replace (Qfloor 0) with (pulses ppq 0); [apply pulses_mono; assumption|].
  unfold pulses. apply Qfloor_comp. ring.
Qed.

Lemma Qfloor_add_le x y : Qfloor x + Qfloor y <= Qfloor (x + y).
Proof.
  assert (H : (inject_Z (Qfloor x + Qfloor y) <= x + y)%Q).
  { rewrite inject_Z_plus. apply Qplus_le_compat; apply Qfloor_le. }
  apply Qfloor_resp_le in H. rewrite Qfloor_Z in H. exact H.
Qed.

Lemma pulses_add ppq x y : pulses ppq x + pulses ppq y <= pulses ppq (x + y).
Proof.
  unfold pulses. eapply Z.le_trans; [apply Qfloor_add_le|]. apply Z.eq_le_incl, Qfloor_comp. ring.
Qed.

(** Exact on the grid. *)
Definition on_grid (ppq : Z) (x : Q) : Prop := exists k, (inject_Z (4 * ppq) * x == inject_Z k)%Q.
Lemma pulses_grid ppq x : on_grid ppq x -> (inject_Z (pulses ppq x) == inject_Z (4 * ppq) * x)%Q.
Proof. intros [k H]. unfold pulses. rewrite (Qfloor_comp _ _ H), Qfloor_Z. symmetry. exact H. Qed.

(** C38 *)
Lemma c38_pulses : forall nd ppq middle_c bpm channel w s,
  writer_new nd ppq middle_c bpm channel = Ok w -> valid_sig s ->
  signature_to_pulses w s = Ok (Qfloor (inject_Z (4 * ppq) * sval s)).
Proof.
  intros nd ppq c bpm ch w s Hw Hs. apply writer_new_ok in Hw. destruct Hw as (Hok & <- & _).
  apply signature_to_pulses_ok; assumption.
Qed.

Lemma c38_monotone : forall nd ppq middle_c bpm channel w s t a b,
  writer_new nd ppq middle_c bpm channel = Ok w -> valid_sig s -> valid_sig t ->
  signature_to_pulses w s = Ok a -> signature_to_pulses w t = Ok b ->
  0 <= a /\ ((sval s <= sval t)%Q -> a <= b) /\ ((sval s == sval t)%Q -> a = b).
Proof.
  intros nd ppq c bpm ch w s t a b Hw Hs Ht Ea Eb. apply writer_new_ok in Hw. destruct Hw as (Hok & _).
  rewrite signature_to_pulses_ok in Ea, Eb by assumption. injection Ea as <-. injection Eb as <-.
  destruct Hok as (Hp & _). split; [apply pulses_nonneg; [lia|apply sval_nonneg, Hs]|].
  split; intros H; [apply pulses_mono; [lia|exact H]|apply pulses_comp, H].
Qed.

Lemma c38_exact : forall nd ppq middle_c bpm channel w s,
  writer_new nd ppq middle_c bpm channel = Ok w -> valid_sig s ->
  (denominator s | 4 * ppq * nominator s) ->
  exists k, signature_to_pulses w s = Ok k /\ (inject_Z k / inject_Z (4 * ppq) == sval s)%Q.
Proof.
  intros nd ppq c bpm ch w s Hw Hs [k Hk]. apply writer_new_ok in Hw. destruct Hw as (Hok & Hq & _).
  rewrite signature_to_pulses_ok by assumption. eexists. split; [reflexivity|]. rewrite Hq.
  assert (Hpos : 1 <= ppq) by (destruct Hok; lia).
  rewrite pulses_grid.
  - field. change 0%Q with (inject_Z 0). rewrite inject_Z_injective. lia.
  - exists k. destruct Hs as [_ Hd]. apply pow2_pos in Hd. unfold sval, Qeq, Qmult, inject_Z. cbn [Qnum Qden].
    rewrite Pos.mul_1_l, Z2Pos.id, Z.mul_1_r by lia. lia.
Qed.

Lemma c38_disjoint : forall nd ppq middle_c bpm channel w p d q a b c,
  writer_new nd ppq middle_c bpm channel = Ok w -> valid_sig p -> valid_sig d -> valid_sig q ->
  (sval p + sval d <= sval q)%Q ->
  signature_to_pulses w p = Ok a -> signature_to_pulses w d = Ok b -> signature_to_pulses w q = Ok c ->
  a + b <= c.
Proof.
  intros nd ppq mc bpm ch w p d q a b c Hw Hp Hd Hq Hle Ea Eb Ec. apply writer_new_ok in Hw. destruct Hw as (Hok & _).
  rewrite signature_to_pulses_ok in Ea, Eb, Ec by assumption. injection Ea as <-. injection Eb as <-. injection Ec as <-.
  eapply Z.le_trans; [apply pulses_add|]. apply pulses_mono; [destruct Hok; lia|exact Hle].
Qed.

(** ** Reading *)
Definition tick_sig (t q : Z) : sig :=
  match time_to_signature t q with Ok s => s | Err _ => mkSig 0 1 end.

Lemma time_to_signature_ok t q : 0 <= t -> 0 < q ->
  time_to_signature t q = Ok (tick_sig t q) /\ valid_sig (tick_sig t q) /\
  (sval (tick_sig t q) == (t * 4096 / q) # 16384)%Q /\
  (denominator (tick_sig t q) = 1 \/ nominator (tick_sig t q) mod 2 = 1).
Proof.
  intros Ht Hq. assert (E : exists s, time_to_signature t q = Ok s /\ valid_sig s /\
    (sval s == (t * 4096 / q) # 16384)%Q /\ (denominator s = 1 \/ nominator s mod 2 = 1)).
  { unfold time_to_signature. replace (q >? 0) with true by lia. cbn [negb].
    assert (H0 : 0 <= t * 4096 / q) by (apply Z.div_pos; lia).
    assert (Hp : pow2 (4 * 4096)) by (exists 14; split; [lia|reflexivity]).
    rewrite sig_new_ok by assumption. cbn [bind].
    destruct (sig_normalized_spec (mkSig (t * 4096 / q) (4 * 4096)) (conj H0 Hp)) as (s' & E & Hs' & Hv & Hn & _).
    exists s'. repeat (split; [assumption|]). exact Hn. }
  destruct E as (s & E & H). unfold tick_sig. rewrite E. split; [reflexivity|exact H].
Qed.

Lemma time_to_signature_err t q : q <= 0 -> time_to_signature t q = Err AssertionError.
Proof. intros H. unfold time_to_signature. replace (q >? 0) with false by lia. reflexivity. Qed.

Lemma Qle_frac a b c d : 0 < b -> 0 < d -> ((a # Z.to_pos b) <= (c # Z.to_pos d))%Q <-> a * d <= c * b.
Proof. intros Hb Hd. unfold Qle. cbn. rewrite !Z2Pos.id by lia. reflexivity. Qed.

(** C39 *)
Lemma c39_value : forall t q, 0 <= t -> 0 < q ->
  exists s, time_to_signature t q = Ok s /\ valid_sig s /\
    Z.gcd (nominator s) (denominator s) = 1 /\
    (sval s <= t # Z.to_pos (4 * q))%Q /\ ((t # Z.to_pos (4 * q)) < sval s + (1 # 16384))%Q /\
    ((q | 4096 * t) -> (sval s == t # Z.to_pos (4 * q))%Q).
Proof.
  intros t q Ht Hq. destruct (time_to_signature_ok t q Ht Hq) as (E & Hs & Hv & Hn).
  exists (tick_sig t q). split; [exact E|]. split; [exact Hs|].
  split; [apply pow2_odd_coprime; [apply Hs|exact Hn]|].
  rewrite Hv. pose proof (Z.div_mod (t * 4096) q ltac:(lia)) as Hd. pose proof (Z.mod_pos_bound (t * 4096) q Hq) as Hm.
  set (f := t * 4096 / q) in *. set (r := t * 4096 mod q) in *.
  split; [|split].
  - unfold Qle. cbn [Qnum Qden]. rewrite Z2Pos.id by lia. change (Z.pos 16384) with 16384. nia.
  - unfold Qlt, Qplus. cbn [Qnum Qden]. rewrite Pos2Z.inj_mul. change (Z.pos 16384) with 16384.
    rewrite Z2Pos.id by lia. nia.
  - intros [k Hk]. assert (Hr : r = 0).
    { unfold r. rewrite (Z.mul_comm t), Hk. apply Z.mod_mul. lia. }
    unfold Qeq. cbn [Qnum Qden]. rewrite Z2Pos.id by lia. change (Z.pos 16384) with 16384. nia.
Qed.

Lemma c39_monotone : forall t u q s r, 0 <= t <= u -> 0 < q ->
  time_to_signature t q = Ok s -> time_to_signature u q = Ok r -> (sval s <= sval r)%Q.
Proof.
  intros t u q s r Ht Hq Es Er.
  destruct (time_to_signature_ok t q ltac:(lia) Hq) as (E1 & _ & V1 & _). rewrite E1 in Es. injection Es as <-.
  destruct (time_to_signature_ok u q ltac:(lia) Hq) as (E2 & _ & V2 & _). rewrite E2 in Er. injection Er as <-.
  rewrite V1, V2. unfold Qle. cbn [Qnum Qden]. assert (t * 4096 / q <= u * 4096 / q) by (apply Z.div_le_mono; lia). lia.
Qed.

Lemma tick_pulses t q : 0 <= t -> 0 < q -> pulses q (sval (tick_sig t q)) = q * (t * 4096 / q) / 4096.
Proof.
  intros Ht Hq. destruct (time_to_signature_ok t q Ht Hq) as (_ & _ & V & _).
  rewrite (pulses_comp q _ _ V). unfold pulses, Qfloor, Qmult, inject_Z. cbn [Qnum Qden].
  change (Z.pos (1 * 16384)) with (4 * 4096). rewrite <- Z.mul_assoc. apply Z.div_mul_cancel_l; lia.
Qed.

Lemma tick_pulses_near t q : 0 <= t -> 0 < q <= 4096 ->
  t - 1 <= pulses q (sval (tick_sig t q)) <= t.
Proof.
  intros Ht Hq. rewrite tick_pulses by lia.
  pose proof (Z.div_mod (t * 4096) q ltac:(lia)) as Hd. pose proof (Z.mod_pos_bound (t * 4096) q ltac:(lia)) as Hm.
  set (f := t * 4096 / q) in *. split.
  - apply Z.div_le_lower_bound; lia.
  - apply Z.div_le_upper_bound; lia.
Qed.

Lemma c39_rewritten : forall nd q middle_c bpm channel w t s,
  writer_new nd q middle_c bpm channel = Ok w -> q <= 4096 -> 0 <= t ->
  time_to_signature t q = Ok s ->
  (signature_to_pulses w s = Ok t \/ signature_to_pulses w s = Ok (t - 1)) /\
  ((q | 4096 * t) -> signature_to_pulses w s = Ok t).
Proof.
  intros nd q mc bpm ch w t s Hw Hq Ht Es. apply writer_new_ok in Hw. destruct Hw as (Hok & Hppq & _).
  assert (1 <= q) by (destruct Hok; lia).
  destruct (time_to_signature_ok t q Ht ltac:(lia)) as (E & Hs & V & _). rewrite E in Es. injection Es as <-.
  rewrite signature_to_pulses_ok by assumption. rewrite Hppq.
  pose proof (tick_pulses_near t q Ht ltac:(lia)). split.
  - destruct (Z.eq_dec (pulses q (sval (tick_sig t q))) t) as [->|Hn]; [left; reflexivity|].
    right. f_equal. lia.
  - intros [k Hk]. f_equal. rewrite tick_pulses by lia. rewrite (Z.mul_comm t), Hk, Z.div_mul by lia.
    rewrite (Z.mul_comm q), <- Hk, (Z.mul_comm 4096). apply Z.div_mul. lia.
Qed.
