(** Velocities as MIDI bytes (C37). *)
From Coq Require Import ZArith QArith Qround Qpower Qabs Bool List Lia ZifyBool Lqa.
From Verif Require Import Py PyFloat PySort Signature Tone Note Track MidiWriter MidiReader
  SpecBase FloatFacts RoundFacts.
Import ListNotations.
Open Scope Z_scope.

Lemma f_127_eq : f_127 = S754_finite false 8936830510563328 (-46).
Proof. vm_compute. reflexivity. Qed.
Lemma f_127_val : (inject_Z (Z.pos 8936830510563328) * 2 ^ (-46) == 127)%Q.
Proof. vm_compute. reflexivity. Qed.

Lemma valid_velocity_cases v : valid_velocity v ->
  (exists s, v = S754_zero s) \/
  (exists m e, v = S754_finite false m e /\ -1074 <= e <= 0 /\ Zdigits2 (Z.pos m) <= 53).
Proof.
  intros (Hf & Hfin & H0 & H1). destruct v as [s|s| |s m e]; try contradiction; [left; exists s; reflexivity|right].
  destruct s.
  - exfalso. cbn [fval] in H0. pose proof (pow2Q_pos e) as P.
    assert (H : (inject_Z (Z.neg m) * 2 ^ e < 0 * 2 ^ e)%Q).
    { apply Qmult_lt_compat_r; [exact P|]. unfold Qlt. cbn. lia. }
    rewrite Qmult_0_l in H. apply (Qlt_not_le _ _ H H0).
  - exists m, e. split; [reflexivity|]. apply bounded_spec in Hf. destruct Hf as (He & Hm & _).
    split; [|apply Zdigits2_le; lia]. split; [lia|].
    destruct (Z.le_gt_cases e 0) as [L|L]; [exact L|]. exfalso. cbn [fval] in H1.
    assert (H : (1 < inject_Z (Z.pos m) * 2 ^ e)%Q); [|apply (Qlt_not_le _ _ H H1)].
    rewrite pow2Q_Z by lia. rewrite <- inject_Z_mult. change 1%Q with (inject_Z 1). rewrite <- Zlt_Qlt.
    assert (2 ^ 1 <= 2 ^ e) by (apply Z.pow_le_mono_r; lia). lia.
Qed.

(** The product with 127.0, rounded. *)
Lemma product_spec v : valid_velocity v ->
  nonneg_float (fmul v f_127) /\
  ((fval v == 0)%Q /\ (fval (fmul v f_127) == 0)%Q \/
   (0 < fval v)%Q /\ exists d, ndigits (127 * fval v) d /\ (fval (fmul v f_127) == rounded (127 * fval v) (last_place d))%Q).
Proof.
  intros Hv. destruct (valid_velocity_cases v Hv) as [[s ->]|(m & e & -> & He & Hd)].
  - rewrite f_127_eq. split; [exact I|]. left. split; reflexivity.
  - rewrite f_127_eq. unfold fmul, SFmul. cbn [xorb].
    set (k := 8936830510563328%positive).
    assert (Hdk : Zdigits2 (Z.pos (m * k)) <= 106).
    { apply Zdigits2_le; [lia| |lia]. rewrite Pos2Z.inj_mul.
      pose proof (Zdigits2_bounds (Z.pos m) ltac:(lia)) as [[_ Hm] _].
      assert (2 ^ Zdigits2 (Z.pos m) <= 2 ^ 53) by (apply Z.pow_le_mono_r; lia).
      change (2 ^ 106) with (2 ^ 53 * 2 ^ 53). change (Z.pos k) with 8936830510563328.
      change (2 ^ 53) with 9007199254740992 in *. nia. }
    destruct (round_value (m * k) (e + -46) ltac:(lia) ltac:(lia)) as [R1 R2].
    split; [exact R1|]. right. cbn [fval]. split.
    + assert (H : (0 * 2 ^ e < inject_Z (Z.pos m) * 2 ^ e)%Q).
      { apply Qmult_lt_compat_r; [apply pow2Q_pos|]. unfold Qlt. cbn. lia. }
      rewrite Qmult_0_l in H. exact H.
    + assert (E : (inject_Z (Z.pos (m * k)) * 2 ^ (e + -46) == 127 * (inject_Z (Z.pos m) * 2 ^ e))%Q).
      { rewrite Pos2Z.inj_mul, inject_Z_mult, pow2Q_add. rewrite <- f_127_val. fold k. ring. }
      exists (Zdigits2 (Z.pos (m * k)) + (e + -46)). split.
      * pose proof (ndigits_me (Z.pos (m * k)) (e + -46) ltac:(lia)) as H. unfold ndigits in *. rewrite E in H. exact H.
      * rewrite R2. apply rounded_comp, E.
Qed.

Definition product (v : float) : Q := fval (fmul v f_127).

Lemma ndigits_127 : ndigits 127 7.
Proof. unfold ndigits. split; vm_compute; [discriminate|reflexivity]. Qed.
Lemma rounded_127 : (rounded 127 (last_place 7) == 127)%Q.
Proof.
  pose proof (rounded_exact 127 0 (last_place 7) ltac:(vm_compute; discriminate)) as H.
  assert (E : (inject_Z 127 * 2 ^ 0 == 127)%Q) by reflexivity.
  rewrite (rounded_comp _ _ _ E), E in H. exact H.
Qed.

Lemma nonneg_fval f : nonneg_float f -> (0 <= fval f)%Q.
Proof.
  destruct f as [s|s| |s m e]; cbn; intros H; try contradiction; [discriminate|]. subst s.
  assert (H : (0 * 2 ^ e <= inject_Z (Z.pos m) * 2 ^ e)%Q).
  { apply Qmult_le_compat_r; [discriminate|apply Qlt_le_weak, pow2Q_pos]. }
  rewrite Qmult_0_l in H. exact H.
Qed.

Lemma product_bounds v : valid_velocity v -> (0 <= product v <= 127)%Q.
Proof.
  intros Hv. destruct (product_spec v Hv) as [Hn [[_ H]|[Hp (d & Hd & E)]]]; unfold product.
  - rewrite H. split; discriminate.
  - split; [apply nonneg_fval, Hn|]. rewrite E.
    apply Qle_trans with (rounded 127 (last_place 7)); [|rewrite rounded_127; apply Qle_refl].
    apply rounded_mono; [exact Hd|apply ndigits_127|]. destruct Hv as (_ & _ & _ & H1). lra.
Qed.

Lemma product_mono v u : valid_velocity v -> valid_velocity u -> (fval v <= fval u)%Q -> (product v <= product u)%Q.
Proof.
  intros Hv Hu H. destruct (product_spec v Hv) as [Hn [[_ E]|[Hp (d & Hd & E)]]].
  - unfold product at 1. rewrite E. apply product_bounds, Hu.
  - destruct (product_spec u Hu) as [Hn' [[Hz _]|[Hp' (d' & Hd' & E')]]]; [rewrite Hz in H; exfalso; apply (Qlt_not_le _ _ Hp H)|].
    unfold product. rewrite E, E'. apply rounded_mono; [exact Hd|exact Hd'|lra].
Qed.

Lemma product_near v : valid_velocity v ->
  (127 * fval v - (1 # 2 ^ 47) <= product v <= 127 * fval v + (1 # 2 ^ 47))%Q.
Proof.
  intros Hv. destruct (product_spec v Hv) as [Hn [[Hz E]|[Hp (d & Hd & E)]]]; unfold product; rewrite E.
  - rewrite Hz. split; vm_compute; discriminate.
  - assert (Hd7 : d <= 7).
    { eapply ndigits_mono; [exact Hd|apply ndigits_127|]. destruct Hv as (_ & _ & _ & H1). lra. }
    assert (HP : (2 ^ (last_place d - 1) <= 1 # 2 ^ 47)%Q).
    { apply Qle_trans with (2 ^ (-47))%Q; [apply pow2Q_le; unfold last_place; lia|]. vm_compute. discriminate. }
    pose proof (rounded_near (127 * fval v) (last_place d)) as [H1 H2]. lra.
Qed.

Lemma velocity_byte_eq v : valid_velocity v -> velocity_byte v = Ok (Qfloor (product v)) /\ 0 <= Qfloor (product v) <= 127.
Proof.
  intros Hv. destruct (product_spec v Hv) as [Hn _]. destruct (product_bounds v Hv) as [H0 H1].
  assert (HB : 0 <= Qfloor (product v) <= 127).
  { split; [change 0 with (Qfloor 0); apply Qfloor_resp_le, H0|change 127 with (Qfloor 127); apply Qfloor_resp_le, H1]. }
  split; [|exact HB]. unfold velocity_byte. rewrite int_of_nonneg by exact Hn. cbn [bind]. fold (product v).
  unfold imin, imax. replace (Qfloor (product v) <? 127) with (negb (Qfloor (product v) =? 127)) by lia.
  destruct (Z.eqb_spec (Qfloor (product v)) 127) as [->|Hne]; cbn [negb]; [reflexivity|].
  destruct (Qfloor (product v) >? 0) eqn:E; [reflexivity|]. f_equal. lia.
Qed.

(** The 128 data bytes. *)
Definition data_bytes := map Z.of_nat (seq 0 128).
Lemma data_byte_in k : 0 <= k <= 127 -> In k data_bytes.
Proof. intros H. unfold data_bytes. replace k with (Z.of_nat (Z.to_nat k)) by lia. apply in_map, in_seq. lia. Qed.

Lemma byte_table : forallb (fun k =>
  match velocity_byte (velocity_of_byte k) with Ok j => j =? k | Err _ => false end &&
  Qle_bool (Qabs (fval (velocity_of_byte k) - (k # 127))) (1 # 2 ^ 54)) data_bytes = true.
Proof. vm_compute. reflexivity. Qed.

Lemma read_velocity_valid k : 0 <= k <= 255 -> valid_velocity (velocity_of_byte k).
Proof.
  intros H. assert (T : forallb (fun k => is_float (velocity_of_byte (Z.of_nat k)) &&
    (fle f_zero (velocity_of_byte (Z.of_nat k)) && fle (velocity_of_byte (Z.of_nat k)) f_one)) (seq 0 256) = true)
    by (vm_compute; reflexivity).
  rewrite forallb_forall in T. specialize (T (Z.to_nat k) ltac:(apply in_seq; lia)).
  rewrite Z2Nat.id in T by lia. apply andb_true_iff in T. destruct T as [T1 T2]. apply unit_test; assumption.
Qed.

Lemma byte_again k : 0 <= k <= 127 -> velocity_byte (velocity_of_byte k) = Ok k.
Proof.
  intros H. pose proof byte_table as T. rewrite forallb_forall in T. specialize (T k (data_byte_in k H)).
  apply andb_true_iff in T. destruct T as [T _]. destruct (velocity_byte (velocity_of_byte k)); [|discriminate].
  f_equal. lia.
Qed.
Lemma byte_value k : 0 <= k <= 127 -> (Qabs (fval (velocity_of_byte k) - (k # 127)) <= 1 # 2 ^ 54)%Q.
Proof.
  intros H. pose proof byte_table as T. rewrite forallb_forall in T. specialize (T k (data_byte_in k H)).
  apply andb_true_iff in T. destruct T as [_ T]. apply Qle_bool_iff, T.
Qed.

(** C37 *)
Lemma c37_byte : forall v, valid_velocity v ->
  exists k, velocity_byte v = Ok k /\ 0 <= k <= 127 /\
    ((fval v == 0)%Q -> k = 0) /\ ((fval v == 1)%Q -> k = 127).
Proof.
  intros v Hv. destruct (velocity_byte_eq v Hv) as [E HB]. exists (Qfloor (product v)). split; [exact E|]. split; [exact HB|].
  assert (Hz : valid_velocity f_zero) by (apply unit_test; reflexivity).
  assert (Ho : valid_velocity f_one) by (apply unit_test; reflexivity). split; intros H.
  - assert (H' : Qfloor (product v) <= Qfloor (product f_zero)).
    { apply Qfloor_resp_le, product_mono; [assumption..|]. rewrite H, f_zero_val. apply Qle_refl. }
    change (Qfloor (product f_zero)) with 0 in H'. lia.
  - assert (H' : Qfloor (product f_one) <= Qfloor (product v)).
    { apply Qfloor_resp_le, product_mono; [assumption..|]. rewrite H, f_one_val. apply Qle_refl. }
    assert (E1 : Qfloor (product f_one) = 127) by (vm_compute; reflexivity). lia.
Qed.

Lemma c37_monotone : forall v u a b, valid_velocity v -> valid_velocity u ->
  velocity_byte v = Ok a -> velocity_byte u = Ok b -> (fval v <= fval u)%Q -> a <= b.
Proof.
  intros v u a b Hv Hu Ea Eb H. destruct (velocity_byte_eq v Hv) as [E1 _]. destruct (velocity_byte_eq u Hu) as [E2 _].
  rewrite E1 in Ea. rewrite E2 in Eb. injection Ea as <-. injection Eb as <-.
  apply Qfloor_resp_le, product_mono; assumption.
Qed.

Lemma c37_read_back : forall v k, valid_velocity v -> velocity_byte v = Ok k ->
  valid_velocity (velocity_of_byte k) /\
  (fval (velocity_of_byte k) <= fval v + (1 # 2 ^ 52))%Q /\
  (fval v < fval (velocity_of_byte k) + (1 # 127) + (1 # 2 ^ 52))%Q.
Proof.
  intros v k Hv E. destruct (velocity_byte_eq v Hv) as [E1 HB]. rewrite E1 in E. injection E as <-.
  split; [apply read_velocity_valid; lia|].
  pose proof (byte_value _ HB) as H. apply Qabs_Qle_condition in H. destruct H as [H1 H2].
  pose proof (product_near v Hv) as [P1 P2].
  pose proof (Qfloor_le (product v)) as F1. pose proof (Qlt_floor (product v)) as F2.
  rewrite inject_Z_plus in F2. change (inject_Z 1) with 1%Q in F2.
  set (k := Qfloor (product v)) in *.
  assert (Ek : (k # 127 == inject_Z k / 127)%Q) by (rewrite Qmake_Qdiv; reflexivity).
  rewrite Ek in H1, H2. set (x := fval (velocity_of_byte k)) in *. set (y := fval v) in *.
  assert (D : (inject_Z k / 127 == (1 # 127) * inject_Z k)%Q) by field. rewrite D in H1, H2.
  change (1 # 2 ^ 54)%Q with (1 # 18014398509481984)%Q in *. change (1 # 2 ^ 47)%Q with (1 # 140737488355328)%Q in *.
  change (1 # 2 ^ 52)%Q with (1 # 4503599627370496)%Q. split; lra.
Qed.

Lemma c37_again : forall k, 0 <= k <= 127 ->
  valid_velocity (velocity_of_byte k) /\ velocity_byte (velocity_of_byte k) = Ok k.
Proof. intros k H. split; [apply read_velocity_valid; lia|apply byte_again, H]. Qed.
