(** randomize_velocities (C50, C51). *)
From Coq Require Import ZArith QArith Qround Qreduction Qminmax List Bool Lia ZifyBool Sorted Permutation.
From Verif Require Import Py PyFloat PySort Signature Tone Note Track Processing
  SpecBase TrackSpec SigFacts SigProps FloatFacts NoteProps SortFacts TrackFacts TrackProps LoadFacts WriterProps.
Import ListNotations.
Open Scope Z_scope.

(** A variance: a non-negative number, infinity included. *)
Definition valid_variance (v : float) : Prop := v = S754_infinity false \/ (finite v /\ (0 <= fval v)%Q).

(** What remains of a value: NaN counts as too large. *)
Definition clamp (minimum maximum d : float) : Q :=
  Qmax (fval minimum)
       (match d with
        | S754_nan | S754_infinity false => fval maximum
        | S754_infinity true => fval minimum
        | _ => Qmin (fval maximum) (fval d)
        end).

(** A note without its velocity. *)
Definition but_velocity (e : entry) : Q * Z * Q :=
  (Qred (sval (fst e)), pitch (n_tone (snd e)), Qred (sval (n_duration (snd e)))).

Lemma variance_spec v : is_float v = true -> (fle f_zero v = true <-> valid_variance v).
Proof.
  intros Hv. unfold valid_variance. destruct v as [s|s| |s m e].
  - split; [intros _; right; split; [exact I|apply Qle_refl]|intros _; destruct s; reflexivity].
  - destruct s; split; intros H; try discriminate; try (left; reflexivity); try reflexivity. destruct H as [H|[[] _]]; discriminate.
  - split; [discriminate|]. intros [H|[[] _]]. discriminate.
  - rewrite (fle_val f_zero (S754_finite s m e)); [|reflexivity|exact Hv|exact I|exact I]. rewrite f_zero_val.
    split; [intros H; right; split; [exact I|exact H]|intros [H|[_ H]]; [discriminate|exact H]].
Qed.

Lemma fmax_finite a x : valid_velocity a -> is_float x = true -> finite x ->
  (fval (fmax a x) == Qmax (fval a) (fval x))%Q /\ is_float (fmax a x) = true /\ finite (fmax a x).
Proof.
  intros (A1 & A2 & _) B1 B2. unfold fmax. destruct (flt a x) eqn:E.
  - split; [|auto]. symmetry. apply Q.max_r. apply Qlt_le_weak. apply (flt_val a x); assumption.
  - split; [|auto]. symmetry. apply Q.max_l. apply Qnot_lt_le. intros H. apply (flt_val a x) in H; try assumption. congruence.
Qed.
Lemma fmin_finite a x : valid_velocity a -> is_float x = true -> finite x ->
  (fval (fmin a x) == Qmin (fval a) (fval x))%Q /\ is_float (fmin a x) = true /\ finite (fmin a x).
Proof.
  intros (A1 & A2 & _) B1 B2. unfold fmin. destruct (flt x a) eqn:E.
  - split; [|auto]. symmetry. apply Q.min_r. apply Qlt_le_weak. apply (flt_val x a); assumption.
  - split; [|auto]. symmetry. apply Q.min_l. apply Qnot_lt_le. intros H. apply (flt_val x a) in H; try assumption. congruence.
Qed.

Lemma clamp_bounds minimum maximum d : (fval minimum <= clamp minimum maximum d <= Qmax (fval minimum) (fval maximum))%Q.
Proof.
  unfold clamp. split; [apply Q.le_max_l|]. apply Q.max_lub; [apply Q.le_max_l|].
  destruct d as [s|[|]| |s m e]; [|apply Q.le_max_l|apply Q.le_max_r|apply Q.le_max_r|];
    (eapply Qle_trans; [apply Q.le_min_l|apply Q.le_max_r]).
Qed.

Lemma clamp_val minimum maximum d : valid_velocity minimum -> valid_velocity maximum -> is_float d = true ->
  let v := fmax minimum (fmin maximum d) in
  (fval v == clamp minimum maximum d)%Q /\ is_float v = true /\ finite v.
Proof.
  intros Hn Hx Hd v.
  assert (HF : forall x, is_float x = true -> finite x -> fmin maximum d = x ->
    (match d with S754_nan | S754_infinity false => fval maximum | S754_infinity true => fval minimum | _ => Qmin (fval maximum) (fval d) end == fval x)%Q ->
    (fval v == clamp minimum maximum d)%Q /\ is_float v = true /\ finite v).
  { intros x F1 F2 F3 F4. unfold v. rewrite F3. destruct (fmax_finite minimum x Hn F1 F2) as (G1 & G2 & G3). split; [|auto].
    rewrite G1. unfold clamp. rewrite F4. reflexivity. }
  destruct d as [s|[|]| |s m e].
  - destruct (fmin_finite maximum (S754_zero s) Hx Hd I) as (G1 & G2 & G3). apply (HF _ G2 G3 eq_refl). symmetry. exact G1.
  - assert (EV : v = minimum).
    { unfold v. destruct Hx as (_ & X & _). destruct Hn as (_ & N & _). destruct maximum as [?|?| |[] ? ?]; try destruct X;
        destruct minimum as [?|?| |[] ? ?]; try destruct N; reflexivity. }
    destruct Hn as (N1 & N2 & _). rewrite EV. split; [|auto]. unfold clamp. symmetry. apply Q.max_l, Qle_refl.
  - destruct Hx as (X1 & X2 & _). apply (HF maximum X1 X2); [|reflexivity]. destruct maximum as [?|?| |[] ? ?]; try destruct X2; reflexivity.
  - destruct Hx as (X1 & X2 & _). apply (HF maximum X1 X2); [|reflexivity]. destruct maximum as [?|?| |[] ? ?]; try destruct X2; reflexivity.
  - destruct (fmin_finite maximum (S754_finite s m e) Hx Hd I) as (G1 & G2 & G3). apply (HF _ G2 G3 eq_refl). symmetry. exact G1.
Qed.

Lemma clamp_valid minimum maximum d : valid_velocity minimum -> valid_velocity maximum -> is_float d = true ->
  valid_velocity (fmax minimum (fmin maximum d)).
Proof.
  intros Hn Hx Hd. destruct (clamp_val minimum maximum d Hn Hx Hd) as (V1 & V2 & V3). split; [exact V2|]. split; [exact V3|].
  rewrite V1. destruct (clamp_bounds minimum maximum d) as [B1 B2]. destruct Hn as (_ & _ & N1 & N2). destruct Hx as (_ & _ & X1 & X2).
  split; [eapply Qle_trans; [exact N1|exact B1]|]. eapply Qle_trans; [exact B2|]. apply Q.max_lub; assumption.
Qed.

(** The notes of the result, in the order of the iteration. *)
Fixpoint revoiced (minimum maximum : float) (draws : nat -> float) (i : nat) (items : list entry) : list entry :=
  match items with
  | [] => []
  | e :: r => (fst e, mkNote (n_tone (snd e)) (n_duration (snd e)) (fmax minimum (fmin maximum (draws i)))) ::
              revoiced minimum maximum draws (S i) r
  end.

Lemma revoiced_ok minimum maximum draws : valid_velocity minimum -> valid_velocity maximum -> (forall i, is_float (draws i) = true) ->
  forall items i, Forall entry_ok items -> Forall entry_ok (revoiced minimum maximum draws i items).
Proof.
  intros Hn Hx Hd. induction items as [|e r IH]; intros i H; [constructor|]. inversion H as [|? ? [H1 [H2 H3]] H4]; subst.
  constructor; [|apply IH, H4]. split; [exact H1|]. split; [exact H2|apply clamp_valid; auto].
Qed.

Lemma loop_adds minimum maximum draws : valid_velocity minimum -> valid_velocity maximum -> (forall i, is_float (draws i) = true) ->
  forall items i t l, Inv t l -> Forall entry_ok items ->
  randomize_loop minimum maximum draws i items t = Ok (adds t (revoiced minimum maximum draws i items)).
Proof.
  intros Hn Hx Hd. induction items as [|[p n] r IH]; intros i t l HI H; [reflexivity|]. inversion H as [|? ? [H1 [H2 H3]] H4]; subst.
  cbn [randomize_loop revoiced fst snd].
  set (e := (p, mkNote (n_tone n) (n_duration n) (fmax minimum (fmin maximum (draws i))))).
  assert (He : entry_ok e) by (split; [exact H1|split; [exact H2|apply clamp_valid; auto]]).
  unfold with_velocity. rewrite note_init_ok by (apply clamp_valid; auto). cbn [bind].
  destruct (add_note_ok t l e HI He) as (E & I' & S'). unfold e in E. cbn [fst snd] in E. cbn [track_add sig_of_arg add_at]. rewrite E.
  rewrite (IH _ _ _ I' H4). reflexivity.
Qed.

Lemma revoiced_but_velocity minimum maximum draws : forall items i, map but_velocity (revoiced minimum maximum draws i items) = map but_velocity items.
Proof. induction items as [|e r IH]; intros i; [reflexivity|]. cbn [revoiced map]. rewrite IH. reflexivity. Qed.

(** What iteration yields depends on the track only through what value_of can see. *)
Lemma but_velocity_value l l' : Permutation (map value_of l) (map value_of l') -> Permutation (map but_velocity l) (map but_velocity l').
Proof.
  intros H. assert (E : forall k : list entry, map but_velocity k = map fst (map value_of k)) by (intros k; rewrite map_map; reflexivity).
  rewrite !E. apply Permutation_map, H.
Qed.

(** ** C50 *)
(** The values of the notes of an iteration, with new velocities. *)
Fixpoint with_draws (minimum maximum : float) (draws : nat -> float) (i : nat) (items : list entry) : list (Q * Z * Q * Q) :=
  match items with
  | [] => []
  | e :: r => (but_velocity e, Qred (clamp minimum maximum (draws i))) :: with_draws minimum maximum draws (S i) r
  end.

Lemma revoiced_values minimum maximum draws : valid_velocity minimum -> valid_velocity maximum -> (forall i, is_float (draws i) = true) ->
  forall items i, map value_of (revoiced minimum maximum draws i items) = with_draws minimum maximum draws i items.
Proof.
  intros Hn Hx Hd. induction items as [|e r IH]; intros i; [reflexivity|]. cbn [revoiced map with_draws]. rewrite IH. f_equal.
  unfold value_of, but_velocity. cbn [fst snd n_tone n_duration n_velocity]. f_equal. apply Qred_complete.
  apply clamp_val; auto.
Qed.

Lemma with_draws_bounds minimum maximum draws : forall items i v, In v (with_draws minimum maximum draws i items) ->
  (fval minimum <= snd v <= Qmax (fval minimum) (fval maximum))%Q.
Proof.
  induction items as [|e r IH]; intros i v H; [destruct H|]. destruct H as [<-|H]; [|eapply IH, H]. cbn [snd]. rewrite Qred_correct.
  apply clamp_bounds.
Qed.

Lemma in_unit_spec v : is_float v = true -> (in_unit v = true <-> valid_velocity v).
Proof. apply unit_test. Qed.

Lemma randomize_ok sort t l minimum maximum mean variance draws : sort_contract sort -> Inv t l ->
  valid_velocity minimum -> valid_velocity maximum -> valid_velocity mean -> is_float variance = true -> valid_variance variance ->
  (forall i, is_float (draws i) = true) ->
  randomize_velocities sort t minimum maximum mean variance draws =
    (fst (track_iter sort t), Ok (adds (track_empty (t_signature t)) (revoiced minimum maximum draws 0 (yields sort t)))).
Proof.
  intros Hs HI Hn Hx Hm Hf Hv Hd. unfold randomize_velocities.
  rewrite (proj2 (in_unit_spec minimum (proj1 Hn)) Hn), (proj2 (in_unit_spec maximum (proj1 Hx)) Hx), (proj2 (in_unit_spec mean (proj1 Hm)) Hm).
  rewrite (proj2 (variance_spec variance Hf) Hv). cbn [negb].
  pose proof (yields_entry_ok sort t l Hs HI) as HY. unfold yields in HY. unfold yields. destruct (track_iter sort t) as [t' items] eqn:E. cbn [fst snd] in *.
  rewrite (loop_adds minimum maximum draws Hn Hx Hd items 0 _ [] (inv_empty _) HY). reflexivity.
Qed.

Lemma c50_result : forall sort, sort_contract sort -> forall s ops minimum maximum mean variance draws,
  Forall op_ok ops -> valid_velocity minimum -> valid_velocity maximum -> valid_velocity mean ->
  is_float variance = true -> valid_variance variance -> (forall i, is_float (draws i) = true) ->
  let t := run sort (track_empty s) ops in
  exists t' r, randomize_velocities sort t minimum maximum mean variance draws = (t', Ok r) /\
    t_signature r = s /\
    Permutation (map but_velocity (yields sort r)) (map but_velocity (log sort (track_empty s) ops)) /\
    Permutation (map value_of (yields sort r)) (with_draws minimum maximum draws 0 (yields sort t)) /\
    Forall (fun e : entry => valid_velocity (n_velocity (snd e)) /\
      (fval minimum <= fval (n_velocity (snd e)) <= Qmax (fval minimum) (fval maximum))%Q) (yields sort r).
Proof.
  intros sort Hs s ops minimum maximum mean variance draws Ho Hn Hx Hm Hf Hv Hd t.
  destruct (run_inv sort Hs s ops Ho) as [HI HS]. fold t in HI, HS.
  rewrite (randomize_ok sort t _ minimum maximum mean variance draws Hs HI Hn Hx Hm Hf Hv Hd).
  eexists _, _. split; [reflexivity|]. rewrite HS.
  pose proof (yields_entry_ok sort t _ Hs HI) as HY.
  pose proof (revoiced_ok minimum maximum draws Hn Hx Hd _ 0%nat HY) as HR.
  destruct (adds_empty s _ HR) as [HI' HS']. split; [exact HS'|].
  pose proof (inv_values sort _ _ Hs HI') as HP. rewrite (revoiced_values minimum maximum draws Hn Hx Hd) in HP.
  split; [|split; [exact HP|]].
  - eapply perm_trans; [apply but_velocity_value, (inv_values sort _ _ Hs HI')|]. rewrite revoiced_but_velocity.
    apply but_velocity_value, (inv_values sort _ _ Hs HI).
  - pose proof (yields_entry_ok sort _ _ Hs HI') as HY'. apply Forall_forall. intros e He. rewrite Forall_forall in HY'.
    split; [apply HY', He|]. assert (HIn : In (value_of e) (with_draws minimum maximum draws 0 (yields sort t))).
    { eapply Permutation_in; [exact HP|apply in_map, He]. }
    apply with_draws_bounds in HIn. unfold value_of in HIn. cbn [snd] in HIn. rewrite Qred_correct in HIn. exact HIn.
Qed.

Lemma c50_invalid : forall sort t minimum maximum mean variance draws,
  is_float minimum = true -> is_float maximum = true -> is_float mean = true -> is_float variance = true ->
  ~ (valid_velocity minimum /\ valid_velocity maximum /\ valid_velocity mean /\ valid_variance variance) ->
  randomize_velocities sort t minimum maximum mean variance draws = (t, Err ValueError).
Proof.
  intros sort t minimum maximum mean variance draws F1 F2 F3 F4 H. unfold randomize_velocities.
  destruct (in_unit minimum) eqn:E1; [|reflexivity]. destruct (in_unit maximum) eqn:E2; [|reflexivity].
  destruct (in_unit mean) eqn:E3; [|reflexivity]. destruct (fle f_zero variance) eqn:E4; [|reflexivity].
  exfalso. apply H. rewrite <- (in_unit_spec minimum F1), <- (in_unit_spec maximum F2), <- (in_unit_spec mean F3), <- (variance_spec variance F4). auto.
Qed.
