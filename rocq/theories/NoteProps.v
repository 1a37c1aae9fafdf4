(** Proofs of the note properties (C14-C16). *)
From Coq Require Import ZArith QArith Lia List Bool ZifyBool.
From Verif Require Import Py PyFloat Signature Tone Note SpecBase SigFacts SigProps FloatFacts ToneFacts.
Import ListNotations.
Open Scope Z_scope.

Lemma note_init_ok t d v : valid_velocity v -> note_init t d v = Ok (mkNote t d v).
Proof.
  intros Hv. unfold note_init. apply unit_test in Hv as E; [|apply Hv]. rewrite E. reflexivity.
Qed.
Lemma note_init_err t d v : is_float v = true -> ~ valid_velocity v -> note_init t d v = Err ValueError.
Proof.
  intros Hf Hv. unfold note_init. destruct (fle f_zero v && fle v f_one) eqn:E; [|reflexivity].
  exfalso. apply Hv. apply unit_test; assumption.
Qed.

(** What the arguments of Note stand for. *)
Inductive tone_argument (nd : Z -> option Z) : tone_arg -> tone -> Prop :=
| ta_tone t : tone_argument nd (TA_tone t) t
| ta_int z : tone_argument nd (TA_int z) (tone_new z)
| ta_str s t : from_notation nd s = Ok t -> tone_argument nd (TA_str s) t.

Inductive duration_argument : sig_arg -> sig -> Prop :=
| da_sig s : duration_argument (SA_sig s) s
| da_pair n d : 0 <= n -> pow2 d -> duration_argument (SA_iter [EInt n; EInt d]) (mkSig n d).

Lemma from_notation_err nd s : digit_table nd ->
  (exists t, from_notation nd s = Ok t) \/ from_notation nd s = Err ValueError.
Proof.
  intros Hnd. destruct s as [|c r]; [right; reflexivity|].
  destruct (is_letter c) eqn:E.
  - destruct (from_notation_prefix nd Hnd c r E) as (s & rest & p & _ & _ & _ & H).
    left. eexists. exact H.
  - right. apply from_notation_no_letter. exact E.
Qed.

Lemma tone_of_arg_spec nd a : digit_table nd ->
  (exists t, tone_argument nd a t /\ tone_of_arg nd a = Ok t) \/
  ((forall t, ~ tone_argument nd a t) /\
   (tone_of_arg nd a = Err ValueError \/ tone_of_arg nd a = Err TypeError)).
Proof.
  intros Hnd. destruct a as [t|z|s|]; cbn [tone_of_arg].
  - left. exists t. split; [constructor|reflexivity].
  - left. eexists. split; [constructor|reflexivity].
  - destruct (from_notation_err nd s Hnd) as [[t E]|E].
    + left. exists t. split; [constructor; exact E|exact E].
    + right. split; [|left; exact E]. intros t H. inversion H; subst. congruence.
  - right. split; [intros t H; inversion H|right; reflexivity].
Qed.

Lemma sig_of_arg_spec a :
  (exists d, duration_argument a d /\ sig_of_arg a = Ok d) \/
  ((forall d, ~ duration_argument a d) /\
   (sig_of_arg a = Err ValueError \/ sig_of_arg a = Err TypeError)).
Proof.
  destruct a as [s|l|]; cbn [sig_of_arg].
  - left. exists s. split; [constructor|reflexivity].
  - assert (Hno : (forall n d, l <> [EInt n; EInt d]) ->
              (forall d, ~ duration_argument (SA_iter l) d)).
    { intros H d Hd. inversion Hd; subst. eapply H; reflexivity. }
    destruct l as [|[n|] [|[d|] [|x l]]]; cbn [sig_star];
      try (right; split; [apply Hno; intros; discriminate|]; auto; fail).
    + destruct (sig_new_cases n d) as [[s E]|E].
      * left. pose proof E as E'. apply sig_new_inv in E. destruct E as (-> & Hn & Hd).
        exists (mkSig n d). split; [constructor; assumption|exact E'].
      * right. split; [|left; exact E]. intros s Hs. inversion Hs; subst.
        rewrite sig_new_ok in E by assumption. discriminate.
    + right. split; [apply Hno; intros; discriminate|]. destruct (n >=? 0); auto.
  - right. split; [intros t H; inversion H|right; reflexivity].
Qed.

Lemma tone_argument_fun nd a t u : tone_argument nd a t -> tone_argument nd a u -> t = u.
Proof. intros H H'. inversion H; subst; inversion H'; subst; congruence. Qed.
Lemma duration_argument_fun a d e : duration_argument a d -> duration_argument a e -> d = e.
Proof. intros H H'. inversion H; subst; inversion H'; subst; congruence. Qed.

Lemma c14_note : forall nd ta da v, digit_table nd -> is_float v = true ->
  (forall t d, tone_argument nd ta t -> duration_argument da d -> valid_velocity v ->
     exists n, note_new nd ta da v = Ok n /\ n_tone n = t /\ n_duration n = d /\ n_velocity n = v) /\
  (~ (exists t d, tone_argument nd ta t /\ duration_argument da d /\ valid_velocity v) ->
     note_new nd ta da v = Err ValueError \/ note_new nd ta da v = Err TypeError).
Proof.
  intros nd ta da v Hnd Hv. unfold note_new.
  destruct (tone_of_arg_spec nd ta Hnd) as [(t & Ht & Et)|[Ht Et]].
  2:{ split; [intros t d H; exfalso; eapply Ht; exact H|].
      intros _. destruct Et as [-> | ->]; auto. }
  rewrite Et. cbn [bind].
  destruct (sig_of_arg_spec da) as [(d & Hd & Ed)|[Hd Ed]].
  2:{ split; [intros t' d _ H; exfalso; eapply Hd; exact H|].
      intros _. destruct Ed as [-> | ->]; auto. }
  rewrite Ed. cbn [bind]. split.
  - intros t' d' Ht' Hd' Hvel. rewrite (tone_argument_fun _ _ _ _ Ht' Ht).
    rewrite (duration_argument_fun _ _ _ Hd' Hd). exists (mkNote t d v).
    rewrite note_init_ok by assumption. repeat split; reflexivity.
  - intros H. left. apply note_init_err; [assumption|]. intros Hvel. apply H.
    exists t, d. split; [exact Ht|]. split; [exact Hd|exact Hvel].
Qed.

Lemma c15_transposed : forall n a b, valid_note n ->
  exists m, note_transposed n a = Ok m /\ pitch (n_tone m) = pitch (n_tone n) + a /\
    n_duration m = n_duration n /\ n_velocity m = n_velocity n /\
    note_transposed m b = note_transposed n (a + b).
Proof.
  intros n a b [Hd Hv]. unfold note_transposed. rewrite note_init_ok by assumption.
  eexists. split; [reflexivity|]. cbn [n_tone n_duration n_velocity].
  repeat (split; [reflexivity|]).
  unfold tone_transposed, tone_new. cbn [pitch]. rewrite Z.add_assoc. reflexivity.
Qed.

Lemma c15_with_duration : forall n da, valid_note n ->
  (forall d, duration_argument da d ->
     exists m, with_duration n da = Ok m /\ n_tone m = n_tone n /\ n_duration m = d /\
       n_velocity m = n_velocity n) /\
  ((forall d, ~ duration_argument da d) ->
     with_duration n da = Err ValueError \/ with_duration n da = Err TypeError).
Proof.
  intros n da [Hd Hv]. unfold with_duration. split.
  - intros d H. destruct (sig_of_arg_spec da) as [(d' & H' & E)|[H' _]]; [|exfalso; eapply H'; exact H].
    rewrite (duration_argument_fun _ _ _ H H'). rewrite E. cbn [bind].
    rewrite note_init_ok by assumption. eexists. repeat (split; [reflexivity|]). reflexivity.
  - intros H. destruct (sig_of_arg_spec da) as [(d' & H' & E)|[_ E]]; [exfalso; eapply H; exact H'|].
    destruct E as [-> | ->]; auto.
Qed.

Lemma c15_with_velocity : forall n v, valid_note n -> is_float v = true ->
  (valid_velocity v ->
     exists m, with_velocity n v = Ok m /\ n_tone m = n_tone n /\ n_duration m = n_duration n /\
       n_velocity m = v) /\
  (~ valid_velocity v -> with_velocity n v = Err ValueError).
Proof.
  intros n v Hn Hf. unfold with_velocity. split.
  - intros H. rewrite note_init_ok by assumption. eexists. repeat (split; [reflexivity|]). reflexivity.
  - intros H. apply note_init_err; assumption.
Qed.

(** ** Comparison *)
Lemma valid_velocity_feq v w : valid_velocity v -> valid_velocity w ->
  (feq v w = true <-> (fval v == fval w)%Q).
Proof. intros (Hv & Fv & _) (Hw & Fw & _). apply feq_val; assumption. Qed.
Lemma valid_velocity_flt v w : valid_velocity v -> valid_velocity w ->
  (flt v w = true <-> (fval v < fval w)%Q).
Proof. intros (Hv & Fv & _) (Hw & Fw & _). apply flt_val; assumption. Qed.
Lemma valid_velocity_fle v w : valid_velocity v -> valid_velocity w ->
  (fle v w = true <-> (fval v <= fval w)%Q).
Proof. intros (Hv & Fv & _) (Hw & Fw & _). apply fle_val; assumption. Qed.

Lemma note_eq_same a b : valid_note a -> valid_note b -> (note_eq a b = true <-> note_same a b).
Proof.
  intros [Da Va] [Db Vb]. unfold note_eq, note_same, tone_eq.
  rewrite !andb_true_iff, Z.eqb_eq, sig_eq_sval, valid_velocity_feq by assumption. tauto.
Qed.

Lemma c16_equality : forall a b c, valid_note a -> valid_note b -> valid_note c ->
  (note_eq a b = true <-> note_same a b) /\
  note_eq a a = true /\
  (note_eq a b = true -> note_eq b a = true) /\
  (note_eq a b = true -> note_eq b c = true -> note_eq a c = true).
Proof.
  intros a b c Ha Hb Hc. rewrite !note_eq_same by assumption. unfold note_same.
  split; [reflexivity|]. split; [repeat split; reflexivity|]. split.
  - intros (H1 & H2 & H3). repeat split; symmetry; assumption.
  - intros (H1 & H2 & H3) (H4 & H5 & H6). split; [congruence|]. split.
    + rewrite H2. exact H5.
    + rewrite H3. exact H6.
Qed.

(** The full statement of C16's second half, which the code violates. *)
Definition notes_ordered : Prop :=
  forall a b, valid_note a -> valid_note b ->
    (note_lt a b = true <-> note_before a b) /\
    (note_le a b = true <-> note_before a b \/ note_same a b) /\
    (note_gt a b = true <-> note_before b a) /\
    (note_ge a b = true <-> note_before b a \/ note_same a b).

Lemma c16_refuted :
  (exists a b, valid_note a /\ valid_note b /\ note_lt a b = true /\ note_lt b a = true /\
     note_eq a b = false) /\
  ~ notes_ordered.
Proof.
  set (a := mkNote (mkTone 0) (mkSig 1 2) f_three_quarters).
  set (b := mkNote (mkTone 0) (mkSig 1 4) f_three_quarters).
  assert (Hv : valid_velocity f_three_quarters).
  { apply unit_test; reflexivity. }
  assert (Ha : valid_note a) by (split; [apply (valid_pow 1 1); lia|exact Hv]).
  assert (Hb : valid_note b) by (split; [apply (valid_pow 1 2); lia|exact Hv]).
  split.
  - exists a, b. repeat (split; [assumption || reflexivity|]). reflexivity.
  - intros H. destruct (H a b Ha Hb) as [[H1 _] _]. specialize (H1 eq_refl).
    destruct H1 as [H1|[_ [H1|[H1 _]]]]; vm_compute in H1; discriminate.
Qed.

(** Lexicographic order with the order of durations reversed. *)
Definition note_before_rev (a b : note) : Prop :=
  pitch (n_tone a) < pitch (n_tone b) \/
  (pitch (n_tone a) = pitch (n_tone b) /\
   ((sval (n_duration b) < sval (n_duration a))%Q \/
    ((sval (n_duration a) == sval (n_duration b))%Q /\
     (fval (n_velocity a) < fval (n_velocity b))%Q))).

Lemma Qlt_neq x y : (x < y)%Q -> ~ (x == y)%Q.
Proof. intros H E. rewrite E in H. exact (Qlt_irrefl _ H). Qed.
Lemma Qneq_le_lt x y : ~ (x == y)%Q -> (x <= y)%Q -> (x < y)%Q.
Proof. intros H L. apply Qle_lt_or_eq in L. destruct L; [assumption|contradiction]. Qed.

Section Cmp.
Variables a b : note.
Hypothesis Ha : valid_note a.
Hypothesis Hb : valid_note b.
Let da := n_duration a.
Let db := n_duration b.

(** The triplet comparison, given what the operator on signatures decides. *)
Lemma triplet_spec ft fs fv eqv (Rt : Prop) (Rs : Prop) (Rv : Prop) :
  (pitch (n_tone a) <> pitch (n_tone b) -> (ft (n_tone a) (n_tone b) = true <-> Rt)) ->
  (~ (sval da == sval db)%Q -> (fs da db = true <-> Rs)) ->
  (~ (fval (n_velocity a) == fval (n_velocity b))%Q -> (fv (n_velocity a) (n_velocity b) = true <-> Rv)) ->
  (triplet_cmp ft fs fv eqv a b = true <->
   (pitch (n_tone a) <> pitch (n_tone b) /\ Rt) \/
   (pitch (n_tone a) = pitch (n_tone b) /\
    ((~ (sval da == sval db)%Q /\ Rs) \/
     ((sval da == sval db)%Q /\
      ((~ (fval (n_velocity a) == fval (n_velocity b))%Q /\ Rv) \/
       ((fval (n_velocity a) == fval (n_velocity b))%Q /\ eqv = true)))))).
Proof.
  intros Ht Hs Hv. unfold triplet_cmp, tone_eq.
  destruct (pitch (n_tone a) =? pitch (n_tone b)) eqn:E1; cbn [negb].
  2:{ apply Z.eqb_neq in E1. rewrite (Ht E1). clear - E1. tauto. }
  apply Z.eqb_eq in E1. fold da db.
  destruct (sig_eq da db) eqn:E2; cbn [negb].
  - apply sig_eq_sval in E2; [|apply Ha|apply Hb].
    destruct (feq (n_velocity a) (n_velocity b)) eqn:E3; cbn [negb].
    + apply valid_velocity_feq in E3; [|apply Ha|apply Hb]. clear - E1 E2 E3. tauto.
    + assert (E3' : ~ (fval (n_velocity a) == fval (n_velocity b))%Q).
      { intros H. apply valid_velocity_feq in H; [|apply Ha|apply Hb]. congruence. }
      rewrite (Hv E3'). clear - E1 E2 E3'. tauto.
  - assert (E2' : ~ (sval da == sval db)%Q).
    { intros H. apply sig_eq_sval in H; [|apply Ha|apply Hb]. congruence. }
    rewrite (Hs E2'). clear - E1 E2'. tauto.
Qed.
End Cmp.

Lemma Q_three p q :
  ((p < q)%Q /\ ~ (p == q)%Q /\ ~ (q == p)%Q /\ (p <= q)%Q /\ ~ (q < p)%Q /\ ~ (q <= p)%Q) \/
  ((p == q)%Q /\ (q == p)%Q /\ ~ (p < q)%Q /\ ~ (q < p)%Q /\ (p <= q)%Q /\ (q <= p)%Q) \/
  ((q < p)%Q /\ ~ (p == q)%Q /\ ~ (q == p)%Q /\ (q <= p)%Q /\ ~ (p < q)%Q /\ ~ (p <= q)%Q).
Proof.
  destruct (Q_dec p q) as [[H|H]|H].
  - left. split; [exact H|]. split; [apply Qlt_neq; exact H|].
    split; [intros E; symmetry in E; exact (Qlt_neq _ _ H E)|]. split; [apply Qlt_le_weak; exact H|].
    split; [apply Qle_not_lt, Qlt_le_weak; exact H|apply Qlt_not_le; exact H].
  - right; right. split; [exact H|]. split; [intros E; symmetry in E; exact (Qlt_neq _ _ H E)|].
    split; [apply Qlt_neq; exact H|]. split; [apply Qlt_le_weak; exact H|].
    split; [apply Qle_not_lt, Qlt_le_weak; exact H|apply Qlt_not_le; exact H].
  - right; left. split; [exact H|]. split; [symmetry; exact H|].
    split; [rewrite H; apply Qlt_irrefl|]. split; [rewrite H; apply Qlt_irrefl|].
    split; rewrite H; apply Qle_refl.
Qed.

Lemma Z_three p q :
  (p < q /\ p <> q /\ q <> p /\ ~ q < p) \/ (p = q /\ q = p /\ ~ p < q /\ ~ q < p) \/
  (q < p /\ p <> q /\ q <> p /\ ~ p < q).
Proof. lia. Qed.

Section Cmp2.
Variables a b : note.
Hypothesis Ha : valid_note a.
Hypothesis Hb : valid_note b.
Let pa := pitch (n_tone a).
Let pb := pitch (n_tone b).
Let x := sval (n_duration a).
Let y := sval (n_duration b).
Let u := fval (n_velocity a).
Let v := fval (n_velocity b).

Ltac finish := unfold note_before, note_before_rev, note_same; fold pa pb x y u v;
  destruct (Z_three pa pb) as [?|[?|?]]; destruct (Q_three x y) as [?|[?|?]];
  destruct (Q_three u v) as [?|[?|?]]; tauto.

Lemma lt_gen (Rs : Prop) : (sig_lt (n_duration a) (n_duration b) = true <-> Rs) ->
  (note_lt a b = true <->
   (pa < pb) \/ (pa = pb /\ ((~ (x == y)%Q /\ Rs) \/ ((x == y)%Q /\ (u < v)%Q)))).
Proof.
  intros Hs. unfold note_lt.
  rewrite (triplet_spec a b Ha Hb _ _ _ _ (pa < pb) Rs (u < v)%Q);
    [|intros _; apply Z.ltb_lt|intros _; exact Hs|intros _; apply valid_velocity_flt; [apply Ha|apply Hb]].
  fold pa pb x y u v.
  destruct (Z_three pa pb) as [?|[?|?]]; destruct (Q_three u v) as [?|[?|?]]; intuition discriminate.
Qed.
Lemma le_gen (Rs : Prop) : (sig_le (n_duration a) (n_duration b) = true <-> Rs) ->
  (note_le a b = true <->
   (pa < pb) \/ (pa = pb /\ ((~ (x == y)%Q /\ Rs) \/ ((x == y)%Q /\ (u <= v)%Q)))).
Proof.
  intros Hs. unfold note_le.
  rewrite (triplet_spec a b Ha Hb _ _ _ _ (pa <= pb) Rs (u <= v)%Q);
    [|intros _; apply Z.leb_le|intros _; exact Hs|intros _; apply valid_velocity_fle; [apply Ha|apply Hb]].
  fold pa pb x y u v.
  assert (Hle : pa <> pb -> (pa <= pb <-> pa < pb)) by lia.
  destruct (Z_three pa pb) as [?|[?|?]]; destruct (Q_three u v) as [?|[?|?]]; intuition discriminate.
Qed.
Lemma gt_gen (Rs : Prop) : (sig_gt (n_duration a) (n_duration b) = true <-> Rs) ->
  (note_gt a b = true <->
   (pb < pa) \/ (pa = pb /\ ((~ (x == y)%Q /\ Rs) \/ ((x == y)%Q /\ (v < u)%Q)))).
Proof.
  intros Hs. unfold note_gt.
  rewrite (triplet_spec a b Ha Hb _ _ _ _ (pb < pa) Rs (v < u)%Q);
    [|intros _; unfold tone_gt; rewrite Z.gtb_lt; reflexivity|intros _; exact Hs
     |intros _; apply valid_velocity_flt; [apply Hb|apply Ha]].
  fold pa pb x y u v.
  destruct (Z_three pa pb) as [?|[?|?]]; destruct (Q_three u v) as [?|[?|?]]; intuition discriminate.
Qed.
Lemma ge_gen (Rs : Prop) : (sig_ge (n_duration a) (n_duration b) = true <-> Rs) ->
  (note_ge a b = true <->
   (pb < pa) \/ (pa = pb /\ ((~ (x == y)%Q /\ Rs) \/ ((x == y)%Q /\ (v <= u)%Q)))).
Proof.
  intros Hs. unfold note_ge.
  rewrite (triplet_spec a b Ha Hb _ _ _ _ (pb <= pa) Rs (v <= u)%Q);
    [|intros _; unfold tone_ge; rewrite Z.geb_le; reflexivity|intros _; exact Hs
     |intros _; apply valid_velocity_fle; [apply Hb|apply Ha]].
  fold pa pb x y u v.
  assert (Hle : pa <> pb -> (pb <= pa <-> pb < pa)) by lia.
  destruct (Z_three pa pb) as [?|[?|?]]; destruct (Q_three u v) as [?|[?|?]]; intuition discriminate.
Qed.

Lemma note_cmp_ge : denominator (n_duration b) <= denominator (n_duration a) ->
    (note_lt a b = true <-> note_before a b) /\
    (note_le a b = true <-> note_before a b \/ note_same a b) /\
    (note_gt a b = true <-> note_before b a) /\
    (note_ge a b = true <-> note_before b a \/ note_same a b).
Proof.
  intros Hd. destruct (c03_partial _ _ (proj1 Ha) (proj1 Hb)) as [S1 _].
  destruct (S1 Hd) as (L1 & L2 & L3 & L4).
  rewrite (lt_gen _ L1), (le_gen _ L2), (gt_gen _ L3), (ge_gen _ L4).
  clear L1 L2 L3 L4 S1 Hd Ha Hb. split; [|split; [|split]]; finish.
Qed.
Lemma note_cmp_lt : denominator (n_duration a) < denominator (n_duration b) ->
    (note_lt a b = true <-> note_before_rev a b) /\
    (note_le a b = true <-> note_before_rev a b \/ note_same a b) /\
    (note_gt a b = true <-> note_before_rev b a) /\
    (note_ge a b = true <-> note_before_rev b a \/ note_same a b).
Proof.
  intros Hd. destruct (c03_partial _ _ (proj1 Ha) (proj1 Hb)) as [_ S1].
  destruct (S1 Hd) as (L1 & L2 & L3 & L4).
  rewrite (lt_gen _ L1), (le_gen _ L2), (gt_gen _ L3), (ge_gen _ L4).
  clear L1 L2 L3 L4 S1 Hd Ha Hb. split; [|split; [|split]]; finish.
Qed.
End Cmp2.

Lemma c16_partial : forall a b, valid_note a -> valid_note b ->
  (denominator (n_duration b) <= denominator (n_duration a) ->
    (note_lt a b = true <-> note_before a b) /\
    (note_le a b = true <-> note_before a b \/ note_same a b) /\
    (note_gt a b = true <-> note_before b a) /\
    (note_ge a b = true <-> note_before b a \/ note_same a b)) /\
  (denominator (n_duration a) < denominator (n_duration b) ->
    (note_lt a b = true <-> note_before_rev a b) /\
    (note_le a b = true <-> note_before_rev a b \/ note_same a b) /\
    (note_gt a b = true <-> note_before_rev b a) /\
    (note_ge a b = true <-> note_before_rev b a \/ note_same a b)).
Proof.
  intros a b Ha Hb. split; [apply note_cmp_ge; assumption|apply note_cmp_lt; assumption].
Qed.

(** The specification is a strict total order up to [note_same]. *)
Lemma c16_spec_order : forall a b c,
  ~ note_before a a /\
  (note_before a b -> note_before b c -> note_before a c) /\
  (note_before a b \/ note_same a b \/ note_before b a) /\
  (note_before a b -> ~ note_same a b /\ ~ note_before b a).
Proof.
  intros a b c. unfold note_before, note_same.
  set (pa := pitch (n_tone a)). set (pb := pitch (n_tone b)). set (pc := pitch (n_tone c)).
  set (x := sval (n_duration a)). set (y := sval (n_duration b)). set (z := sval (n_duration c)).
  set (u := fval (n_velocity a)). set (v := fval (n_velocity b)). set (w := fval (n_velocity c)).
  split; [|split; [|split]].
  - intros [H|[_ [H|[_ H]]]]; [lia|exact (Qlt_irrefl _ H)|exact (Qlt_irrefl _ H)].
  - intros [H|[E H]] [H'|[E' H']]; try (left; lia). right. split; [lia|].
    destruct H as [H|[Ex H]], H' as [H'|[Ey H']].
    + left. eapply Qlt_trans; eassumption.
    + left. rewrite <- Ey. exact H.
    + left. rewrite Ex. exact H'.
    + right. split; [rewrite Ex; exact Ey|eapply Qlt_trans; eassumption].
  - destruct (Z_three pa pb) as [?|[?|?]]; destruct (Q_three x y) as [?|[?|?]];
      destruct (Q_three u v) as [?|[?|?]]; intuition auto.
  - destruct (Z_three pa pb) as [?|[?|?]]; destruct (Q_three x y) as [?|[?|?]];
      destruct (Q_three u v) as [?|[?|?]]; intuition auto.
Qed.
