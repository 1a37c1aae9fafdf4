(** Proofs of the track properties (C17-C26). *)
From Coq Require Import ZArith QArith Qreduction List Bool Permutation Sorted Lia ZifyBool.
From Verif Require Import Py PyFloat PySort Timsort Signature Tone Note Track MidiWriter Processing
  SpecBase TrackSpec SigFacts SigProps FloatFacts NoteProps SortFacts TimsortFacts TrackFacts.
Import ListNotations.
Open Scope Z_scope.

(** ** C17, C18, C20 *)
Lemma c17_contents : forall sort, sort_contract sort -> forall s ops, Forall op_ok ops ->
  let t := run sort (track_empty s) ops in
  Permutation (map placed (yields sort t)) (map placed (log sort (track_empty s) ops)) /\
  Forall (fun e => valid_sig (fst e)) (yields sort t).
Proof.
  intros sort Hs s ops Hops t. destruct (run_inv sort Hs s ops Hops) as [HI _]. fold t in HI.
  split.
  - rewrite <- (map_rescale_placed _ (inv_entries _ _ HI)). apply Permutation_map.
    apply yields_perm; assumption.
  - eapply Forall_impl; [|apply (yields_ok sort Hs t _ HI)]. intros e He. apply He.
Qed.

(** The constructor with a content is the empty track followed by adds. *)
Definition content_op (c : what * option sig_arg) : op := OAdd (fst c) (snd c).
Definition content_ok (c : what * option sig_arg) : Prop :=
  op_ok (content_op c) /\ forall a, snd c = Some a -> position_of a <> None.

Lemma add_content_inv sort : forall content t l, Inv t l -> Forall content_ok content ->
  add_content t content = Ok (run sort t (map content_op content)).
Proof.
  induction content as [|[w p] r IH]; intros t l HI Hc; [reflexivity|].
  inversion Hc as [|? ? [Hw Hp] Hr]; subst. cbn [fst snd content_op] in *.
  destruct (track_add_inv t l w p HI Hw) as (H1 & _ & H2 & _). 
  change (run sort t (map content_op ((w, p) :: r))) with
    (run sort (fst (track_add t w p)) (map content_op r)).
  cbn [add_content].
  assert (E : snd (track_add t w p) = Ok tt).
  { apply H2. destruct p as [a|]; [right|left; reflexivity]. exists a.
    specialize (Hp a eq_refl). destruct (position_of a) as [q|]; [exists q; auto|congruence]. }
  destruct (track_add t w p) as [t' o]. cbn [fst snd] in *. subst o. eapply IH; eassumption.
Qed.

Lemma c17_constructor : forall sort sa s content, position_of sa = Some s ->
  Forall content_ok content ->
  track_new sa content = Ok (run sort (track_empty s) (map content_op content)).
Proof.
  intros sort sa s content Hs Hc. unfold track_new. destruct (position_of_sig sa) as [E _].
  rewrite Hs in E. rewrite E. cbn [bind]. eapply add_content_inv; [apply inv_empty|exact Hc].
Qed.

Lemma c18_order : forall sort, sort_contract sort -> forall s ops, Forall op_ok ops ->
  StronglySorted in_order (yields sort (run sort (track_empty s) ops)).
Proof.
  intros sort Hs s ops Hops. destruct (run_inv sort Hs s ops Hops) as [HI _].
  eapply yields_sorted; eassumption.
Qed.

(** The number of notes an operation passes to a track. *)
Definition passed (o : op) : nat :=
  match o with
  | OAdd w None => length (notes_of w)
  | OAdd w (Some a) => match position_of a with Some _ => length (notes_of w) | None => 0 end
  | _ => 0
  end.

Lemma log_length sort : forall ops t, length (log sort t ops) = fold_right Nat.add 0%nat (map passed ops).
Proof.
  induction ops as [|o ops IH]; intros t; [reflexivity|]. cbn [log map fold_right].
  rewrite app_length, IH. f_equal. destruct o as [w [a|]| | | | |]; cbn; try reflexivity.
  - destruct (position_of a); [apply map_length|reflexivity].
  - apply map_length.
Qed.

Lemma inv_track_len t l : Inv t l -> track_len t = Z.of_nat (length l).
Proof.
  intros H. unfold track_len. rewrite (Permutation_length (inv_heap _ _ H)), map_length. reflexivity.
Qed.

Lemma c20_len : forall sort, sort_contract sort -> forall s ops, Forall op_ok ops ->
  track_len (run sort (track_empty s) ops) = Z.of_nat (fold_right Nat.add 0%nat (map passed ops)).
Proof.
  intros sort Hs s ops Hops. destruct (run_inv sort Hs s ops Hops) as [HI _].
  rewrite (inv_track_len _ _ HI), log_length. reflexivity.
Qed.

(** ** Uniqueness of sorted lists *)
Lemma sorted_perm_anti {A} (le : A -> A -> Prop) (P : A -> Prop) :
  (forall x y, P x -> P y -> le x y -> le y x -> x = y) ->
  forall a b, StronglySorted le a -> StronglySorted le b -> Permutation a b -> Forall P a -> a = b.
Proof.
  intros Hanti. induction a as [|x a IH]; intros b Ha Hb HP Hok.
  - apply Permutation_nil in HP. subst. reflexivity.
  - destruct b as [|y b]; [apply Permutation_sym, Permutation_nil in HP; discriminate|].
    inversion Ha as [|? ? Ha1 Ha2]; subst. inversion Hb as [|? ? Hb1 Hb2]; subst.
    assert (Pb : Forall P (y :: b)) by (eapply Permutation_Forall; eassumption).
    inversion Hok as [|? ? Px Pa]; subst. inversion Pb as [|? ? Py _]; subst.
    rewrite Forall_forall in Ha2, Hb2.
    assert (x = y) as ->.
    { assert (Hx : In x (y :: b)) by (eapply Permutation_in; [exact HP|left; reflexivity]).
      assert (Hy : In y (x :: a)) by (eapply Permutation_in; [apply Permutation_sym; exact HP|left; reflexivity]).
      destruct Hx as [Hx|Hx]; [auto|]. destruct Hy as [Hy|Hy]; [auto|].
      apply Hanti; auto. }
    f_equal. apply IH; try assumption. eapply Permutation_cons_inv. exact HP.
Qed.

Lemma StronglySorted_map {A B} (R : A -> A -> Prop) (R' : B -> B -> Prop) (f : A -> B) l :
  (forall x y, R x y -> R' (f x) (f y)) -> StronglySorted R l -> StronglySorted R' (map f l).
Proof.
  intros H. induction 1 as [|x l _ IH HF]; cbn [map]; constructor; [exact IH|].
  rewrite Forall_map. eapply Forall_impl; [|exact HF]. intros y. apply H.
Qed.

Definition pp_le (a b : Q * Z) : Prop := (fst a < fst b)%Q \/ ((fst a == fst b)%Q /\ snd a <= snd b).
Definition canon_q (q : Q) : Prop := exists q', q = Qred q'.
Lemma canon_eq p q : canon_q p -> canon_q q -> (p == q)%Q -> p = q.
Proof.
  intros [p' ->] [q' ->] H. apply Qred_complete. rewrite !Qred_correct in H. exact H.
Qed.
Lemma Qlt_asym p q : (p < q)%Q -> (q < p)%Q -> False.
Proof. intros H1 H2. exact (Qlt_irrefl _ (Qlt_trans _ _ _ H1 H2)). Qed.

Lemma pp_anti x y : canon_q (fst x) -> canon_q (fst y) -> pp_le x y -> pp_le y x -> x = y.
Proof.
  intros Hx Hy [H1|[H1 H1']] [H2|[H2 H2']].
  - exfalso. eapply Qlt_asym; eassumption.
  - symmetry in H2. apply Qlt_neq in H1. contradiction.
  - symmetry in H1. apply Qlt_neq in H2. contradiction.
  - destruct x as [p u], y as [q v]. cbn in *. rewrite (canon_eq p q) by assumption. f_equal. lia.
Qed.

Lemma sorted_place_pitch a b : StronglySorted in_order a -> StronglySorted in_order b ->
  Permutation (map place_pitch a) (map place_pitch b) -> map place_pitch a = map place_pitch b.
Proof.
  intros Ha Hb HP.
  assert (HM : forall x y, in_order x y -> pp_le (place_pitch x) (place_pitch y)).
  { intros x y H. unfold pp_le, place_pitch. cbn [fst snd]. rewrite !Qred_correct. exact H. }
  apply (sorted_perm_anti pp_le (fun x => canon_q (fst x))).
  - intros x y. apply pp_anti.
  - apply (StronglySorted_map in_order); assumption.
  - apply (StronglySorted_map in_order); assumption.
  - exact HP.
  - rewrite Forall_map, Forall_forall. intros e _. eexists. reflexivity.
Qed.

Definition v_le (a b : Q * Z * Q * Q) : Prop :=
  let '(p, t, d, v) := a in let '(p', t', d', v') := b in
  (p < p')%Q \/ ((p == p')%Q /\ (t < t' \/ (t = t' /\ ((d < d')%Q \/ ((d == d')%Q /\ (v <= v')%Q))))).
Definition v_canon (a : Q * Z * Q * Q) : Prop :=
  let '(p, t, d, v) := a in canon_q p /\ canon_q d /\ canon_q v.

Lemma v_anti x y : v_canon x -> v_canon y -> v_le x y -> v_le y x -> x = y.
Proof.
  destruct x as [[[p t] d] v], y as [[[p' t'] d'] v']. cbn.
  intros (A1 & A2 & A3) (B1 & B2 & B3) H1 H2.
  assert (HQ : forall a b, (a < b)%Q -> (b == a)%Q -> False).
  { intros a b Hl He. symmetry in He. exact (Qlt_neq _ _ Hl He). }
  assert (HX : (p == p')%Q /\ t = t' /\ (d == d')%Q /\ (v == v')%Q).
  { destruct H1 as [H1|[H1 [H1'|[H1' [H1''|[H1'' H1''']]]]]];
      destruct H2 as [H2|[H2 [H2'|[H2' [H2''|[H2'' H2''']]]]]];
      try (exfalso; lia);
      try match goal with
      | A : (?x < ?y)%Q, B : (?y < ?x)%Q |- _ => exfalso; exact (Qlt_asym _ _ A B)
      | A : (?x < ?y)%Q, B : (?y == ?x)%Q |- _ => exfalso; exact (HQ _ _ A B)
      | A : (?x < ?y)%Q, B : (?x == ?y)%Q |- _ => exfalso; exact (Qlt_neq _ _ A B)
      end.
    split; [exact H1|]. split; [exact H1'|]. split; [exact H1''|]. apply Qle_antisym; assumption. }
  destruct HX as (X1 & -> & X2 & X3).
  rewrite (canon_eq p p'), (canon_eq d d'), (canon_eq v v') by assumption. reflexivity.
Qed.

Lemma value_le_v x y : value_le x y -> v_le (value_of x) (value_of y).
Proof.
  unfold value_le, value_before, note_before, note_same, v_le, value_of. rewrite !Qred_correct.
  intros [[H|[H [H1|[H1 [H2|[H2 H3]]]]]]|[H (H1 & H2 & H3)]].
  - left. exact H.
  - right. split; [exact H|]. left. exact H1.
  - right. split; [exact H|]. right. split; [exact H1|]. left. exact H2.
  - right. split; [exact H|]. right. split; [exact H1|]. right. split; [exact H2|]. apply Qlt_le_weak. exact H3.
  - right. split; [exact H|]. right. split; [exact H1|]. right. split; [exact H2|]. rewrite H3. apply Qle_refl.
Qed.

Lemma sorted_value a b : StronglySorted value_le a -> StronglySorted value_le b ->
  Permutation (map value_of a) (map value_of b) -> map value_of a = map value_of b.
Proof.
  intros Ha Hb HP. apply (sorted_perm_anti v_le v_canon).
  - apply v_anti.
  - apply (StronglySorted_map value_le); [apply value_le_v|exact Ha].
  - apply (StronglySorted_map value_le); [apply value_le_v|exact Hb].
  - exact HP.
  - rewrite Forall_map, Forall_forall. intros e _. unfold v_canon, value_of. repeat split; eexists; reflexivity.
Qed.

Lemma value_place : forall a b, Permutation (map value_of a) (map value_of b) ->
  Permutation (map place_pitch a) (map place_pitch b).
Proof.
  intros a b H. apply (Permutation_map (fun v : Q * Z * Q * Q => let '(p, t, _, _) := v in (p, t))) in H.
  rewrite !map_map in H. exact H.
Qed.
Lemma placed_value : forall a b, Permutation (map placed a) (map placed b) ->
  Permutation (map value_of a) (map value_of b).
Proof.
  intros a b H. apply (Permutation_map (fun v : Q * note =>
    (fst v, pitch (n_tone (snd v)), Qred (sval (n_duration (snd v))), Qred (fval (n_velocity (snd v)))))) in H.
  rewrite !map_map in H. exact H.
Qed.

Lemma inv_values sort t l : sort_contract sort -> Inv t l -> Permutation (map value_of (yields sort t)) (map value_of l).
Proof.
  intros Hs HI. rewrite <- (map_rescale_value _ (inv_entries _ _ HI)). apply Permutation_map.
  apply yields_perm; assumption.
Qed.

(** Two tracks with the same contents iterate in the same order up to what comparison can see. *)
Lemma inv_same_order sort t u l m : sort_contract sort -> Inv t l -> Inv u m ->
  Permutation (map value_of l) (map value_of m) ->
  map place_pitch (yields sort t) = map place_pitch (yields sort u) /\
  (consistent l -> consistent m -> map value_of (yields sort t) = map value_of (yields sort u)).
Proof.
  intros Hs Ht Hu HP.
  assert (HV : Permutation (map value_of (yields sort t)) (map value_of (yields sort u))).
  { eapply perm_trans; [apply (inv_values _ _ _ Hs Ht)|]. eapply perm_trans; [exact HP|].
    apply Permutation_sym. apply (inv_values _ _ _ Hs Hu). }
  split.
  - apply sorted_place_pitch; [eapply yields_sorted; eassumption..|]. apply value_place. exact HV.
  - intros Cl Cm. apply sorted_value; [eapply yields_sorted_value; eassumption..|exact HV].
Qed.

(** ** C19 *)
Lemma additions_len t u o : track_length t = track_length u -> additions t o = additions u o.
Proof. intros E. destruct o as [w [a|]| | | | |]; cbn; try reflexivity. rewrite E. reflexivity. Qed.

Lemma log_same sort : sort_contract sort -> forall ops t u l, Inv t l -> Inv u l -> Forall op_ok ops ->
  log sort t ops = log sort u (filter is_add ops).
Proof.
  intros Hs. induction ops as [|o ops IH]; intros t u l Ht Hu Hops; [reflexivity|].
  inversion Hops as [|? ? Ho Hops']; subst. cbn [log filter].
  assert (E : additions t o = additions u o).
  { apply additions_len. unfold track_length. rewrite (inv_len _ _ Ht), (inv_len _ _ Hu). reflexivity. }
  destruct (step_inv sort Hs t l o Ht Ho) as [It _]. destruct (is_add o) eqn:EA.
  - cbn [log]. rewrite <- E. f_equal. destruct (step_inv sort Hs u l o Hu Ho) as [Iu _].
    rewrite <- E in Iu. eapply IH; eassumption.
  - assert (additions t o = []) as E0 by (destruct o; [discriminate|reflexivity..]).
    rewrite E0. rewrite E0, app_nil_r in It. cbn [app]. eapply IH; eassumption.
Qed.

Lemma filter_filter_add ops : filter is_add (filter is_add ops) = filter is_add ops.
Proof.
  induction ops as [|o ops IH]; [reflexivity|]. cbn [filter]. destruct (is_add o) eqn:E; [|exact IH].
  cbn [filter]. rewrite E, IH. reflexivity.
Qed.

(** Two histories with the same adds. *)
Lemma same_adds_log sort : sort_contract sort -> forall s ops ops', Forall op_ok ops -> Forall op_ok ops' ->
  filter is_add ops = filter is_add ops' ->
  log sort (track_empty s) ops = log sort (track_empty s) ops'.
Proof.
  intros Hs s ops ops' H H' E. pose proof (inv_empty s) as I0.
  rewrite (log_same sort Hs ops _ _ [] I0 I0 H), (log_same sort Hs ops' _ _ [] I0 I0 H'), E. reflexivity.
Qed.

(** Two tracks that cannot be told apart by the observations listed, iteration compared up to what
    [f] shows of every entry. *)
Definition looks_same {B} (sort : sort_fn) (f : sig * note -> B) (t u : track) : Prop :=
  t_signature t = t_signature u /\ track_len t = track_len u /\ track_length t = track_length u /\
  track_str t = track_str u /\
  Permutation (map placed (yields sort t)) (map placed (yields sort u)) /\
  map f (yields sort t) = map f (yields sort u).

(** C19 in full: an observation inserted anywhere is not seen by any later one. *)
Definition observation_neutral (sort : sort_fn) : Prop :=
  forall s before o after, Forall op_ok (before ++ o :: after) -> is_add o = false ->
    looks_same sort (fun e => value_of e) (run sort (track_empty s) (before ++ o :: after))
                    (run sort (track_empty s) (before ++ after)).

Lemma c19_refuted : sort_contract cpython_sort /\ ~ observation_neutral cpython_sort.
Proof.
  split; [exact cpython_sort_contract|]. intros H.
  set (n := fun k d => OAdd (WNote (mkNote (mkTone 0) (mkSig k d) f_half)) (Some (SA_sig (mkSig 0 1)))).
  specialize (H (mkSig 4 4) [n 1 2; n 1 4] OIter [n 1 2]).
  assert (Hv : valid_velocity f_half) by (apply unit_test; reflexivity).
  assert (Hn : forall k, 0 <= k -> op_ok (n 1 (2 ^ k))).
  { intros k Hk. split; [|intros s E; injection E as <-; apply (valid_pow 0 0); lia].
    constructor; [|constructor]. split; [apply (valid_pow 1 k); lia|exact Hv]. }
  destruct H as (_ & _ & _ & _ & _ & H).
  - cbn [app]. constructor; [apply (Hn 1); lia|]. constructor; [apply (Hn 2); lia|].
    constructor; [exact I|]. constructor; [apply (Hn 1); lia|constructor].
  - reflexivity.
  - vm_compute in H. discriminate.
Qed.

Lemma c19_partial : forall sort, sort_contract sort -> forall s before o after,
  Forall op_ok (before ++ o :: after) -> is_add o = false ->
  let t := run sort (track_empty s) (before ++ o :: after) in
  let u := run sort (track_empty s) (before ++ after) in
  looks_same sort place_pitch t u /\
  (consistent (log sort (track_empty s) (before ++ after)) -> looks_same sort value_of t u).
Proof.
  intros sort Hs s before o after Hops Ho t u.
  assert (Hops' : Forall op_ok (before ++ after)).
  { apply Forall_app in Hops. destruct Hops as [H1 H2]. inversion H2; subst. apply Forall_app. auto. }
  destruct (run_inv sort Hs s _ Hops) as [It St]. destruct (run_inv sort Hs s _ Hops') as [Iu Su].
  fold t in It, St. fold u in Iu, Su.
  rewrite (same_adds_log sort Hs s _ (before ++ after) Hops Hops') in It.
  2:{ rewrite !filter_app. f_equal. cbn [filter]. rewrite Ho. reflexivity. }
  set (l := log sort (track_empty s) (before ++ after)) in *.
  destruct (inv_same_order sort t u l l Hs It Iu (Permutation_refl _)) as [E1 E2].
  assert (HP : Permutation (map placed (yields sort t)) (map placed (yields sort u))).
  { eapply perm_trans; [apply Permutation_map, (yields_perm sort Hs _ _ It)|].
    apply Permutation_sym, Permutation_map, (yields_perm sort Hs _ _ Iu). }
  assert (HL : track_len t = track_len u) by (rewrite (inv_track_len _ _ It), (inv_track_len _ _ Iu); reflexivity).
  unfold looks_same, track_length, track_str. rewrite HL, St, Su, (inv_len _ _ It), (inv_len _ _ Iu).
  split; [|intros HC]; (do 4 (split; [reflexivity|]); split; [exact HP|]).
  - exact E1.
  - apply E2; exact HC.
Qed.

(** One observation: nothing that can be asked right after it has changed, and iterating again
    yields the identical sequence. *)
Lemma c19_one : forall sort, sort_contract sort -> forall s ops o, Forall op_ok ops -> is_add o = false ->
  let t := run sort (track_empty s) ops in
  looks_same sort (fun e => e) (step sort t o) t /\
  track_iter sort (fst (track_iter sort t)) = track_iter sort t.
Proof.
  intros sort Hs s ops o Hops Ho t.
  assert (E : forall u, yields sort (fst (track_iter sort u)) = yields sort u).
  { intros u. unfold yields, track_iter. destruct (t_sorted u) eqn:E; cbn; [rewrite E|]; reflexivity. }
  split.
  - destruct (step_obs sort t o Ho) as [-> | ->].
    + repeat (split; [reflexivity || apply Permutation_refl|]). reflexivity.
    + destruct (run_inv sort Hs s ops Hops) as [HI _]. fold t in HI.
      destruct (track_iter_inv sort Hs t _ HI) as (HI' & S' & _).
      unfold looks_same. rewrite E. unfold track_length, track_str.
      rewrite (inv_track_len _ _ HI'), (inv_track_len _ _ HI), S', (inv_len _ _ HI'), (inv_len _ _ HI).
      repeat (split; [reflexivity || apply Permutation_refl|]). reflexivity.
  - unfold track_iter. destruct (t_sorted t) eqn:E1; cbn; [rewrite E1|]; reflexivity.
Qed.

(** ** C21, C22 *)
Lemma rm_ge l e : In e l -> (note_end e <= right_most l)%Q.
Proof.
  induction l as [|x l IH]; [intros []|]. cbn [right_most].
  destruct (Qle_bool (right_most l) (note_end x)) eqn:E.
  - apply Qle_bool_iff in E. intros [->|H]; [apply Qle_refl|]. eapply Qle_trans; [apply IH; exact H|exact E].
  - intros [->|H]; [|apply IH; exact H]. apply Qlt_le_weak, Qnot_le_lt. intros HL.
    apply Qle_bool_iff in HL. congruence.
Qed.
Lemma rm_in l : (l = [] /\ right_most l = 0%Q) \/ (exists e, In e l /\ right_most l = note_end e) \/
  right_most l = 0%Q.
Proof.
  induction l as [|x l IH]; [left; auto|]. right. cbn [right_most].
  destruct (Qle_bool (right_most l) (note_end x)) eqn:E.
  - left. exists x. split; [left; reflexivity|reflexivity].
  - destruct IH as [[-> ->]|[(e & He & ->)| ->]]; [right; reflexivity| |right; reflexivity].
    left. exists e. split; [right; exact He|reflexivity].
Qed.
Lemma note_end_nonneg e : entry_ok e -> (0 <= note_end e)%Q.
Proof.
  intros [Hp [Hd _]]. unfold note_end. apply (Qplus_le_compat 0 _ 0 _); apply sval_nonneg; assumption.
Qed.
Lemma rm_nonneg l : (0 <= right_most l)%Q.
Proof.
  induction l as [|x l IH]; cbn [right_most]; [apply Qle_refl|].
  destruct (Qle_bool (right_most l) (note_end x)) eqn:E; [|exact IH].
  apply Qle_bool_iff in E. eapply Qle_trans; eassumption.
Qed.

(** The right-most end is the least upper bound of the ends and 0. *)
Lemma rm_unique l q : (0 <= q)%Q -> (forall e, In e l -> (note_end e <= q)%Q) ->
  ((q == 0)%Q \/ exists e, In e l /\ (q == note_end e)%Q) -> (q == right_most l)%Q.
Proof.
  intros H0 Hge Hin. apply Qle_antisym.
  - destruct Hin as [E|(e & He & E)]; rewrite E; [apply rm_nonneg|apply rm_ge; exact He].
  - destruct (rm_in l) as [[_ E]|[(e & He & E)|E]]; rewrite E; [exact H0|apply Hge; exact He|exact H0].
Qed.

(** The length is always one of the ends (or 0). *)
Lemma len_of_some_end l : Forall entry_ok l ->
  (sval (len_of l) == 0)%Q \/ exists e, In e l /\ (sval (len_of l) == note_end e)%Q.
Proof.
  induction l as [|e l IH] using rev_ind; intros H; [left; reflexivity|].
  apply Forall_app in H. destruct H as [Hl He]. inversion He as [|? ? [Hp Hn] _]; subst.
  pose proof (maxden_pow2 l Hl) as HM.
  rewrite len_of_app. cbn zeta. destruct (sig_gt _ _).
  - right. exists e. split; [apply in_or_app; right; left; reflexivity|].
    apply endsig_spec; [exact Hp|apply Hn|apply pow2_max; [exact HM|apply Hp]|lia].
  - destruct (IH Hl) as [E|(f & Hf & E)]; [left; exact E|].
    right. exists f. split; [apply in_or_app; left; exact Hf|exact E].
Qed.

(** One add keeps the length right when the new end has a large enough denominator. *)
Lemma len_of_step l e : Forall entry_ok (l ++ [e]) -> (sval (len_of l) == right_most l)%Q ->
  denominator (len_of l) <= Z.max (Z.max (maxden l) (denominator (fst e))) (denominator (n_duration (snd e))) ->
  (sval (len_of (l ++ [e])) == right_most (l ++ [e]))%Q.
Proof.
  intros H HR HD. pose proof H as H'. apply Forall_app in H'. destruct H' as [Hl He].
  inversion He as [|? ? [Hp Hn] _]; subst. pose proof (maxden_pow2 l Hl) as HM.
  destruct (endsig_spec (Z.max (maxden l) (denominator (fst e))) (fst e) (n_duration (snd e)) Hp (proj1 Hn)
             ltac:(apply pow2_max; [exact HM|apply Hp]) ltac:(lia)) as (_ & V & D & E).
  pose proof (len_of_valid l Hl) as VL.
  destruct (proj1 (c03_partial _ _ V VL) ltac:(lia)) as (_ & _ & HG & _).
  apply rm_unique.
  - apply sval_nonneg. apply len_of_valid. exact H.
  - assert (Hmax : (sval (len_of l) <= sval (len_of (l ++ [e])))%Q /\ (note_end e <= sval (len_of (l ++ [e])))%Q).
    { rewrite len_of_app. cbn zeta. unfold note_end. rewrite <- E.
      destruct (sig_gt _ _) eqn:G.
      - split; [apply Qlt_le_weak, HG; reflexivity|apply Qle_refl].
      - split; [apply Qle_refl|]. apply Qnot_lt_le. intros HL. apply HG in HL. discriminate. }
    intros f Hf. apply in_app_or in Hf. destruct Hf as [Hf|[<-|[]]]; [|apply Hmax].
    eapply Qle_trans; [apply rm_ge; exact Hf|]. rewrite <- HR. apply Hmax.
  - apply len_of_some_end. exact H.
Qed.

Lemma len_of_den_some l : Forall entry_ok l -> l = [] \/ denominator (len_of l) = 1 \/
  exists l1 e l2, l = l1 ++ e :: l2 /\
    denominator (len_of l) = Z.max (Z.max (maxden l1) (denominator (fst e))) (denominator (n_duration (snd e))).
Proof.
  induction l as [|e l IH] using rev_ind; intros H; [left; reflexivity|]. right.
  apply Forall_app in H. destruct H as [Hl He]. inversion He as [|? ? [Hp Hn] _]; subst.
  pose proof (maxden_pow2 l Hl) as HM.
  rewrite len_of_app. cbn zeta. destruct (sig_gt _ _).
  - right. exists l, e, []. split; [reflexivity|].
    apply endsig_spec; [exact Hp|apply Hn|apply pow2_max; [exact HM|apply Hp]|lia].
  - destruct (IH Hl) as [->|[E|(l1 & f & l2 & -> & E)]]; [left; reflexivity|left; exact E|].
    right. exists l1, f, (l2 ++ [e]). split; [rewrite <- app_assoc; reflexivity|exact E].
Qed.

Lemma maxden_app2 l m : maxden (l ++ m) = Z.max (maxden l) (maxden m).
Proof.
  induction m as [|e m IH] using rev_ind.
  - rewrite app_nil_r. pose proof (maxden_ge1 l). change (maxden []) with 1. lia.
  - rewrite app_assoc, !maxden_app, IH. lia.
Qed.

(** The denominators of durations never go below those of earlier durations, except where a
    position seen by then already has such a denominator. *)
Definition denominators_grow (l : list (sig * note)) : Prop :=
  forall l1 e l2 f l3, l = l1 ++ e :: l2 ++ f :: l3 ->
    denominator (n_duration (snd e)) <= denominator (n_duration (snd f)) \/
    exists g, In g (l1 ++ e :: l2 ++ [f]) /\ denominator (n_duration (snd e)) <= denominator (fst g).

Lemma len_of_right l : Forall entry_ok l -> denominators_grow l -> (sval (len_of l) == right_most l)%Q.
Proof.
  induction l as [|f l IH] using rev_ind; intros H HG; [reflexivity|].
  assert (Hl : Forall entry_ok l) by (apply Forall_app in H; apply H).
  apply len_of_step; [exact H|apply IH; [exact Hl|]|].
  - intros l1 e l2 g l3 E. apply (HG l1 e l2 g (l3 ++ [f])). rewrite E, <- app_assoc. cbn [app].
    rewrite <- app_assoc. reflexivity.
  - assert (H1 : 1 <= maxden l) by apply maxden_ge1.
    destruct (len_of_den_some l Hl) as [->|[E|(l1 & e & l2 & -> & E)]]; [cbn; lia|lia|].
    rewrite E. rewrite maxden_app2. change (e :: l2) with ([e] ++ l2). rewrite maxden_app2.
    assert (HX : denominator (n_duration (snd e)) <= denominator (n_duration (snd f)) \/
                 denominator (n_duration (snd e)) <= maxden (l1 ++ [e] ++ l2 ++ [f])).
    { destruct (HG l1 e l2 f []) as [HX|(g & Hg & HX)]; [rewrite <- app_assoc; reflexivity|left; exact HX|].
      right. eapply Z.le_trans; [exact HX|]. apply maxden_in. exact Hg. }
    rewrite !maxden_app2 in HX. unfold maxden in *. cbn [map fold_right] in *. lia.
Qed.

(** C21 in full. *)
Definition length_right (sort : sort_fn) : Prop :=
  forall s ops, Forall op_ok ops ->
    (sval (track_length (run sort (track_empty s) ops)) == right_most (log sort (track_empty s) ops))%Q.

Lemma c21_refuted : forall sort, ~ length_right sort.
Proof.
  intros sort H.
  set (n := fun k d => OAdd (WNote (mkNote (mkTone 0) (mkSig k d) f_half)) (Some (SA_sig (mkSig 0 1)))).
  specialize (H (mkSig 4 4) [n 1 8; n 1 1]).
  assert (Hv : valid_velocity f_half) by (apply unit_test; reflexivity).
  assert (Hn : forall k, 0 <= k -> op_ok (n 1 (2 ^ k))).
  { intros k Hk. split; [|intros s E; injection E as <-; apply (valid_pow 0 0); lia].
    constructor; [|constructor]. split; [apply (valid_pow 1 k); lia|exact Hv]. }
  assert (HQ : (1 # 8 == 1)%Q); [|discriminate].
  apply H. constructor; [apply (Hn 3); lia|]. constructor; [apply (Hn 0); lia|constructor].
Qed.

(** Further: a later add can make the length smaller. *)
Lemma c21_shrinks : exists s ops o, Forall op_ok (ops ++ [o]) /\
  forall sort, (sval (track_length (run sort (track_empty s) (ops ++ [o]))) <
                sval (track_length (run sort (track_empty s) ops)))%Q.
Proof.
  set (n := fun k d => OAdd (WNote (mkNote (mkTone 0) (mkSig k d) f_half)) (Some (SA_sig (mkSig 0 1)))).
  exists (mkSig 4 4), [n 9 8], (n 1 1).
  assert (Hv : valid_velocity f_half) by (apply unit_test; reflexivity).
  assert (Hn : forall m k, 0 <= m -> 0 <= k -> op_ok (n m (2 ^ k))).
  { intros m k Hm Hk. split; [|intros s E; injection E as <-; apply (valid_pow 0 0); lia].
    constructor; [|constructor]. split; [apply (valid_pow m k); lia|exact Hv]. }
  split; [constructor; [apply (Hn 9 3); lia|constructor; [apply (Hn 1 0); lia|constructor]]|].
  intros sort. reflexivity.
Qed.

Lemma c21_partial : forall sort, sort_contract sort -> forall s ops, Forall op_ok ops ->
  let t := run sort (track_empty s) ops in
  let l := log sort (track_empty s) ops in
  valid_sig (track_length t) /\
  ((sval (track_length t) == 0)%Q \/ exists e, In e l /\ (sval (track_length t) == note_end e)%Q) /\
  (denominators_grow l -> (sval (track_length t) == right_most l)%Q).
Proof.
  intros sort Hs s ops Hops t l. destruct (run_inv sort Hs s ops Hops) as [HI _]. fold t l in HI.
  unfold track_length. rewrite (inv_len _ _ HI). pose proof (inv_entries _ _ HI) as He.
  split; [apply len_of_valid; exact He|]. split; [apply len_of_some_end; exact He|].
  apply len_of_right. exact He.
Qed.

(** All durations with one denominator: the condition holds. *)
Lemma c21_uniform : forall (l : list (sig * note)) d,
  Forall (fun e => denominator (n_duration (snd e)) = d) l -> denominators_grow l.
Proof.
  intros l d H l1 e l2 f l3 E. left. rewrite Forall_forall in H.
  rewrite (H e), (H f); [lia| |]; rewrite E; apply in_or_app; right;
    [right; apply in_or_app; right; left; reflexivity|left; reflexivity].
Qed.

(** ** C22 *)
Fixpoint longest (l : list note) : Q :=
  match l with
  | [] => 0
  | n :: r => if Qle_bool (longest r) (sval (n_duration n)) then sval (n_duration n) else longest r
  end.
(** Where the groups should be, and where it all should end. *)
Fixpoint laid_out (start : Q) (groups : list what) : list (Q * note) :=
  match groups with
  | [] => []
  | g :: r => map (fun n => (Qred start, n)) (notes_of g) ++ laid_out (start + longest (notes_of g)) r
  end.
Fixpoint total (groups : list what) : Q :=
  match groups with
  | [] => 0
  | g :: r => longest (notes_of g) + total r
  end.

Definition group_ok (g : what) : Prop := Forall valid_note (notes_of g).
(** In a group, denominators of durations do not decrease. *)
Definition group_grows (g : what) : Prop :=
  StronglySorted (fun a b => denominator (n_duration a) <= denominator (n_duration b)) (notes_of g).

(** C22 in full. *)
Definition appending_right (sort : sort_fn) : Prop :=
  forall s groups, Forall group_ok groups ->
    let t := run sort (track_empty s) (map (fun g => OAdd g None) groups) in
    Permutation (map placed (yields sort t)) (laid_out 0 groups) /\
    (sval (track_length t) == total groups)%Q.

Lemma c22_refuted : forall sort, ~ appending_right sort.
Proof.
  intros sort H.
  set (n := fun k d => WNote (mkNote (mkTone 0) (mkSig k d) f_half)).
  specialize (H (mkSig 4 4) [WIter [n 1 8; n 1 1]]).
  assert (Hv : valid_velocity f_half) by (apply unit_test; reflexivity).
  assert (HQ : (1 # 8 == 1)%Q); [|discriminate].
  apply H. constructor; [|constructor]. repeat constructor; cbn; try lia; try apply Hv.
  - exists 3. split; [lia|reflexivity].
  - exists 0. split; [lia|reflexivity].
Qed.

Lemma longest_nonneg ns : (0 <= longest ns)%Q.
Proof.
  induction ns as [|x l IH]; cbn [longest]; [apply Qle_refl|].
  destruct (Qle_bool (longest l) (sval (n_duration x))) eqn:E; [|exact IH].
  apply Qle_bool_iff in E. eapply Qle_trans; eassumption.
Qed.
Lemma longest_ge ns n : In n ns -> (sval (n_duration n) <= longest ns)%Q.
Proof.
  induction ns as [|x l IH]; [intros []|]. cbn [longest].
  destruct (Qle_bool (longest l) (sval (n_duration x))) eqn:E.
  - apply Qle_bool_iff in E. intros [->|H]; [apply Qle_refl|]. eapply Qle_trans; [apply IH; exact H|exact E].
  - intros [->|H]; [|apply IH; exact H]. apply Qlt_le_weak, Qnot_le_lt. intros HL.
    apply Qle_bool_iff in HL. congruence.
Qed.
Lemma longest_in ns : longest ns = 0%Q \/ exists n, In n ns /\ longest ns = sval (n_duration n).
Proof.
  induction ns as [|x l IH]; [left; reflexivity|]. cbn [longest].
  destruct (Qle_bool (longest l) (sval (n_duration x))).
  - right. exists x. split; [left; reflexivity|reflexivity].
  - destruct IH as [->|(n & Hn & ->)]; [left; reflexivity|]. right. exists n. split; [right; exact Hn|reflexivity].
Qed.

Lemma group_len p : valid_sig p -> forall ns l D, Forall entry_ok l -> Forall valid_note ns ->
  StronglySorted (fun a b => denominator (n_duration a) <= denominator (n_duration b)) ns ->
  Forall (fun n => D <= denominator (n_duration n)) ns ->
  denominator (len_of l) <= Z.max (Z.max (maxden l) (denominator p)) D ->
  (sval (len_of l) == right_most l)%Q ->
  (sval (len_of (l ++ map (fun n => (p, n)) ns)) == right_most (l ++ map (fun n => (p, n)) ns))%Q.
Proof.
  intros Hp. induction ns as [|n ns IH]; intros l D Hl Hns HS HD HB HR; cbn [map].
  - rewrite app_nil_r. exact HR.
  - inversion Hns as [|? ? Hn Hns']; subst. inversion HS as [|? ? HS' HF]; subst.
    inversion HD as [|? ? HDn HD']; subst.
    assert (Hl' : Forall entry_ok (l ++ [(p, n)])).
    { apply Forall_app. split; [exact Hl|]. constructor; [split; assumption|constructor]. }
    change ((p, n) :: map (fun n0 => (p, n0)) ns) with ([(p, n)] ++ map (fun n0 => (p, n0)) ns).
    rewrite app_assoc. apply (IH _ (denominator (n_duration n))); try assumption.
    + rewrite maxden_app. cbn [fst]. rewrite len_of_app. cbn [fst snd]. cbn zeta. destruct (sig_gt _ _); [|lia].
      destruct (endsig_spec (Z.max (maxden l) (denominator p)) p (n_duration n) Hp (proj1 Hn)
        ltac:(apply pow2_max; [apply maxden_pow2; exact Hl|apply Hp]) ltac:(lia)) as (_ & _ & -> & _). lia.
    + apply len_of_step; [exact Hl'|exact HR|]. cbn [fst snd]. lia.
Qed.

Lemma group_right_most l p ns : Forall entry_ok l -> valid_sig p -> Forall valid_note ns ->
  (sval p == right_most l)%Q ->
  (right_most (l ++ map (fun n => (p, n)) ns) == right_most l + longest ns)%Q.
Proof.
  intros Hl Hp Hns E. symmetry. apply rm_unique.
  - apply (Qplus_le_compat 0 _ 0 _); [apply rm_nonneg|apply longest_nonneg].
  - intros e He. apply in_app_or in He. destruct He as [He|He].
    + apply (Qle_trans _ (right_most l + 0)); [rewrite Qplus_0_r; apply rm_ge; exact He|].
      apply Qplus_le_compat; [apply Qle_refl|apply longest_nonneg].
    + apply in_map_iff in He. destruct He as (n & <- & Hn). unfold note_end. cbn [fst snd]. rewrite <- E.
      apply Qplus_le_compat; [apply Qle_refl|apply longest_ge; exact Hn].
  - destruct (longest_in ns) as [->|(n & Hn & ->)].
    + destruct (rm_in l) as [[_ ->]|[(e & He & ->)| ->]]; [left; reflexivity| |left; reflexivity].
      right. exists e. split; [apply in_or_app; left; exact He|apply Qplus_0_r].
    + right. exists (p, n). split; [apply in_or_app; right; apply in_map; exact Hn|].
      unfold note_end. cbn [fst snd]. rewrite E. reflexivity.
Qed.

Lemma laid_out_proper : forall gs q r, (q == r)%Q -> laid_out q gs = laid_out r gs.
Proof.
  induction gs as [|g gs IH]; intros q r E; [reflexivity|]. cbn [laid_out].
  rewrite (Qred_complete q r E). f_equal. apply IH. rewrite E. reflexivity.
Qed.

Lemma group_op_ok g : group_ok g -> op_ok (OAdd g None).
Proof. intros H. split; [exact H|discriminate]. Qed.

Lemma append_gen sort : sort_contract sort -> forall groups t l, Inv t l ->
  (sval (len_of l) == right_most l)%Q ->
  Forall group_ok groups -> Forall group_grows groups ->
  map placed (log sort t (map (fun g => OAdd g None) groups)) = laid_out (right_most l) groups /\
  (sval (track_length (run sort t (map (fun g => OAdd g None) groups))) == right_most l + total groups)%Q.
Proof.
  intros Hs. induction groups as [|g gs IH]; intros t l HI HR Hok Hg; cbn [map log laid_out total].
  - split; [reflexivity|]. rewrite Qplus_0_r. unfold track_length. cbn [run fold_left].
    rewrite (inv_len _ _ HI). exact HR.
  - inversion Hok as [|? ? Hok1 Hok']; subst. inversion Hg as [|? ? Hg1 Hg']; subst.
    destruct (step_inv sort Hs t l (OAdd g None) HI (group_op_ok g Hok1)) as [HI' _].
    cbn [additions] in *. unfold track_length in HI' at 1. rewrite (inv_len _ _ HI) in HI'.
    pose proof (inv_entries _ _ HI) as Hl. pose proof (len_of_valid l Hl) as Vp.
    assert (HR' : (sval (len_of (l ++ map (fun n => (len_of l, n)) (notes_of g))) ==
                   right_most (l ++ map (fun n => (len_of l, n)) (notes_of g)))%Q).
    { apply (group_len _ Vp (notes_of g) l 1); try assumption; [|lia].
      apply Forall_forall. intros n Hn. unfold group_ok in Hok1. rewrite Forall_forall in Hok1. destruct (Hok1 n Hn) as [[_ Hd] _].
      apply pow2_pos in Hd. lia. }
    assert (ER := group_right_most l (len_of l) (notes_of g) Hl Vp Hok1 HR).
    destruct (IH _ _ HI' HR' Hok' Hg') as [E1 E2].
    split.
    + rewrite map_app, E1, map_map. f_equal.
      * apply map_ext. intros n. unfold placed. cbn [fst snd]. f_equal.
        unfold track_length. rewrite (inv_len _ _ HI). apply Qred_complete. exact HR.
      * apply laid_out_proper. exact ER.
    + change (run sort t (OAdd g None :: map (fun g0 => OAdd g0 None) gs)) with
        (run sort (step sort t (OAdd g None)) (map (fun g0 => OAdd g0 None) gs)).
      rewrite E2, ER. ring.
Qed.

Lemma c22_partial : forall sort, sort_contract sort -> forall s groups,
  Forall group_ok groups -> Forall group_grows groups ->
  let t := run sort (track_empty s) (map (fun g => OAdd g None) groups) in
  Permutation (map placed (yields sort t)) (laid_out 0 groups) /\
  (sval (track_length t) == total groups)%Q.
Proof.
  intros sort Hs s groups Hok Hg t.
  destruct (append_gen sort Hs groups _ [] (inv_empty s) ltac:(reflexivity) Hok Hg) as [E1 E2].
  cbn [right_most] in *.
  assert (Hops : Forall op_ok (map (fun g => OAdd g None) groups)).
  { rewrite Forall_map. eapply Forall_impl; [|exact Hok]. apply group_op_ok. }
  destruct (c17_contents sort Hs s _ Hops) as [HP _].
  split; [rewrite <- E1; exact HP|]. unfold t. rewrite E2. ring.
Qed.

(** In every state an add without a position puts its notes at the current length. *)
Lemma c22_at_length : forall sort, sort_contract sort -> forall s ops w, Forall op_ok ops -> group_ok w ->
  let t := run sort (track_empty s) ops in
  Permutation (map placed (yields sort (fst (track_add t w None))))
    (map placed (yields sort t) ++ map (fun n => (Qred (sval (track_length t)), n)) (notes_of w)).
Proof.
  intros sort Hs s ops w Hops Hw t.
  destruct (run_inv sort Hs s ops Hops) as [HI _]. fold t in HI.
  destruct (step_inv sort Hs t _ (OAdd w None) HI (group_op_ok w Hw)) as [HI' _]. cbn [step additions] in HI'.
  eapply perm_trans; [apply Permutation_map, (yields_perm sort Hs _ _ HI')|].
  rewrite map_rescale_placed by apply (inv_entries _ _ HI'). rewrite map_app, map_map.
  apply Permutation_app.
  - apply Permutation_sym. pose proof (Permutation_map placed (yields_perm sort Hs _ _ HI)) as HX.
    rewrite map_rescale_placed in HX by apply (inv_entries _ _ HI). exact HX.
  - apply Permutation_refl.
Qed.

(** ** C23, C24 *)
Definition resolved (t : track) (a : option sig_arg) : option sig :=
  match a with None => Some (track_length t) | Some b => position_of b end.

Lemma add_notes_fold p : valid_sig p -> forall ns t l, Inv t l -> Forall valid_note ns ->
  add_notes p ns t = (fold_left (fun t n => fst (track_add t (WNote n) (Some (SA_sig p)))) ns t, Ok tt).
Proof.
  intros Hp. induction ns as [|n ns IH]; intros t l HI Hns; [reflexivity|].
  inversion Hns as [|? ? Hn Hns']; subst.
  destruct (add_note_inv t l n p HI Hp Hn) as (t' & E & _ & HI').
  cbn [add_notes fold_left]. unfold track_add at 2. cbn [sig_of_arg add_at]. rewrite E. cbn [fst].
  eapply IH; eassumption.
Qed.

Lemma c23_iterable : forall sort, sort_contract sort -> forall s ops w a p,
  Forall op_ok ops -> op_ok (OAdd w a) ->
  let t := run sort (track_empty s) ops in
  resolved t a = Some p ->
  track_add t w a =
    (fold_left (fun t n => fst (track_add t (WNote n) (Some (SA_sig p)))) (notes_of w) t, Ok tt).
Proof.
  intros sort Hs s ops w a p Hops [Hw Ha] t HR.
  destruct (run_inv sort Hs s ops Hops) as [HI _]. fold t in HI.
  assert (HE : track_add t w a = add_at w p t).
  { unfold track_add. destruct a as [b|]; cbn [resolved] in HR.
    - destruct (position_of_sig b) as [E _]. rewrite HR in E. rewrite E. reflexivity.
    - injection HR as <-. reflexivity. }
  rewrite HE, add_at_notes. eapply add_notes_fold; [|exact HI|exact Hw].
  destruct a as [b|]; cbn [resolved] in HR.
  - eapply position_of_valid; [exact HR|]. intros s' ->. apply Ha. reflexivity.
  - injection HR as <-. unfold track_length. rewrite (inv_len _ _ HI). apply len_of_valid, (inv_entries _ _ HI).
Qed.

Lemma c24_rejected : forall t w a, position_of a = None ->
  track_add t w (Some a) = (t, Err ValueError) \/ track_add t w (Some a) = (t, Err TypeError).
Proof.
  intros t w a H. unfold track_add. destruct (position_of_sig a) as [_ E].
  destruct (E H) as [-> | ->]; auto.
Qed.
Lemma c24_accepted : forall sort, sort_contract sort -> forall s ops w a,
  Forall op_ok ops -> op_ok (OAdd w a) -> (forall b, a = Some b -> position_of b <> None) ->
  snd (track_add (run sort (track_empty s) ops) w a) = Ok tt.
Proof.
  intros sort Hs s ops w a Hops Ho Ha.
  destruct (run_inv sort Hs s ops Hops) as [HI _].
  apply (track_add_inv _ _ w a HI Ho). destruct a as [b|]; [right|left; reflexivity].
  exists b. specialize (Ha b eq_refl). destruct (position_of b) as [q|]; [exists q; auto|congruence].
Qed.

(** ** C25, C26 *)
Lemma value_eq M M' e f : eok M e -> eok M' f ->
  (negb (note_eq (snd e) (snd f)) || negb (sig_eq (fst e) (fst f)) = false <-> value_of e = value_of f).
Proof.
  intros (He & _ & Ne) (Hf & _ & Nf). rewrite orb_false_iff, !negb_false_iff.
  rewrite note_eq_same, sig_eq_sval by assumption. unfold note_same, value_of. split.
  - intros ((H1 & H2 & H3) & H4). rewrite H1, (Qred_complete _ _ H2), (Qred_complete _ _ H3), (Qred_complete _ _ H4).
    reflexivity.
  - intros E. injection E as E1 E2 E3 E4.
    assert (R : forall x y : Q, Qred x = Qred y -> (x == y)%Q).
    { intros x y Hxy. rewrite <- (Qred_correct x), <- (Qred_correct y), Hxy. reflexivity. }
    repeat split; try assumption; apply R; try assumption.
Qed.

Lemma zip_eq_spec M M' : forall a b, Forall (eok M) a -> Forall (eok M') b ->
  (zip_eq a b = true <->
   firstn (length b) (map value_of a) = firstn (length a) (map value_of b)).
Proof.
  induction a as [|[p n] a IH]; intros [|[q m] b] Ha Hb; cbn [zip_eq length firstn map]; try (split; reflexivity).
  inversion Ha as [|? ? Ha1 Ha2]; subst. inversion Hb as [|? ? Hb1 Hb2]; subst.
  pose proof (value_eq M M' _ _ Ha1 Hb1) as HV. cbn [fst snd] in HV.
  destruct (negb (note_eq n m) || negb (sig_eq p q)) eqn:E.
  - split; [discriminate|]. intros H.
    apply (f_equal (fun l => match l with x :: _ => x | [] => value_of (p, n) end)) in H. cbv beta iota in H.
    assert (X : true = false); [|discriminate]. apply HV. exact H.
  - rewrite (IH b Ha2 Hb2). rewrite (proj1 HV eq_refl). split; [intros ->; reflexivity|intros H; exact (f_equal (@tl _) H)].
Qed.

Definition eq_result (sort : sort_fn) (t u : track) : bool := fst (fst (track_eq sort t u)).

Lemma eq_result_spec sort t u l m : sort_contract sort -> Inv t l -> Inv u m ->
  valid_sig (t_signature t) -> valid_sig (t_signature u) ->
  (eq_result sort t u = true <->
   (sval (t_signature t) == sval (t_signature u))%Q /\
   firstn (length m) (map value_of (yields sort t)) = firstn (length l) (map value_of (yields sort u))).
Proof.
  intros Hs Ht Hu Vt Vu. unfold eq_result, track_eq.
  assert (EL : forall t l, Inv t l -> @length entry (yields sort t) = length l).
  { intros t0 l0 H0. eapply eq_trans; [apply (Permutation_length (yields_perm sort Hs _ _ H0))|apply map_length]. }
  destruct (sig_eq (t_signature t) (t_signature u)) eqn:E; cbn [negb].
  - apply sig_eq_sval in E; [|assumption..].
    pose proof (zip_eq_spec _ _ _ _ (yields_ok sort Hs t l Ht) (yields_ok sort Hs u m Hu)) as HZ.
    rewrite (EL _ _ Ht), (EL _ _ Hu) in HZ. unfold yields in *.
    destruct (track_iter sort t) as [t' lt]. destruct (track_iter sort u) as [u' lu]. cbn [fst snd] in *.
    rewrite HZ. tauto.
  - cbn. split; [discriminate|]. intros [H _]. apply sig_eq_sval in H; [|assumption..]. congruence.
Qed.

Lemma firstn_all_map {B} (f : entry -> B) l n : n = length l -> firstn n (map f l) = map f l.
Proof. intros ->. rewrite <- (map_length f l). apply firstn_all. Qed.

(** C25 in full. *)
Definition equality_right (sort : sort_fn) : Prop :=
  forall s s' ops ops', valid_sig s -> valid_sig s' -> Forall op_ok ops -> Forall op_ok ops' ->
    (eq_result sort (run sort (track_empty s) ops) (run sort (track_empty s') ops') = true <->
     (sval s == sval s')%Q /\
     Permutation (map value_of (log sort (track_empty s) ops)) (map value_of (log sort (track_empty s') ops'))).

Lemma c25_refuted : forall sort, sort_contract sort ->
  ~ equality_right sort /\
  (** not transitive *)
  exists t u v, eq_result sort t u = true /\ eq_result sort u v = true /\ eq_result sort t v = false /\
    (exists ops, Forall op_ok ops /\ t = run sort (track_empty (mkSig 4 4)) ops) /\
    (exists ops, Forall op_ok ops /\ u = run sort (track_empty (mkSig 4 4)) ops) /\
    (exists ops, Forall op_ok ops /\ v = run sort (track_empty (mkSig 4 4)) ops).
Proof.
  intros sort Hs.
  set (n := fun k => OAdd (WNote (mkNote (mkTone k) (mkSig 1 4) f_half)) None).
  assert (Hn : forall k, op_ok (n k)).
  { intros k. split; [|discriminate]. constructor; [|constructor].
    split; [apply (valid_pow 1 2); lia|apply unit_test; reflexivity]. }
  assert (V : valid_sig (mkSig 4 4)) by (apply (valid_pow 4 2); lia).
  assert (HI : forall ops, Forall op_ok ops -> Inv (run sort (track_empty (mkSig 4 4)) ops) (log sort (track_empty (mkSig 4 4)) ops) /\
            valid_sig (t_signature (run sort (track_empty (mkSig 4 4)) ops)) /\
            t_signature (run sort (track_empty (mkSig 4 4)) ops) = mkSig 4 4).
  { intros ops Hops. destruct (run_inv sort Hs (mkSig 4 4) ops Hops) as [H1 H2]. rewrite H2. auto. }
  assert (H0 : Forall op_ok []) by constructor.
  assert (H1 : Forall op_ok [n 1]) by (constructor; [apply Hn|constructor]).
  assert (H2 : Forall op_ok [n 2]) by (constructor; [apply Hn|constructor]).
  split.
  - intros H. destruct (H (mkSig 4 4) (mkSig 4 4) [] [n 1] V V H0 H1) as [HX _].
    assert (HP : Permutation (map value_of (log sort (track_empty (mkSig 4 4)) []))
       (map value_of (log sort (track_empty (mkSig 4 4)) [n 1]))).
    { apply HX. destruct (HI _ H0) as (I0 & V0 & S0). destruct (HI _ H1) as (I1 & V1 & S1).
      apply (eq_result_spec sort _ _ _ _ Hs I0 I1 V0 V1). rewrite S0, S1. split; reflexivity. }
    apply Permutation_length in HP. discriminate.
  - exists (run sort (track_empty (mkSig 4 4)) [n 1]), (run sort (track_empty (mkSig 4 4)) []),
      (run sort (track_empty (mkSig 4 4)) [n 2]).
    destruct (HI _ H0) as (I0 & V0 & S0). destruct (HI _ H1) as (I1 & V1 & S1). destruct (HI _ H2) as (I2 & V2 & S2).
    split; [|split; [|split]].
    + apply (eq_result_spec sort _ _ _ _ Hs I1 I0 V1 V0). rewrite S0, S1. split; reflexivity.
    + apply (eq_result_spec sort _ _ _ _ Hs I0 I2 V0 V2). rewrite S0, S2. split; reflexivity.
    + destruct (eq_result sort _ _) eqn:E; [|reflexivity]. exfalso.
      apply (eq_result_spec sort _ _ _ _ Hs I1 I2 V1 V2) in E. destruct E as [_ E].
      rewrite !firstn_all_map in E.
      * pose proof (inv_values sort _ _ Hs I1) as P1. pose proof (inv_values sort _ _ Hs I2) as P2. rewrite E in P1.
        apply Permutation_sym in P1. pose proof (perm_trans P1 P2) as P3.
        apply Permutation_length_1 in P3. discriminate.
      * rewrite (Permutation_length (yields_perm sort Hs _ _ I2)). reflexivity.
      * rewrite (Permutation_length (yields_perm sort Hs _ _ I1)). reflexivity.
    + split; [exists [n 1]; auto|]. split; [exists []; auto|exists [n 2]; auto].
Qed.

Lemma c25_partial : forall sort, sort_contract sort -> forall s s' ops ops',
  valid_sig s -> valid_sig s' -> Forall op_ok ops -> Forall op_ok ops' ->
  let t := run sort (track_empty s) ops in
  let u := run sort (track_empty s') ops' in
  let l := log sort (track_empty s) ops in
  let m := log sort (track_empty s') ops' in
  (** reflexive and symmetric *)
  eq_result sort t t = true /\ eq_result sort t u = eq_result sort u t /\
  (** equal tracks have equal signatures, and equal contents if they have as many notes *)
  (eq_result sort t u = true ->
     (sval s == sval s')%Q /\
     (track_len t = track_len u -> Permutation (map value_of l) (map value_of m))) /\
  (** in general the notes of the shorter one are the first notes of the longer one *)
  (eq_result sort t u = true -> track_len t <= track_len u ->
     exists r, map value_of (yields sort u) = map value_of (yields sort t) ++ r) /\
  (** tracks with equal signatures and contents are equal if [consistent] *)
  ((sval s == sval s')%Q -> Permutation (map value_of l) (map value_of m) ->
   consistent l -> consistent m -> eq_result sort t u = true).
Proof.
  intros sort Hs s s' ops ops' Vs Vs' Hops Hops' t u l m.
  destruct (run_inv sort Hs s ops Hops) as [It St]. destruct (run_inv sort Hs s' ops' Hops') as [Iu Su].
  fold t l in It. fold t in St. fold u m in Iu. fold u in Su.
  assert (Vt : valid_sig (t_signature t)) by (rewrite St; exact Vs).
  assert (Vu : valid_sig (t_signature u)) by (rewrite Su; exact Vs').
  pose proof (eq_result_spec sort t t l l Hs It It Vt Vt) as ETT.
  pose proof (eq_result_spec sort t u l m Hs It Iu Vt Vu) as ETU.
  pose proof (eq_result_spec sort u t m l Hs Iu It Vu Vt) as EUT.
  assert (LT : length (yields sort t) = length l) by (rewrite (Permutation_length (yields_perm sort Hs _ _ It)); apply map_length).
  assert (LU : length (yields sort u) = length m) by (rewrite (Permutation_length (yields_perm sort Hs _ _ Iu)); apply map_length).
  rewrite (inv_track_len _ _ It), (inv_track_len _ _ Iu).
  split; [apply ETT; split; reflexivity|].
  split.
  { apply eq_true_iff_eq. rewrite ETU, EUT. split; intros [H1 H2]; (split; symmetry; assumption). }
  rewrite St, Su in *. split; [|split].
  - intros H. apply ETU in H. destruct H as [H1 H2]. split; [exact H1|]. intros HL.
    rewrite !firstn_all_map in H2 by lia.
    eapply perm_trans; [apply Permutation_sym, (inv_values sort t l Hs It)|]. rewrite H2. apply (inv_values sort u m Hs Iu).
  - intros H HL. apply ETU in H. destruct H as [_ H2].
    rewrite (firstn_all2 (n := length m)) in H2 by (rewrite map_length; lia).
    rewrite H2. exists (skipn (length l) (map value_of (yields sort u))). symmetry. apply firstn_skipn.
  - intros H1 HP Cl Cm. apply ETU. split; [exact H1|].
    destruct (inv_same_order sort t u l m Hs It Iu HP) as [_ E]. rewrite (E Cl Cm).
    apply Permutation_length in HP. rewrite !map_length in HP. rewrite HP. reflexivity.
Qed.

(** Adding pairs (note, position) one by one. *)
Definition adds (l : list (note * sig)) : list op :=
  map (fun x => OAdd (WNote (fst x)) (Some (SA_sig (snd x)))) l.
Definition pair_ok (x : note * sig) : Prop := valid_note (fst x) /\ valid_sig (snd x).

Lemma adds_ok l : Forall pair_ok l -> Forall op_ok (adds l).
Proof.
  intros H. unfold adds. rewrite Forall_map. eapply Forall_impl; [|exact H]. intros [n p] [Hn Hp].
  split; [constructor; [exact Hn|constructor]|]. intros s E. injection E as <-. exact Hp.
Qed.
Lemma adds_log sort : forall l t, log sort t (adds l) = map (fun x => (snd x, fst x)) l.
Proof.
  induction l as [|[n p] l IH]; intros t; [reflexivity|]. cbn [adds map log additions position_of notes_of app fst snd].
  f_equal. apply IH.
Qed.

(** C26 in full. *)
Definition insertion_order_irrelevant (sort : sort_fn) : Prop :=
  forall s s' l l', valid_sig s -> valid_sig s' -> (sval s == sval s')%Q -> Forall pair_ok l -> Permutation l l' ->
    let t := run sort (track_empty s) (adds l) in
    let u := run sort (track_empty s') (adds l') in
    eq_result sort t u = true /\ map value_of (yields sort t) = map value_of (yields sort u).

Lemma c26_refuted : sort_contract cpython_sort /\
  exists l l', Forall pair_ok l /\ Permutation l l' /\
    eq_result cpython_sort (run cpython_sort (track_empty (mkSig 4 4)) (adds l))
                           (run cpython_sort (track_empty (mkSig 4 4)) (adds l')) = false.
Proof.
  split; [exact cpython_sort_contract|].
  set (n := fun k d => (mkNote (mkTone 0) (mkSig k d) f_half, mkSig 0 1)).
  exists [n 1 2; n 1 4], [n 1 4; n 1 2].
  assert (Hn : forall k, 0 <= k -> pair_ok (n 1 (2 ^ k))).
  { intros k Hk. split; [|apply (valid_pow 0 0); lia]. split; [apply (valid_pow 1 k); lia|].
    apply unit_test; reflexivity. }
  split; [constructor; [apply (Hn 1); lia|constructor; [apply (Hn 2); lia|constructor]]|].
  split; [apply perm_swap|]. vm_compute. reflexivity.
Qed.

Lemma c26_partial : forall sort, sort_contract sort -> forall s s' l l',
  valid_sig s -> valid_sig s' -> (sval s == sval s')%Q -> Forall pair_ok l -> Permutation l l' ->
  let t := run sort (track_empty s) (adds l) in
  let u := run sort (track_empty s') (adds l') in
  map place_pitch (yields sort t) = map place_pitch (yields sort u) /\
  (consistent (map (fun x => (snd x, fst x)) l) ->
   eq_result sort t u = true /\ map value_of (yields sort t) = map value_of (yields sort u)).
Proof.
  intros sort Hs s s' l l' Vs Vs' Es Hl HP t u.
  assert (Hl' : Forall pair_ok l') by (eapply Permutation_Forall; eassumption).
  pose proof (adds_ok l Hl) as Ho. pose proof (adds_ok l' Hl') as Ho'.
  destruct (run_inv sort Hs s _ Ho) as [It St]. destruct (run_inv sort Hs s' _ Ho') as [Iu Su].
  fold t in It, St. fold u in Iu, Su.
  rewrite adds_log in It, Iu.
  assert (HPV : Permutation (map value_of (map (fun x : note * sig => (snd x, fst x)) l))
                            (map value_of (map (fun x : note * sig => (snd x, fst x)) l'))).
  { apply Permutation_map, Permutation_map, HP. }
  destruct (inv_same_order sort t u _ _ Hs It Iu HPV) as [E1 E2].
  split; [exact E1|]. intros HC.
  assert (HC' : consistent (map (fun x : note * sig => (snd x, fst x)) l')).
  { eapply consistent_in; [|exact HC]. intros e. apply Permutation_in, Permutation_map, Permutation_sym, HP. }
  split; [|apply E2; assumption].
  destruct (c25_partial sort Hs s s' _ _ Vs Vs' Ho Ho') as (_ & _ & _ & _ & HX).
  rewrite !adds_log in HX. apply HX; assumption.
Qed.
