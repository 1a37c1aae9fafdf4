(** Consequences of [sort_contract]; facts about heappush. *)
From Coq Require Import ZArith Lia List Bool Arith Permutation Sorted ZifyBool.
From Verif Require Import PySort.
Import ListNotations.

(** ** Sorted permutations are unique *)
Lemma sorted_perm_unique {A} (T : A -> A -> Prop) :
  (forall x y, T x y -> T y x -> False) ->
  forall a b, StronglySorted T a -> StronglySorted T b -> Permutation a b -> a = b.
Proof.
  intros Hasym. induction a as [|x a IH]; intros b Ha Hb HP.
  - apply Permutation_nil in HP. subst. reflexivity.
  - destruct b as [|y b]; [apply Permutation_sym, Permutation_nil in HP; discriminate|].
    inversion Ha as [|? ? Ha1 Ha2]; subst. inversion Hb as [|? ? Hb1 Hb2]; subst.
    rewrite Forall_forall in Ha2, Hb2.
    assert (x = y) as ->.
    { assert (Hx : In x (y :: b)) by (eapply Permutation_in; [exact HP|left; reflexivity]).
      assert (Hy : In y (x :: a)) by (eapply Permutation_in; [apply Permutation_sym; exact HP|left; reflexivity]).
      destruct Hx as [Hx|Hx]; [auto|]. destruct Hy as [Hy|Hy]; [auto|].
      exfalso. eapply Hasym; [apply Ha2; exact Hy|apply Hb2; exact Hx]. }
    f_equal. apply IH; [assumption..|]. eapply Permutation_cons_inv; exact HP.
Qed.

Lemma StronglySorted_filter {A} (T : A -> A -> Prop) f l :
  StronglySorted T l -> StronglySorted T (filter f l).
Proof.
  induction 1 as [|x l Hs IH Hx]; [constructor|]. cbn [filter].
  destruct (f x); [|assumption]. constructor; [assumption|].
  rewrite Forall_forall in *. intros y Hy. apply filter_In in Hy. apply Hx. apply Hy.
Qed.

Lemma Permutation_filter {A} (f : A -> bool) l m : Permutation l m ->
  Permutation (filter f l) (filter f m).
Proof.
  induction 1 as [|x l m H IH|x y l|l m n H1 IH1 H2 IH2]; cbn [filter].
  - constructor.
  - destruct (f x); [constructor|]; assumption.
  - destruct (f x), (f y); try apply perm_swap; apply Permutation_refl.
  - eapply Permutation_trans; eassumption.
Qed.

Lemma filter_map {A B} (g : A -> B) f l : filter f (map g l) = map g (filter (fun x => f (g x)) l).
Proof.
  induction l as [|x l IH]; [reflexivity|]. cbn [map filter]. destruct (f (g x)); cbn [map]; rewrite IH; reflexivity.
Qed.

Lemma adjacent_sorted {A} (R : A -> A -> Prop) : forall l, adjacent R l <-> Sorted R l.
Proof.
  induction l as [|x l IH]; [split; [constructor|exact (fun _ => I)]|].
  destruct l as [|y l].
  - split; [intros _; repeat constructor|exact (fun _ => I)].
  - change (adjacent R (x :: y :: l)) with (R x y /\ adjacent R (y :: l)). rewrite IH. split.
    + intros [H1 H2]. constructor; [assumption|constructor; assumption].
    + intros H. inversion H as [|? ? H1 H2]; subst. inversion H2; subst. split; assumption.
Qed.

(** ** enumerate *)
Lemma combine_seq_snd {A} : forall (l : list A) k, map snd (combine (seq k (length l)) l) = l.
Proof. induction l as [|x l IH]; intros k; [reflexivity|]. cbn. f_equal. apply IH. Qed.
Lemma enumerate_snd {A} (l : list A) : map snd (enumerate l) = l.
Proof. apply combine_seq_snd. Qed.

Lemma combine_seq_fst {A} : forall (l : list A) k, map fst (combine (seq k (length l)) l) = seq k (length l).
Proof. induction l as [|x l IH]; intros k; [reflexivity|]. cbn. f_equal. apply IH. Qed.

Lemma combine_seq_sorted {A} : forall (l : list A) k,
  StronglySorted (fun a b => fst a < fst b) (combine (seq k (length l)) l).
Proof.
  induction l as [|x l IH]; intros k; cbn [length seq combine]; [constructor|].
  constructor; [apply IH|]. apply Forall_forall. intros [i y] H.
  apply in_combine_l in H. apply in_seq in H. cbn. lia.
Qed.

Lemma enumerate_sorted {A} (l : list A) : StronglySorted (fun a b => fst a < fst b) (enumerate l).
Proof. apply combine_seq_sorted. Qed.

(** ** What every sort does *)
Section Contract.
Variable sort : sort_fn.
Hypothesis Hsort : sort_contract sort.
Context {A : Type} (lt : A -> A -> bool).

Lemma sort_permutation l : Permutation (sort A lt l) l.
Proof.
  destruct (Hsort A lt l) as (p & HP & HM & _). rewrite <- HM.
  apply (Permutation_map snd) in HP. rewrite enumerate_snd in HP. exact HP.
Qed.

(** Sortedness for any comparison, with respect to any transitive relation that it implies. *)
Lemma sort_sorted_gen (ok : A -> Prop) (R : A -> A -> Prop) l :
  Forall ok l -> 
  (forall x y z, R x y -> R y z -> R x z) ->
  (forall x y, ok x -> ok y -> lt x y = true -> R x y) ->
  (forall x y, ok x -> ok y -> lt y x = false -> R x y) ->
  StronglySorted R (sort A lt l).
Proof.
  intros Hok Htrans H1 H2. apply Sorted_StronglySorted; [exact Htrans|].
  pose proof (sort_permutation l) as HP0.
  destruct (Hsort A lt l) as (p & HP & HM & HA). rewrite <- HM in *. clear HM HP.
  assert (Hp : Forall ok (map snd p)).
  { eapply Permutation_Forall; [apply Permutation_sym; exact HP0|exact Hok]. }
  clear HP0. apply adjacent_sorted.
  induction p as [|[i x] p IH]; [exact I|]. destruct p as [|[j y] p]; [exact I|].
  destruct HA as [Hxy HA]. cbn [map snd] in *. inversion Hp as [|? ? Hx Hp']; subst.
  inversion Hp' as [|? ? Hy _]; subst.
  split; [|apply IH; assumption]. destruct Hxy as [Hxy|[Hxy _]]; auto.
Qed.

(** ** Strict weak orders *)
Variable ok : A -> Prop.
Hypothesis swo_asym : forall x y, ok x -> ok y -> lt x y = true -> lt y x = false.
Hypothesis swo_trans : forall x y z, ok x -> ok y -> ok z -> lt x y = true -> lt y z = true -> lt x z = true.
Hypothesis swo_incomp : forall x y z, ok x -> ok y -> ok z ->
  lt x y = false -> lt y z = false -> lt x z = false.

Definition tag_lt (a b : nat * A) : Prop :=
  ok (snd a) /\ ok (snd b) /\
  (lt (snd a) (snd b) = true \/ (lt (snd b) (snd a) = false /\ fst a < fst b)).

Lemma tag_lt_asym a b : tag_lt a b -> tag_lt b a -> False.
Proof.
  intros (Ha & Hb & H) (_ & _ & H').
  destruct H as [H|[H Hi]], H' as [H'|[H' Hi']].
  - apply swo_asym in H; congruence || assumption.
  - congruence.
  - congruence.
  - lia.
Qed.

Lemma tag_lt_trans a b c : tag_lt a b -> tag_lt b c -> tag_lt a c.
Proof.
  intros (Ha & Hb & H) (_ & Hc & H'). split; [exact Ha|]. split; [exact Hc|].
  destruct H as [H|[H Hi]], H' as [H'|[H' Hi']].
  - left. eapply swo_trans; [| | |exact H|exact H']; assumption.
  - left. destruct (lt (snd a) (snd c)) eqn:E; [reflexivity|].
    assert (lt (snd a) (snd b) = false).
    { eapply swo_incomp; [| | |exact E|exact H']; assumption. }
    congruence.
  - left. destruct (lt (snd a) (snd c)) eqn:E; [reflexivity|].
    assert (lt (snd b) (snd c) = false).
    { eapply swo_incomp; [| | |exact H|exact E]; assumption. }
    congruence.
  - right. split; [|lia]. eapply swo_incomp; [| | |exact H'|exact H]; assumption.
Qed.

Lemma tagged_sorted l p : Forall ok l -> Permutation p (enumerate l) ->
  adjacent (fun a b => lt (snd a) (snd b) = true \/
                       (lt (snd b) (snd a) = false /\ fst a < fst b)) p ->
  StronglySorted tag_lt p.
Proof.
  intros Hok HP HA. apply Sorted_StronglySorted; [intros a b c; apply tag_lt_trans|].
  assert (Hp : Forall (fun a => ok (snd a)) p).
  { eapply Permutation_Forall; [apply Permutation_sym; exact HP|].
    apply Forall_map. rewrite enumerate_snd. exact Hok. }
  clear HP. apply adjacent_sorted. induction p as [|a p IH]; [exact I|].
  destruct p as [|b p]; [exact I|]. destruct HA as [Hab HA].
  inversion Hp as [|? ? Ha Hp']; subst. inversion Hp' as [|? ? Hb _]; subst.
  split; [|apply IH; assumption]. split; [exact Ha|]. split; [exact Hb|exact Hab].
Qed.

(** Sublists that are in order stay as they are. *)
Lemma sort_filter_stable l f : Forall ok l ->
  StronglySorted (fun x y => lt y x = false) (filter f l) ->
  filter f (sort A lt l) = filter f l.
Proof.
  intros Hok Hs. destruct (Hsort A lt l) as (p & HP & HM & HA). rewrite <- HM.
  rewrite <- (enumerate_snd l). rewrite !filter_map. f_equal.
  apply (sorted_perm_unique tag_lt tag_lt_asym).
  - apply StronglySorted_filter. eapply tagged_sorted; eassumption.
  - rewrite <- (enumerate_snd l) in Hs, Hok. rewrite filter_map in Hs.
    pose proof (enumerate_sorted l) as Hi.
    revert Hs Hok Hi. generalize (enumerate l). clear. intros e.
    induction e as [|[i x] e IH]; intros Hs Hok Hi; [constructor|].
    cbn [map snd] in Hok. inversion Hok as [|? ? Hx Hok']; subst.
    inversion Hi as [|? ? Hi' Hxi]; subst.
    cbn [filter snd] in *. destruct (f x) eqn:E.
    + cbn [map] in Hs. inversion Hs as [|? ? Hs' Hxs]; subst.
      constructor; [apply IH; assumption|]. apply Forall_forall. intros [j y] Hy.
      rewrite Forall_map, Forall_forall in Hxs. pose proof (Hxs _ Hy) as Hyx. cbn in Hyx.
      apply filter_In in Hy. destruct Hy as [Hy _].
      rewrite Forall_forall in Hxi. pose proof (Hxi _ Hy) as Hij.
      rewrite Forall_map, Forall_forall in Hok'. pose proof (Hok' _ Hy) as Hoky.
      split; [exact Hx|]. split; [exact Hoky|]. right. split; [exact Hyx|exact Hij].
    + apply IH; assumption.
  - apply Permutation_filter. exact HP.
Qed.

(** An already sorted list is not changed. *)
Lemma sort_sorted_id l : Forall ok l -> StronglySorted (fun x y => lt y x = false) l ->
  sort A lt l = l.
Proof.
  intros Hok Hs.
  assert (H : forall m : list A, filter (fun _ => true) m = m).
  { induction m as [|x m IH]; [reflexivity|]. cbn. rewrite IH. reflexivity. }
  rewrite <- (H (sort A lt l)). rewrite sort_filter_stable; [apply H|assumption|].
  rewrite H. exact Hs.
Qed.
End Contract.

(** Two sorts agree on strict weak orders. *)
Lemma sort_unique (s1 s2 : sort_fn) {A} (lt : A -> A -> bool) (ok : A -> Prop) :
  sort_contract s1 -> sort_contract s2 ->
  (forall x y, ok x -> ok y -> lt x y = true -> lt y x = false) ->
  (forall x y z, ok x -> ok y -> ok z -> lt x y = true -> lt y z = true -> lt x z = true) ->
  (forall x y z, ok x -> ok y -> ok z -> lt x y = false -> lt y z = false -> lt x z = false) ->
  forall l, Forall ok l -> s1 A lt l = s2 A lt l.
Proof.
  intros H1 H2 Ha Ht Hi l Hok.
  destruct (H1 A lt l) as (p & HP & HM & HA). destruct (H2 A lt l) as (q & HQ & HN & HB).
  rewrite <- HM, <- HN. f_equal.
  apply (sorted_perm_unique (tag_lt lt ok)).
  - apply tag_lt_asym; assumption.
  - eapply tagged_sorted; eassumption.
  - eapply tagged_sorted; eassumption.
  - eapply Permutation_trans; [exact HP|apply Permutation_sym; exact HQ].
Qed.

(** ** heappush *)
Lemma set_nth_length {A} : forall (l : list A) i v, length (set_nth l i v) = length l.
Proof. induction l as [|x l IH]; intros [|i] v; cbn; [reflexivity..|]. rewrite IH. reflexivity. Qed.

Lemma set_nth_perm {A} : forall (l : list A) i v x, nth_error l i = Some x ->
  Permutation (x :: set_nth l i v) (v :: l).
Proof.
  induction l as [|y l IH]; intros [|i] v x H; cbn in *; try discriminate.
  - injection H as ->. apply perm_swap.
  - eapply perm_trans; [apply perm_swap|]. eapply perm_trans; [apply perm_skip, (IH i v x H)|].
    apply perm_swap.
Qed.

Lemma set_nth_same {A} : forall (l : list A) i x, nth_error l i = Some x -> set_nth l i x = l.
Proof.
  induction l as [|y l IH]; intros [|i] x H; cbn in *; try discriminate.
  - injection H as ->. reflexivity.
  - rewrite IH by assumption. reflexivity.
Qed.

Lemma nth_error_set_nth {A} : forall (l : list A) i v, i < length l ->
  nth_error (set_nth l i v) i = Some v.
Proof.
  induction l as [|y l IH]; intros [|i] v H; cbn in *; try lia; [reflexivity|].
  apply IH. lia.
Qed.
Lemma nth_error_set_nth_other {A} : forall (l : list A) i j v, i <> j ->
  nth_error (set_nth l i v) j = nth_error l j.
Proof.
  induction l as [|y l IH]; intros [|i] [|j] v H; cbn in *; try reflexivity; try lia.
  apply IH. lia.
Qed.

(** The element at [pos] is the hole. *)
Lemma siftdown_perm {A} (lt : A -> A -> bool) : forall fuel heap pos item x,
  nth_error heap pos = Some x ->
  Permutation (x :: siftdown lt fuel heap pos item) (item :: heap).
Proof.
  induction fuel as [|fuel IH]; intros heap pos item x Hx; cbn [siftdown].
  - apply set_nth_perm. exact Hx.
  - destruct (Nat.eqb pos 0) eqn:E0; [apply set_nth_perm; exact Hx|].
    destruct (nth_error heap (Nat.div2 (pos - 1))) as [parent|] eqn:Ep;
      [|apply set_nth_perm; exact Hx].
    destruct (lt item parent); [|apply set_nth_perm; exact Hx].
    apply Nat.eqb_neq in E0.
    assert (Hne : pos <> Nat.div2 (pos - 1)).
    { pose proof (Nat.div2_decr (pos - 1) (pos - 1)). lia. }
    assert (Hp' : nth_error (set_nth heap pos parent) (Nat.div2 (pos - 1)) = Some parent).
    { rewrite nth_error_set_nth_other by assumption. exact Ep. }
    pose proof (IH (set_nth heap pos parent) _ item parent Hp') as H1.
    pose proof (set_nth_perm heap pos parent x Hx) as H2.
    (* parent :: S ~ item :: h', x :: h' ~ parent :: heap *)
    apply (Permutation_cons_inv (a := parent)).
    eapply perm_trans; [apply perm_swap|].
    eapply perm_trans; [apply perm_skip; exact H1|].
    eapply perm_trans; [apply perm_swap|].
    eapply perm_trans; [apply perm_skip; exact H2|].
    apply perm_swap.
Qed.

Lemma heappush_perm {A} (lt : A -> A -> bool) heap item :
  Permutation (heappush lt heap item) (item :: heap).
Proof.
  unfold heappush.
  assert (H : nth_error (heap ++ [item]) (length heap) = Some item).
  { rewrite nth_error_app2, Nat.sub_diag by lia. reflexivity. }
  pose proof (siftdown_perm lt (length heap) _ _ item item H) as HP.
  apply Permutation_cons_inv in HP. eapply perm_trans; [exact HP|].
  apply Permutation_sym, Permutation_cons_append.
Qed.
