(** CPython's list.sort meets [sort_contract], whatever the comparison. *)
From Coq Require Import Lia List Bool Arith Permutation Sorted.
From Verif Require Import PySort Timsort SortFacts.
Import ListNotations.

(** ** Searching *)
Lemma bsearch_spec p : forall fuel l r, l <= r -> r - l < fuel ->
  let k := bsearch fuel p l r in
  l <= k <= r /\ (k = l \/ p (k - 1) = true) /\ (k = r \/ p k = false).
Proof.
  induction fuel as [|fuel IH]; intros l r Hlr Hf; [lia|]. cbn [bsearch].
  destruct (Nat.ltb_spec l r) as [H|H].
  2:{ cbn zeta. replace r with l by lia. repeat split; try lia; left; reflexivity. }
  set (m := l + Nat.div2 (r - l)).
  assert (Hm : l <= m < r).
  { unfold m. pose proof (Nat.lt_div2 (r - l)). lia. }
  destruct (p m) eqn:E; cbn zeta.
  - destruct (IH (S m) r ltac:(lia) ltac:(lia)) as (H1 & H2 & H3). cbn zeta in *.
    split; [lia|]. split; [|exact H3]. destruct H2 as [H2|H2]; [|right; exact H2].
    right. rewrite H2. replace (S m - 1) with m by lia. exact E.
  - destruct (IH l m ltac:(lia) ltac:(lia)) as (H1 & H2 & H3). cbn zeta in *.
    split; [lia|]. split; [exact H2|]. destruct H3 as [H3|H3]; right; [rewrite H3; exact E|exact H3].
Qed.

Lemma gallop_up_spec p hint maxofs : forall fuel lastofs ofs,
  lastofs < ofs -> lastofs < maxofs -> p (hint + lastofs) = true -> maxofs <= fuel + ofs ->
  forall lo o, gallop_up fuel p hint maxofs lastofs ofs = (lo, o) ->
  lo < o /\ lo < maxofs /\ p (hint + lo) = true /\ (maxofs <= o \/ p (hint + o) = false).
Proof.
  induction fuel as [|fuel IH]; intros lastofs ofs H1 H2 H3 Hf lo o H; cbn [gallop_up] in H.
  - injection H as <- <-. repeat split; try assumption. left. lia.
  - destruct (Nat.ltb_spec ofs maxofs) as [Hl|Hl].
    + destruct (p (hint + ofs)) eqn:E.
      * apply IH in H; [exact H|lia|lia|exact E|lia].
      * injection H as <- <-. repeat split; try assumption. right. exact E.
    + injection H as <- <-. repeat split; try assumption. left. lia.
Qed.

Lemma gallop_down_spec p hint maxofs : forall fuel lastofs ofs,
  lastofs < ofs -> lastofs < maxofs -> p (hint - lastofs) = false -> maxofs <= fuel + ofs ->
  forall lo o, gallop_down fuel p hint maxofs lastofs ofs = (lo, o) ->
  lo < o /\ lo < maxofs /\ p (hint - lo) = false /\ (maxofs <= o \/ p (hint - o) = true).
Proof.
  induction fuel as [|fuel IH]; intros lastofs ofs H1 H2 H3 Hf lo o H; cbn [gallop_down] in H.
  - injection H as <- <-. repeat split; try assumption. left. lia.
  - destruct (Nat.ltb_spec ofs maxofs) as [Hl|Hl].
    + destruct (p (hint - ofs)) eqn:E.
      * injection H as <- <-. repeat split; try assumption. right. exact E.
      * apply IH in H; [exact H|lia|lia|exact E|lia].
    + injection H as <- <-. repeat split; try assumption. left. lia.
Qed.

Lemma gallop_spec p n hint : hint < n ->
  let k := gallop p n hint in
  k <= n /\ (k = 0 \/ p (k - 1) = true) /\ (k = n \/ p k = false).
Proof.
  intros Hh. unfold gallop. destruct (p hint) eqn:E.
  - destruct (gallop_up n p hint (n - hint) 0 1) as [lo o] eqn:G.
    apply gallop_up_spec in G; [|lia|lia|rewrite Nat.add_0_r; exact E|lia].
    destruct G as (G1 & G2 & G3 & G4).
    destruct (bsearch_spec p (S n) (S (hint + lo)) (hint + Nat.min o (n - hint)) ltac:(lia) ltac:(lia))
      as (B1 & B2 & B3). cbn zeta in *.
    set (k := bsearch _ _ _ _) in *. split; [lia|]. split.
    + right. destruct B2 as [B2|B2]; [|exact B2]. rewrite B2.
      replace (S (hint + lo) - 1) with (hint + lo) by lia. exact G3.
    + destruct B3 as [B3|B3]; [|right; exact B3].
      destruct G4 as [G4|G4]; [left; lia|].
      destruct (Nat.le_gt_cases (n - hint) o); [left; lia|].
      right. rewrite B3. rewrite Nat.min_l by lia. exact G4.
  - destruct (gallop_down n p hint (hint + 1) 0 1) as [lo o] eqn:G.
    apply gallop_down_spec in G; [|lia|lia|rewrite Nat.sub_0_r; exact E|lia].
    destruct G as (G1 & G2 & G3 & G4).
    destruct (bsearch_spec p (S n) (hint + 1 - Nat.min o (hint + 1)) (hint - lo) ltac:(lia) ltac:(lia))
      as (B1 & B2 & B3). cbn zeta in *.
    set (k := bsearch _ _ _ _) in *. split; [lia|]. split.
    + destruct B2 as [B2|B2]; [|right; exact B2].
      destruct (Nat.le_gt_cases (hint + 1) o); [left; lia|].
      destruct G4 as [G4|G4]; [lia|]. right. rewrite B2.
      replace (hint + 1 - Nat.min o (hint + 1) - 1) with (hint - o) by lia. exact G4.
    + right. destruct B3 as [B3|B3]; [|exact B3]. rewrite B3. exact G3.
Qed.

Section Correct.
Context {A : Type} (lt : A -> A -> bool) (idx : A -> nat).

Definition okp (x y : A) : Prop := lt x y = true \/ (lt y x = false /\ idx x < idx y).
Notation chain := (adjacent okp).

Definition before (a b : list A) : Prop := forall x y, In x a -> In y b -> idx x < idx y.

Lemma chain_mid l x m : chain (l ++ x :: m) <-> chain (l ++ [x]) /\ chain (x :: m).
Proof.
  induction l as [|y l IH]; cbn [app].
  - split; [intros H; split; [exact I|exact H]|intros [_ H]; exact H].
  - destruct l as [|z l].
    + cbn [app]. change (chain (y :: x :: m)) with (okp y x /\ chain (x :: m)).
      change (chain [y; x]) with (okp y x /\ chain [x]).
      change (chain [x]) with True. tauto.
    + cbn [app] in *. 
      change (chain (y :: z :: l ++ x :: m)) with (okp y z /\ chain (z :: l ++ x :: m)).
      change (chain (y :: z :: l ++ [x])) with (okp y z /\ chain (z :: l ++ [x])).
      tauto.
Qed.
Lemma chain_cons2 x y m : chain (x :: y :: m) <-> okp x y /\ chain (y :: m).
Proof. reflexivity. Qed.
Lemma chain_app_l l m : chain (l ++ m) -> chain l.
Proof.
  destruct m as [|x m]; [rewrite app_nil_r; auto|]. intros H. apply chain_mid in H.
  destruct H as [H _]. clear m. induction l as [|y l IH]; [exact I|].
  destruct l as [|z l]; [exact I|]. cbn [app] in *. destruct H as [H1 H2]. split; [exact H1|].
  apply IH. exact H2.
Qed.
Lemma chain_app_r l m : chain (l ++ m) -> chain m.
Proof. destruct m as [|x m]; [intros _; exact I|]. intros H. apply chain_mid in H. apply H. Qed.

Lemma snoc_cases (l : list A) : l = [] \/ exists l' x, l = l' ++ [x].
Proof. destruct l as [|y l]; [left; reflexivity|right]. destruct (exists_last (l := y :: l)) as (l' & x & H); [discriminate|]. eauto. Qed.

(** Joining two chains that agree on a prefix [L]. *)
Lemma chain_bridge L a1 R y M : chain (L ++ a1 ++ R) -> chain (L ++ y :: M) ->
  (forall l z, a1 = l ++ [z] -> okp z y) -> chain (L ++ a1 ++ y :: M).
Proof.
  intros H1 H2 Hz. destruct (snoc_cases a1) as [->|(l & z & ->)]; [exact H2|].
  replace (L ++ (l ++ [z]) ++ y :: M) with ((L ++ l) ++ z :: y :: M) by (rewrite <- !app_assoc; reflexivity).
  replace (L ++ (l ++ [z]) ++ R) with ((L ++ l) ++ z :: R) in H1 by (rewrite <- !app_assoc; reflexivity).
  apply chain_mid. split.
  - apply chain_mid in H1. apply H1.
  - apply chain_cons2. split; [apply (Hz l); reflexivity|].
    apply chain_mid in H2. apply H2.
Qed.

(** ** Cutting a list at the result of a search *)
Lemma cut_spec (p : A -> bool) (d : A) a k :
  k <= length a -> (k = 0 \/ p (nth (k - 1) a d) = true) -> (k = length a \/ p (nth k a d) = false) ->
  (forall l z, firstn k a = l ++ [z] -> p z = true) /\
  (forall z l, skipn k a = z :: l -> p z = false).
Proof.
  intros Hk H1 H2.
  assert (Hl : length (firstn k a) = k) by (apply firstn_length_le; exact Hk).
  pose proof (firstn_skipn k a) as Ha.
  revert Hl Ha. generalize (firstn k a) as f, (skipn k a) as s. intros f s Hl Ha. subst a. split.
  - intros l z ->. rewrite app_length in Hl. cbn in Hl.
    destruct H1 as [H1|H1]; [lia|]. rewrite app_nth1 in H1 by (rewrite app_length; cbn; lia).
    rewrite app_nth2 in H1 by lia. replace (k - 1 - length l) with 0 in H1 by lia. exact H1.
  - intros z l ->. destruct H2 as [H2|H2].
    + rewrite app_length in H2. cbn in H2. lia.
    + rewrite app_nth2 in H2 by lia. rewrite Hl, Nat.sub_diag in H2. exact H2.
Qed.

Lemma gallop_right_spec key a hint : hint < length a ->
  (forall l z, firstn (gallop_right A lt key a hint) a = l ++ [z] -> lt key z = false) /\
  (forall z l, skipn (gallop_right A lt key a hint) a = z :: l -> lt key z = true).
Proof.
  intros Hh. unfold gallop_right.
  pose proof (gallop_spec (fun i => negb (lt key (nth i a key))) (length a) hint Hh) as (G1 & G2 & G3).
  cbn zeta in *. set (k := gallop _ _ _) in *.
  destruct (cut_spec (fun z => negb (lt key z)) key a k G1 G2 G3) as [C1 C2].
  split; intros; [apply negb_true_iff; eapply C1|apply negb_false_iff; eapply C2]; eassumption.
Qed.

Lemma gallop_left_spec key a hint : hint < length a ->
  (forall l z, firstn (gallop_left A lt key a hint) a = l ++ [z] -> lt z key = true) /\
  (forall z l, skipn (gallop_left A lt key a hint) a = z :: l -> lt z key = false).
Proof.
  intros Hh. unfold gallop_left.
  pose proof (gallop_spec (fun i => lt (nth i a key) key) (length a) hint Hh) as (G1 & G2 & G3).
  cbn zeta in *. set (k := gallop _ _ _) in *.
  exact (cut_spec (fun z => lt z key) key a k G1 G2 G3).
Qed.

(** ** Before *)
Lemma before_sub a b a' b' : before a b -> incl a' a -> incl b' b -> before a' b'.
Proof. unfold before, incl. intros H H1 H2 x y Hx Hy. apply H; auto. Qed.
Lemma before_cons x a y b : before (x :: a) (y :: b) -> idx x < idx y.
Proof. intros H. apply H; left; reflexivity. Qed.
Lemma incl_skipn (k : nat) (l : list A) : incl (skipn k l) l.
Proof. intros x H. rewrite <- (firstn_skipn k l). apply in_or_app. right. exact H. Qed.
Lemma incl_firstn (k : nat) (l : list A) : incl (firstn k l) l.
Proof. intros x H. rewrite <- (firstn_skipn k l). apply in_or_app. left. exact H. Qed.

(** ** merge_lo *)
Definition lasts (a b : list A) : Prop :=
  forall a0 x b0 y, a = a0 ++ [x] -> b = b0 ++ [y] -> lt y x = true.

Lemma lasts_tail_r a y b : lasts a (y :: b) -> lasts a b.
Proof. intros H a0 x b0 z Ha Hb. apply (H a0 x (y :: b0) z Ha). rewrite Hb. reflexivity. Qed.
Lemma lasts_tail_l x a b : lasts (x :: a) b -> lasts a b.
Proof. intros H a0 z b0 y Ha Hb. apply (H (x :: a0) z b0 y); [rewrite Ha; reflexivity|exact Hb]. Qed.
Lemma lasts_app_l c a b : lasts (c ++ a) b -> lasts a b.
Proof. induction c as [|x c IH]; [auto|]. intros H. apply IH. eapply lasts_tail_l. exact H. Qed.
Lemma lasts_app_r c a b : lasts a (c ++ b) -> lasts a b.
Proof. induction c as [|x c IH]; [auto|]. intros H. apply IH. eapply lasts_tail_r. exact H. Qed.

Definition lo_inv pre post (a b out : list A) : Prop :=
  chain (pre ++ rev out ++ a ++ post) /\ chain (pre ++ rev out ++ b ++ post) /\
  before a b /\ lasts a b.

Ltac norm := cbn [rev app] in *; rewrite <- ?app_assoc in *; cbn [app] in *.

Lemma chain_shift P R (x : A) m : chain (P ++ R ++ x :: m) <-> chain ((P ++ R) ++ x :: m).
Proof. rewrite <- app_assoc. reflexivity. Qed.

Lemma lo_take_b pre post a x a' y b out : a = x :: a' -> lo_inv pre post a (y :: b) out ->
  lt y x = true -> lo_inv pre post a b (y :: out).
Proof.
  intros -> (H1 & H2 & H3 & H4) Hlt. repeat split; cbn [rev].
  - norm. rewrite chain_shift in *. apply chain_mid in H1. apply chain_mid in H2.
    apply chain_mid. split; [apply H2|]. apply chain_cons2. split; [left; exact Hlt|apply H1].
  - norm. exact H2.
  - eapply before_sub; [exact H3|apply incl_refl|apply incl_tl, incl_refl].
  - eapply lasts_tail_r. exact H4.
Qed.

Lemma lo_take_a pre post x a b y b' out : b = y :: b' -> lo_inv pre post (x :: a) b out ->
  lt y x = false -> lo_inv pre post a b (x :: out).
Proof.
  intros -> (H1 & H2 & H3 & H4) Hlt. repeat split; cbn [rev].
  - norm. exact H1.
  - norm. rewrite chain_shift in *. apply chain_mid in H1. apply chain_mid in H2.
    apply chain_mid. split; [apply H1|]. apply chain_cons2. split; [|apply H2].
    right. split; [exact Hlt|]. apply (before_cons _ _ _ _ H3).
  - eapply before_sub; [exact H3|apply incl_tl, incl_refl|apply incl_refl].
  - eapply lasts_tail_l. exact H4.
Qed.

(** Moving the front part of [a] when it all belongs before the head of [b]. *)
Lemma lo_block_a pre post a1 a2 y b out : lo_inv pre post (a1 ++ a2) (y :: b) out ->
  (forall l z, a1 = l ++ [z] -> lt y z = false) ->
  lo_inv pre post a2 (y :: b) (rev a1 ++ out).
Proof.
  intros (H1 & H2 & H3 & H4) Hz. repeat split.
  - rewrite rev_app_distr, rev_involutive. norm. exact H1.
  - rewrite rev_app_distr, rev_involutive. norm.
    rewrite app_assoc in H1 |- *. rewrite (app_assoc pre (rev out)) in H2.
    eapply chain_bridge; [exact H1|exact H2|].
    intros l z E. right. split; [eapply Hz; exact E|]. apply H3; [|left; reflexivity].
    rewrite E, !in_app_iff. left. right. left. reflexivity.
  - eapply before_sub; [exact H3|apply incl_appr, incl_refl|apply incl_refl].
  - eapply lasts_app_l. exact H4.
Qed.

Lemma lo_block_b pre post x a b1 b2 out : lo_inv pre post (x :: a) (b1 ++ b2) out ->
  (forall l z, b1 = l ++ [z] -> lt z x = true) ->
  lo_inv pre post (x :: a) b2 (rev b1 ++ out).
Proof.
  intros (H1 & H2 & H3 & H4) Hz. repeat split.
  - rewrite rev_app_distr, rev_involutive. norm.
    rewrite app_assoc in H2 |- *. rewrite (app_assoc pre (rev out)) in H1.
    eapply chain_bridge; [exact H2|exact H1|].
    intros l z E. left. eapply Hz; exact E.
  - rewrite rev_app_distr, rev_involutive. norm. exact H2.
  - eapply before_sub; [exact H3|apply incl_refl|apply incl_appr, incl_refl].
  - eapply lasts_app_r. exact H4.
Qed.

Definition good (pre post l : list A) (r : list A * nat) : Prop :=
  chain (pre ++ fst r ++ post) /\ Permutation (fst r) l.

Lemma lo_copy_b pre post x b out mg : b <> [] -> lo_inv pre post [x] b out ->
  good pre post (rev out ++ [x] ++ b) (rev out ++ b ++ [x], mg).
Proof.
  intros Hb (H1 & H2 & H3 & H4). split; cbn [fst].
  - norm. destruct (snoc_cases b) as [->|(b0 & y & ->)]; [congruence|].
    norm. rewrite (app_assoc pre) in *. rewrite app_assoc in *.
    apply chain_mid. apply chain_mid in H2. split; [apply H2|]. apply chain_cons2. split.
    + left. apply (H4 [] x b0 y); reflexivity.
    + rewrite <- app_assoc in H1. apply chain_app_r in H1. apply chain_app_r in H1.
      exact H1.
  - apply Permutation_app_head. apply Permutation_app_comm.
Qed.

Lemma perm_out (out c r l : list A) : Permutation r (rev (rev c ++ out) ++ l) ->
  Permutation r (rev out ++ c ++ l).
Proof. rewrite rev_app_distr, rev_involutive, <- app_assoc. auto. Qed.

Lemma merge_lo_loop_good pre post : forall fuel md a b out mg,
  length a + length b < fuel -> lo_inv pre post a b out ->
  good pre post (rev out ++ a ++ b) (merge_lo_loop A lt fuel md a b out mg).
Proof.
  induction fuel as [|fuel IH]; intros md a b out mg Hf HI; [lia|].
  cbn [merge_lo_loop].
  assert (Hnil : forall b' o, lo_inv pre post [] b' o -> forall g, good pre post (rev o ++ b') (rev o ++ b', g)).
  { intros b' o (H1 & H2 & _ & _) g. split; cbn [fst]; [|apply Permutation_refl].
    rewrite <- !app_assoc. exact H2. }
  assert (Hnilb : forall a' o, lo_inv pre post a' [] o -> forall g, good pre post (rev o ++ a') (rev o ++ a', g)).
  { intros b' o (H1 & H2 & _ & _) g. split; cbn [fst]; [|apply Permutation_refl].
    rewrite <- !app_assoc. exact H1. }
  destruct a as [|x [|x' a]].
  { apply Hnil. exact HI. }
  { destruct b as [|y b]; [rewrite app_nil_r; apply Hnilb; exact HI|].
    apply lo_copy_b; [discriminate|exact HI]. }
  destruct b as [|y b]; [rewrite app_nil_r; apply Hnilb; exact HI|].
  set (aa := x' :: a) in *.
  destruct md as [ac bc|].
  - destruct (lt y x) eqn:E.
    + assert (HI' : lo_inv pre post (x :: aa) b (y :: out)) by (eapply lo_take_b; [reflexivity|exact HI|exact E]).
      assert (G : forall md mg, good pre post (rev out ++ (x :: aa) ++ y :: b) (merge_lo_loop A lt fuel md (x :: aa) b (y :: out) mg)).
      { intros md' mg'. destruct (IH md' (x :: aa) b (y :: out) mg') as [G1 G2]; [cbn in *; lia|exact HI'|].
        split; [exact G1|]. eapply perm_trans; [exact G2|]. cbn [rev]. rewrite <- app_assoc.
        apply Permutation_app_head. cbn [app]. apply (Permutation_middle (x :: aa)). }
      destruct (Nat.leb mg (S bc)); apply G.
    + assert (HI' : lo_inv pre post aa (y :: b) (x :: out)) by (eapply lo_take_a; [reflexivity|exact HI|exact E]).
      assert (G : forall md mg, good pre post (rev out ++ (x :: aa) ++ y :: b) (merge_lo_loop A lt fuel md aa (y :: b) (x :: out) mg)).
      { intros md' mg'. destruct (IH md' aa (y :: b) (x :: out) mg') as [G1 G2]; [cbn in *; lia|exact HI'|].
        split; [exact G1|]. eapply perm_trans; [exact G2|]. cbn [rev]. rewrite <- app_assoc.
        apply Permutation_refl. }
      destruct (Nat.leb mg (S ac)); apply G.
  - cbn zeta. set (ka := gallop_right A lt y (x :: aa) 0).
    destruct (gallop_right_spec y (x :: aa) 0) as [K1 K2]; [cbn; lia|]. fold ka in K1, K2.
    assert (HI' := HI). rewrite <- (firstn_skipn ka (x :: aa)) in HI'.
    apply lo_block_a in HI'; [|exact K1].
    assert (Hperm : forall r, good pre post (rev (rev (firstn ka (x :: aa)) ++ out) ++ skipn ka (x :: aa) ++ y :: b) r ->
              good pre post (rev out ++ (x :: aa) ++ y :: b) r).
    { intros r [G1 G2]. split; [exact G1|]. apply perm_out in G2. eapply perm_trans; [exact G2|].
      rewrite (app_assoc (firstn _ _)), firstn_skipn. apply Permutation_refl. }
    apply Hperm. clear Hperm. set (out1 := rev (firstn ka (x :: aa)) ++ out) in *.
    assert (Hlen : length (skipn ka (x :: aa)) <= length (x :: aa)) by (rewrite skipn_length; lia).
    destruct (skipn ka (x :: aa)) as [|x1 a1] eqn:Ea1; [apply Hnil; exact HI'|].
    specialize (K2 x1 a1 eq_refl).
    destruct a1 as [|x2 a1]; [apply lo_copy_b; [discriminate|exact HI']|].
    set (a2 := x2 :: a1) in *.
    assert (HI2 : lo_inv pre post (x1 :: a2) b (y :: out1)) by (eapply lo_take_b; [reflexivity|exact HI'|exact K2]).
    assert (Hperm : forall r, good pre post (rev (y :: out1) ++ (x1 :: a2) ++ b) r ->
              good pre post (rev out1 ++ (x1 :: a2) ++ y :: b) r).
    { intros r [G1 G2]. split; [exact G1|]. eapply perm_trans; [exact G2|]. cbn [rev]. rewrite <- app_assoc.
      apply Permutation_app_head. cbn [app]. apply (Permutation_middle (x1 :: a2)). }
    apply Hperm. clear Hperm.
    destruct b as [|y1 b]; [rewrite app_nil_r; apply Hnilb; exact HI2|].
    set (b1 := y1 :: b) in *.
    set (kb := gallop_left A lt x1 b1 0).
    destruct (gallop_left_spec x1 b1 0) as [L1 L2]; [cbn; lia|]. fold kb in L1, L2.
    assert (HI3 := HI2). rewrite <- (firstn_skipn kb b1) in HI3.
    apply lo_block_b in HI3; [|exact L1].
    assert (Hperm : forall r, good pre post (rev (rev (firstn kb b1) ++ (y :: out1)) ++ (x1 :: a2) ++ skipn kb b1) r ->
              good pre post (rev (y :: out1) ++ (x1 :: a2) ++ b1) r).
    { intros r [G1 G2]. split; [exact G1|]. apply perm_out in G2. eapply perm_trans; [exact G2|].
      apply Permutation_app_head. rewrite <- (firstn_skipn kb b1) at 3.
      rewrite !app_assoc. apply Permutation_app_tail. apply Permutation_app_comm. }
    apply Hperm. clear Hperm. set (out2 := rev (firstn kb b1) ++ y :: out1) in *.
    assert (Hlenb : length (skipn kb b1) <= length b1) by (rewrite skipn_length; lia).
    destruct (skipn kb b1) as [|y2 b2] eqn:Eb; [rewrite app_nil_r; apply Hnilb; exact HI3|].
    specialize (L2 y2 b2 eq_refl).
    assert (HI4 : lo_inv pre post a2 (y2 :: b2) (x1 :: out2)) by (eapply lo_take_a; [reflexivity|exact HI3|exact L2]).
    assert (G : forall md mg, good pre post (rev out2 ++ (x1 :: a2) ++ y2 :: b2) (merge_lo_loop A lt fuel md a2 (y2 :: b2) (x1 :: out2) mg)).
    { intros md' mg'. destruct (IH md' a2 (y2 :: b2) (x1 :: out2) mg') as [G1 G2]; [cbn [length] in *; lia|exact HI4|].
      split; [exact G1|]. eapply perm_trans; [exact G2|]. cbn [rev]. rewrite <- app_assoc. apply Permutation_refl. }
    destruct (_ || _); apply G.
Qed.

Lemma merge_lo_good pre post a b mg x a0 y b0 : a = x :: a0 -> b = y :: b0 ->
  chain (pre ++ a ++ post) -> chain (pre ++ b ++ post) -> before a b -> lasts a b -> lt y x = true ->
  good pre post (a ++ b) (merge_lo A lt a b mg).
Proof.
  intros -> -> H1 H2 H3 H4 Hxy. unfold merge_lo.
  assert (HI : lo_inv pre post (x :: a0) b0 [y]).
  { eapply lo_take_b; [reflexivity| |exact Hxy]. repeat split; assumption. }
  destruct (merge_lo_loop_good pre post (S (length (x :: a0) + length (y :: b0))) (OnePair 0 0) (x :: a0) b0 [y] mg) as [G1 G2];
    [cbn; lia|exact HI|].
  split; [exact G1|]. eapply perm_trans; [exact G2|]. cbn [rev app].
  apply (Permutation_middle (x :: a0)).
Qed.

(** ** merge_hi *)
Definition heads (a b : list A) : Prop :=
  forall x a0 y b0, a = x :: a0 -> b = y :: b0 -> lt y x = true.

Definition hi_inv pre post (a b out : list A) : Prop :=
  chain (pre ++ a ++ out ++ post) /\ chain (pre ++ b ++ out ++ post) /\
  before a b /\ heads a b.

Lemma heads_l a c b : heads (a ++ c) b -> heads a b.
Proof. intros H x a0 y b0 -> Hb. eapply (H x (a0 ++ c) y b0); [reflexivity|exact Hb]. Qed.
Lemma heads_r a c b : heads a (b ++ c) -> heads a b.
Proof. intros H x a0 y b0 Ha ->. eapply (H x a0 y (b0 ++ c)); [exact Ha|reflexivity]. Qed.

(** Joining two chains that agree on a suffix. *)
Lemma chain_bridge_r P b y a1 R M : chain (P ++ b ++ [y] ++ M) -> chain (R ++ a1 ++ M) ->
  (forall z l, a1 = z :: l -> okp y z) -> chain (P ++ b ++ [y] ++ a1 ++ M).
Proof.
  intros H1 H2 Hz. destruct a1 as [|z l]; [exact H1|].
  cbn [app] in *. rewrite chain_shift in *. apply chain_mid in H1. apply chain_mid. split; [apply H1|].
  apply chain_cons2. split; [eapply Hz; reflexivity|]. apply chain_app_r in H2. exact H2.
Qed.

Lemma hi_block_a pre post a1 a2 b y out : hi_inv pre post (a1 ++ a2) (b ++ [y]) out ->
  (forall z l, a2 = z :: l -> lt y z = true) ->
  hi_inv pre post a1 (b ++ [y]) (a2 ++ out).
Proof.
  intros (H1 & H2 & H3 & H4) Hz. repeat split.
  - norm. exact H1.
  - rewrite <- !app_assoc in *. rewrite (app_assoc pre) in H1.
    eapply chain_bridge_r; [exact H2|exact H1|]. intros z l E. left. eapply Hz. exact E.
  - eapply before_sub; [exact H3|apply incl_appl, incl_refl|apply incl_refl].
  - eapply heads_l. exact H4.
Qed.

Lemma hi_block_b pre post a x b1 b2 out : hi_inv pre post (a ++ [x]) (b1 ++ b2) out ->
  (forall z l, b2 = z :: l -> lt z x = false) ->
  hi_inv pre post (a ++ [x]) b1 (b2 ++ out).
Proof.
  intros (H1 & H2 & H3 & H4) Hz. repeat split.
  - rewrite <- !app_assoc in *. rewrite (app_assoc pre) in H2.
    eapply chain_bridge_r; [exact H1|exact H2|]. intros z l E. right. split; [eapply Hz; exact E|].
    apply H3; rewrite in_app_iff; right; [left; reflexivity|rewrite E; left; reflexivity].
  - norm. exact H2.
  - eapply before_sub; [exact H3|apply incl_refl|apply incl_appl, incl_refl].
  - eapply heads_r. exact H4.
Qed.

Lemma hi_copy_a pre post a y out mg : a <> [] -> hi_inv pre post a [y] out ->
  good pre post (a ++ [y] ++ out) (y :: a ++ out, mg).
Proof.
  intros Ha (H1 & H2 & H3 & H4). split; cbn [fst].
  - destruct a as [|x a]; [congruence|]. cbn [app] in *. rewrite <- app_assoc.
    apply chain_mid in H1. apply chain_mid in H2. apply chain_mid. split; [apply H2|].
    apply chain_cons2. split; [left; eapply H4; reflexivity|]. apply H1.
  - cbn [app]. apply Permutation_middle.
Qed.

Lemma rev_firstn_skipn (l : list A) k : k <= length l ->
  rev (firstn (length l - k) l) = skipn k (rev l) /\ skipn (length l - k) l = rev (firstn k (rev l)).
Proof.
  intros Hk. rewrite firstn_rev, skipn_rev, rev_involutive. split; reflexivity.
Qed.

Lemma gallop_le p n hint : hint < n -> gallop p n hint <= n.
Proof. intros H. apply (gallop_spec p n hint H). Qed.

Lemma merge_hi_loop_good pre post : forall fuel md ra rb out mg,
  length ra + length rb < fuel -> hi_inv pre post (rev ra) (rev rb) out ->
  good pre post (rev ra ++ rev rb ++ out) (merge_hi_loop A lt fuel md ra rb out mg).
Proof.
  induction fuel as [|fuel IH]; intros md ra rb out mg Hf HI; [lia|].
  cbn [merge_hi_loop].
  assert (Hnil : forall b o, hi_inv pre post [] b o -> forall g, good pre post (b ++ o) (b ++ o, g)).
  { intros b' o (H1 & H2 & _ & _) g. split; cbn [fst]; [|apply Permutation_refl].
    rewrite <- !app_assoc. exact H2. }
  assert (Hnilb : forall a o, hi_inv pre post a [] o -> forall g, good pre post (a ++ o) (a ++ o, g)).
  { intros b' o (H1 & H2 & _ & _) g. split; cbn [fst]; [|apply Permutation_refl].
    rewrite <- !app_assoc. exact H1. }
  destruct ra as [|x ra]; [apply (Hnil (rev rb) out); exact HI|].
  destruct rb as [|y rb]; [apply (Hnilb (rev (x :: ra)) out); exact HI|].
  assert (Hne : forall z (l : list A), rev (z :: l) <> []).
  { intros z l H. apply (f_equal (@length A)) in H. rewrite rev_length in H. discriminate. }
  destruct rb as [|y' rb].
  { apply hi_copy_a; [apply Hne|exact HI]. }
  set (rb1 := y' :: rb) in *.
  destruct md as [ac bc|].
  - destruct (lt y x) eqn:E.
    + assert (HI' : hi_inv pre post (rev ra) (rev (y :: rb1)) (x :: out)).
      { cbn [rev] in HI |- *. apply (hi_block_a _ _ (rev ra) [x]) in HI; [exact HI|].
        intros z l E'. injection E' as <- <-. exact E. }
      assert (G : forall md mg, good pre post (rev (x :: ra) ++ rev (y :: rb1) ++ out) (merge_hi_loop A lt fuel md ra (y :: rb1) (x :: out) mg)).
      { intros md' mg'. destruct (IH md' ra (y :: rb1) (x :: out) mg') as [G1 G2]; [cbn [length] in *; lia|exact HI'|].
        split; [exact G1|]. eapply perm_trans; [exact G2|]. cbn [rev]. rewrite <- (app_assoc (rev ra) [x]).
        apply Permutation_app_head. exact (Permutation_sym (Permutation_middle (rev (y :: rb1)) out x)). }
      destruct (Nat.leb mg (S ac)); apply G.
    + assert (HI' : hi_inv pre post (rev (x :: ra)) (rev rb1) (y :: out)).
      { cbn [rev] in HI |- *. apply (hi_block_b _ _ _ _ _ [y]) in HI; [exact HI|].
        intros z l E'. injection E' as <- <-. exact E. }
      assert (G : forall md mg, good pre post (rev (x :: ra) ++ rev (y :: rb1) ++ out) (merge_hi_loop A lt fuel md (x :: ra) rb1 (y :: out) mg)).
      { intros md' mg'. destruct (IH md' (x :: ra) rb1 (y :: out) mg') as [G1 G2]; [cbn [length] in *; lia|exact HI'|].
        split; [exact G1|]. eapply perm_trans; [exact G2|].
        change (rev (y :: rb1)) with (rev rb1 ++ [y]). rewrite <- (app_assoc (rev rb1) [y]). apply Permutation_refl. }
      destruct (Nat.leb mg (S bc)); apply G.
  - cbn zeta. set (a := rev (x :: ra)) in *. set (na := length (x :: ra)) in *.
    assert (Hla : length a = na) by apply rev_length.
    set (k := gallop_right A lt y a (na - 1)).
    destruct (gallop_right_spec y a (na - 1)) as [K1 K2]; [rewrite Hla; unfold na; cbn [length]; lia|].
    fold k in K1, K2.
    assert (Hk : k <= na).
    { unfold k, gallop_right. rewrite Hla. apply gallop_le. unfold na; cbn [length]; lia. }
    destruct (rev_firstn_skipn (x :: ra) k Hk) as [R1 R2]. fold na in R1, R2. fold a in R1, R2.
    rewrite R1.
    assert (HI' := HI). rewrite <- (firstn_skipn k a) in HI'.
    change (rev (y :: rb1)) with (rev rb1 ++ [y]) in HI'.
    apply hi_block_a in HI'; [|exact K2].
    assert (Hperm : forall r, good pre post (firstn k a ++ rev (y :: rb1) ++ skipn k a ++ out) r ->
              good pre post (a ++ rev (y :: rb1) ++ out) r).
    { intros r [G1 G2]. split; [exact G1|]. eapply perm_trans; [exact G2|].
      rewrite <- (firstn_skipn k a) at 3. rewrite <- app_assoc. apply Permutation_app_head.
      rewrite !app_assoc. apply Permutation_app_tail. apply Permutation_app_comm. }
    apply Hperm. clear Hperm. set (out1 := skipn k a ++ out) in *.
    assert (Hlen : length (skipn (na - k) (x :: ra)) <= na) by (rewrite skipn_length; fold na; lia).
    destruct (skipn (na - k) (x :: ra)) as [|x1 ra1] eqn:Ea1.
    { symmetry in R2. apply (f_equal (@rev A)) in R2. rewrite rev_involutive in R2. rewrite R2 in *.
      apply (Hnil (rev (y :: rb1)) out1). exact HI'. }
    assert (R3 : firstn k a = rev (x1 :: ra1)) by (rewrite R2, rev_involutive; reflexivity).
    rewrite R3 in *. clear R2 R3.
    assert (HI2 : hi_inv pre post (rev (x1 :: ra1)) (rev rb1) (y :: out1)).
    { cbn [rev] in HI' |- *. apply (hi_block_b _ _ _ _ _ [y]) in HI'; [exact HI'|].
      intros z l E'. injection E' as <- <-. apply (K1 (rev ra1)). reflexivity. }
    assert (Hperm : forall r, good pre post (rev (x1 :: ra1) ++ rev rb1 ++ y :: out1) r ->
              good pre post (rev (x1 :: ra1) ++ rev (y :: rb1) ++ out1) r).
    { intros r [G1 G2]. split; [exact G1|]. eapply perm_trans; [exact G2|].
      change (rev (y :: rb1)) with (rev rb1 ++ [y]). rewrite <- (app_assoc (rev rb1) [y]). apply Permutation_refl. }
    apply Hperm. clear Hperm.
    destruct rb as [|y2 rb]; [apply hi_copy_a; [apply Hne|exact HI2]|].
    fold rb1. set (nb := length rb1). set (b := rev rb1) in *.
    assert (Hlb : length b = nb) by apply rev_length.
    set (k' := gallop_left A lt x1 b (nb - 1)).
    destruct (gallop_left_spec x1 b (nb - 1)) as [L1 L2]; [rewrite Hlb; unfold nb, rb1; cbn [length]; lia|].
    fold k' in L1, L2.
    assert (Hk' : k' <= nb).
    { unfold k', gallop_left. rewrite Hlb. apply gallop_le. unfold nb, rb1; cbn [length]; lia. }
    destruct (rev_firstn_skipn rb1 k' Hk') as [S1 S2]. fold nb in S1, S2. fold b in S1, S2.
    change (y' :: y2 :: rb) with rb1. fold nb.
    rewrite S1.
    assert (HI3 := HI2). rewrite <- (firstn_skipn k' b) in HI3.
    change (rev (x1 :: ra1)) with (rev ra1 ++ [x1]) in HI3.
    apply hi_block_b in HI3; [|exact L2].
    change (rev ra1 ++ [x1]) with (rev (x1 :: ra1)) in HI3.
    assert (Hperm : forall r, good pre post (rev (x1 :: ra1) ++ firstn k' b ++ skipn k' b ++ y :: out1) r ->
              good pre post (rev (x1 :: ra1) ++ b ++ y :: out1) r).
    { intros r [G1 G2]. split; [exact G1|]. eapply perm_trans; [exact G2|].
      rewrite (app_assoc (firstn k' b)), firstn_skipn. apply Permutation_refl. }
    apply Hperm. clear Hperm. set (out2 := skipn k' b ++ y :: out1) in *.
    assert (Hlenb : length (skipn (nb - k') rb1) <= nb) by (rewrite skipn_length; fold nb; lia).
    destruct (skipn (nb - k') rb1) as [|y1 rb2] eqn:Eb1.
    { symmetry in S2. apply (f_equal (@rev A)) in S2. rewrite rev_involutive in S2. rewrite S2 in *.
      apply (Hnilb (rev (x1 :: ra1)) out2). exact HI3. }
    assert (S3 : firstn k' b = rev (y1 :: rb2)) by (rewrite S2, rev_involutive; reflexivity).
    rewrite S3 in *. clear S2 S3.
    destruct rb2 as [|y3 rb2]; [apply hi_copy_a; [apply Hne|exact HI3]|].
    set (rb3 := y3 :: rb2) in *.
    assert (HI4 : hi_inv pre post (rev ra1) (rev (y1 :: rb3)) (x1 :: out2)).
    { cbn [rev] in HI3 |- *. apply (hi_block_a _ _ (rev ra1) [x1]) in HI3; [exact HI3|].
      intros z l E'. injection E' as <- <-. apply (L1 (rev rb3)). reflexivity. }
    assert (G : forall md mg, good pre post (rev (x1 :: ra1) ++ rev (y1 :: rb3) ++ out2)
                 (merge_hi_loop A lt fuel md ra1 (y1 :: rb3) (x1 :: out2) mg)).
    { intros md' mg'. destruct (IH md' ra1 (y1 :: rb3) (x1 :: out2) mg') as [G1 G2];
        [|exact HI4|].
      - unfold na, nb, rb1 in *. cbn [length] in *. lia.
      - split; [exact G1|]. eapply perm_trans; [exact G2|].
        change (rev (x1 :: ra1)) with (rev ra1 ++ [x1]). rewrite <- (app_assoc (rev ra1) [x1]).
        apply Permutation_app_head. exact (Permutation_sym (Permutation_middle (rev (y1 :: rb3)) out2 x1)). }
    destruct (_ || _); apply G.
Qed.

Lemma merge_hi_good pre post a b mg a0 x b0 y : a = a0 ++ [x] -> b = b0 ++ [y] ->
  chain (pre ++ a ++ post) -> chain (pre ++ b ++ post) -> before a b -> heads a b -> lt y x = true ->
  good pre post (a ++ b) (merge_hi A lt a b mg).
Proof.
  intros -> -> H1 H2 H3 H4 Hxy. unfold merge_hi. rewrite rev_unit.
  assert (HI : hi_inv pre post a0 (b0 ++ [y]) [x]).
  { apply (hi_block_a _ _ a0 [x] b0 y []).
    - repeat split; assumption.
    - intros z l E. injection E as <- <-. exact Hxy. }
  destruct (merge_hi_loop_good pre post (S (length (a0 ++ [x]) + length (b0 ++ [y]))) (OnePair 0 0) (rev a0) (rev (b0 ++ [y])) [x] mg)
    as [G1 G2].
  - rewrite !rev_length, !app_length. lia.
  - rewrite !rev_involutive. exact HI.
  - split; [exact G1|]. eapply perm_trans; [exact G2|]. rewrite !rev_involutive, <- (app_assoc a0 [x]).
    apply Permutation_app_head. apply Permutation_app_comm.
Qed.

(** ** merge_at *)
Lemma merge_at_good a b mg : chain a -> chain b -> before a b ->
  chain (fst (merge_at A lt a b mg)) /\ Permutation (fst (merge_at A lt a b mg)) (a ++ b).
Proof.
  intros Ha Hb Hab. unfold merge_at. destruct b as [|y b].
  { cbn [fst]. rewrite app_nil_r. split; [exact Ha|apply Permutation_refl]. }
  destruct a as [|x0 a0].
  { rewrite firstn_nil, skipn_nil. cbn [fst app]. split; [exact Hb|apply Permutation_refl]. }
  set (a := x0 :: a0) in *. cbn zeta.
  set (k := gallop_right A lt y a 0).
  destruct (gallop_right_spec y a 0) as [K1 K2]; [cbn; lia|]. fold k in K1, K2.
  rewrite <- (firstn_skipn k a) in Ha, Hab.
  match goal with |- _ /\ Permutation ?r _ =>
    enough (chain r /\ Permutation r ((firstn k a ++ skipn k a) ++ y :: b)) as G
      by (rewrite firstn_skipn in G; exact G) end.
  set (pre := firstn k a) in *.
  assert (Hpre : chain (pre ++ y :: b)).
  { apply (chain_bridge [] pre (skipn k a)); [exact Ha|exact Hb|].
    intros l z E. right. split; [eapply K1; exact E|]. apply Hab; [|left; reflexivity].
    rewrite E, !in_app_iff. left. right. left. reflexivity. }
  destruct (skipn k a) as [|x a1].
  { rewrite app_nil_r. cbn [fst]. split; [exact Hpre|apply Permutation_refl]. }
  specialize (K2 x a1 eq_refl).
  set (bb := y :: b) in *. set (la := last (x :: a1) y).
  set (nb := gallop_left A lt la bb (length bb - 1)).
  destruct (gallop_left_spec la bb (length bb - 1)) as [L1 L2]; [cbn [length bb]; lia|]. fold nb in L1, L2.
  destruct (exists_last (l := x :: a1)) as (a2 & la' & Ela); [discriminate|].
  assert (la' = la) as -> by (unfold la; rewrite Ela, last_last; reflexivity).
  assert (Hpost : chain (pre ++ (x :: a1) ++ skipn nb bb)).
  { destruct (skipn nb bb) as [|z post] eqn:Ez; [rewrite app_nil_r; exact Ha|].
    rewrite Ela in *. rewrite <- app_assoc. cbn [app].
    replace (pre ++ a2 ++ la :: z :: post) with ((pre ++ a2) ++ la :: z :: post) by (rewrite <- app_assoc; reflexivity).
    replace (pre ++ a2 ++ [la]) with ((pre ++ a2) ++ [la]) in Ha by (rewrite <- app_assoc; reflexivity).
    apply chain_mid. split; [exact Ha|]. apply chain_cons2. split.
    - right. split; [eapply L2; reflexivity|]. apply Hab.
      + rewrite !in_app_iff. right. right. left. reflexivity.
      + apply (incl_skipn nb bb). rewrite Ez. left. reflexivity.
    - rewrite <- (firstn_skipn nb bb) in Hb. rewrite Ez in Hb. apply chain_app_r in Hb. exact Hb. }
  assert (Hpre' : chain (pre ++ firstn nb bb ++ skipn nb bb)) by (rewrite firstn_skipn; exact Hpre).
  assert (Hbf : before (x :: a1) (firstn nb bb)).
  { eapply before_sub; [exact Hab|apply incl_appr, incl_refl|apply incl_firstn]. }
  assert (Hbb : bb = firstn nb bb ++ skipn nb bb) by (symmetry; apply firstn_skipn).
  destruct (firstn nb bb) as [|w b1] eqn:Eb.
  { cbn [fst]. split; [exact Hpost|]. cbn [app] in Hbb. rewrite <- Hbb, <- !app_assoc. apply Permutation_refl. }
  assert (w = y) as -> by (change (y :: b = w :: (b1 ++ skipn nb bb)) in Hbb; injection Hbb as Hbb _; symmetry; exact Hbb).
  destruct (exists_last (l := y :: b1)) as (b2 & lb & Elb); [discriminate|].
  assert (Hlast : lt lb la = true) by (apply (L1 b2); exact Elb).
  assert (G : good pre (skipn nb bb) ((x :: a1) ++ y :: b1)
                (if length (x :: a1) <=? length (y :: b1) then merge_lo A lt (x :: a1) (y :: b1) mg
                 else merge_hi A lt (x :: a1) (y :: b1) mg)).
  { destruct (_ <=? _).
    - eapply merge_lo_good; [reflexivity|reflexivity|exact Hpost|exact Hpre'|exact Hbf| |exact K2].
      intros u v u' v' E1 E2. rewrite Ela in E1. rewrite Elb in E2.
      apply app_inj_tail in E1. apply app_inj_tail in E2. destruct E1 as [_ <-], E2 as [_ <-]. exact Hlast.
    - eapply merge_hi_good; [exact Ela|exact Elb|exact Hpost|exact Hpre'|exact Hbf| |exact Hlast].
      intros u v u' v' E1 E2. injection E1 as <- <-. injection E2 as <- <-. exact K2. }
  destruct (if _ <=? _ then _ else _) as [m mg']. destruct G as [G1 G2]. cbn [fst] in *.
  split; [exact G1|]. 
  apply perm_trans with ((pre ++ x :: a1) ++ (y :: b1) ++ skipn nb bb);
    [|rewrite <- Hbb; apply Permutation_refl].
  rewrite <- !app_assoc. apply Permutation_app_head.
  rewrite app_assoc. apply Permutation_app_tail. exact G2.
Qed.

(** ** Stacks of runs *)
Definition stack_ok (st : list (list A)) : Prop :=
  Forall (fun r => chain r) st /\ StronglySorted (fun z y => before y z) st.

Lemma before_perm_l a a' b : Permutation a a' -> before a b -> before a' b.
Proof. intros HP H x y Hx Hy. apply H; [|exact Hy]. eapply Permutation_in; [apply Permutation_sym; exact HP|exact Hx]. Qed.
Lemma before_perm_r a b b' : Permutation b b' -> before a b -> before a b'.
Proof. intros HP H x y Hx Hy. apply H; [exact Hx|]. eapply Permutation_in; [apply Permutation_sym; exact HP|exact Hy]. Qed.
Lemma before_app_l a b c : before a c -> before b c -> before (a ++ b) c.
Proof. intros H1 H2 x y Hx Hy. apply in_app_or in Hx. destruct Hx; auto. Qed.
Lemma before_app_r a b c : before a b -> before a c -> before a (b ++ c).
Proof. intros H1 H2 x y Hx Hy. apply in_app_or in Hy. destruct Hy; auto. Qed.

Lemma stack_merge_top z y rest mg m mg' : stack_ok (z :: y :: rest) ->
  merge_at A lt y z mg = (m, mg') ->
  stack_ok (m :: rest) /\ Permutation (concat (m :: rest)) (concat (z :: y :: rest)).
Proof.
  intros [HC HS] HM. inversion HC as [|? ? Cz HC1]; subst. inversion HC1 as [|? ? Cy HC2]; subst.
  inversion HS as [|? ? HS1 Bz]; subst. inversion HS1 as [|? ? HS2 By]; subst.
  inversion Bz as [|? ? Bzy Bz']; subst.
  destruct (merge_at_good y z mg Cy Cz Bzy) as [G1 G2]. rewrite HM in G1, G2. cbn [fst] in *.
  split.
  - split; [constructor; assumption|]. constructor; [exact HS2|].
    rewrite Forall_forall in *. intros r Hr. eapply before_perm_r; [apply Permutation_sym; exact G2|].
    apply before_app_r; auto.
  - cbn [concat]. rewrite app_assoc. apply Permutation_app_tail.
    eapply perm_trans; [exact G2|apply Permutation_app_comm].
Qed.

Lemma stack_merge_second z y x rest mg m mg' : stack_ok (z :: y :: x :: rest) ->
  merge_at A lt x y mg = (m, mg') ->
  stack_ok (z :: m :: rest) /\ Permutation (concat (z :: m :: rest)) (concat (z :: y :: x :: rest)).
Proof.
  intros [HC HS] HM. inversion HC as [|? ? Cz HC1]; subst.
  inversion HS as [|? ? HS1 Bz]; subst. inversion Bz as [|? ? Bzy Bz']; subst.
  inversion Bz' as [|? ? Bzx Bz'']; subst.
  destruct (stack_merge_top y x rest mg m mg') as [[C1 S1] P1]; [split; assumption|exact HM|].
  assert (Pm : Permutation m (x ++ y)).
  { inversion HC1 as [|? ? Cy HC2]; subst. inversion HC2 as [|? ? Cx HC3]; subst.
    inversion HS1 as [|? ? HS2 By]; subst. inversion By as [|? ? Byx _]; subst.
    destruct (merge_at_good x y mg Cx Cy Byx) as [_ G2]. rewrite HM in G2. exact G2. }
  split.
  - split; [constructor; assumption|]. constructor; [exact S1|]. constructor; [|exact Bz''].
    eapply before_perm_l; [apply Permutation_sym; exact Pm|]. apply before_app_l; assumption.
  - cbn [concat] in *. apply Permutation_app_head. exact P1.
Qed.

Lemma merge_collapse_ok : forall fuel st mg, stack_ok st ->
  stack_ok (fst (merge_collapse A lt fuel st mg)) /\
  Permutation (concat (fst (merge_collapse A lt fuel st mg))) (concat st).
Proof.
  assert (Htriv : forall st (mg : nat), stack_ok st -> stack_ok (fst (st, mg)) /\ Permutation (concat (fst (st, mg))) (concat st)).
  { intros st mg H. split; [exact H|apply Permutation_refl]. }
  induction fuel as [|fuel IH]; intros st mg H; [apply Htriv; exact H|].
  cbn [merge_collapse]. destruct st as [|z [|y rest]]; [apply Htriv; exact H..|].
  cbn zeta.
  assert (Htop : forall m mg', merge_at A lt y z mg = (m, mg') ->
     stack_ok (fst (merge_collapse A lt fuel (m :: rest) mg')) /\
     Permutation (concat (fst (merge_collapse A lt fuel (m :: rest) mg'))) (concat (z :: y :: rest))).
  { intros m mg' E. destruct (stack_merge_top z y rest mg m mg' H E) as [H1 P1].
    destruct (IH (m :: rest) mg' H1) as [H2 P2]. split; [exact H2|eapply perm_trans; eassumption]. }
  match goal with |- context [if ?c then _ else _] => destruct c end.
  - destruct rest as [|x rest]; [apply Htriv; exact H|].
    destruct (_ <? _).
    + destruct (merge_at A lt x y mg) as [m mg'] eqn:E.
      destruct (stack_merge_second z y x rest mg m mg' H E) as [H1 P1].
      destruct (IH (z :: m :: rest) mg' H1) as [H2 P2]. split; [exact H2|eapply perm_trans; eassumption].
    + destruct (merge_at A lt y z mg) as [m mg'] eqn:E. apply Htop. reflexivity.
  - destruct (_ <=? _); [|apply Htriv; exact H].
    destruct (merge_at A lt y z mg) as [m mg'] eqn:E. apply Htop. reflexivity.
Qed.

Lemma merge_force_ok : forall fuel st mg, stack_ok st -> length st <= fuel -> st <> [] ->
  exists r, merge_force A lt fuel st mg = [r] /\ chain r /\ Permutation r (concat st).
Proof.
  assert (Hone : forall z, stack_ok [z] -> exists r, [z] = [r] /\ chain r /\ Permutation r (concat [z])).
  { intros z [HC _]. exists z. inversion HC; subst. split; [reflexivity|]. split; [assumption|].
    cbn. rewrite app_nil_r. apply Permutation_refl. }
  induction fuel as [|fuel IH]; intros st mg H Hf Hne.
  { destruct st; [congruence|cbn in Hf; lia]. }
  cbn [merge_force]. destruct st as [|z [|y rest]]; [congruence|apply Hone; exact H|].
  assert (Htop : forall m mg', merge_at A lt y z mg = (m, mg') ->
     exists r, merge_force A lt fuel (m :: rest) mg' = [r] /\ chain r /\ Permutation r (concat (z :: y :: rest))).
  { intros m mg' E. destruct (stack_merge_top z y rest mg m mg' H E) as [H1 P1].
    destruct (IH (m :: rest) mg' H1) as (r & R1 & R2 & R3); [cbn in *; lia|discriminate|].
    exists r. split; [exact R1|]. split; [exact R2|]. eapply perm_trans; eassumption. }
  destruct rest as [|x rest].
  - destruct (merge_at A lt y z mg) as [m mg'] eqn:E. apply Htop. reflexivity.
  - destruct (_ <? _).
    + destruct (merge_at A lt x y mg) as [m mg'] eqn:E.
      destruct (stack_merge_second z y x rest mg m mg' H E) as [H1 P1].
      destruct (IH (z :: m :: rest) mg' H1) as (r & R1 & R2 & R3); [cbn in *; lia|discriminate|].
      exists r. split; [exact R1|]. split; [exact R2|]. eapply perm_trans; eassumption.
    + destruct (merge_at A lt y z mg) as [m mg'] eqn:E. apply Htop. reflexivity.
Qed.

(** ** Runs *)
Definition increasing (l : list A) : Prop := StronglySorted (fun x y => idx x < idx y) l.

Lemma run_up_spec : forall l prev a b, run_up A lt prev l = (a, b) -> increasing (prev :: l) ->
  a ++ b = l /\ chain (prev :: a).
Proof.
  induction l as [|x l IH]; intros prev a b H Hi; cbn [run_up] in H.
  - injection H as <- <-. split; [reflexivity|exact I].
  - destruct (lt x prev) eqn:E.
    + injection H as <- <-. split; [reflexivity|exact I].
    + destruct (run_up A lt x l) as [a' b'] eqn:R. injection H as <- <-.
      inversion Hi as [|? ? Hi' Hx]; subst. inversion Hx as [|? ? Hlt _]; subst.
      destruct (IH x a' b' R Hi') as [<- HC]. split; [reflexivity|].
      apply chain_cons2. split; [right; split; assumption|exact HC].
Qed.

Lemma run_down_spec : forall l prev acc a b, run_down A lt prev l (prev :: acc) = (a, b) ->
  chain (prev :: acc) -> exists taken, l = taken ++ b /\ chain a /\ Permutation a ((prev :: acc) ++ taken).
Proof.
  induction l as [|x l IH]; intros prev acc a b H HC; cbn [run_down] in H.
  - injection H as <- <-. exists []. split; [reflexivity|]. rewrite app_nil_r. split; [exact HC|apply Permutation_refl].
  - destruct (lt x prev) eqn:E.
    + apply IH in H; [|apply chain_cons2; split; [left; exact E|exact HC]].
      destruct H as (t & -> & H1 & H2). exists (x :: t). split; [reflexivity|]. split; [exact H1|].
      eapply perm_trans; [exact H2|]. cbn [app]. apply (Permutation_middle (prev :: acc)).
    + injection H as <- <-. exists []. split; [reflexivity|]. rewrite app_nil_r. split; [exact HC|apply Permutation_refl].
Qed.

Lemma count_run_spec l a b : count_run A lt l = (a, b) -> increasing l -> l <> [] ->
  chain a /\ a <> [] /\ exists t, l = t ++ b /\ Permutation a t.
Proof.
  intros H Hi Hne. unfold count_run in H. destruct l as [|x [|y l]]; [congruence| |].
  - injection H as <- <-. split; [exact I|]. split; [discriminate|]. exists [x]. split; [reflexivity|apply Permutation_refl].
  - destruct (lt y x) eqn:E.
    + apply run_down_spec in H; [|apply chain_cons2; split; [left; exact E|exact I]].
      destruct H as (t & -> & H1 & H2). split; [exact H1|]. split.
      { intros ->. apply Permutation_nil in H2. discriminate. }
      exists (x :: y :: t). split; [reflexivity|]. eapply perm_trans; [exact H2|]. apply perm_swap.
    + destruct (run_up A lt y l) as [a' b'] eqn:R. injection H as <- <-.
      inversion Hi as [|? ? Hi' Hx]; subst. inversion Hx as [|? ? Hlt _]; subst.
      destruct (run_up_spec l y a' b' R Hi') as [<- HC].
      split; [apply chain_cons2; split; [right; split; assumption|exact HC]|].
      split; [discriminate|]. exists (x :: y :: a'). split; [reflexivity|apply Permutation_refl].
Qed.

Lemma binary_insert_ok done pivot : chain done -> before done [pivot] ->
  chain (binary_insert A lt done pivot) /\ Permutation (binary_insert A lt done pivot) (done ++ [pivot]).
Proof.
  intros HC HB. unfold binary_insert. cbn zeta.
  destruct (bsearch_spec (fun i => negb (lt pivot (nth i done pivot))) (S (length done)) 0 (length done))
    as (B1 & B2 & B3); [lia|lia|]. cbn zeta in *. set (k := bsearch _ _ _ _) in *.
  destruct (cut_spec (fun z => negb (lt pivot z)) pivot done k) as [C1 C2]; [lia|exact B2|exact B3|].
  assert (HP : Permutation (firstn k done ++ pivot :: skipn k done) (done ++ [pivot])).
  { rewrite <- (firstn_skipn k done) at 3. rewrite <- app_assoc. apply Permutation_app_head.
    apply Permutation_cons_append. }
  split; [|exact HP].
  rewrite <- (firstn_skipn k done) in HC.
  assert (Hr : chain (pivot :: skipn k done)).
  { destruct (skipn k done) as [|z r] eqn:E; [exact I|]. apply chain_cons2. split.
    - left. apply negb_false_iff. apply (C2 z r). reflexivity.
    - apply chain_app_r in HC. exact HC. }
  apply (chain_bridge [] _ (skipn k done)); [exact HC|exact Hr|].
  intros l z E. right. split; [apply negb_true_iff; eapply C1; exact E|].
  apply HB; [|left; reflexivity]. apply (incl_firstn k). rewrite E, in_app_iff. right. left. reflexivity.
Qed.

Lemma binarysort_ok : forall todo done, chain done -> before done todo -> increasing todo ->
  chain (binarysort A lt done todo) /\ Permutation (binarysort A lt done todo) (done ++ todo).
Proof.
  unfold binarysort. induction todo as [|p todo IH]; intros done HC HB Hi; cbn [fold_left].
  - rewrite app_nil_r. split; [exact HC|apply Permutation_refl].
  - inversion Hi as [|? ? Hi' Hp]; subst. rewrite Forall_forall in Hp.
    destruct (binary_insert_ok done p HC) as [C1 P1].
    { eapply before_sub; [exact HB|apply incl_refl|]. intros z [<-|[]]. left. reflexivity. }
    destruct (IH (binary_insert A lt done p) C1) as [C2 P2].
    + eapply before_perm_l; [apply Permutation_sym; exact P1|]. apply before_app_l.
      * eapply before_sub; [exact HB|apply incl_refl|apply incl_tl, incl_refl].
      * intros z w [<-|[]] Hw. apply Hp. exact Hw.
    + exact Hi'.
    + split; [exact C2|]. eapply perm_trans; [exact P2|].
      eapply perm_trans; [apply Permutation_app_tail; exact P1|]. rewrite <- app_assoc. apply Permutation_refl.
Qed.

(** ** The main loop *)
Lemma increasing_app a b : increasing (a ++ b) -> increasing a /\ increasing b /\ before a b.
Proof.
  induction a as [|x a IH]; cbn [app]; intros H.
  - split; [constructor|]. split; [exact H|]. intros y z [].
  - inversion H as [|? ? H1 H2]; subst. destruct (IH H1) as (I1 & I2 & I3).
    rewrite Forall_forall in H2. split.
    + constructor; [exact I1|]. apply Forall_forall. intros y Hy. apply H2. apply in_or_app. left. exact Hy.
    + split; [exact I2|]. intros y z [<-|Hy] Hz; [apply H2; apply in_or_app; right; exact Hz|].
      apply I3; assumption.
Qed.

Lemma sort_loop_ok minrun : forall fuel l st mg,
  length l <= fuel -> increasing l -> stack_ok st -> before (concat st) l ->
  stack_ok (fst (sort_loop A lt fuel minrun l st mg)) /\
  Permutation (concat (fst (sort_loop A lt fuel minrun l st mg))) (concat st ++ l).
Proof.
  induction fuel as [|fuel IH]; intros l st mg Hf Hi Hst HB.
  { destruct l; [|cbn in Hf; lia]. cbn. rewrite app_nil_r. split; [exact Hst|apply Permutation_refl]. }
  cbn [sort_loop]. destruct l as [|x0 l0].
  { cbn. rewrite app_nil_r. split; [exact Hst|apply Permutation_refl]. }
  set (l := x0 :: l0) in *.
  destruct (count_run A lt l) as [run rest] eqn:ER.
  destruct (count_run_spec l run rest ER Hi) as (C1 & C2 & t & Et & Pt); [discriminate|].
  cbn zeta. set (extra := Nat.min (length l) minrun - length run).
  rewrite Et in Hi. destruct (increasing_app _ _ Hi) as (Hit & Hir & Htr).
  assert (Hrt : before run rest) by (eapply before_perm_l; [apply Permutation_sym; exact Pt|exact Htr]).
  destruct (binarysort_ok (firstn extra rest) run C1) as [C3 P3].
  { eapply before_sub; [exact Hrt|apply incl_refl|apply incl_firstn]. }
  { rewrite <- (firstn_skipn extra rest) in Hir. apply increasing_app in Hir. apply Hir. }
  set (run' := binarysort A lt run (firstn extra rest)) in *.
  assert (Hst' : stack_ok (run' :: st)).
  { destruct Hst as [S1 S2]. split; [constructor; assumption|]. constructor; [exact S2|].
    apply Forall_forall. intros r Hr. eapply before_perm_r; [apply Permutation_sym; exact P3|].
    assert (Hr' : incl r (concat st)).
    { intros z Hz. apply in_concat. exists r. split; assumption. }
    apply before_app_r.
    - eapply before_perm_r; [apply Permutation_sym; exact Pt|].
      eapply before_sub; [exact HB|exact Hr'|]. rewrite Et. apply incl_appl, incl_refl.
    - eapply before_sub; [exact HB|exact Hr'|]. rewrite Et. apply incl_appr. apply incl_firstn. }
  destruct (merge_collapse_ok (S (length st)) (run' :: st) mg Hst') as [M1 M2].
  destruct (merge_collapse A lt (S (length st)) (run' :: st) mg) as [st' mg'] eqn:EM. cbn [fst] in *.
  assert (P4 : Permutation (concat st' ++ skipn extra rest) (concat st ++ l)).
  { eapply perm_trans; [apply Permutation_app_tail; exact M2|]. cbn [concat].
    rewrite <- app_assoc. eapply perm_trans; [apply Permutation_app_tail; exact P3|].
    rewrite <- app_assoc.
    eapply perm_trans; [apply Permutation_app_head, Permutation_app_head, Permutation_app_comm|].
    rewrite (app_assoc (firstn extra rest)), firstn_skipn.
    rewrite Et. eapply perm_trans; [apply Permutation_app_tail; exact Pt|].
    rewrite !app_assoc. eapply perm_trans; [apply Permutation_app_comm|]. rewrite app_assoc.
    apply Permutation_refl. }
  destruct (IH (skipn extra rest) st' mg') as [R1 R2].
  - assert (length t = length run) by (symmetry; apply Permutation_length; exact Pt).
    assert (length l = length t + length rest) by (rewrite Et at 1; apply app_length).
    destruct run; [congruence|]. cbn [length] in *. rewrite skipn_length. lia.
  - rewrite <- (firstn_skipn extra rest) in Hir. apply increasing_app in Hir. apply Hir.
  - exact M1.
  - eapply before_perm_l; [apply Permutation_sym; exact M2|]. cbn [concat]. apply before_app_l.
    + eapply before_perm_l; [apply Permutation_sym; exact P3|]. apply before_app_l.
      * eapply before_sub; [exact Hrt|apply incl_refl|apply incl_skipn].
      * rewrite <- (firstn_skipn extra rest) in Hir. apply increasing_app in Hir. apply Hir.
    + eapply before_sub; [exact HB|apply incl_refl|]. rewrite Et. apply incl_appr, incl_skipn.
  - split; [exact R1|]. eapply perm_trans; [exact R2|exact P4].
Qed.

Lemma timsort_ok l : increasing l -> chain (timsort A lt l) /\ Permutation (timsort A lt l) l.
Proof.
  intros Hi. unfold timsort. destruct (Nat.ltb_spec (length l) 2) as [H|H].
  { split; [|apply Permutation_refl]. destruct l as [|x [|y l]]; [exact I|exact I|cbn in H; lia]. }
  destruct (sort_loop_ok (minrun_loop (length l) (length l) 0) (length l) l [] MIN_GALLOP) as [S1 S2].
  - lia.
  - exact Hi.
  - split; constructor.
  - intros x y [].
  - destruct (sort_loop A lt _ _ l [] MIN_GALLOP) as [st mg]. cbn [fst concat app] in *.
    destruct (merge_force_ok (length st) st mg S1) as (r & -> & R1 & R2); [lia| |].
    + intros ->. cbn in S2. apply Permutation_nil in S2. subst. cbn in H. lia.
    + split; [exact R1|]. eapply perm_trans; eassumption.
Qed.
End Correct.

Lemma cpython_sort_contract : sort_contract cpython_sort.
Proof.
  intros A lt l. exists (timsort (nat * A) (fun x y => lt (snd x) (snd y)) (enumerate l)).
  destruct (timsort_ok (fun x y : nat * A => lt (snd x) (snd y)) fst (enumerate l)) as [H1 H2].
  - apply enumerate_sorted.
  - split; [exact H2|]. split; [reflexivity|exact H1].
Qed.
