(** The transcribed list.sort sees its elements through the answers to comparisons only. *)
From Coq Require Import List Bool Arith Lia.
From Verif Require Import PySort Timsort SortFacts.
Import ListNotations.

Section Related.
Context {A B : Type} (R : A -> B -> Prop) (ltA : A -> A -> bool) (ltB : B -> B -> bool).
Hypothesis same : forall x y u v, R x u -> R y v -> ltB u v = ltA x y.
Notation RL := (Forall2 R).
Notation RS := (Forall2 (Forall2 R)).

Lemma r_length {C D} (Q : C -> D -> Prop) a b : Forall2 Q a b -> length b = length a.
Proof. induction 1; cbn; congruence. Qed.
Lemma r_firstn k : forall a b, RL a b -> RL (firstn k a) (firstn k b).
Proof. induction k as [|k IH]; intros a b F; [constructor|]. destruct F; cbn; constructor; auto. Qed.
Lemma r_skipn k : forall a b, RL a b -> RL (skipn k a) (skipn k b).
Proof. induction k as [|k IH]; intros a b F; [exact F|]. destruct F; cbn; auto. Qed.
Lemma r_app a b c d : RL a b -> RL c d -> RL (a ++ c) (b ++ d).
Proof. apply Forall2_app. Qed.
Lemma r_rev a b : RL a b -> RL (rev a) (rev b).
Proof. induction 1; cbn; [constructor|]. apply r_app; auto. Qed.
Lemma r_nth i : forall a b d e, RL a b -> R d e -> R (nth i a d) (nth i b e).
Proof. induction i as [|i IH]; intros a b d e F D; destruct F; cbn; auto. Qed.
Lemma r_last a b d e : RL a b -> R d e -> R (last a d) (last b e).
Proof. intros F D. induction F as [|x u a b X F IH]; [exact D|]. destruct F; [exact X|]. exact IH. Qed.

Lemma bsearch_same fuel p q : (forall i, p i = q i) -> forall l r, bsearch fuel p l r = bsearch fuel q l r.
Proof. intros E. induction fuel as [|k IH]; intros l r; [reflexivity|]. cbn. rewrite E, !IH. reflexivity. Qed.
Lemma gallop_up_same fuel p q h m : (forall i, p i = q i) -> forall l o, gallop_up fuel p h m l o = gallop_up fuel q h m l o.
Proof. intros E. induction fuel as [|k IH]; intros l r; [reflexivity|]. cbn [gallop_up]. rewrite E, !IH. reflexivity. Qed.
Lemma gallop_down_same fuel p q h m : (forall i, p i = q i) -> forall l o, gallop_down fuel p h m l o = gallop_down fuel q h m l o.
Proof. intros E. induction fuel as [|k IH]; intros l r; [reflexivity|]. cbn [gallop_down]. rewrite E, !IH. reflexivity. Qed.
Lemma gallop_same p q n h : (forall i, p i = q i) -> gallop p n h = gallop q n h.
Proof.
  intros E. unfold gallop. rewrite E, (gallop_up_same _ p q), (gallop_down_same _ p q) by exact E.
  destruct (gallop_up _ _ _ _ _ _), (gallop_down _ _ _ _ _ _). rewrite !(bsearch_same _ p q) by exact E. reflexivity.
Qed.
Lemma gallop_left_same k j a b h : R k j -> RL a b -> gallop_left B ltB j b h = gallop_left A ltA k a h.
Proof.
  intros K F. unfold gallop_left. rewrite (r_length _ _ _ F). apply gallop_same. intros i. apply same; [apply r_nth; assumption|exact K].
Qed.
Lemma gallop_right_same k j a b h : R k j -> RL a b -> gallop_right B ltB j b h = gallop_right A ltA k a h.
Proof.
  intros K F. unfold gallop_right. rewrite (r_length _ _ _ F). apply gallop_same. intros i. f_equal. apply same; [exact K|apply r_nth; assumption].
Qed.

Lemma r_insert a b x u : RL a b -> R x u -> RL (binary_insert A ltA a x) (binary_insert B ltB b u).
Proof.
  intros F X. unfold binary_insert. rewrite (r_length _ _ _ F).
  rewrite (bsearch_same _ (fun i => negb (ltB u (nth i b u))) (fun i => negb (ltA x (nth i a x))))
    by (intros i; f_equal; apply same; [exact X|apply r_nth; assumption]).
  apply r_app; [apply r_firstn; exact F|]. constructor; [exact X|apply r_skipn; exact F].
Qed.
Lemma r_binarysort l m : RL l m -> forall a b, RL a b -> RL (binarysort A ltA a l) (binarysort B ltB b m).
Proof. unfold binarysort. induction 1; intros; cbn [fold_left]; [assumption|]. apply IHForall2. apply r_insert; assumption. Qed.

Definition RP (p : list A * list A) (q : list B * list B) : Prop := RL (fst p) (fst q) /\ RL (snd p) (snd q).
Lemma r_run_up l m : RL l m -> forall x u, R x u -> RP (run_up A ltA x l) (run_up B ltB u m).
Proof.
  induction 1 as [|y v l m Y F IH]; intros x u X; [split; constructor|]. cbn. rewrite (same _ _ _ _ Y X).
  destruct (ltA y x); [split; constructor; assumption|]. specialize (IH _ _ Y).
  destruct (run_up A ltA y l), (run_up B ltB v m). destruct IH. split; [constructor|]; assumption.
Qed.
Lemma r_run_down l m : RL l m -> forall x u a b, R x u -> RL a b -> RP (run_down A ltA x l a) (run_down B ltB u m b).
Proof.
  induction 1 as [|y v l m Y F IH]; intros x u a b X D; [split; [exact D|constructor]|]. cbn. rewrite (same _ _ _ _ Y X).
  destruct (ltA y x); [|split; [exact D|constructor; assumption]]. apply IH; [exact Y|constructor; assumption].
Qed.
Lemma r_count_run l m : RL l m -> RP (count_run A ltA l) (count_run B ltB m).
Proof.
  intros F. destruct F as [|x u l m X F]; [split; constructor|]. destruct F as [|y v l m Y F]; [split; repeat constructor; assumption|].
  cbn. rewrite (same _ _ _ _ Y X). destruct (ltA y x); [apply r_run_down; [assumption|assumption|repeat constructor; assumption]|].
  pose proof (r_run_up _ _ F _ _ Y) as P. destruct (run_up A ltA y l), (run_up B ltB v m). destruct P.
  split; [repeat constructor; assumption|assumption].
Qed.

Definition RM (p : list A * nat) (q : list B * nat) : Prop := RL (fst p) (fst q) /\ snd q = snd p.
Ltac related :=
  repeat first [ assumption | apply r_app | apply r_rev | apply r_firstn | apply r_skipn | constructor ].
Ltac finished := split; [cbn [fst]; related|reflexivity].
Lemma r_merge_lo_loop fuel : forall md a b out mg a' b' out', RL a a' -> RL b b' -> RL out out' ->
  RM (merge_lo_loop A ltA fuel md a b out mg) (merge_lo_loop B ltB fuel md a' b' out' mg).
Proof.
  induction fuel as [|k IH]; intros md a b out mg a' b' out' FA FB FO; [finished|]. cbn [merge_lo_loop].
  destruct FA as [|x u a a' X FA]; [finished|]. destruct FA as [|x2 u2 a a' X2 FA]; (destruct FB as [|y v b b' Y FB]; [finished|]); [finished|].
  destruct md as [ac bc|].
  - rewrite (same _ _ _ _ Y X). destruct (ltA y x), (mg <=? S bc), (mg <=? S ac); apply IH; related.
  - rewrite (gallop_right_same y v (x :: x2 :: a) (u :: u2 :: a')) by related.
    set (ka := gallop_right A ltA y _ 0).
    assert (S1 : RL (skipn ka (x :: x2 :: a)) (skipn ka (u :: u2 :: a'))) by related.
    assert (S2 : RL (firstn ka (x :: x2 :: a)) (firstn ka (u :: u2 :: a'))) by related.
    revert S1 S2. generalize (skipn ka (x :: x2 :: a)) (skipn ka (u :: u2 :: a')) (firstn ka (x :: x2 :: a)) (firstn ka (u :: u2 :: a')).
    intros l1 m1 l2 m2 S1 S2. cbv zeta. 
    destruct S1 as [|z w l1 m1 Z S1]; [finished|]. destruct S1 as [|z2 w2 l1 m1 Z2 S1]; [finished|].
    destruct FB as [|y2 v2 b b' Y2 FB]; [finished|].
    rewrite (gallop_left_same z w (y2 :: b) (v2 :: b')) by related.
    set (kb := gallop_left A ltA z _ 0).
    assert (S3 : RL (skipn kb (y2 :: b)) (skipn kb (v2 :: b'))) by related.
    assert (S4 : RL (firstn kb (y2 :: b)) (firstn kb (v2 :: b'))) by related.
    revert S3 S4. generalize (skipn kb (y2 :: b)) (skipn kb (v2 :: b')) (firstn kb (y2 :: b)) (firstn kb (v2 :: b')).
    intros l3 m3 l4 m4 S3 S4. destruct S3 as [|z3 w3 l3 m3 Z3 S3]; [finished|].
    destruct (_ || _); apply IH; related.
Qed.
Lemma r_merge_hi_loop fuel : forall md a b out mg a' b' out', RL a a' -> RL b b' -> RL out out' ->
  RM (merge_hi_loop A ltA fuel md a b out mg) (merge_hi_loop B ltB fuel md a' b' out' mg).
Proof.
  induction fuel as [|k IH]; intros md a b out mg a' b' out' FA FB FO; [finished|]. cbn [merge_hi_loop].
  destruct FA as [|x u a a' X FA]; [finished|]. destruct FB as [|y v b b' Y FB]; [finished|]. destruct FB as [|y2 v2 b b' Y2 FB]; [finished|].
  destruct md as [ac bc|].
  - rewrite (same _ _ _ _ Y X). destruct (ltA y x), (mg <=? S bc), (mg <=? S ac); apply IH; related.
  - assert (LE : length (u :: a') = length (x :: a)) by (apply (r_length R); related). rewrite LE.
    rewrite (gallop_right_same y v (rev (x :: a)) (rev (u :: a'))) by related.
    set (ka := length (x :: a) - _). cbv zeta.
    assert (S1 : RL (skipn ka (x :: a)) (skipn ka (u :: a'))) by related.
    assert (S2 : RL (firstn ka (x :: a)) (firstn ka (u :: a'))) by related.
    revert S1 S2. generalize (skipn ka (x :: a)) (skipn ka (u :: a')) (firstn ka (x :: a)) (firstn ka (u :: a')).
    intros l1 m1 l2 m2 S1 S2.
    destruct S1 as [|z w l1 m1 Z S1]; [finished|].
    destruct FB as [|y3 v3 b b' Y3 FB]; [finished|].
    assert (LE2 : length (v2 :: v3 :: b') = length (y2 :: y3 :: b)) by (apply (r_length R); related). rewrite LE2.
    rewrite (gallop_left_same z w (rev (y2 :: y3 :: b)) (rev (v2 :: v3 :: b'))) by related.
    set (kb := length (y2 :: y3 :: b) - _).
    assert (S3 : RL (skipn kb (y2 :: y3 :: b)) (skipn kb (v2 :: v3 :: b'))) by related.
    assert (S4 : RL (firstn kb (y2 :: y3 :: b)) (firstn kb (v2 :: v3 :: b'))) by related.
    revert S3 S4. generalize (skipn kb (y2 :: y3 :: b)) (skipn kb (v2 :: v3 :: b')) (firstn kb (y2 :: y3 :: b)) (firstn kb (v2 :: v3 :: b')).
    intros l3 m3 l4 m4 S3 S4. destruct S3 as [|z3 w3 l3 m3 Z3 S3]; [finished|]. destruct S3 as [|z4 w4 l3 m3 Z4 S3]; [finished|].
    destruct (_ || _); apply IH; related.
Qed.
Lemma r_merge_lo a b mg a' b' : RL a a' -> RL b b' -> RM (merge_lo A ltA a b mg) (merge_lo B ltB a' b' mg).
Proof.
  intros FA FB. unfold merge_lo. rewrite (r_length _ _ _ FA), (r_length _ _ _ FB). destruct FB; [finished|]. apply r_merge_lo_loop; related.
Qed.
Lemma r_merge_hi a b mg a' b' : RL a a' -> RL b b' -> RM (merge_hi A ltA a b mg) (merge_hi B ltB a' b' mg).
Proof.
  intros FA FB. unfold merge_hi. rewrite (r_length _ _ _ FA), (r_length _ _ _ FB). pose proof (r_rev _ _ FA) as FR.
  destruct FR; [finished|]. apply r_merge_hi_loop; related.
Qed.
Lemma r_merge_at a b mg a' b' : RL a a' -> RL b b' -> RM (merge_at A ltA a b mg) (merge_at B ltB a' b' mg).
Proof.
  intros FA FB. unfold merge_at. destruct FB as [|y v b b' Y FB]; [finished|].
  rewrite (gallop_right_same y v a a') by related. set (k := gallop_right A ltA y a 0). cbv zeta.
  assert (S1 : RL (skipn k a) (skipn k a')) by related. assert (S2 : RL (firstn k a) (firstn k a')) by related.
  revert S1 S2. generalize (skipn k a) (skipn k a') (firstn k a) (firstn k a'). intros l1 m1 l2 m2 S1 S2.
  destruct S1 as [|z w l1 m1 Z S1]; [finished|].
  assert (LE : length (v :: b') = length (y :: b)) by (apply (r_length R); related). rewrite LE.
  rewrite (gallop_left_same (last (z :: l1) y) (last (w :: m1) v) (y :: b) (v :: b')) by (first [apply r_last|idtac]; related).
  set (nb := gallop_left A ltA _ _ _).
  assert (S3 : RL (skipn nb (y :: b)) (skipn nb (v :: b'))) by related.
  assert (S4 : RL (firstn nb (y :: b)) (firstn nb (v :: b'))) by related.
  revert S3 S4. generalize (skipn nb (y :: b)) (skipn nb (v :: b')) (firstn nb (y :: b)) (firstn nb (v :: b')).
  intros l3 m3 l4 m4 S3 S4. destruct S4 as [|z3 w3 l4 m4 Z3 S4]; [finished|].
  assert (L1 : length (w :: m1) = length (z :: l1)) by (apply (r_length R); related).
  assert (L2 : length (w3 :: m4) = length (z3 :: l4)) by (apply (r_length R); related).
  rewrite L1, L2.
  assert (M : RM (if length (z :: l1) <=? length (z3 :: l4) then merge_lo A ltA (z :: l1) (z3 :: l4) mg else merge_hi A ltA (z :: l1) (z3 :: l4) mg)
                 (if length (z :: l1) <=? length (z3 :: l4) then merge_lo B ltB (w :: m1) (w3 :: m4) mg else merge_hi B ltB (w :: m1) (w3 :: m4) mg)).
  { destruct (_ <=? _); [apply r_merge_lo|apply r_merge_hi]; related. }
  match type of M with RM ?x ?y => destruct x as [p n], y as [q n'] end. destruct M as [M E]. cbn [fst snd] in M, E. subst n'. finished.
Qed.

Definition RSM (p : list (list A) * nat) (q : list (list B) * nat) : Prop := RS (fst p) (fst q) /\ snd q = snd p.
Ltac merged a b a' b' mg :=
  let M := fresh "M" in
  assert (M : RM (merge_at A ltA a b mg) (merge_at B ltB a' b' mg)) by (apply r_merge_at; assumption);
  destruct (merge_at A ltA a b mg) as [?m ?n], (merge_at B ltB a' b' mg) as [?m' ?n']; let E := fresh "E" in destruct M as [M E]; cbn [fst snd] in M, E; rewrite E.
Lemma r_collapse fuel : forall st st' mg, RS st st' -> RSM (merge_collapse A ltA fuel st mg) (merge_collapse B ltB fuel st' mg).
Proof.
  induction fuel as [|k IH]; intros st st' mg F; [split; [exact F|reflexivity]|]. cbn [merge_collapse].
  destruct F as [|z z' st st' Z F]; [split; [constructor|reflexivity]|].
  destruct F as [|y y' st st' Y F]; [split; [repeat constructor; assumption|reflexivity]|].
  rewrite (r_length _ _ _ Z), (r_length _ _ _ Y).
  assert (C : match st' with
              | [] => false
              | x :: rest' => Nat.leb (length x) (length y + length z) || match rest' with [] => false | w :: _ => Nat.leb (length w) (length x + length y) end
              end =
              match st with
              | [] => false
              | x :: rest' => Nat.leb (length x) (length y + length z) || match rest' with [] => false | w :: _ => Nat.leb (length w) (length x + length y) end
              end).
  { destruct F as [|x x' st st' X F]; [reflexivity|]. rewrite (r_length _ _ _ X). destruct F as [|w w' st st' W F]; [reflexivity|].
    rewrite (r_length _ _ _ W). reflexivity. }
  cbv zeta. rewrite C. destruct (match st with [] => false | _ => _ end).
  - destruct F as [|x x' st st' X F]; [split; [repeat constructor; assumption|reflexivity]|]. rewrite (r_length _ _ _ X).
    destruct (_ <? _).
    + merged x y x' y' mg. apply IH. repeat constructor; assumption.
    + merged y z y' z' mg. apply IH. repeat constructor; assumption.
  - destruct (_ <=? _).
    + merged y z y' z' mg. apply IH. repeat constructor; assumption.
    + split; [repeat constructor; assumption|reflexivity].
Qed.
Lemma r_force fuel : forall st st' mg, RS st st' -> RS (merge_force A ltA fuel st mg) (merge_force B ltB fuel st' mg).
Proof.
  induction fuel as [|k IH]; intros st st' mg F; [exact F|]. cbn [merge_force].
  destruct F as [|z z' st st' Z F]; [constructor|]. destruct F as [|y y' st st' Y F]; [repeat constructor; assumption|].
  destruct F as [|x x' st st' X F].
  - merged y z y' z' mg. apply IH. repeat constructor; assumption.
  - rewrite (r_length _ _ _ X), (r_length _ _ _ Z). destruct (_ <? _).
    + merged x y x' y' mg. apply IH. repeat constructor; assumption.
    + merged y z y' z' mg. apply IH. repeat constructor; assumption.
Qed.
Lemma r_sort_loop fuel minrun : forall l l' st st' mg, RL l l' -> RS st st' ->
  RSM (sort_loop A ltA fuel minrun l st mg) (sort_loop B ltB fuel minrun l' st' mg).
Proof.
  induction fuel as [|k IH]; intros l l' st st' mg FL FS; [split; [exact FS|reflexivity]|]. cbn [sort_loop].
  pose proof (r_count_run _ _ FL) as P. rewrite (r_length _ _ _ FL).
  assert (N : match l with [] => l' = [] | _ => l' <> [] end) by (destruct FL; [reflexivity|discriminate]).
  destruct (count_run A ltA l) as [run rest], (count_run B ltB l') as [run' rest']. destruct P as [P1 P2]. cbn [fst snd] in P1, P2.
  rewrite (r_length _ _ _ P1). set (extra := Nat.min (length l) minrun - length run). cbv zeta.
  assert (M : RSM (merge_collapse A ltA (S (length st)) (binarysort A ltA run (firstn extra rest) :: st) mg)
                  (merge_collapse B ltB (S (length st')) (binarysort B ltB run' (firstn extra rest') :: st') mg)).
  { rewrite (r_length _ _ _ FS). apply r_collapse. constructor; [|exact FS]. apply r_binarysort; related. }
  destruct (merge_collapse A _ _ _ _) as [p n], (merge_collapse B _ _ _ _) as [q n']. destruct M as [M E]. cbn [fst snd] in M, E. subst n'.
  destruct l as [|x l]; [subst; split; [exact FS|reflexivity]|]. destruct l' as [|x' l']; [congruence|].
  apply IH; related.
Qed.
Lemma r_concat st st' : RS st st' -> RL (concat st) (concat st').
Proof. induction 1; cbn; related. Qed.
Lemma rs_rev st st' : RS st st' -> RS (rev st) (rev st').
Proof. induction 1; cbn; [constructor|]. apply Forall2_app; auto. Qed.
Lemma r_timsort l l' : RL l l' -> RL (timsort A ltA l) (timsort B ltB l').
Proof.
  intros F. unfold timsort. rewrite (r_length _ _ _ F). destruct (_ <? 2); [exact F|].
  pose proof (r_sort_loop (length l) (minrun_loop (length l) (length l) 0) l l' [] [] MIN_GALLOP F (Forall2_nil _)) as M.
  destruct (sort_loop A _ _ _ _ _ _) as [st n], (sort_loop B _ _ _ _ _ _) as [st' n']. destruct M as [M E]. cbn [fst snd] in M, E. subst n'.
  rewrite (r_length _ _ _ M). pose proof (r_force (length st) st st' n M) as F2.
  destruct F2 as [|x u p q X F2]; [constructor|]. destruct F2 as [|y v p q Y F2]; [exact X|].
  apply r_concat. apply rs_rev. repeat constructor; assumption.
Qed.
End Related.

Lemma enumerate_map {A B} (f : A -> B) l : enumerate (map f l) = map (fun p => (fst p, f (snd p))) (enumerate l).
Proof.
  unfold enumerate. rewrite map_length. generalize 0 at 1 2. intros n. generalize (seq n (length l)). clear n.
  induction l as [|x l IH]; intros [|k s]; cbn; try reflexivity. f_equal. apply IH.
Qed.
Lemma cpython_sort_natural : forall (A B : Type) (f : A -> B) (ltA : A -> A -> bool) (ltB : B -> B -> bool) (l : list A),
  (forall x y, In x l -> In y l -> ltB (f x) (f y) = ltA x y) ->
  cpython_sort B ltB (map f l) = map f (cpython_sort A ltA l).
Proof.
  intros A B f ltA ltB l E. unfold cpython_sort. rewrite enumerate_map.
  set (R := fun (p : nat * A) (q : nat * B) => In (snd p) l /\ q = (fst p, f (snd p))).
  assert (F : Forall2 R (enumerate l) (map (fun p => (fst p, f (snd p))) (enumerate l))).
  { assert (I : forall p, In p (enumerate l) -> In (snd p) l).
    { intros [i x] H. apply in_combine_r in H. exact H. }
    induction (enumerate l) as [|p e IH]; cbn; constructor; [split; [apply I; left; reflexivity|reflexivity]|].
    apply IH. intros q Q. apply I. right. exact Q. }
  apply (r_timsort R (fun x y => ltA (snd x) (snd y)) (fun x y => ltB (snd x) (snd y))) in F.
  - induction F as [|p q a b [_ ->] F IH]; cbn; [reflexivity|]. f_equal. exact IH.
  - intros [i x] [j y] u v [X ->] [Y ->]. cbn in *. apply E; assumption.
Qed.
