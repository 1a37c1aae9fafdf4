(** Printed notes and tracks: C62, C63. *)
From Coq Require Import ZArith QArith Qpower Qabs Lia Lqa List Bool String Permutation Sorted ZifyBool.
From Verif Require Import Py PyFloat PySort Timsort Signature Tone Note Track Show SpecBase TrackSpec ShowSpec
  DecFacts FloatFacts ToneProps SortFacts SigFacts SigProps NoteProps TimsortFacts TrackFacts TrackProps ChannelProps ShowFacts DigitsFacts.
Import ListNotations.
Open Scope Z_scope.

(** ** Notes *)
Lemma skip_space : skip [32] = [].
Proof. reflexivity. Qed.

Lemma c62_note : forall digits, digits_contract digits -> forall nd n n', valid_note n ->
  (evaluates_note nd (note_repr digits n) n' <-> n' = n).
Proof.
  intros digits HD nd n n' Hn. destruct (p_note_spec digits HD nd n [] Hn) as (x & Hx & HR). rewrite app_nil_r in Hx.
  unfold evaluates_note. split.
  - intros (y & r & Hy & _ & H). rewrite Hx in Hy. injection Hy as <- <-. apply HR. exact H.
  - intros ->. exists x, [32]. split; [exact Hx|]. split; [reflexivity|]. apply HR. reflexivity.
Qed.

Lemma c62_note_text : forall digits, digits_contract digits -> forall n m, valid_note n -> valid_note m ->
  (note_repr digits n = note_repr digits m <-> n = m).
Proof.
  intros digits HD n m Hn Hm. split; [|congruence]. intros E.
  apply (c62_note digits HD ascii_digit m n Hm). rewrite <- E. apply (c62_note digits HD); [exact Hn|reflexivity].
Qed.

(** ** Tracks *)
Lemma heappush_end {A} (lt : A -> A -> bool) h x : (forall y, In y h -> lt x y = false) -> heappush lt h x = h ++ [x].
Proof.
  intros H. unfold heappush. destruct h as [|y h]; [reflexivity|].
  assert (ES : set_nth ((y :: h) ++ [x]) (List.length (y :: h)) x = (y :: h) ++ [x]).
  { apply set_nth_same. rewrite nth_error_app2 by lia. rewrite Nat.sub_diag. reflexivity. }
  cbn [List.length siftdown Nat.eqb]. cbn [List.length] in ES.
  set (pp := Nat.div2 (S (List.length h) - 1)). assert (LP : (pp < List.length (y :: h))%nat).
  { subst pp. cbn [List.length]. pose proof (Nat.div2_decr (S (List.length h) - 1) (List.length h)). lia. }
  destruct (nth_error ((y :: h) ++ [x]) pp) as [z|] eqn:E; [|exact ES].
  rewrite nth_error_app1 in E by exact LP. rewrite (H z); [exact ES|]. eapply nth_error_In; exact E.
Qed.

Lemma resc_same M s : valid_sig s -> denominator s = M -> resc M s = s.
Proof.
  intros [H1 H2] <-. destruct s as [n d]. unfold resc. cbn [nominator denominator] in *. f_equal.
  pose proof (pow2_pos _ H2). rewrite Z.div_same by lia. lia.
Qed.

Lemma maxden_same M l : 1 <= M -> l <> [] -> Forall (eok M) l -> maxden l = M.
Proof.
  intros HM N H. destruct l as [|e l]; [congruence|]. clear N. unfold maxden. revert e H. induction l as [|f l IH]; intros e H.
  - inversion H as [|? ? (_ & E & _) _]; subst. cbn. lia.
  - inversion H as [|? ? (_ & E & _) H']; subst. specialize (IH f H'). cbn [map fold_right] in *. lia.
Qed.

(** Adding at the end of the order. *)
Lemma add_last M t l (e : entry) : Inv t l -> t_heap t = l -> Forall (eok M) l -> eok M e ->
  (forall x, In x l -> entry_lt e x = false) ->
  t_heap (fst (add_note t (snd e) (fst e))) = l ++ [e].
Proof.
  intros HI HH HF He HL. destruct He as (V & D & N). pose proof (pow2_pos _ (proj2 V)) as P1.
  pose proof (inv_maxden _ _ HI) as HM.
  unfold add_note. rewrite HM.
  assert (E : exists t1, (if denominator (fst e) >? maxden l then
      let t' := set_max_denominator t (denominator (fst e)) in
      match map_res (fun e0 : entry => let! s := sig_to (fst e0) (t_max_denominator t') in Ok (s, snd e0)) (t_heap t') with
      | Ok h => (set_heap t' h (t_sorted t'), Ok tt)
      | Err e0 => (t', Err e0)
      end
    else (t, Ok tt)) = (t1, Ok tt) /\ t_heap t1 = l /\ t_max_denominator t1 = Z.max (maxden l) (denominator (fst e))).
  { destruct l as [|f l].
    - destruct (Z.gtb_spec (denominator (fst e)) (maxden [])).
      + cbn [set_max_denominator t_heap]. rewrite HH. cbn [map_res]. eexists. split; [reflexivity|]. cbn. split; [reflexivity|]. cbn in *. lia.
      + exists t. split; [reflexivity|]. split; [exact HH|]. rewrite HM. lia.
    - rewrite (maxden_same M) in * by (lia || discriminate || assumption). rewrite D. replace (M >? M) with false by lia.
      exists t. split; [reflexivity|]. split; [exact HH|]. lia. }
  destruct E as (t1 & E & E1 & E2). cbv zeta in *. rewrite E. rewrite E2.
  assert (EM : Z.max (maxden l) (denominator (fst e)) = denominator (fst e)).
  { destruct l as [|f l]; [cbn; lia|]. rewrite (maxden_same M) by (lia || discriminate || assumption). lia. }
  rewrite EM, sig_to_resc by (apply V || exact V || lia). rewrite resc_same by (exact V || reflexivity).
  replace (fst e, snd e) with e by (destruct e; reflexivity). cbn [set_heap t_heap]. rewrite E1, heappush_end by exact HL.
  destruct (sig_add (fst e) (n_duration (snd e))) as [s|x]; [|reflexivity].
  destruct (sig_gt s _); reflexivity.
Qed.

Lemma value_le_not e f : value_le e f -> ~ value_before f e.
Proof.
  intros H B. destruct (c16_spec_order (snd e) (snd f) (snd f)) as (_ & _ & _ & HN).
  destruct (c16_spec_order (snd f) (snd e) (snd f)) as (_ & _ & _ & HN').
  destruct H as [[H|[H H']]|[H H']], B as [B|[B B']].
  - exact (Qlt_not_le _ _ H (Qlt_le_weak _ _ B)).
  - apply Qlt_not_eq in H. apply H. symmetry. exact B.
  - apply Qlt_not_eq in B. apply B. symmetry. exact H.
  - destruct (HN H') as [_ X]. exact (X B').
  - apply Qlt_not_eq in B. apply B. symmetry. exact H.
  - destruct (HN' B') as [X _]. apply X. destruct H' as (A1 & A2 & A3). repeat split; symmetry; assumption.
Qed.

Definition add_entry (e : entry) : op := OAdd (WNote (snd e)) (Some (pair_arg (nominator (fst e), denominator (fst e)))).

Lemma position_pair s : valid_sig s -> position_of (pair_arg (nominator s, denominator s)) = Some s.
Proof.
  intros [H1 [k [Hk E]]]. unfold pair_arg, position_of. cbn [fst snd]. rewrite E, Z.log2_pow2 by exact Hk.
  pose proof (Z.pow_pos_nonneg 2 k). replace ((0 <=? nominator s) && (0 <? 2 ^ k) && (2 ^ k =? 2 ^ k))%bool with true by lia.
  rewrite <- E. destruct s; reflexivity.
Qed.

Lemma add_entry_step t (e : entry) : valid_sig (fst e) -> fst (track_add t (WNote (snd e)) (Some (pair_arg (nominator (fst e), denominator (fst e))))) = fst (add_note t (snd e) (fst e)).
Proof.
  intros H. unfold track_add. destruct (position_of_sig (pair_arg (nominator (fst e), denominator (fst e)))) as [E _].
  rewrite position_pair in E by exact H. rewrite E. reflexivity.
Qed.

Lemma add_entry_ok e : entry_ok e -> op_ok (add_entry e).
Proof. intros [H1 H2]. split; [constructor; [exact H2|constructor]|]. intros s E. discriminate. Qed.

Lemma entries_log sort : forall l t, Forall entry_ok l -> log sort t (map add_entry l) = l.
Proof.
  induction l as [|e l IH]; intros t H; [reflexivity|]. inversion H as [|? ? He Hl]; subst.
  cbn [map log additions add_entry]. rewrite position_pair by apply He. cbn [notes_of map app].
  rewrite IH by exact Hl. destruct e; reflexivity.
Qed.

Section Sorted.
Variable M : Z.
Variable ys : list entry.
Hypothesis Yok : Forall (eok M) ys.
Hypothesis YC : consistent ys.

Definition yok (e : entry) : Prop := eok M e /\ In e ys.

Lemma yok_lt x y : yok x -> yok y -> (entry_lt x y = true <-> value_before x y).
Proof. intros [X1 X2] [Y1 Y2]. apply (entry_lt_value M x y X1 Y1). apply YC; assumption. Qed.

Lemma yok_lt_false x y : yok x -> yok y -> (entry_lt x y = false <-> value_le y x).
Proof.
  intros X Y. pose proof (yok_lt x y X Y) as H. split.
  - intros E. apply not_value_before. intros B. apply H in B. congruence.
  - intros L. destruct (entry_lt x y) eqn:E; [|reflexivity]. exfalso. apply (value_le_not y x L). apply H. reflexivity.
Qed.

Lemma sort_ordered sort : sort_contract sort -> StronglySorted value_le ys -> sort entry entry_lt ys = ys.
Proof.
  intros Hs SS. assert (HY : Forall yok ys) by (rewrite Forall_forall in *; intros e He; split; auto).
  apply (sort_sorted_id sort Hs entry_lt yok).
  - intros x y X Y E. apply yok_lt_false; try assumption. left. apply yok_lt; assumption.
  - intros x y z X Y Z E F. apply yok_lt; try assumption. apply yok_lt in E, F; try assumption.
    destruct (value_le_trans x y z (or_introl E) (or_introl F)) as [H|H]; [exact H|].
    exfalso. apply (value_le_not z y); [|exact F]. apply (value_le_trans z x y); [|left; exact E]. right.
    destruct H as [H1 (A & B & C)]. split; [symmetry; exact H1|]. split; [congruence|]. split; symmetry; assumption.
  - intros x y z X Y Z E F. apply yok_lt_false in E, F; try assumption. apply yok_lt_false; try assumption.
    eapply value_le_trans; eassumption.
  - exact HY.
  - assert (HG : forall l, StronglySorted value_le l -> Forall yok l -> StronglySorted (fun x y => entry_lt y x = false) l); [|apply HG; assumption].
    intros l SL. induction SL as [|e l SL IH HL]; intros HL'; [constructor|]. inversion HL' as [|? ? He Hl]; subst.
    constructor; [apply IH; exact Hl|]. rewrite Forall_forall in *. intros f Hf. apply yok_lt_false; auto.
Qed.

Lemma adds_ordered sort s : forall done rest, ys = done ++ rest -> StronglySorted value_le ys ->
  t_heap (run sort (track_empty s) (map add_entry done)) = done.
Proof.
  induction done as [|e done IH] using rev_ind; intros rest E SS; [reflexivity|].
  rewrite map_app. unfold run. rewrite fold_left_app. cbn [map fold_left]. fold (run sort (track_empty s) (map add_entry done)).
  assert (EY : ys = done ++ e :: rest) by (rewrite E, <- app_assoc; reflexivity).
  assert (HF : Forall (eok M) (done ++ e :: rest)) by (rewrite <- EY; exact Yok).
  apply Forall_app in HF. destruct HF as [HF HE]. pose proof (Forall_inv HE) as He.
  assert (HO : Forall entry_ok done) by (apply (Forall_impl _ (fun (x : entry) (H : eok M x) => conj (proj1 H) (proj2 (proj2 H))) HF)).
  cbn [step add_entry]. rewrite add_entry_step by apply He.
  assert (HI : exists l, Inv (run sort (track_empty s) (map add_entry done)) l /\ l = done).
  { exists done. split; [|reflexivity]. clear - HO. induction done as [|x done IH'] using rev_ind; [apply inv_empty|].
    apply Forall_app in HO. destruct HO as [HO HX]. inversion HX as [|? ? Hx _]; subst.
    rewrite map_app. unfold run. rewrite fold_left_app. cbn [map fold_left step add_entry].
    rewrite add_entry_step by apply Hx. destruct (add_note_inv _ _ (snd x) (fst x) (IH' HO) (proj1 Hx) (proj2 Hx)) as (t' & E & _ & I).
    fold (run sort (track_empty s) (map add_entry done)). rewrite E. destruct x; exact I. }
  destruct HI as (l & HI & ->). apply (add_last M); try assumption.
  - apply (IH (e :: rest)); assumption.
  - intros x Hx. apply yok_lt_false.
    + split; [exact He|]. rewrite EY. apply in_or_app. right. left. reflexivity.
    + split; [rewrite Forall_forall in HF; apply HF; exact Hx|rewrite EY; apply in_or_app; left; exact Hx].
    + clear - SS Hx EY. rewrite EY in SS. clear EY. revert SS Hx. induction done as [|y done IH]; intros SS Hx; [destruct Hx|destruct Hx as [H|H]].
      * subst y. cbn [app] in SS. inversion SS as [|? ? _ HA]; subst. rewrite Forall_forall in HA. apply HA. apply in_or_app. right. left. reflexivity.
      * cbn [app] in SS. inversion SS as [|? ? SS' _]; subst. apply IH; assumption.
Qed.
End Sorted.

Lemma reads_content nd xs (ys : list entry) : Forall2 (reads_entry nd) xs ys -> forall content,
  (Forall2 (fun x c => exists n, note_is nd (fst x) n /\ c = (WNote n, Some (pair_arg (snd x)))) xs content <->
   content = map (fun e : entry => (WNote (snd e), Some (pair_arg (nominator (fst e), denominator (fst e))))) ys).
Proof.
  induction 1 as [|x e xs ys [H1 H2] _ IH]; intros content; split.
  - intros H. inversion H. reflexivity.
  - intros ->. constructor.
  - intros H. inversion H as [|? c ? cs (n & Hn & ->) HR]; subst. apply IH in HR. subst cs. apply H1 in Hn. subst n. rewrite H2. reflexivity.
  - intros ->. cbn [map]. constructor; [|apply IH; reflexivity]. exists (snd e). split; [apply H1; reflexivity|]. rewrite H2. reflexivity.
Qed.

Lemma entries_valid sort t l : sort_contract sort -> Inv t l -> Forall entry_ok (yields sort t) /\ Forall (fun e : entry => valid_note (snd e)) (yields sort t).
Proof.
  intros Hs HI. pose proof (yields_ok sort Hs t l HI) as H. split; (eapply Forall_impl; [|exact H]); intros e (H1 & _ & H2); [split|]; assumption.
Qed.

Lemma track_evaluates digits nd sort t l : digits_contract digits -> sort_contract sort -> Inv t l -> valid_sig (t_signature t) ->
  forall u, evaluates_track nd (snd (track_repr digits sort t)) u <-> u = run sort (track_empty (t_signature t)) (map add_entry (yields sort t)).
Proof.
  intros HD Hs HI Hv u. destruct (entries_valid sort t l Hs HI) as [HE HN].
  destruct (p_track_spec digits HD nd sort t HN) as (xs & HX & HF). unfold evaluates_track.
  pose proof (reads_content nd xs _ HF) as HC.
  assert (HT : track_new (pair_arg (nominator (t_signature t), denominator (t_signature t)))
     (map (fun e : entry => (WNote (snd e), Some (pair_arg (nominator (fst e), denominator (fst e))))) (yields sort t)) =
     Ok (run sort (track_empty (t_signature t)) (map add_entry (yields sort t)))).
  { rewrite (c17_constructor sort _ (t_signature t)); [|apply position_pair; exact Hv|].
    - rewrite map_map. reflexivity.
    - apply Forall_map. eapply Forall_impl; [|exact HE]. intros e He. split; [apply add_entry_ok; exact He|].
      cbn [snd]. intros a Ea. injection Ea as <-. rewrite position_pair by apply He. discriminate. }
  split.
  - intros (a & l' & r & content & E & _ & HCo & HN'). rewrite HX in E. injection E as <- <- <-. apply HC in HCo. subst content.
    fold (yields sort t) in HN'. rewrite HT in HN'. injection HN' as <-. reflexivity.
  - intros ->. eexists _, xs, [], _. split; [exact HX|]. split; [reflexivity|]. split; [apply HC; reflexivity|]. exact HT.
Qed.

(** C62 for tracks in full: reading the printed track gives an equal track. *)
Definition printing_right (digits : positive -> Z -> Z * Z) (sort : sort_fn) : Prop :=
  forall nd s ops, valid_sig s -> Forall op_ok ops ->
  let t := run sort (track_empty s) ops in
  exists u, evaluates_track nd (snd (track_repr digits sort t)) u /\ eq_result sort t u = true.

Lemma c62_track : forall digits sort, digits_contract digits -> sort_contract sort ->
  forall nd s ops, valid_sig s -> Forall op_ok ops ->
  let t := run sort (track_empty s) ops in
  exists u, (forall u', evaluates_track nd (snd (track_repr digits sort t)) u' <-> u' = u) /\
    fst (track_repr digits sort t) = step sort t OIter /\
    t_signature u = t_signature t /\ track_len u = track_len t /\ Permutation (yields sort u) (yields sort t) /\
    (consistent (yields sort t) -> yields sort u = yields sort t /\ eq_result sort t u = true /\ eq_result sort u t = true).
Proof.
  intros digits sort HD Hs nd s ops Vs Ho t. destruct (run_inv sort Hs s ops Ho) as [HI HS]. fold t in HI, HS.
  set (l := log sort (track_empty s) ops) in *. set (ys := yields sort t).
  assert (Vt : valid_sig (t_signature t)) by (rewrite HS; exact Vs).
  destruct (entries_valid sort t l Hs HI) as [HE HN]. fold ys in HE, HN.
  pose proof (yields_ok sort Hs t l HI) as HK. fold ys in HK.
  set (u := run sort (track_empty (t_signature t)) (map add_entry ys)).
  destruct (run_inv sort Hs (t_signature t) (map add_entry ys)) as [HU SU].
  { apply Forall_map. eapply Forall_impl; [|exact HE]. intros e. apply add_entry_ok. }
  rewrite entries_log in HU by exact HE. fold u in HU, SU.
  assert (HP : Permutation (yields sort u) ys).
  { eapply perm_trans; [apply (yields_perm sort Hs u ys HU)|]. apply Permutation_refl'. transitivity (map (fun e : entry => e) ys); [|apply map_id]. apply map_ext_in.
    intros e He. rewrite Forall_forall in HK. destruct (HK e He) as (V & D & _). unfold rescale.
    rewrite resc_same; [destruct e; reflexivity|exact V|]. symmetry. rewrite D. apply maxden_same; [apply maxden_ge1|intros H; rewrite H in He; exact He|rewrite Forall_forall; exact HK]. }
  exists u. split; [apply (track_evaluates digits nd sort t l); assumption|]. split; [unfold track_repr; cbn [step]; destruct (track_iter sort t); reflexivity|]. split; [exact SU|].
  split; [|split; [exact HP|]].
  - rewrite (inv_track_len u ys HU), (inv_track_len t l HI). f_equal. unfold ys. 
    rewrite (Permutation_length (yields_perm sort Hs t l HI)). apply map_length.
  - intros HC. assert (EY : yields sort u = ys).
    { unfold yields, track_iter. destruct (t_sorted u) eqn:ES.
      - cbn [snd]. apply (adds_ordered (maxden l) ys HK HC sort (t_signature t) ys []); [rewrite app_nil_r; reflexivity|].
        apply (yields_sorted_value sort Hs t l HI). apply (yields_consistent sort t l Hs HI). exact HC.
      - assert (SY : StronglySorted value_le ys) by (apply (yields_sorted_value sort Hs t l HI), (yields_consistent sort t l Hs HI); exact HC).
        cbn [snd set_heap t_heap]. unfold u. rewrite (adds_ordered (maxden l) ys HK HC sort (t_signature t) ys []); [|rewrite app_nil_r; reflexivity|exact SY].
        apply (sort_ordered (maxden l) ys HK HC sort Hs SY). }
    split; [exact EY|].
    assert (LL : List.length l = List.length ys) by (unfold ys; rewrite (Permutation_length (yields_perm sort Hs t l HI)), map_length; reflexivity).
    split.
    + apply (eq_result_spec sort t u l ys Hs HI HU Vt); [rewrite SU; exact Vt|]. split; [rewrite SU; reflexivity|]. fold ys. rewrite EY, LL. reflexivity.
    + apply (eq_result_spec sort u t ys l Hs HU HI); [rewrite SU; exact Vt|exact Vt|]. split; [rewrite SU; reflexivity|]. fold ys. rewrite EY, LL. reflexivity.
Qed.

(** Printed tracks are the same text exactly when signatures and yielded entries are the same. *)
Lemma c62_track_text : forall digits sort, digits_contract digits -> sort_contract sort ->
  forall s ops s' ops', valid_sig s -> valid_sig s' -> Forall op_ok ops -> Forall op_ok ops' ->
  let t := run sort (track_empty s) ops in let u := run sort (track_empty s') ops' in
  (snd (track_repr digits sort t) = snd (track_repr digits sort u) <->
   t_signature t = t_signature u /\ yields sort t = yields sort u).
Proof.
  intros digits sort HD Hs s ops s' ops' Vs Vs' Ho Ho' t u.
  destruct (run_inv sort Hs s ops Ho) as [HI HS]. destruct (run_inv sort Hs s' ops' Ho') as [HI' HS']. fold t u in HI, HS, HI', HS'.
  destruct (entries_valid sort t _ Hs HI) as [HE HN]. destruct (entries_valid sort u _ Hs HI') as [HE' HN'].
  split.
  - intros E. destruct (p_track_spec digits HD ascii_digit sort t HN) as (xs & HX & HF).
    destruct (p_track_spec digits HD ascii_digit sort u HN') as (zs & HZ & HF'). rewrite E in HX. rewrite HX in HZ.
    injection HZ as E1 E2 <-. split; [destruct (t_signature t), (t_signature u); cbn in *; congruence|].
    fold (yields sort t) in HF. fold (yields sort u) in HF'. clear - HF HF'. revert HF'. generalize (yields sort u). induction HF as [|x e xs ys [H1 H2] _ IH]; intros zs HZ; inversion HZ as [|? f ? fs [H3 H4] HR]; subst; [reflexivity|].
    rewrite (IH fs HR). f_equal. destruct e as [[a b] n], f as [[a' b'] n']. cbn [fst snd nominator denominator] in *.
    assert (n = n') by (apply H3, H1; reflexivity). congruence.
  - intros [E1 E2]. unfold yields, track_repr in *. destruct (track_iter sort t) as [t' lt], (track_iter sort u) as [u' lu]. cbn [snd] in *.
    rewrite E1, E2. reflexivity.
Qed.

(** Three notes at the start with the durations 1/4, 3/8 and 3/4. *)
Definition three_ops : list op :=
  map (fun d => OAdd (WNote (mkNote (mkTone 60) d f_one)) (Some (SA_sig (mkSig 0 1)))) [mkSig 1 4; mkSig 3 8; mkSig 3 4].

Lemma c62_refuted : sort_contract cpython_sort /\
  forall digits, digits_contract digits -> ~ printing_right digits cpython_sort.
Proof.
  split; [exact cpython_sort_contract|]. intros digits HD H.
  assert (V4 : valid_sig (mkSig 4 4)) by (split; [cbn; lia|exists 2; split; [lia|reflexivity]]).
  assert (HO : Forall op_ok three_ops).
  { assert (HV : valid_velocity f_one) by (repeat split; try discriminate; exact I).
    assert (HS : forall n k, 0 <= n -> 0 <= k -> valid_sig (mkSig n (2 ^ k))) by (intros n k Hn Hk; split; [exact Hn|exists k; split; [exact Hk|reflexivity]]).
    unfold three_ops. repeat (apply Forall_cons; [split; [constructor; [|constructor]|intros s E; injection E as <-; apply (HS 0 0); lia]|]); [..|constructor].
    all: split; [|exact HV]; cbn [n_duration]; first [apply (HS 1 2); lia|apply (HS 3 3); lia|apply (HS 3 2); lia]. }
  specialize (H ascii_digit (mkSig 4 4) three_ops V4 HO). cbv zeta in H. destruct H as (u & HU & E).
  destruct (run_inv cpython_sort cpython_sort_contract (mkSig 4 4) three_ops HO) as [HI HS].
  apply (track_evaluates digits ascii_digit cpython_sort _ _ HD cpython_sort_contract HI) in HU; [|rewrite HS; exact V4].
  subst u. vm_compute in E. discriminate.
Qed.

(** ** C63 *)
Lemma fixed_text k : 0 <= k <= 1000 ->
  str_of_Z (k / 1000) ++ lit "." ++ zeros (3 - Z.of_nat (List.length (str_of_Z (k mod 1000)))) ++ str_of_Z (k mod 1000) = thousandths k.
Proof.
  intros Hk. set (f := fun k => str_of_Z (k / 1000) ++ lit "." ++ zeros (3 - Z.of_nat (List.length (str_of_Z (k mod 1000)))) ++ str_of_Z (k mod 1000)).
  change (f k = thousandths k). set (same := fun x y : pystr => if list_eq_dec Z.eq_dec x y then true else false).
  assert (HA : forallb (fun n => same (f (Z.of_nat n)) (thousandths (Z.of_nat n))) (seq 0 1001) = true) by (vm_compute; reflexivity).
  rewrite forallb_forall in HA. specialize (HA (Z.to_nat k)). rewrite Z2Nat.id in HA by lia.
  unfold same in HA. destruct (list_eq_dec Z.eq_dec (f k) (thousandths k)) as [E|_]; [exact E|].
  assert (X : false = true) by (apply HA; apply in_seq; lia). discriminate X.
Qed.

Definition is_minus_zero (v : float) : bool := match v with S754_zero true => true | _ => false end.

Lemma fixed3_spec v : valid_velocity v -> exists k, 0 <= k <= 1000 /\ rounds_to (fval v) k /\
  fixed3 v = (if is_minus_zero v then lit "-" else []) ++ thousandths k.
Proof.
  intros (Hf & Fv & V0 & V1). destruct v as [s|s| |s m e]; try contradiction.
  - exists 0. split; [lia|]. split; [split; cbn; intros; [discriminate|reflexivity]|]. destruct s; reflexivity.
  - destruct s.
    { exfalso. cbn [fval] in V0. apply (Qle_not_lt _ _ V0). setoid_replace 0%Q with (0 * 2 ^ e)%Q by ring.
      apply Qmult_lt_compat_r; [apply Qpower_0_lt; reflexivity|reflexivity]. }
    cbn [fval] in *. set (k := if 0 <=? e then 1000 * Z.pos m * 2 ^ e else half_even (1000 * Z.pos m) (2 ^ (- e))).
    assert (HK : rounds_to (inject_Z (Z.pos m) * 2 ^ e) k).
    { unfold k, rounds_to. destruct (Z.leb_spec 0 e) as [H|H].
      - assert (E : (1000 * (inject_Z (Z.pos m) * 2 ^ e) - inject_Z (1000 * Z.pos m * 2 ^ e) == 0)%Q).
        { rewrite !inject_Z_mult, <- Qpower2_pos by exact H. change (inject_Z 1000) with 1000%Q. ring. }
        rewrite E. split; [discriminate|]. intros X. discriminate X.
      - set (d := 2 ^ (- e)). assert (DP : 0 < d) by (apply Z.pow_pos_nonneg; lia).
        destruct (half_even_spec (1000 * Z.pos m) d DP) as [H1 H2]. set (q := half_even (1000 * Z.pos m) d) in *. clearbody q.
        assert (ID := inject_pos d DP).
        assert (E2 : (2 ^ e == / inject_Z d)%Q).
        { unfold d. rewrite <- Qpower2_pos by lia. rewrite Qpower_opp. rewrite Qinv_involutive. reflexivity. }
        assert (EX : (2 * Qabs (1000 * (inject_Z (Z.pos m) * 2 ^ e) - inject_Z q) * inject_Z d == inject_Z (2 * Z.abs (1000 * Z.pos m - q * d)))%Q).
        { rewrite inject_Z_mult. change (inject_Z (Z.abs ?z)) with (Qabs (inject_Z z)). change (inject_Z 2) with 2%Q.
          setoid_replace (2 * Qabs (1000 * (inject_Z (Z.pos m) * 2 ^ e) - inject_Z q) * inject_Z d)%Q
            with (2 * (Qabs (1000 * (inject_Z (Z.pos m) * 2 ^ e) - inject_Z q) * Qabs (inject_Z d)))%Q by (rewrite (Qabs_pos (inject_Z d)) by lra; ring).
          rewrite <- Qabs_Qmult. apply Qmult_comp; [reflexivity|]. apply Qabs_wd. rewrite E2. unfold Zminus.
          rewrite inject_Z_plus, inject_Z_opp, !inject_Z_mult. change (inject_Z 1000) with 1000%Q. field. intros E; rewrite E in ID; discriminate ID. }
        split.
        + apply (Qmult_le_r _ _ (inject_Z d) ID). rewrite EX, Qmult_1_l, <- Zle_Qle. exact H1.
        + intros E. apply H2. rewrite E, Qmult_1_l in EX. apply (proj1 (inject_Z_injective _ _)) in EX. lia. }
    exists k. assert (HB : 0 <= k <= 1000).
    { destruct HK as [HK _]. set (x := (inject_Z (Z.pos m) * 2 ^ e)%Q) in *. 
      assert (B : (inject_Z (-1) < inject_Z k /\ inject_Z k < inject_Z 1001)%Q).
      { change (inject_Z (-1)) with (-1)%Q. change (inject_Z 1001) with 1001%Q. revert HK. apply Qabs_case; intros; lra. }
      rewrite <- !Zlt_Qlt in B. lia. }
    split; [exact HB|]. split; [exact HK|]. cbn [is_minus_zero fixed3 app lit]. fold k. exact (fixed_text k HB).
Qed.

Lemma tone_text nd t : digit_table nd -> exists s, tone_str t = Ok s /\ from_notation nd s = Ok t /\ ~ In 32 s.
Proof.
  intros Hnd. destruct t as [p]. destruct (c08_round_trip nd p false Hnd) as (s & E & F). exists s. split; [exact E|]. split; [exact F|].
  destruct (c11_printed (mkTone p) false) as (c & acc & E' & HA). unfold tone_new in E. rewrite E in E'. injection E' as ->.
  intros [H|H].
  - subst c. assert (X : from_notation nd (32 :: acc ++ str_of_Z (tone_octave (mkTone p))) = Err ValueError); [|rewrite X in F; discriminate F].
    apply c10_partial; [exact Hnd|]. intros c base r HI HE. injection HE as <- _. unfold letters in HI. cbn in HI.
    repeat (destruct HI as [HI|HI]; [discriminate HI|]). destruct HI.
  - apply in_app_or in H. destruct H as [H|H].
    + destruct HA as [-> |[-> | ->]]; cbn in H; unfold sharp, flat in H; lia.
    + revert H. apply str_no_sep; lia.
Qed.

Lemma c63_note : forall nd n, digit_table nd -> valid_note n -> exists tone k,
  from_notation nd tone = Ok (n_tone n) /\ 0 <= k <= 1000 /\ rounds_to (fval (n_velocity n)) k /\
  note_str n = Ok (lit "Note " ++ str_of_Z (nominator (n_duration n)) ++ lit "/" ++ str_of_Z (denominator (n_duration n)) ++ lit " " ++ tone
    ++ lit " (" ++ (if is_minus_zero (n_velocity n) then lit "-" else []) ++ thousandths k ++ lit ")").
Proof.
  intros nd n Hnd [Hd Hv]. destruct (tone_text nd (n_tone n) Hnd) as (s & E & F & _). destruct (fixed3_spec _ Hv) as (k & Hk & HR & EF).
  exists s, k. split; [exact F|]. split; [exact Hk|]. split; [exact HR|]. unfold note_str. rewrite E. cbn [bind]. rewrite EF. unfold sig_str.
  rewrite <- !app_assoc. reflexivity.
Qed.

Lemma thousandths_inj k j : 0 <= k <= 1000 -> 0 <= j <= 1000 -> thousandths k = thousandths j -> k = j.
Proof.
  intros Hk Hj E. unfold thousandths in E. assert (E1 := f_equal (fun l => nth 0 l 0) E). assert (E2 := f_equal (fun l => nth 2 l 0) E).
  assert (E3 := f_equal (fun l => nth 3 l 0) E). assert (E4 := f_equal (fun l => nth 4 l 0) E). cbn [nth] in E1, E2, E3, E4.
  assert (HX : forall x, x = 1000 * (x / 1000) + 100 * (x / 100 mod 10) + 10 * (x / 10 mod 10) + x mod 10) by (intros x; Z.div_mod_to_equations; lia).
  apply Z.add_cancel_l in E1, E2, E3, E4. rewrite (HX k), (HX j), E1, E2, E3, E4. reflexivity.
Qed.

(** What can be read off: duration, tone, and the velocity up to a thousandth. *)
Lemma c63_note_text : forall n m, valid_note n -> valid_note m -> note_str n = note_str m ->
  n_duration n = n_duration m /\ n_tone n = n_tone m /\ (Qabs (fval (n_velocity n) - fval (n_velocity m)) <= 1 # 1000)%Q.
Proof.
  intros n m [Dn Vn] [Dm Vm] E. unfold note_str in E.
  destruct (tone_text ascii_digit (n_tone n) ascii_digit_table) as (s & Es & Fs & Ns). destruct (tone_text ascii_digit (n_tone m) ascii_digit_table) as (r & Er & Fr & Nr).
  rewrite Es, Er in E. cbn [bind] in E. injection E as E.
  assert (NS : forall x, ~ In 32 (sig_str x)).
  { intros x H. unfold sig_str in H. apply in_app_or in H. destruct H as [H|H]; [revert H; apply str_no_sep; lia|].
    apply in_app_or in H. destruct H as [H|H]; [cbn in H; lia|revert H; apply str_no_sep; lia]. }
  change (lit " ") with [32] in E. change (lit " (") with [32; 40] in E. cbn [app] in E.
  apply (split_at 32) in E; [|apply NS..]. destruct E as [E1 E]. apply (split_at 32) in E; [|assumption..]. destruct E as [E2 E].
  split; [exact (proj1 (c54_signatures _ _) E1)|]. split; [congruence|]. injection E as E. apply app_inv_tail in E.
  destruct (fixed3_spec _ Vn) as (k & Hk & [R1 _] & EF). destruct (fixed3_spec _ Vm) as (j & Hj & [R2 _] & EF').
  rewrite EF, EF' in E.
  assert (k = j).
  { apply thousandths_inj; [exact Hk|exact Hj|]. assert (HM : forall x, 0 <= x <= 1000 -> hd 0 (thousandths x) <> 45).
    { intros x Hx. cbn [thousandths hd]. pose proof (Z.div_pos x 1000). lia. }
    pose proof (HM k Hk) as M1. pose proof (HM j Hj) as M2.
    destruct (is_minus_zero (n_velocity n)), (is_minus_zero (n_velocity m)); cbn [app lit] in E.
    - exact (f_equal (@tl Z) E).
    - exfalso. rewrite <- E in M2. apply M2. reflexivity.
    - exfalso. rewrite E in M1. apply M1. reflexivity.
    - exact E. }
  subst j. revert R1 R2. apply Qabs_case; intros; revert R2; apply Qabs_case; intros; apply Qabs_case; intros; lra.
Qed.

Lemma c63_track : forall t u, track_str t = track_str u <-> t_signature t = t_signature u /\ track_len t = track_len u.
Proof.
  intros t u. unfold track_str. split.
  - intros E. apply app_inv_head in E.
    assert (NS : forall x, ~ In 32 (sig_str x)).
    { intros x H. unfold sig_str in H. apply in_app_or in H. destruct H as [H|H]; [revert H; apply str_no_sep; lia|].
      apply in_app_or in H. destruct H as [H|H]; [cbn in H; lia|revert H; apply str_no_sep; lia]. }
    change (lit " with ") with (32 :: lit "with ") in E. change ((32 :: lit "with ") ++ ?x) with (32 :: lit "with " ++ x) in E.
    apply (split_at 32) in E; [|apply NS..]. destruct E as [E1 E]. apply app_inv_head in E. apply app_inv_tail in E.
    split; [exact (proj1 (c54_signatures _ _) E1)|apply str_of_Z_inj; exact E].
  - intros [E1 E2]. rewrite E1, E2. reflexivity.
Qed.
