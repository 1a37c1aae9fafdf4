(** Invariant of tracks over arbitrary histories. *)
From Coq Require Import ZArith QArith Qreduction List Bool Permutation Sorted Lia ZifyBool.
From Verif Require Import Py PyFloat PySort Signature Tone Note Track MidiWriter Processing
  SpecBase TrackSpec SigFacts SigProps NoteProps SortFacts.
Import ListNotations.
Open Scope Z_scope.

(** ** Rescaling positions *)
Definition resc (M : Z) (s : sig) : sig := mkSig (M / denominator s * nominator s) M.
Definition rescale (M : Z) (e : entry) : entry := (resc M (fst e), snd e).

Lemma sig_to_resc s M : valid_sig s -> pow2 M -> denominator s <= M -> sig_to s M = Ok (resc M s).
Proof.
  intros [Hn Hd] HM Hle. unfold sig_to, resc. pose proof (pow2_pos _ HM) as PM.
  pose proof (pow2_pos _ Hd) as Pd.
  rewrite (proj2 (land_pow2 M PM) HM). replace (negb _) with false by lia.
  destruct (Z.eqb_spec M (denominator s)) as [->|Hne].
  - rewrite sig_new_ok by assumption. rewrite Z.div_same by lia. rewrite Z.mul_1_l. destruct s; reflexivity.
  - replace (M >? denominator s) with true by lia. apply sig_new_ok; [|exact HM].
    apply Z.mul_nonneg_nonneg; [apply Z.div_pos; lia|exact Hn].
Qed.

Lemma resc_valid s M : valid_sig s -> pow2 M -> valid_sig (resc M s).
Proof.
  intros [Hn Hd] HM. split; [|exact HM]. cbn. pose proof (pow2_pos _ HM). pose proof (pow2_pos _ Hd).
  apply Z.mul_nonneg_nonneg; [apply Z.div_pos; lia|exact Hn].
Qed.

Lemma resc_val s M : valid_sig s -> pow2 M -> denominator s <= M -> (sval (resc M s) == sval s)%Q.
Proof.
  intros Hs HM Hle. destruct (sig_to_ok s M Hs HM Hle) as (s' & E & _ & _ & V).
  rewrite sig_to_resc in E by assumption. injection E as <-. exact V.
Qed.

Lemma resc_resc s M M' : valid_sig s -> pow2 M -> pow2 M' -> denominator s <= M -> M <= M' ->
  resc M' (resc M s) = resc M' s.
Proof.
  intros [Hn Hd] HM HM' H1 H2. unfold resc. cbn [nominator denominator]. f_equal.
  destruct (pow2_divide _ _ Hd HM H1) as [E1 _]. destruct (pow2_divide _ _ HM HM' H2) as [E2 _].
  pose proof (pow2_pos _ Hd) as Pd. pose proof (pow2_pos _ HM) as PM.
  rewrite Z.mul_assoc. f_equal. apply Z.div_unique_exact; [lia|]. rewrite E2 at 1. rewrite E1 at 2. ring.
Qed.

(** ** The largest denominator *)
Definition maxden (l : list entry) : Z := fold_right Z.max 1 (map (fun e => denominator (fst e)) l).

Lemma maxden_app l e : maxden (l ++ [e]) = Z.max (maxden l) (denominator (fst e)).
Proof.
  unfold maxden. rewrite map_app, fold_right_app. cbn [map fold_right].
  induction l as [|x l IH]; cbn [map fold_right]; [lia|]. rewrite IH. lia.
Qed.
Lemma maxden_ge1 l : 1 <= maxden l.
Proof. unfold maxden. induction l as [|x l IH]; cbn [map fold_right]; lia. Qed.
Lemma maxden_in l e : In e l -> denominator (fst e) <= maxden l.
Proof.
  unfold maxden. induction l as [|x l IH]; cbn [map fold_right]; [intros []|].
  intros [->|H]; [lia|]. apply IH in H. lia.
Qed.
Lemma maxden_perm l m : Permutation l m -> maxden l = maxden m.
Proof.
  unfold maxden. induction 1 as [| | |l m n _ IH1 _ IH2]; cbn [map fold_right]; try lia; reflexivity.
Qed.

Definition entry_ok (e : entry) : Prop := valid_sig (fst e) /\ valid_note (snd e).

Lemma pow2_max a b : pow2 a -> pow2 b -> pow2 (Z.max a b).
Proof. intros Ha Hb. destruct (Z.max_spec a b) as [[_ ->]|[_ ->]]; assumption. Qed.

Lemma maxden_pow2 l : Forall entry_ok l -> pow2 (maxden l).
Proof.
  unfold maxden. induction 1 as [|e l [He _] _ IH]; cbn [map fold_right]; [apply pow2_1|].
  apply pow2_max; [apply He|exact IH].
Qed.

(** ** The length as the code computes it *)
Definition endsig (M : Z) (p d : sig) : sig :=
  match sig_add (resc M p) d with Ok s => s | Err _ => mkSig 0 1 end.

Lemma endsig_spec M p d : valid_sig p -> valid_sig d -> pow2 M -> denominator p <= M ->
  sig_add (resc M p) d = Ok (endsig M p d) /\ valid_sig (endsig M p d) /\
  denominator (endsig M p d) = Z.max M (denominator d) /\
  (sval (endsig M p d) == sval p + sval d)%Q.
Proof.
  intros Hp Hd HM Hle. pose proof (resc_valid p M Hp HM) as HV.
  destruct (sig_add_val _ _ HV Hd) as (s & E & Hs & D & V). unfold endsig. rewrite E.
  split; [reflexivity|]. split; [exact Hs|]. split; [exact D|].
  rewrite V, resc_val by assumption. reflexivity.
Qed.

Definition len_step (st : Z * sig) (e : entry) : Z * sig :=
  let M := Z.max (fst st) (denominator (fst e)) in
  let en := endsig M (fst e) (n_duration (snd e)) in
  (M, if sig_gt en (snd st) then en else snd st).
Definition len_of (l : list entry) : sig := snd (fold_left len_step l (1, mkSig 0 1)).

Lemma len_of_fst l : fst (fold_left len_step l (1, mkSig 0 1)) = maxden l.
Proof.
  induction l as [|e l IH] using rev_ind; [reflexivity|].
  rewrite fold_left_app, maxden_app. cbn [fold_left len_step fst]. rewrite IH. reflexivity.
Qed.
Lemma len_of_app l e : len_of (l ++ [e]) =
  let en := endsig (Z.max (maxden l) (denominator (fst e))) (fst e) (n_duration (snd e)) in
  if sig_gt en (len_of l) then en else len_of l.
Proof.
  unfold len_of. rewrite fold_left_app. cbn [fold_left len_step snd]. rewrite len_of_fst. reflexivity.
Qed.

Lemma len_of_valid l : Forall entry_ok l -> valid_sig (len_of l).
Proof.
  induction l as [|e l IH] using rev_ind; intros H.
  - split; [reflexivity || cbn; lia|apply pow2_1].
  - apply Forall_app in H. destruct H as [Hl He]. inversion He as [|? ? [Hp Hn] _]; subst.
    rewrite len_of_app. cbn zeta. destruct (sig_gt _ _); [|auto].
    apply endsig_spec; [exact Hp|apply Hn|apply pow2_max; [apply maxden_pow2; exact Hl|apply Hp]|lia].
Qed.

(** ** The invariant *)
Definition value_le (e f : entry) : Prop :=
  value_before e f \/ ((sval (fst e) == sval (fst f))%Q /\ note_same (snd e) (snd f)).

Record Inv (t : track) (l : list entry) : Prop := {
  inv_entries : Forall entry_ok l;
  inv_maxden : t_max_denominator t = maxden l;
  inv_heap : Permutation (t_heap t) (map (rescale (maxden l)) l);
  inv_len : t_max_position t = len_of l;
  inv_sorted : t_sorted t = true -> StronglySorted in_order (t_heap t);
  inv_sorted_value : t_sorted t = true -> consistent l -> StronglySorted value_le (t_heap t)
}.

Lemma inv_empty s : Inv (track_empty s) [].
Proof. constructor; cbn; try constructor; reflexivity. Qed.

Lemma map_res_ok {A B} (f : A -> res B) (g : A -> B) l :
  (forall x, In x l -> f x = Ok (g x)) -> map_res f l = Ok (map g l).
Proof.
  induction l as [|x l IH]; intros H; [reflexivity|]. cbn [map_res map].
  rewrite H by (left; reflexivity). cbn [bind]. rewrite IH; [reflexivity|].
  intros y Hy. apply H. right. exact Hy.
Qed.

Lemma heap_entries t l : Inv t l ->
  Forall (fun e => valid_sig (fst e) /\ denominator (fst e) = maxden l /\ valid_note (snd e)) (t_heap t).
Proof.
  intros H. eapply Permutation_Forall; [apply Permutation_sym, (inv_heap _ _ H)|].
  pose proof (inv_entries _ _ H) as He. apply Forall_map. rewrite Forall_forall in *.
  intros e Hin. destruct (He e Hin) as [Hp Hn]. cbn [rescale fst snd].
  split; [apply resc_valid; [exact Hp|apply maxden_pow2, (inv_entries _ _ H)]|].
  split; [reflexivity|exact Hn].
Qed.

Lemma rescale_rescale l M' : Forall entry_ok l -> pow2 M' -> maxden l <= M' ->
  map (rescale M') (map (rescale (maxden l)) l) = map (rescale M') l.
Proof.
  intros Hl HM Hle. rewrite map_map. apply map_ext_in. intros e He.
  unfold rescale. cbn [fst snd]. f_equal. rewrite Forall_forall in Hl.
  apply resc_resc; [apply Hl; exact He|apply maxden_pow2; rewrite Forall_forall; exact Hl|exact HM| |exact Hle].
  apply maxden_in. exact He.
Qed.

Lemma add_note_inv t l n p : Inv t l -> valid_sig p -> valid_note n ->
  exists t', add_note t n p = (t', Ok tt) /\ t_signature t' = t_signature t /\
    Inv t' (l ++ [(p, n)]).
Proof.
  intros H Hp Hn. pose proof (inv_entries _ _ H) as Hl.
  set (M' := Z.max (maxden l) (denominator p)).
  assert (HM : pow2 (maxden l)) by (apply maxden_pow2; exact Hl).
  assert (HM' : pow2 M') by (apply pow2_max; [exact HM|apply Hp]).
  assert (E1 : exists t1, (if denominator p >? t_max_denominator t then
      let t' := set_max_denominator t (denominator p) in
      match map_res (fun e : entry =>
                       let! s := sig_to (fst e) (t_max_denominator t') in Ok (s, snd e))
                    (t_heap t') with
      | Ok h => (set_heap t' h (t_sorted t'), Ok tt)
      | Err e => (t', Err e)
      end
    else (t, Ok tt)) = (t1, Ok tt) /\ t_signature t1 = t_signature t /\
     t_max_denominator t1 = M' /\ t_max_position t1 = t_max_position t /\
     Permutation (t_heap t1) (map (rescale M') l)).
  { pose proof (inv_maxden _ _ H) as EM. destruct (denominator p >? t_max_denominator t) eqn:G.
    - cbn [set_max_denominator t_max_denominator t_heap t_sorted].
      assert (EMp : M' = denominator p) by lia.
      rewrite (map_res_ok _ (rescale M')).
      + eexists. split; [reflexivity|]. cbn. split; [reflexivity|]. split; [lia|]. split; [reflexivity|].
        rewrite <- (rescale_rescale l M') by (try assumption; lia).
        apply Permutation_map. apply (inv_heap _ _ H).
      + intros e He. pose proof (heap_entries t l H) as HE. rewrite Forall_forall in HE.
        destruct (HE e He) as (H1 & H2 & _). rewrite <- EMp, sig_to_resc; [reflexivity|exact H1|exact HM'|lia].
    - exists t. assert (EMp : M' = maxden l) by lia. rewrite EMp.
      split; [reflexivity|]. split; [reflexivity|]. split; [exact EM|]. split; [reflexivity|apply (inv_heap _ _ H)]. }
  destruct E1 as (t1 & E1 & S1 & D1 & P1 & Q1).
  destruct (endsig_spec M' p (n_duration n) Hp (proj1 Hn) HM' ltac:(lia)) as (E3 & V3 & _ & _).
  unfold add_note. cbn zeta in *. rewrite E1. rewrite D1. rewrite sig_to_resc by (try assumption; lia).
  cbn [set_heap t_heap t_max_position]. rewrite E3.
  assert (HI : forall mp, mp = len_of (l ++ [(p, n)]) ->
     Inv {| t_signature := t_signature t1; t_max_denominator := t_max_denominator t1; t_max_position := mp;
            t_heap := heappush entry_lt (t_heap t1) (resc M' p, n); t_sorted := false |} (l ++ [(p, n)])).
  { intros mp Emp. constructor; cbn [t_max_denominator t_max_position t_heap t_sorted].
    - apply Forall_app. split; [exact Hl|]. constructor; [split; assumption|constructor].
    - rewrite maxden_app. cbn [fst]. exact D1.
    - rewrite maxden_app, map_app. cbn [fst map]. fold M'.
      eapply perm_trans; [apply heappush_perm|]. eapply perm_trans; [apply Permutation_cons_append|].
      apply Permutation_app_tail. exact Q1.
    - exact Emp.
    - discriminate.
    - discriminate. }
  pose proof (len_of_app l (p, n)) as EL. cbn [fst snd] in EL. cbn zeta in EL. fold M' in EL.
  rewrite <- (inv_len _ _ H), <- P1 in EL.
  destruct (sig_gt (endsig M' p (n_duration n)) (t_max_position t1)) eqn:G.
  - eexists. split; [reflexivity|]. split; [exact S1|]. apply HI. symmetry. exact EL.
  - eexists. split; [reflexivity|]. split; [exact S1|]. apply HI. symmetry. exact EL.
Qed.

(** ** Adding nested iterables *)
Section what_ind.
Variable P : what -> Prop.
Hypothesis Hn : forall n, P (WNote n).
Hypothesis Hi : forall l, Forall P l -> P (WIter l).
Fixpoint what_ind' (w : what) : P w :=
  match w with
  | WNote n => Hn n
  | WIter l => Hi l ((fix go (l : list what) : Forall P l :=
                        match l with
                        | [] => Forall_nil _
                        | x :: r => Forall_cons _ (what_ind' x) (go r)
                        end) l)
  end.
End what_ind.

(** Adding notes one after another at one position. *)
Fixpoint add_notes (p : sig) (l : list note) (t : track) : track * res unit :=
  match l with
  | [] => (t, Ok tt)
  | n :: r => match add_note t n p with
              | (t', Ok _) => add_notes p r t'
              | (t', Err e) => (t', Err e)
              end
  end.

Lemma add_notes_app p l m t : add_notes p (l ++ m) t =
  match add_notes p l t with
  | (t', Ok _) => add_notes p m t'
  | (t', Err e) => (t', Err e)
  end.
Proof.
  revert t. induction l as [|n l IH]; intros t; [reflexivity|]. cbn [app add_notes].
  destruct (add_note t n p) as [t' [u|e]]; [apply IH|reflexivity].
Qed.

Lemma add_at_notes p : forall w t, add_at w p t = add_notes p (notes_of w) t.
Proof.
  apply (what_ind' (fun w => forall t, add_at w p t = add_notes p (notes_of w) t)).
  - intros n t. cbn. destruct (add_note t n p) as [t' [[]|e]]; reflexivity.
  - intros l H. induction H as [|x l Hx Hl IH]; intros t; [reflexivity|].
    cbn [notes_of flat_map]. rewrite add_notes_app, <- Hx.
    cbn [add_at] in *. destruct (add_at x p t) as [t' [u|e]]; [|reflexivity]. rewrite IH. reflexivity.
Qed.

Lemma add_notes_inv p : valid_sig p -> forall ns t l, Inv t l -> Forall valid_note ns ->
  exists t', add_notes p ns t = (t', Ok tt) /\ t_signature t' = t_signature t /\
    Inv t' (l ++ map (fun n => (p, n)) ns).
Proof.
  intros Hp. induction ns as [|n ns IH]; intros t l H Hns; cbn [add_notes map].
  - exists t. rewrite app_nil_r. auto.
  - inversion Hns as [|? ? Hn Hns']; subst.
    destruct (add_note_inv t l n p H Hp Hn) as (t1 & E1 & S1 & I1). rewrite E1.
    destruct (IH t1 _ I1 Hns') as (t2 & E2 & S2 & I2).
    exists t2. split; [exact E2|]. split; [congruence|]. rewrite <- app_assoc in I2. exact I2.
Qed.

Lemma position_of_sig a : sig_of_arg a = match position_of a with Some s => Ok s | None => sig_of_arg a end /\
  (position_of a = None -> sig_of_arg a = Err ValueError \/ sig_of_arg a = Err TypeError).
Proof.
  destruct a as [s|l|]; cbn [sig_of_arg position_of].
  - split; [reflexivity|discriminate].
  - destruct l as [|a [|b [|c l]]].
    + split; [reflexivity|]. intros _. right. reflexivity.
    + split; [destruct a; reflexivity|]. intros _. right. destruct a; reflexivity.
    + destruct a as [n|]; destruct b as [d|]; cbn [sig_star];
        try (split; [reflexivity|]; intros _; try destruct (n >=? 0); auto; fail).
      destruct ((0 <=? n) && (0 <? d) && (d =? 2 ^ Z.log2 d)) eqn:E.
      * split; [|discriminate]. apply sig_new_ok; [lia|]. exists (Z.log2 d). split; [apply Z.log2_nonneg|lia].
      * split; [reflexivity|]. intros _. left. apply sig_new_err. intros [Hn (k & Hk & Hd)].
        pose proof (Z.pow_pos_nonneg 2 k ltac:(lia) Hk). cbn in Hn, Hd. subst d. rewrite Z.log2_pow2 in E by exact Hk. lia.
    + destruct a as [n|]; destruct b as [d|]; split; try reflexivity; intros _; right; reflexivity.
  - split; [reflexivity|]. intros _. right. reflexivity.
Qed.

Lemma position_of_valid a p : position_of a = Some p -> (forall s, a = SA_sig s -> valid_sig s) -> valid_sig p.
Proof.
  intros E H. destruct a as [s|l|]; cbn in E; [|destruct l as [|[n|] [|[d|] [|x l]]]; try discriminate|discriminate].
  - injection E as <-. apply H. reflexivity.
  - destruct ((0 <=? n) && (0 <? d) && (d =? 2 ^ Z.log2 d)) eqn:G; [|discriminate].
    injection E as <-. split; cbn; [lia|]. exists (Z.log2 d). split; [apply Z.log2_nonneg|lia].
Qed.

Lemma track_add_inv t l w a : Inv t l -> op_ok (OAdd w a) ->
  let t' := fst (track_add t w a) in
  Inv t' (l ++ additions t (OAdd w a)) /\ t_signature t' = t_signature t /\
  ((a = None \/ exists b p, a = Some b /\ position_of b = Some p) -> snd (track_add t w a) = Ok tt) /\
  (forall b, a = Some b -> position_of b = None ->
     t' = t /\ (snd (track_add t w a) = Err ValueError \/ snd (track_add t w a) = Err TypeError)).
Proof.
  intros H [Hn Ha]. cbn zeta. unfold track_add. destruct a as [b|].
  - destruct (position_of_sig b) as [E1 E2]. cbn [additions].
    destruct (position_of b) as [p|] eqn:EP.
    + rewrite E1. rewrite add_at_notes.
      destruct (add_notes_inv p (position_of_valid b p EP ltac:(intros s ->; apply Ha; reflexivity)) (notes_of w) t l H Hn)
        as (t' & E & S & I). rewrite E. cbn [fst snd]. split; [exact I|]. split; [exact S|].
      split; [reflexivity|]. intros b' Eb. injection Eb as <-. congruence.
    + rewrite app_nil_r. destruct (E2 eq_refl) as [-> | ->]; cbn [fst snd];
        (split; [exact H|]; split; [reflexivity|]; split;
          [intros [Hx|(b' & p & Hb & Hp)]; [discriminate|injection Hb as <-; congruence]
          |intros b' _ _; split; auto]).
  - cbn [additions]. rewrite add_at_notes.
    assert (Hv : valid_sig (t_max_position t)).
    { rewrite (inv_len _ _ H). apply len_of_valid. apply (inv_entries _ _ H). }
    destruct (add_notes_inv _ Hv (notes_of w) t l H Hn) as (t' & E & S & I).
    rewrite E. cbn [fst snd]. split; [exact I|]. split; [exact S|]. split; [reflexivity|]. discriminate.
Qed.

(** ** Order of entries *)
Lemma note_lt_pitch a b : note_lt a b = true -> pitch (n_tone a) <= pitch (n_tone b).
Proof.
  unfold note_lt, triplet_cmp, tone_eq, tone_lt.
  destruct (Z.eqb_spec (pitch (n_tone a)) (pitch (n_tone b))); cbn [negb]; intros H; lia.
Qed.
Lemma note_lt_pitch_false a b : note_lt a b = false -> pitch (n_tone b) <= pitch (n_tone a).
Proof.
  unfold note_lt, triplet_cmp, tone_eq, tone_lt.
  destruct (Z.eqb_spec (pitch (n_tone a)) (pitch (n_tone b))); cbn [negb]; intros H; lia.
Qed.

Definition eok (M : Z) (e : entry) : Prop :=
  valid_sig (fst e) /\ denominator (fst e) = M /\ valid_note (snd e).

Lemma eok_sig_lt M e f : eok M e -> eok M f -> (sig_lt (fst e) (fst f) = true <-> (sval (fst e) < sval (fst f))%Q).
Proof. intros (H1 & H2 & _) (H3 & H4 & _). apply c03_partial; try assumption. lia. Qed.
Lemma eok_sig_eq M e f : eok M e -> eok M f -> (sig_eq (fst e) (fst f) = true <-> (sval (fst e) == sval (fst f))%Q).
Proof. intros (H1 & H2 & _) (H3 & H4 & _). apply sig_eq_sval; assumption. Qed.

Lemma entry_lt_order M e f : eok M e -> eok M f -> entry_lt e f = true -> in_order e f.
Proof.
  intros He Hf H. unfold entry_lt in H. destruct (sig_eq (fst e) (fst f)) eqn:E; cbn [negb] in H.
  - apply (eok_sig_eq M) in E; [|assumption..]. right. split; [exact E|].
    destruct (note_eq (snd e) (snd f)) eqn:En; cbn [negb] in H; [discriminate|].
    apply note_lt_pitch. exact H.
  - left. apply (eok_sig_lt M); assumption.
Qed.

Lemma entry_lt_false_order M e f : eok M e -> eok M f -> entry_lt f e = false -> in_order e f.
Proof.
  intros He Hf H. unfold entry_lt in H. destruct (sig_eq (fst f) (fst e)) eqn:E; cbn [negb] in H.
  - apply (eok_sig_eq M) in E; [|assumption..]. right. split; [symmetry; exact E|].
    destruct (note_eq (snd f) (snd e)) eqn:En; cbn [negb] in H.
    + apply note_eq_same in En; [|apply Hf|apply He]. destruct En as [En _]. lia.
    + apply note_lt_pitch_false. exact H.
  - left. destruct (Q_dec (sval (fst e)) (sval (fst f))) as [[Hlt|Hgt]|Heq]; [exact Hlt| |].
    + apply (eok_sig_lt M) in Hgt; [|assumption..]. congruence.
    + exfalso. assert (sig_eq (fst f) (fst e) = true) by (apply (eok_sig_eq M); [assumption..|symmetry; exact Heq]).
      congruence.
Qed.

Lemma in_order_trans a b c : in_order a b -> in_order b c -> in_order a c.
Proof.
  unfold in_order. intros [H1|[H1 H1']] [H2|[H2 H2']].
  - left. eapply Qlt_trans; eassumption.
  - left. rewrite <- H2. exact H1.
  - left. rewrite H1. exact H2.
  - right. split; [rewrite H1; exact H2|lia].
Qed.

Lemma note_same_before_l a b c : note_same a b -> note_before b c -> note_before a c.
Proof.
  unfold note_same, note_before. intros (E1 & E2 & E3) H. rewrite E1.
  destruct H as [H|[H1 [H|[H H2]]]]; [left; exact H|right; split; [exact H1|]; left|right; split; [exact H1|]; right].
  - rewrite E2. exact H.
  - split; [rewrite E2; exact H|rewrite E3; exact H2].
Qed.
Lemma note_same_before_r a b c : note_before a b -> note_same b c -> note_before a c.
Proof.
  unfold note_same, note_before. intros H (E1 & E2 & E3). rewrite <- E1.
  destruct H as [H|[H1 [H|[H H2]]]]; [left; exact H|right; split; [exact H1|]; left|right; split; [exact H1|]; right].
  - rewrite <- E2. exact H.
  - split; [rewrite <- E2; exact H|rewrite <- E3; exact H2].
Qed.
Lemma note_same_trans a b c : note_same a b -> note_same b c -> note_same a c.
Proof.
  unfold note_same. intros (A1 & A2 & A3) (B1 & B2 & B3). split; [congruence|].
  split; [rewrite A2; exact B2|rewrite A3; exact B3].
Qed.

Lemma value_le_trans a b c : value_le a b -> value_le b c -> value_le a c.
Proof.
  unfold value_le, value_before.
  intros [[H1|[H1 N1]]|[H1 N1]] [[H2|[H2 N2]]|[H2 N2]].
  - left. left. eapply Qlt_trans; eassumption.
  - left. left. rewrite <- H2. exact H1.
  - left. left. rewrite <- H2. exact H1.
  - left. left. rewrite H1. exact H2.
  - left. right. split; [rewrite H1; exact H2|]. destruct (c16_spec_order (snd a) (snd b) (snd c)) as (_ & HT & _). auto.
  - left. right. split; [rewrite H1; exact H2|]. eapply note_same_before_r; eassumption.
  - left. left. rewrite H1. exact H2.
  - left. right. split; [rewrite H1; exact H2|]. eapply note_same_before_l; eassumption.
  - right. split; [rewrite H1; exact H2|]. eapply note_same_trans; eassumption.
Qed.

(** On entries whose durations can be compared, the tuple comparison is the right one. *)
Lemma entry_lt_value M e f : eok M e -> eok M f ->
  ((sval (fst e) == sval (fst f))%Q -> pitch (n_tone (snd e)) = pitch (n_tone (snd f)) ->
   (sval (n_duration (snd e)) == sval (n_duration (snd f)))%Q \/
   denominator (n_duration (snd e)) = denominator (n_duration (snd f))) ->
  (entry_lt e f = true <-> value_before e f).
Proof.
  intros He Hf HC. unfold entry_lt, value_before.
  assert (Ne : valid_note (snd e)) by apply He. assert (Nf : valid_note (snd f)) by apply Hf.
  destruct (sig_eq (fst e) (fst f)) eqn:E; cbn [negb].
  - apply (eok_sig_eq M) in E; [|assumption..].
    assert (HL : note_lt (snd e) (snd f) = true <-> note_before (snd e) (snd f)).
    { destruct (Z.eq_dec (pitch (n_tone (snd e))) (pitch (n_tone (snd f)))) as [EP|NP].
      2:{ rewrite (lt_gen _ _ Ne Nf _ (iff_refl _)). unfold note_before. clear - NP. tauto. }
      destruct (HC E EP) as [ED|ED].
      - rewrite (lt_gen _ _ Ne Nf _ (iff_refl _)). unfold note_before. apply or_iff_compat_l, and_iff_compat_l.
        split; [intros [[H _]|H]; [contradiction|right; exact H]
               |intros [H|H]; [apply Qlt_neq in H; contradiction|right; exact H]].
      - destruct (proj1 (c16_partial _ _ Ne Nf) ltac:(lia)) as [H _]. exact H. }
    destruct (note_eq (snd e) (snd f)) eqn:En; cbn [negb].
    + apply note_eq_same in En; [|assumption..]. split; [discriminate|].
      intros [H|[_ H]]; [apply Qlt_neq in H; contradiction|].
      destruct (c16_spec_order (snd e) (snd f) (snd f)) as (_ & _ & _ & HN).
      destruct (HN H) as [HX _]. contradiction.
    + rewrite HL. split; [intros H; right; auto|].
      intros [H|[_ H]]; [apply Qlt_neq in H; contradiction|exact H].
  - assert (E' : ~ (sval (fst e) == sval (fst f))%Q).
    { intros H. apply (eok_sig_eq M) in H; [|assumption..]. congruence. }
    rewrite (eok_sig_lt M) by assumption. clear - E'. tauto.
Qed.

Lemma not_value_before e f : ~ value_before f e -> value_le e f.
Proof.
  unfold value_le, value_before. intros H.
  destruct (Q_three (sval (fst e)) (sval (fst f))) as [HQ|[HQ|HQ]].
  - left. left. apply HQ.
  - destruct (c16_spec_order (snd e) (snd f) (snd f)) as (_ & _ & [HT|[HT|HT]] & _).
    + left. right. split; [apply HQ|exact HT].
    + right. split; [apply HQ|exact HT].
    + exfalso. apply H. right. split; [apply HQ|exact HT].
  - exfalso. apply H. left. apply HQ.
Qed.

Lemma consistent_rescale l : Forall entry_ok l -> consistent l -> consistent (map (rescale (maxden l)) l).
Proof.
  intros Hl HC e f He Hf. apply in_map_iff in He. apply in_map_iff in Hf.
  destruct He as (e' & <- & He). destruct Hf as (f' & <- & Hf). cbn [rescale fst snd].
  pose proof (maxden_pow2 l Hl) as HM. rewrite Forall_forall in Hl.
  rewrite !resc_val; try assumption; try (apply maxden_in; assumption); try (apply Hl; assumption).
  apply HC; assumption.
Qed.
Lemma consistent_in l m : (forall e, In e m -> In e l) -> consistent l -> consistent m.
Proof. intros H HC e f He Hf. apply HC; apply H; assumption. Qed.

Section Sort.
Variable sort : sort_fn.
Hypothesis Hsort : sort_contract sort.

Lemma track_iter_inv t l : Inv t l ->
  let t' := fst (track_iter sort t) in
  Inv t' l /\ t_signature t' = t_signature t /\ snd (track_iter sort t) = t_heap t' /\ t_sorted t' = true.
Proof.
  intros H. cbn zeta. unfold track_iter. destruct (t_sorted t) eqn:E; cbn [fst snd].
  - repeat split; try assumption; apply H.
  - split; [|split; [reflexivity|split; reflexivity]].
    destruct H as [H1 H2 H3 H4 H5 H6]. constructor; cbn [set_heap t_max_denominator t_heap t_max_position t_sorted]; try assumption.
    + eapply perm_trans; [apply (sort_permutation sort Hsort)|exact H3].
    + intros _. apply (sort_sorted_gen sort Hsort entry_lt (eok (maxden l))).
      * apply (heap_entries t l). constructor; assumption.
      * apply in_order_trans.
      * intros x y Hx Hy. apply (entry_lt_order (maxden l)); assumption.
      * intros x y Hx Hy. apply (entry_lt_false_order (maxden l)); assumption.
    + intros _ HC.
      assert (HE : Forall (eok (maxden l)) (t_heap t)) by (apply (heap_entries t l); constructor; assumption).
      assert (HC' : consistent (t_heap t)).
      { eapply consistent_in; [|apply consistent_rescale; [exact H1|exact HC]].
        intros e. apply Permutation_in. exact H3. }
      apply (sort_sorted_gen sort Hsort entry_lt (fun e => eok (maxden l) e /\ In e (t_heap t))).
      * rewrite Forall_forall in *. auto.
      * apply value_le_trans.
      * intros x y [Hx Ix] [Hy Iy] H. left. apply (entry_lt_value (maxden l)); auto.
      * intros x y [Hx Ix] [Hy Iy] H. apply not_value_before. intros HV.
        apply (entry_lt_value (maxden l)) in HV; auto. congruence.
Qed.

Lemma step_obs t o : is_add o = false -> step sort t o = t \/ step sort t o = fst (track_iter sort t).
Proof.
  intros Ho. destruct o as [w p| |u|u|w|mn mx me va dr]; [discriminate| | | | |]; cbn [step].
  - right. reflexivity.
  - unfold track_eq. destruct (negb _); [left; reflexivity|]. right.
    destruct (track_iter sort t) as [a la]. destruct (track_iter sort u) as [b lb]. reflexivity.
  - unfold track_eq. destruct (negb _); [left; reflexivity|]. right.
    destruct (track_iter sort t) as [a la]. destruct (track_iter sort u) as [b lb]. reflexivity.
  - right. unfold dump. destruct (track_iter sort t) as [a la]. cbn [fst].
    destruct (all_events _ _ _ _) as [evs|e]; [|reflexivity].
    destruct (format_header_chunk _ _ _) as [h|e]; [|reflexivity].
    match goal with |- context [match ?x with _ => _ end] => destruct x end; reflexivity.
  - unfold randomize_velocities.
    destruct (negb (in_unit mn)); [left; reflexivity|]. destruct (negb (in_unit mx)); [left; reflexivity|].
    destruct (negb (in_unit me)); [left; reflexivity|]. destruct (negb (fle f_zero va)); [left; reflexivity|].
    right. destruct (track_iter sort t) as [a la]. reflexivity.
Qed.

Lemma step_inv t l o : Inv t l -> op_ok o ->
  Inv (step sort t o) (l ++ additions t o) /\ t_signature (step sort t o) = t_signature t.
Proof.
  intros H Ho. destruct (is_add o) eqn:E.
  - destruct o as [w p| | | | |]; try discriminate. cbn [step].
    destruct (track_add_inv t l w p H Ho) as (H1 & H2 & _). split; assumption.
  - assert (additions t o = []) as -> by (destruct o; [discriminate|reflexivity..]).
    rewrite app_nil_r. destruct (step_obs t o E) as [-> | ->]; [auto|].
    destruct (track_iter_inv t l H) as (H1 & H2 & _). split; assumption.
Qed.

Lemma run_inv_gen : forall ops t l, Inv t l -> Forall op_ok ops ->
  Inv (run sort t ops) (l ++ log sort t ops) /\ t_signature (run sort t ops) = t_signature t.
Proof.
  induction ops as [|o ops IH]; intros t l H Hops; cbn [log].
  - rewrite app_nil_r. split; [exact H|reflexivity].
  - inversion Hops as [|? ? Ho Hops']; subst.
    destruct (step_inv t l o H Ho) as [H1 S1].
    destruct (IH (step sort t o) _ H1 Hops') as [H2 S2].
    rewrite <- app_assoc in H2. split; [exact H2|]. change (run sort t (o :: ops)) with (run sort (step sort t o) ops).
    congruence.
Qed.

Lemma run_inv s ops : Forall op_ok ops ->
  Inv (run sort (track_empty s) ops) (log sort (track_empty s) ops) /\
  t_signature (run sort (track_empty s) ops) = s.
Proof. intros H. apply (run_inv_gen ops (track_empty s) [] (inv_empty s) H). Qed.

Lemma yields_perm t l : Inv t l -> Permutation (yields sort t) (map (rescale (maxden l)) l).
Proof.
  intros H. destruct (track_iter_inv t l H) as (H1 & _ & E & _). unfold yields. rewrite E.
  apply (inv_heap _ _ H1).
Qed.
Lemma yields_ok t l : Inv t l -> Forall (eok (maxden l)) (yields sort t).
Proof.
  intros H. destruct (track_iter_inv t l H) as (H1 & _ & E & _). unfold yields. rewrite E.
  apply (heap_entries _ _ H1).
Qed.
Lemma yields_sorted t l : Inv t l -> StronglySorted in_order (yields sort t).
Proof.
  intros H. destruct (track_iter_inv t l H) as (H1 & _ & E & Hs). unfold yields. rewrite E.
  apply (inv_sorted _ _ H1 Hs).
Qed.
Lemma yields_sorted_value t l : Inv t l -> consistent l -> StronglySorted value_le (yields sort t).
Proof.
  intros H HC. destruct (track_iter_inv t l H) as (H1 & _ & E & Hs). unfold yields. rewrite E.
  apply (inv_sorted_value _ _ H1 Hs HC).
Qed.
End Sort.

(** Functions of a placed note that do not look at the representation of the position. *)
Lemma map_rescale {B} (g : entry -> B) (h : Q -> note -> B) l :
  (forall e, g e = h (Qred (sval (fst e))) (snd e)) -> Forall entry_ok l ->
  map g (map (rescale (maxden l)) l) = map g l.
Proof.
  intros Hg Hl. rewrite map_map. apply map_ext_in. intros e He. rewrite !Hg. cbn [rescale fst snd].
  f_equal. apply Qred_complete. rewrite Forall_forall in Hl. apply resc_val; [apply Hl; exact He| |apply maxden_in; exact He].
  apply maxden_pow2. rewrite Forall_forall. exact Hl.
Qed.
Lemma map_rescale_placed l : Forall entry_ok l -> map placed (map (rescale (maxden l)) l) = map placed l.
Proof. apply (map_rescale placed (fun q n => (q, n))). reflexivity. Qed.
Lemma map_rescale_value l : Forall entry_ok l -> map value_of (map (rescale (maxden l)) l) = map value_of l.
Proof.
  apply (map_rescale value_of (fun q n => (q, pitch (n_tone n), Qred (sval (n_duration n)), Qred (fval (n_velocity n))))).
  reflexivity.
Qed.
Lemma map_rescale_place l : Forall entry_ok l -> map place_pitch (map (rescale (maxden l)) l) = map place_pitch l.
Proof. apply (map_rescale place_pitch (fun q n => (q, pitch (n_tone n)))). reflexivity. Qed.
