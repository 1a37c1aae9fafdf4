(** Adding notes to a track in a loop over a track (C61). *)
From Coq Require Import ZArith QArith List Bool Lia Permutation.
From Verif Require Import Py PyFloat PySort Timsort Signature Tone Note Track Processing TrackObjects SpecBase TrackSpec
  SigFacts SigProps FloatFacts NoteProps SortFacts TimsortFacts TrackFacts TrackProps ObjectFacts.
Import ListNotations.
Open Scope nat_scope.

(** The additions of such a loop. *)
Definition fed (f : entry -> what * option sig_arg) (l : list entry) : list op := map (fun e : entry => OAdd (fst (f e)) (snd (f e))) l.

(** Notes at positions that are accepted. *)
Definition good_add (o : op) : Prop :=
  op_ok o /\ match o with OAdd _ (Some a) => exists p, position_of a = Some p | _ => True end.

(** C61 in full: the loop stops, and has added what was to be added for each note the track had. *)
Definition loop_adds_all (sort : sort_fn) : Prop :=
  forall st i j f s ops, wf st -> is_obj st i -> is_obj st j -> view st i = run sort (track_empty s) ops -> Forall op_ok ops ->
  Forall good_add (fed f (yields sort (view st j))) ->
  exists fuel st', obj_for sort fuel st j i f = (st', Ok tt) /\
    view st' i = run sort (view st i) (fed f (yields sort (view st j))).

Section Sort.
Variable sort : sort_fn.

(** Two different tracks. *)
Lemma feed_simulates f r i l : forall fuel k st m, wf st -> is_obj st i -> Inv (view st i) m ->
  r < length (st_lists st) -> r <> o_heap (the_track st i) -> the_list st r = l -> length l < fuel + k -> k <= length l ->
  Forall good_add (fed f l) ->
  let x := obj_feed fuel f r k i st in
  upd st (fst x) i (run sort (view st i) (fed f (skipn k l))) /\ snd x = Ok tt.
Proof.
  induction fuel as [|fuel IH]; intros k st m W Hi HI Hlr Hne EL Hk Hl HG; [exfalso; lia|]. cbn zeta. cbn [obj_feed]. rewrite EL.
  pose proof (skipn_nth l k) as H1. destruct (nth_error l k) as [e|] eqn:E1; rewrite H1; cbn [fed map run fold_left].
  2:{ split; [apply upd_refl, W|reflexivity]. }
  assert (HS : S k <= length l) by (apply nth_error_Some; congruence).
  assert (Hg : good_add (OAdd (fst (f e)) (snd (f e)))).
  { rewrite Forall_forall in HG. apply HG. unfold fed. apply in_map_iff. exists e. split; [reflexivity|eapply nth_error_In; exact E1]. }
  pose proof (add_simulates st i (fst (f e)) (snd (f e)) W Hi) as [U E].
  destruct Hg as [Hok Hp].
  destruct (track_add_inv _ _ _ _ HI Hok) as (HI' & _ & HO & _).
  assert (HO' : snd (track_add (view st i) (fst (f e)) (snd (f e))) = Ok tt).
  { apply HO. destruct (snd (f e)) as [a|]; [right; destruct Hp as [p Hp]; exists a, p; auto|left; reflexivity]. }
  rewrite HO' in E. change (fst (track_add (view st i) (fst (f e)) (snd (f e)))) with (step sort (view st i) (OAdd (fst (f e)) (snd (f e)))) in U, HI'.
  destruct (obj_add st i (fst (f e)) (snd (f e))) as [st1 r1]. cbn [fst snd] in U, E. subst r1.
  assert (LR : the_list st1 r = l) by (rewrite <- EL; apply (u_lists _ _ _ _ U); assumption).
  rewrite <- (u_view _ _ _ _ U) in HI'.
  destruct (IH (S k) st1 _ (u_wf _ _ _ _ U) (upd_obj _ _ _ _ _ U Hi) HI') as [U' E'].
  - pose proof (u_len _ _ _ _ U). lia.
  - destruct (u_heap _ _ _ _ U) as [Hh|Hh]; [congruence|lia].
  - exact LR.
  - lia.
  - lia.
  - exact HG.
  - rewrite (u_view _ _ _ _ U) in U'. split; [eapply upd_trans; eassumption|exact E'].
Qed.
End Sort.

Lemma c61_distinct : forall sort, sort_contract sort -> forall st i j f s ops,
  wf st -> is_obj st i -> is_obj st j -> i <> j -> view st i = run sort (track_empty s) ops -> Forall op_ok ops ->
  Forall good_add (fed f (yields sort (view st j))) ->
  exists fuel st', obj_for sort fuel st j i f = (st', Ok tt) /\ wf st' /\
    view st' i = run sort (view st i) (fed f (yields sort (view st j))) /\
    view st' j = run sort (view st j) [OIter] /\
    (forall k, is_obj st k -> k <> i -> k <> j -> view st' k = view st k).
Proof.
  intros sort Hs st i j f s ops W Hi Hj Hn EV Ho HG.
  pose proof (iter_simulates sort st j W Hj) as H0. exists (S (length (yields sort (view st j)))).
  unfold obj_for. destruct (obj_iter sort st j) as [st1 r]. destruct H0 as (U & -> & EL & EH).
  pose proof (upd_obj _ _ _ _ _ U Hi) as Hi1. pose proof (upd_obj _ _ _ _ _ U Hj) as Hj1.
  pose proof (view_other _ _ _ _ i W U Hj Hi Hn) as V1. fold (yields sort (view st j)) in EL.
  destruct (run_inv sort Hs s ops Ho) as [HI _]. rewrite <- EV, <- V1 in HI.
  assert (Hr : o_heap (the_track st1 j) <> o_heap (the_track st1 i)) by (apply (proj2 (u_wf _ _ _ _ U)); auto).
  destruct (feed_simulates sort f (o_heap (the_track st1 j)) i (yields sort (view st j)) (S (length (yields sort (view st j)))) 0 st1 _ (u_wf _ _ _ _ U) Hi1 HI) as [U2 E2].
  - apply (proj1 (u_wf _ _ _ _ U)), Hj1.
  - exact Hr.
  - exact EL.
  - lia.
  - lia.
  - exact HG.
  - destruct (obj_feed _ f _ 0 i st1) as [st2 x]. cbn [fst snd] in U2, E2. subst x. rewrite V1 in U2. cbn [skipn] in U2.
    exists st2. split; [reflexivity|]. split; [apply (u_wf _ _ _ _ U2)|]. split; [apply (u_view _ _ _ _ U2)|]. split.
    + rewrite (view_other _ _ _ _ j (u_wf _ _ _ _ U) U2 Hi1 Hj1 ltac:(auto)), (u_view _ _ _ _ U). reflexivity.
    + intros k Hk K1 K2. rewrite (view_other _ _ _ _ k (u_wf _ _ _ _ U) U2 Hi1 (upd_obj _ _ _ _ _ U Hk) K1).
      apply (view_other _ _ _ _ k W U Hj Hk K2).
Qed.

(** ** One track: the loop never ends *)
Lemma add_in_place st i n p : wf st -> is_obj st i -> (denominator p <= o_max_denominator (the_track st i))%Z ->
  o_heap (the_track (fst (obj_add_note st i n p)) i) = o_heap (the_track st i).
Proof.
  intros W Hi Hd. unfold obj_add_note. replace (denominator p >? o_max_denominator (the_track st i))%Z with false by lia.
  destruct (sig_to p _) as [q|e]; [|reflexivity].
  assert (HT : forall s o, length (st_tracks s) = length (st_tracks st) -> the_track (set_track s i o) i = o).
  { intros s o E. unfold the_track, set_track. cbn. apply put_at_same. rewrite E. exact Hi. }
  destruct (sig_add q (n_duration n)) as [x|e]; cbn [fst].
  - destruct (sig_gt x _); cbn [fst]; rewrite ?HT; try reflexivity. unfold set_track. cbn. apply put_at_length.
  - rewrite HT; reflexivity.
Qed.

Lemma add_note_grows t l n p : Inv t l -> valid_sig p -> valid_note n -> (denominator p <= t_max_denominator t)%Z ->
  exists t', add_note t n p = (t', Ok tt) /\ Inv t' (l ++ [(p, n)]) /\ t_max_denominator t' = t_max_denominator t /\
    length (t_heap t') = S (length (t_heap t)).
Proof.
  intros HI Hp Hn Hd. destruct (add_note_inv t l n p HI Hp Hn) as (t' & E & _ & HI'). exists t'. split; [exact E|]. split; [exact HI'|].
  rewrite (inv_maxden _ _ HI') in *. rewrite (inv_maxden _ _ HI) in *.
  rewrite (Permutation_length (inv_heap _ _ HI')), (Permutation_length (inv_heap _ _ HI)), !map_length, app_length. cbn [length].
  split; [|lia]. rewrite maxden_app. cbn. lia.
Qed.

Lemma feed_self f i M : (forall e : entry, valid_sig (fst e) -> valid_note (snd e) -> denominator (fst e) = M ->
     exists n p, f e = (WNote n, Some (SA_sig p)) /\ valid_note n /\ valid_sig p /\ (denominator p <= denominator (fst e))%Z) ->
  forall fuel k st m, wf st -> is_obj st i -> Inv (view st i) m -> t_max_denominator (view st i) = M ->
  k < length (the_list st (o_heap (the_track st i))) ->
  exists st', obj_feed fuel f (o_heap (the_track st i)) k i st = (st', Err OutOfFuel) /\
    track_len (view st' i) = (track_len (view st i) + Z.of_nat fuel)%Z.
Proof.
  intros Hf. induction fuel as [|fuel IH]; intros k st m W Hi HI HM Hk.
  { exists st. split; [reflexivity|]. lia. }
  cbn [obj_feed]. destruct (nth_error (the_list st (o_heap (the_track st i))) k) as [e|] eqn:Ee; [|apply nth_error_None in Ee; lia].
  assert (He : eok (maxden m) e).
  { pose proof (heap_entries _ _ HI) as HE. rewrite Forall_forall in HE. apply HE. cbn [view t_heap]. eapply nth_error_In, Ee. }
  destruct He as (He1 & He2 & He3). rewrite <- (inv_maxden _ _ HI), HM in He2.
  destruct (Hf e He1 He3 He2) as (n & p & Ef & Hn & Hp & Hd). rewrite Ef. cbn [fst snd].
  change (obj_add st i (WNote n) (Some (SA_sig p))) with (obj_add_note st i n p).
  rewrite He2, <- HM in Hd.
  destruct (add_note_grows _ _ n p HI Hp Hn Hd) as (t' & E & HI' & HM' & HL).
  pose proof (add_in_place st i n p W Hi Hd) as EH.
  destruct (add_note_simulates st i n p W Hi) as [U EO]. rewrite E in U, EO. cbn [fst snd] in U, EO.
  destruct (obj_add_note st i n p) as [st1 x]. cbn [fst snd] in U, EO, EH. subst x.
  pose proof (u_view _ _ _ _ U) as V. rewrite <- EH.
  destruct (IH (S k) st1 (m ++ [(p, n)]) (u_wf _ _ _ _ U) (upd_obj _ _ _ _ _ U Hi)) as (st' & E' & L').
  - rewrite V. exact HI'.
  - rewrite V, HM'. exact HM.
  - change (the_list st1 (o_heap (the_track st1 i))) with (t_heap (view st1 i)). rewrite V, HL. cbn [view t_heap]. lia.
  - exists st'. split; [exact E'|]. rewrite L', V. unfold track_len. rewrite HL. lia.
Qed.

Lemma c61_self : forall sort, sort_contract sort -> forall st i f s ops,
  wf st -> is_obj st i -> view st i = run sort (track_empty s) ops -> Forall op_ok ops ->
  yields sort (view st i) <> [] ->
  (forall e : entry, valid_sig (fst e) -> valid_note (snd e) -> denominator (fst e) = t_max_denominator (view st i) ->
     exists n p, f e = (WNote n, Some (SA_sig p)) /\ valid_note n /\ valid_sig p /\ (denominator p <= denominator (fst e))%Z) ->
  forall fuel, exists st', obj_for sort fuel st i i f = (st', Err OutOfFuel) /\
    track_len (view st' i) = (track_len (view st i) + Z.of_nat fuel)%Z.
Proof.
  intros sort Hs st i f s ops W Hi EV Ho Hne Hf fuel.
  pose proof (iter_simulates sort st i W Hi) as H0. unfold obj_for. destruct (obj_iter sort st i) as [st1 r]. destruct H0 as (U & -> & EL & EH).
  destruct (run_inv sort Hs s ops Ho) as [HI _]. rewrite <- EV in HI.
  destruct (track_iter_inv sort Hs _ _ HI) as (HI' & _). rewrite <- (u_view _ _ _ _ U) in HI'.
  fold (yields sort (view st i)) in EL.
  assert (HM : t_max_denominator (view st1 i) = t_max_denominator (view st i)) by (rewrite (inv_maxden _ _ HI'), (inv_maxden _ _ HI); reflexivity).
  assert (HL : track_len (view st1 i) = track_len (view st i)) by (rewrite (inv_track_len _ _ HI'), (inv_track_len _ _ HI); reflexivity).
  rewrite <- HL. apply (feed_self f i _ Hf fuel 0 st1 _ (u_wf _ _ _ _ U) (upd_obj _ _ _ _ _ U Hi) HI' HM).
  rewrite EL. destruct (yields sort (view st i)); [congruence|cbn; lia].
Qed.

Lemma c61_refuted : forall sort, sort_contract sort -> ~ loop_adds_all sort.
Proof.
  intros sort Hs H.
  set (n := mkNote (mkTone 36) (mkSig 1 4) f_half).
  set (t := run sort (track_empty (mkSig 4 4)) [OAdd (WNote n) None]).
  set (st := mkStore [t_heap t] [mkObj (t_signature t) (t_max_denominator t) (t_max_position t) 0 (t_sorted t)]).
  assert (EV : view st 0 = t) by reflexivity.
  assert (W : wf st).
  { split; [intros [|i] Hi; [cbn; lia|unfold is_obj, st in Hi; cbn in Hi; lia]|].
    intros [|i] [|j] Hi Hj Hn; unfold is_obj, st in *; cbn in *; lia. }
  assert (Hi : is_obj st 0) by (unfold is_obj, st; cbn; lia).
  assert (Vn : valid_note n) by (split; [apply (valid_pow 1 2); lia|apply unit_test; reflexivity]).
  assert (Ho : Forall op_ok [OAdd (WNote n) None]).
  { constructor; [|constructor]. split; [constructor; [exact Vn|constructor]|discriminate]. }
  set (f := fun e : entry => (WNote (snd e), Some (SA_sig (fst e)))).
  assert (HY : Forall (fun e : entry => valid_sig (fst e) /\ valid_note (snd e)) (yields sort (view st 0))).
  { rewrite EV. unfold t. destruct (run_inv sort Hs (mkSig 4 4) _ Ho) as [HI _]. eapply Forall_impl; [|apply (yields_ok sort Hs _ _ HI)].
    intros e (A & _ & B). auto. }
  destruct (H st 0 0 f (mkSig 4 4) [OAdd (WNote n) None] W Hi Hi EV Ho) as (fuel & st' & E & _).
  - unfold fed. apply Forall_map. eapply Forall_impl; [|exact HY]. cbv beta. intros e [A B]. unfold good_add, f. cbn [fst snd].
    split; [split; [constructor; [exact B|constructor]|intros q Eq; injection Eq as <-; exact A]|exists (fst e); reflexivity].
  - destruct (c61_self sort Hs st 0 f (mkSig 4 4) [OAdd (WNote n) None] W Hi EV Ho) with (fuel := fuel) as (st2 & E2 & _).
    + rewrite EV. destruct (run_inv sort Hs (mkSig 4 4) _ Ho) as [HI _]. intros Hy.
      pose proof (inv_values sort _ _ Hs HI) as HP. fold t in HP. rewrite Hy in HP. apply Permutation_length in HP. discriminate.
    + intros e A B C. exists (snd e), (fst e). split; [reflexivity|]. split; [exact B|]. split; [exact A|]. lia.
    + rewrite E2 in E. discriminate.
Qed.

(** One track, when the first addition needs a larger denominator: the track gets a new list, and the
    loop runs over the old one. *)
Lemma add_fresh st i n p : wf st -> is_obj st i -> (denominator p > o_max_denominator (the_track st i))%Z ->
  snd (obj_add_note st i n p) = Ok tt -> o_heap (the_track (fst (obj_add_note st i n p)) i) = length (st_lists st) /\
  forall r, r < length (st_lists st) -> the_list (fst (obj_add_note st i n p)) r = the_list st r.
Proof.
  intros W Hi Hd. unfold obj_add_note. replace (denominator p >? o_max_denominator (the_track st i))%Z with true by lia.
  cbv zeta. destruct (map_res _ _) as [h|e]; [|discriminate]. cbn [new_list].
  assert (HT : forall s o, length (st_tracks s) = length (st_tracks st) -> the_track (set_track s i o) i = o).
  { intros s o E. unfold the_track, set_track. cbn. apply put_at_same. rewrite E. exact Hi. }
  set (s1 := mkStore _ (st_tracks (set_track st i _))). set (o1 := mkObj _ _ _ (length _) _). set (s2 := set_track s1 i o1).
  assert (L1 : length (st_tracks s1) = length (st_tracks st)) by (unfold s1, set_track; cbn; apply put_at_length).
  assert (L2 : length (st_tracks s2) = length (st_tracks st)) by (unfold s2, set_track; cbn; rewrite put_at_length; exact L1).
  assert (E2 : the_track s2 i = o1) by (apply HT, L1).
  assert (EO : o_heap o1 = length (st_lists st)) by reflexivity. clearbody o1.
  destruct (sig_to p (o_max_denominator (the_track s2 i))) as [q|e]; [|discriminate].
  destruct (sig_add q (n_duration n)) as [x|e]; [|discriminate].
  rewrite E2. set (s3 := set_list s2 _ _). change (the_track s3 i) with (the_track s2 i). rewrite E2.
  assert (L3 : length (st_tracks s3) = length (st_tracks st)) by exact L2.
  set (o2 := mkObj _ _ _ _ false). set (s4 := set_track s3 i o2). assert (E4 : the_track s4 i = o2) by (apply HT, L3).
  assert (L4 : length (st_tracks s4) = length (st_tracks st)) by (unfold s4, set_track; cbn [st_tracks]; rewrite put_at_length; exact L3).
  rewrite E4. destruct (sig_gt x (o_max_position o2)); intros _; cbn [fst].
  all: split; [rewrite ?E4, ?HT by exact L4; exact EO|].
  all: intros r Hr; unfold the_list, s4, s3, s2, s1, set_list, set_track; cbn [st_lists].
  all: rewrite EO; rewrite put_at_other by lia; apply app_nth1, Hr.
Qed.

Lemma c61_fresh : forall sort, sort_contract sort -> forall st i f s ops e rest n p,
  wf st -> is_obj st i -> view st i = run sort (track_empty s) ops -> Forall op_ok ops ->
  yields sort (view st i) = e :: rest -> f e = (WNote n, Some (SA_sig p)) -> (denominator p > t_max_denominator (view st i))%Z ->
  Forall good_add (fed f (yields sort (view st i))) ->
  exists fuel st', obj_for sort fuel st i i f = (st', Ok tt) /\ wf st' /\
    view st' i = run sort (view st i) (OIter :: fed f (yields sort (view st i))).
Proof.
  intros sort Hs st i f s ops e rest n p W Hi EV Ho EY Ef Hd HG.
  pose proof (iter_simulates sort st i W Hi) as H0. exists (S (S (length rest))).
  unfold obj_for. destruct (obj_iter sort st i) as [st1 r]. destruct H0 as (U & -> & EL & EH).
  pose proof (upd_obj _ _ _ _ _ U Hi) as Hi1. fold (yields sort (view st i)) in EL. rewrite EY in *.
  destruct (run_inv sort Hs s ops Ho) as [HI _]. rewrite <- EV in HI.
  destruct (track_iter_inv sort Hs _ _ HI) as (HI' & _). rewrite <- (u_view _ _ _ _ U) in HI'.
  assert (HM : t_max_denominator (view st1 i) = t_max_denominator (view st i)) by (rewrite (inv_maxden _ _ HI'), (inv_maxden _ _ HI); reflexivity).
  remember (S (length rest)) as F eqn:EF. cbn [obj_feed]. rewrite EL. cbn [nth_error]. rewrite Ef. cbn [fst snd].
  change (obj_add st1 i (WNote n) (Some (SA_sig p))) with (obj_add_note st1 i n p).
  assert (Hg : good_add (OAdd (WNote n) (Some (SA_sig p)))).
  { pose proof (Forall_inv HG) as H. cbn beta in H. rewrite Ef in H. exact H. }
  destruct Hg as [Hok _]. pose proof Hok as [Hn Hp]. pose proof (Forall_inv Hn) as Hn'. specialize (Hp p eq_refl).
  destruct (add_note_inv _ _ n p HI' Hp Hn') as (t' & E & _ & HI2).
  destruct (add_note_simulates st1 i n p (u_wf _ _ _ _ U) Hi1) as [U1 E1]. rewrite E in U1, E1. cbn [fst snd] in U1, E1.
  assert (HF : o_heap (the_track (fst (obj_add_note st1 i n p)) i) = length (st_lists st1) /\
    forall r, r < length (st_lists st1) -> the_list (fst (obj_add_note st1 i n p)) r = the_list st1 r).
  { apply add_fresh; [apply (u_wf _ _ _ _ U)|exact Hi1| |exact E1].
    change (o_max_denominator (the_track st1 i)) with (t_max_denominator (view st1 i)). rewrite HM. lia. }
  destruct (obj_add_note st1 i n p) as [st2 x]. cbn [fst snd] in U1, E1, HF. subst x. destruct HF as [HF HL].
  assert (Hlt : o_heap (the_track st1 i) < length (st_lists st1)) by (apply (proj1 (u_wf _ _ _ _ U)), Hi1).
  rewrite <- (u_view _ _ _ _ U1) in HI2.
  destruct (feed_simulates sort f (o_heap (the_track st1 i)) i (e :: rest) F 1 st2 _ (u_wf _ _ _ _ U1) (upd_obj _ _ _ _ _ U1 Hi1) HI2) as [U2 E2].
  - pose proof (u_len _ _ _ _ U1). lia.
  - lia.
  - rewrite HL by exact Hlt. exact EL.
  - cbn [length]. lia.
  - cbn [length]. lia.
  - exact HG.
  - destruct (obj_feed _ f _ 1 i st2) as [st3 x]. cbn [fst snd] in U2, E2. subst x. exists st3. split; [reflexivity|].
    split; [apply (u_wf _ _ _ _ U2)|]. rewrite (u_view _ _ _ _ U2), (u_view _ _ _ _ U1). cbn [skipn fed map run fold_left]. rewrite Ef.
    cbn [step fst snd]. rewrite <- (u_view _ _ _ _ U). change (track_add (view st1 i) (WNote n) (Some (SA_sig p))) with (add_note (view st1 i) n p).
    rewrite E. reflexivity.
Qed.
