(** Track objects are independent (C51, C60). *)
From Coq Require Import ZArith QArith List Bool Lia Permutation.
From Verif Require Import Py PyFloat PySort Signature Tone Note Track Processing TrackObjects SpecBase TrackSpec
  SigFacts FloatFacts NoteProps SortFacts TrackFacts TrackProps LoadFacts ProcessingProps ObjectFacts ObjectSpec.
Import ListNotations.
Open Scope nat_scope.

Lemma content_simulates : forall content st i, wf st -> is_obj st i ->
  exists t', upd st (fst (obj_add_content st i content)) i t' /\
  match add_content (view st i) content with
  | Ok t => snd (obj_add_content st i content) = Ok tt /\ t' = t
  | Err e => snd (obj_add_content st i content) = Err e
  end.
Proof.
  induction content as [|[w p] r IH]; intros st i W Hi; [exists (view st i); split; [apply upd_refl, W|split; reflexivity]|].
  cbn [obj_add_content add_content]. pose proof (add_simulates st i w p W Hi) as [U E].
  destruct (obj_add st i w p) as [st1 r1]. destruct (track_add (view st i) w p) as [t1 r1']. cbn [fst snd] in U, E. subst r1'.
  destruct r1 as [[]|e]; [|eexists; split; [exact U|reflexivity]].
  destruct (IH st1 i (u_wf _ _ _ _ U) (upd_obj _ _ _ _ _ U Hi)) as (t' & U' & E'). rewrite (u_view _ _ _ _ U) in E'.
  exists t'. split; [eapply upd_trans; eassumption|exact E'].
Qed.

Lemma init_simulates st sa content : wf st ->
  let (st', x) := obj_init st sa content in
  wf st' /\ length (st_tracks st) <= length (st_tracks st') /\
  (forall k, is_obj st k -> view st' k = view st k) /\
  match track_new sa content with
  | Ok t => x = Ok (length (st_tracks st)) /\ is_obj st' (length (st_tracks st)) /\ view st' (length (st_tracks st)) = t
  | Err e => x = Err e
  end.
Proof.
  intros W. unfold obj_init, track_new. destruct (sig_of_arg sa) as [s|e]; cbn [bind]; [|split; [exact W|]; auto].
  pose proof (new_obj st s W) as H0. destruct (obj_new st s) as [st0 n].
  destruct H0 as (W0 & -> & N0 & V0 & T0 & H0 & L0 & LL0).
  assert (VO : forall k, is_obj st k -> view st0 k = view st k).
  { intros k Hk. unfold view. rewrite (T0 k Hk). f_equal. apply LL0, (proj1 W), Hk. }
  assert (I0 : forall k, is_obj st k -> is_obj st0 k) by (unfold is_obj; intros; lia).
  assert (In0 : is_obj st0 (length (st_tracks st))) by (unfold is_obj; lia).
  destruct (content_simulates content st0 _ W0 In0) as (t' & U & E). rewrite V0 in E.
  destruct (obj_add_content st0 (length (st_tracks st)) content) as [st1 r]. cbn [fst snd] in U, E.
  assert (G : wf st1 /\ length (st_tracks st) <= length (st_tracks st1) /\ (forall k, is_obj st k -> view st1 k = view st k)).
  { split; [apply (u_wf _ _ _ _ U)|]. split; [rewrite (u_n _ _ _ _ U); lia|]. intros k Hk.
    rewrite (view_other st0 st1 _ t' k W0 U In0 (I0 k Hk)); [apply VO, Hk|]. unfold is_obj in Hk. lia. }
  destruct (add_content (track_empty s) content) as [t|e].
  - destruct E as [-> ->]. repeat (split; [apply G|]). split; [reflexivity|]. split; [apply (upd_obj _ _ _ _ _ U In0)|apply (u_view _ _ _ _ U)].
  - rewrite E. repeat (split; [apply G|]). reflexivity.
Qed.

Section Sort.
Variable sort : sort_fn.

Lemma exec_one st o : wf st -> (forall i, In i (mentions o) -> is_obj st i) ->
  wf (exec sort st o) /\ length (st_tracks st) <= length (st_tracks (exec sort st o)) /\
  forall i, is_obj st i -> view (exec sort st o) i = run sort (view st i) (op_of st i o).
Proof.
  intros W Hm. destruct o as [sa content|j w p|j|j k|j mn mx me va dr]; cbn [exec op_of mentions] in *.
  - pose proof (init_simulates st sa content W) as H. destruct (obj_init st sa content) as [st' x]. destruct H as (H1 & H2 & H3 & _).
    split; [exact H1|]. split; [exact H2|]. intros i Hi. apply H3, Hi.
  - assert (Hj : is_obj st j) by (apply Hm; left; reflexivity). destruct (add_simulates st j w p W Hj) as [U _].
    split; [apply (u_wf _ _ _ _ U)|]. split; [rewrite (u_n _ _ _ _ U); lia|]. intros i Hi.
    destruct (Nat.eqb_spec j i) as [->|Hn]; [apply (u_view _ _ _ _ U)|]. apply (view_other _ _ _ _ i W U Hj Hi). congruence.
  - assert (Hj : is_obj st j) by (apply Hm; left; reflexivity). pose proof (iter_simulates sort st j W Hj) as H.
    destruct (obj_iter sort st j) as [st' r]. destruct H as (U & _). cbn [fst].
    split; [apply (u_wf _ _ _ _ U)|]. split; [rewrite (u_n _ _ _ _ U); lia|]. intros i Hi.
    destruct (Nat.eqb_spec j i) as [->|Hn]; [apply (u_view _ _ _ _ U)|]. apply (view_other _ _ _ _ i W U Hj Hi). congruence.
  - assert (Hj : is_obj st j) by (apply Hm; left; reflexivity). assert (Hk : is_obj st k) by (apply Hm; right; left; reflexivity).
    pose proof (eq_simulates sort st j k W Hj Hk) as H. destruct (obj_eq sort st j k) as [st' b]. destruct H as (H1 & H2 & _ & H4 & H5 & H6).
    cbn [fst]. split; [exact H1|]. split; [lia|]. intros i Hi. destruct (Nat.eqb_spec j i) as [->|Hn]; [exact H4|].
    destruct (Nat.eqb_spec k i) as [->|Hn']; [exact H5|]. apply H6; congruence.
  - assert (Hj : is_obj st j) by (apply Hm; left; reflexivity).
    pose proof (randomize_simulates sort st j mn mx me va dr W Hj) as H. destruct (obj_randomize sort st j mn mx me va dr) as [st' x].
    destruct (randomize_velocities sort (view st j) mn mx me va dr) as [t' y] eqn:ER. destruct H as (H1 & H2 & H3 & H4 & _).
    cbn [fst]. split; [exact H1|]. split; [exact H2|]. intros i Hi. destruct (Nat.eqb_spec j i) as [->|Hn].
    + cbn [run fold_left step]. rewrite ER. exact H3.
    + apply H4; congruence.
Qed.

Lemma execs_all : forall h st, wf st -> refs_ok sort st h ->
  wf (execs sort st h) /\ length (st_tracks st) <= length (st_tracks (execs sort st h)) /\
  forall i, is_obj st i -> view (execs sort st h) i = run sort (view st i) (ops_of sort st i h).
Proof.
  induction h as [|o r IH]; intros st W Hr; [split; [exact W|split; [reflexivity|reflexivity]]|].
  destruct Hr as [Hm Hr]. destruct (exec_one st o W Hm) as (W1 & L1 & V1). destruct (IH _ W1 Hr) as (W2 & L2 & V2).
  cbn [execs fold_left]. split; [exact W2|]. split; [unfold execs in L2; lia|]. intros i Hi. cbn [ops_of]. unfold run. rewrite fold_left_app.
  specialize (V1 i Hi). unfold run in V1. rewrite <- V1. apply V2. unfold is_obj in *. lia.
Qed.
End Sort.

Lemma c60_independent : forall sort st h, wf st -> refs_ok sort st h ->
  wf (execs sort st h) /\
  forall i, is_obj st i -> is_obj (execs sort st h) i /\ view (execs sort st h) i = run sort (view st i) (ops_of sort st i h).
Proof.
  intros sort st h W Hr. destruct (execs_all sort h st W Hr) as (H1 & H2 & H3). split; [exact H1|]. intros i Hi.
  split; [unfold is_obj in *; lia|apply H3, Hi].
Qed.

Lemma c60_not_mentioned : forall sort st h i, wf st -> refs_ok sort st h -> is_obj st i ->
  (forall o, In o h -> ~ In i (mentions o)) -> view (execs sort st h) i = view st i.
Proof.
  intros sort st h i W Hr Hi Hn. rewrite (proj2 (proj2 (execs_all sort h st W Hr)) i Hi).
  assert (E : ops_of sort st i h = []); [|rewrite E; reflexivity].
  clear W Hr Hi. revert st. induction h as [|o r IH]; intros st; [reflexivity|]. cbn [ops_of].
  rewrite IH by (intros o' Ho'; apply Hn; right; exact Ho'). rewrite app_nil_r. specialize (Hn o (or_introl eq_refl)).
  destruct o as [sa content|j w p|j|j k|j mn mx me va dr]; cbn [op_of mentions In] in *; [reflexivity| | | |].
  1,2,4:destruct (Nat.eqb_spec j i); [tauto|reflexivity].
  destruct (Nat.eqb_spec j i); [tauto|]. destruct (Nat.eqb_spec k i); [tauto|reflexivity].
Qed.

(** The values of the model are the objects of the store. *)
Lemma c60_operations : forall sort st i, wf st -> is_obj st i ->
  (forall w p, snd (obj_add st i w p) = snd (track_add (view st i) w p)) /\
  (let (st', r) := obj_iter sort st i in the_list st' r = yields sort (view st i)) /\
  (forall j, is_obj st j -> snd (obj_eq sort st i j) = Ok (fst (fst (track_eq sort (view st i) (view st j))))) /\
  (forall mn mx me va dr, match randomize_velocities sort (view st i) mn mx me va dr with
     | (_, Ok t) => exists n, obj_randomize sort st i mn mx me va dr = (fst (obj_randomize sort st i mn mx me va dr), Ok n) /\
                      ~ is_obj st n /\ view (fst (obj_randomize sort st i mn mx me va dr)) n = t
     | (_, Err e) => snd (obj_randomize sort st i mn mx me va dr) = Err e
     end).
Proof.
  intros sort st i W Hi. split; [|split; [|split]].
  - intros w p. apply (add_simulates st i w p W Hi).
  - pose proof (iter_simulates sort st i W Hi) as H. destruct (obj_iter sort st i) as [st' r]. apply H.
  - intros j Hj. pose proof (eq_simulates sort st i j W Hi Hj) as H. destruct (obj_eq sort st i j) as [st' b]. apply H.
  - intros mn mx me va dr. pose proof (randomize_simulates sort st i mn mx me va dr W Hi) as H.
    destruct (obj_randomize sort st i mn mx me va dr) as [st' x]. destruct (randomize_velocities sort (view st i) mn mx me va dr) as [t' [t|e]].
    + destruct H as (_ & _ & _ & _ & -> & HN & HV). exists (length (st_tracks st)). split; [reflexivity|]. split; [unfold is_obj; lia|exact HV].
    + apply H.
Qed.

(** ** C51 *)
Lemma run_app sort t a b : run sort t (a ++ b) = run sort (run sort t a) b.
Proof. apply fold_left_app. Qed.

Lemma c51_input : forall sort, sort_contract sort -> forall s ops minimum maximum mean variance draws, Forall op_ok ops ->
  let t := run sort (track_empty s) ops in
  let t' := fst (randomize_velocities sort t minimum maximum mean variance draws) in
  looks_same sort (fun e => e) t' t.
Proof.
  intros sort Hs s ops minimum maximum mean variance draws Ho t t'.
  destruct (c19_one sort Hs s ops (ORandomize minimum maximum mean variance draws) Ho eq_refl) as [H _]. fold t in H.
  cbn [step] in H. exact H.
Qed.

Lemma c51_independent : forall sort, sort_contract sort -> forall st i minimum maximum mean variance draws n h,
  wf st -> is_obj st i -> snd (obj_randomize sort st i minimum maximum mean variance draws) = Ok n ->
  let st1 := fst (obj_randomize sort st i minimum maximum mean variance draws) in
  refs_ok sort st1 h ->
  i <> n /\ is_obj st1 i /\ is_obj st1 n /\
  view (execs sort st1 h) i = run sort (view st1 i) (ops_of sort st1 i h) /\
  view (execs sort st1 h) n = run sort (view st1 n) (ops_of sort st1 n h) /\
  ((forall o, In o h -> ~ In i (mentions o)) -> view (execs sort st1 h) i = view st1 i) /\
  ((forall o, In o h -> ~ In n (mentions o)) -> view (execs sort st1 h) n = view st1 n).
Proof.
  intros sort Hs st i mn mx me va dr n h W Hi E st1 Hr.
  pose proof (randomize_simulates sort st i mn mx me va dr W Hi) as H.
  unfold st1 in *. destruct (obj_randomize sort st i mn mx me va dr) as [st' x]. cbn [fst snd] in *. subst x.
  destruct (randomize_velocities sort (view st i) mn mx me va dr) as [t' [t|e]]; destruct H as (H1 & H2 & H3 & H4 & H5); [|discriminate].
  destruct H5 as (H5 & H6 & H7). injection H5 as ->. destruct (execs_all sort h st' H1 Hr) as (G1 & G2 & G3).
  assert (Hi' : is_obj st' i) by (unfold is_obj in *; lia). assert (Hn' : is_obj st' (length (st_tracks st))) by (unfold is_obj in *; lia).
  split; [unfold is_obj in Hi; lia|]. split; [exact Hi'|]. split; [exact Hn'|]. split; [apply G3, Hi'|].
  split; [apply G3, Hn'|]. split; apply c60_not_mentioned; assumption.
Qed.
