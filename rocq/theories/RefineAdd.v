(** Running Track.add, Track.__init__ and what follows gives what the model says. *)
From Coq Require Import ZArith List Bool String Lia Permutation.
From Verif Require Import Py PyFloat PySort Signature Tone Note Track Show PyAst PySem PySource PyProgram SpecBase SigFacts SortFacts
  RefineBase RefineSignature RefineTone RefineNote RefineTrack.
Import ListNotations.
Open Scope string_scope.
Open Scope list_scope.
Open Scope Z_scope.

Section Track.
Variable Y : python.
Notation steps := (steps melodia Y).
Notation reaches := (reaches melodia Y).

(** What may be added: notes, tuples and lists (that are not the list of the track). *)
Inductive what_value (h : heap) (own : list nat) : what -> value -> Prop :=
| wv_note n : good_sig (n_duration n) -> what_value h own (WNote n) (enc_note n)
| wv_tuple l vs : Forall2 (what_value h own) l vs -> what_value h own (WIter l) (VTuple vs)
| wv_list p l vs : get h p = Some (HList vs) -> ~ In p own -> Forall2 (what_value h own) l vs -> what_value h own (WIter l) (VRef p).

Section WhatInd.
Variable P : what -> Prop.
Hypothesis note_case : forall n, P (WNote n).
Hypothesis iter_case : forall l, Forall P l -> P (WIter l).
Fixpoint what_rect' (w : what) : P w :=
  match w with
  | WNote n => note_case n
  | WIter l => iter_case l ((fix go (l : list what) : Forall P l :=
                 match l with [] => Forall_nil _ | x :: r => Forall_cons x (what_rect' x) (go r) end) l)
  end.
End WhatInd.

Lemma fresh_not_in h own b b' p o : get h p = Some o -> ~ In p [own; b] -> b' = b \/ get h b' = None -> ~ In p [own; b'].
Proof. intros G N [->|E]; [exact N|]. intros [X|[X|[]]]; subst; [apply N; cbn; auto|congruence]. Qed.
Lemma what_kept h h' a b b' : keeps [a; b] h h' -> b' = b \/ get h b' = None ->
  forall w v, what_value h [a; b] w v -> what_value h' [a; b'] w v.
Proof.
  intros K B. induction w as [n|l IH] using what_rect'; intros v H; inversion H; subst.
  - constructor; assumption.
  - constructor. match goal with F : Forall2 _ _ _ |- _ => clear H; induction F; inversion IH; subst; constructor; auto end.
  - econstructor; [eapply keeps_get; eassumption|eapply fresh_not_in; eassumption|].
    match goal with F : Forall2 _ _ _, G : get _ _ = _ |- _ => clear H G; induction F; inversion IH; subst; constructor; auto end.
Qed.
Lemma changed_trans h h1 h2 a b t1 t2 : changed h a b t1 h1 ->
  (forall b1, track_at h1 a b1 t1 -> (b1 = b \/ get h b1 = None) -> keeps [a; b] h h1 -> changed h1 a b1 t2 h2) -> changed h a b t2 h2.
Proof.
  intros (b1 & T1 & B1 & K1) F. destruct (F b1 T1 B1 K1) as (b2 & T2 & B2 & K2). exists b2. split; [exact T2|]. split.
  - destruct B2 as [->|B2]; [exact B1|]. destruct (get h b2) as [o|] eqn:G; [|right; reflexivity].
    destruct (Nat.eq_dec b2 b) as [->|N]; [left; reflexivity|]. exfalso.
    destruct (Nat.eq_dec b2 a) as [->|N']; [destruct T1; congruence|].
    rewrite (keeps_get _ _ _ b2 o K1) in B2; [discriminate| |exact G]. intros [X|[X|[]]]; congruence.
  - split.
    + intros c o C G. apply (keeps_get _ _ _ _ _ K2); [|exact (keeps_get _ _ _ _ _ K1 C G)].
      exact (fresh_not_in _ _ _ _ _ _ G C B1).
    + rewrite (keeps_calls _ _ _ K2). exact (keeps_calls _ _ _ K1).
Qed.

(** track.py 95-113. *)
Definition add_from : list stmt := Eval calc in match f_body src_Track_add with _ :: l => l | _ => [] end.
Definition from_env (a : nat) (v w : value) (p : sig) : env :=
  [("self", VRef a); ("what", v); ("where", w); ("position", enc_sig p)].
Definition add_call (h : heap) (a : nat) (v w : value) (K : list frame) : state :=
  Ex (f_body src_Track_add) [("self", VRef a); ("what", v); ("where", w)] h (KFun :: K).

Fixpoint add_all (l : list what) (p : sig) (t : track) : track * res unit :=
  match l with
  | [] => (t, Ok tt)
  | x :: r => match add_at x p t with (t', Ok _) => add_all r p t' | (t', Err e) => (t', Err e) end
  end.
Lemma add_at_iter l p t : add_at (WIter l) p t = add_all l p t.
Proof.
  revert t. induction l as [|x l IH]; intros t; [reflexivity|]. cbn [add_all]. rewrite <- (IH (fst (add_at x p t))) || idtac.
  cbn [add_at]. destruct (add_at x p t) as [t' [u|e]]; [|reflexivity]. apply IH.
Qed.
Lemma add_at_good w p : good_sig p -> forall t h own v, what_value h own w v -> good_track t -> good_track (fst (add_at w p t)).
Proof.
  intros GP. induction w as [n|l IH] using what_rect'; intros t h own v H T.
  - inversion H; subst. apply add_note_good; assumption.
  - rewrite add_at_iter. assert (E : exists vs, Forall2 (what_value h own) l vs) by (inversion H; subst; eauto).
    destruct E as (vs & F). clear H v. revert vs F t T. induction IH as [|x l X L IHl]; intros vs F t T; inversion F; subst; [exact T|].
    cbn [add_all]. match goal with W : what_value _ _ x _ |- _ => pose proof (X t _ _ _ W T) as GT end.
    destruct (add_at x p t) as [t' [u|e]]; [eapply IHl; eassumption|exact GT].
Qed.

Lemma add_all_good l p h own vs : good_sig p -> Forall2 (what_value h own) l vs -> forall t, good_track t -> good_track (fst (add_all l p t)).
Proof. intros GP F t T. rewrite <- add_at_iter. eapply (add_at_good _ p GP t h own (VTuple vs)); [constructor; exact F|exact T]. Qed.

(** What Track.add does with [what], wherever it is called with this position. *)
Definition add_spec (w : what) : Prop := forall h a b t p wh v K,
  track_at h a b t -> good_track t -> good_sig p -> what_value h [a; b] w v ->
  reaches (Ex add_from (from_env a v wh p) h (KFun :: K))
          (returns (no_value (snd (add_at w p t))) K (changed h a b (fst (add_at w p t)))).

Lemma position_given h a v p K Q :
  reaches (Ex add_from (from_env a v (enc_sig p) p) h (KFun :: K)) Q -> reaches (add_call h a v (enc_sig p) K) Q.
Proof.
  intros R. unfold add_call. compute_state. go_with ltac:(idtac; lazymatch goal with
  |- RefineBase.reaches _ _ (Ex [SIf _ _ _; SAssign _ _; _; _; _; _; _; _] _ _ (KFun :: K)) _ => exact R end).
Qed.

Definition add_loop_body : list stmt :=
  Eval calc in match add_from with SIf _ (SFor _ _ b :: _) _ :: _ => b | _ => [] end.
Definition loop_env (a : nat) (v w : value) (p : sig) (x : option value) : env :=
  match x with
  | None => from_env a v w p
  | Some x => [("self", VRef a); ("what", v); ("where", w); ("position", enc_sig p); ("x", x)]
  end.
Lemma assign_known P Z x v old todo rest r h K : assoc x r = Some old -> plain_value old = true ->
  step P Z (As ((TName x, v) :: todo) rest r h K) = Some (As todo rest (set_var x v r) h K).
Proof. intros A L. cbn. unfold assign_name. rewrite A. destruct old; try discriminate; reflexivity. Qed.
Definition plain_option (x : option value) : Prop := match x with Some x => plain_value x = true | None => True end.
Lemma yields_kept h h' a b b' : keeps [a; b] h h' -> b' = b \/ get h b' = None ->
  forall i vs, yields h [a; b] i vs -> yields h' [a; b'] i vs.
Proof.
  intros K B i vs H. inversion H as [ws E|p k full G N E E']; subst; [constructor|].
  constructor; [eapply keeps_get; eassumption|eapply fresh_not_in; eassumption].
Qed.
Lemma add_loop_runs l : Forall add_spec l -> forall h a b t p i vs v wh x K,
  track_at h a b t -> good_track t -> good_sig p -> yields h [a; b] i vs -> Forall2 (what_value h [a; b]) l vs -> plain_option x ->
  reaches (Lp (TName "x") add_loop_body i (loop_env a v wh p x) h (KSeq [SReturn (EConst VNone)] :: KSeq add_rest :: KFun :: K))
          (returns (no_value (snd (add_all l p t))) K (changed h a b (fst (add_all l p t)))).
Proof.
  induction 1 as [|x l X L IH]; intros h a b t p i vs v wh x0 K T GT GP I F PX; inversion F; subst.
  - eapply reaches_more; [cbn [step]; rewrite (yields_end _ _ _ _ _ _ _ I); reflexivity|].
    go. apply reaches_here. eexists. split; [reflexivity|]. exists b. repeat split; try apply T; [left; reflexivity|intros; assumption].
  - rename y into u. rename l' into us.
    match goal with W0 : what_value _ _ x u |- _ => rename W0 into W end.
    destruct (yields_next _ _ _ _ _ (TName "x") add_loop_body (loop_env a v wh p x0) (KSeq [SReturn (EConst VNone)] :: KSeq add_rest :: KFun :: K) I) as (i' & E & I').
    eapply reaches_more; [cbn [step]; rewrite E; reflexivity|].
    assert (PU : plain_value u = true) by (inversion W; reflexivity).
    assert (ST : forall K0, reaches (Ca (VFun "Track.add") [VRef a] [("what", u); ("where", enc_sig p)] h K0)
                  (returns (no_value (snd (add_at x p t))) K0 (changed h a b (fst (add_at x p t))))).
    { intros K0. to (add_call h a u (enc_sig p) K0). apply position_given. apply X; assumption. }
    cbn [add_all]. destruct (add_at x p t) as [t1 r] eqn:A. cbn [fst snd] in ST.
    pose proof (add_at_good x p GP t _ _ _ W GT) as G1. rewrite A in G1. cbn [fst] in G1.
    eapply (reaches_more _ _ _ (As [] add_loop_body (loop_env a v wh p (Some u)) h
        (KLoopF (TName "x") add_loop_body i' :: KSeq [SReturn (EConst VNone)] :: KSeq add_rest :: KFun :: K))).
    { destruct x0 as [x0|]; [|reflexivity]. cbn [plain_option loop_env] in *. exact (assign_known melodia Y "x" u x0 _ _ (loop_env a v wh p (Some x0)) _ _ eq_refl PX). }
    pose proof (proj1 T) as GA. unfold enc_track in GA. unfold loop_env.

repeat (first [values|lazymatch goal with
      |- RefineBase.reaches _ _ (Ca (VFun "Track.add") _ _ _ _) _ => fail | _ => adv end]).
    eapply reaches_trans; [apply ST|]. intros s (h1 & -> & C). destruct r as [[]|e]; cbn [no_value outcome_of ends fst snd].
    + to (Ex [] (loop_env a v wh p (Some u)) h1 (KLoopF (TName "x") add_loop_body i' :: KSeq [SReturn (EConst VNone)] :: KSeq add_rest :: KFun :: K)).
      to (Lp (TName "x") add_loop_body i' (loop_env a v wh p (Some u)) h1 (KSeq [SReturn (EConst VNone)] :: KSeq add_rest :: KFun :: K)).
      destruct C as (b1 & T1 & B1 & K1).
      eapply reaches_trans; [apply (IH h1 a b1 t1 p i' us v wh (Some u) K T1 G1 GP)|].
      * eapply yields_kept; eassumption.
      * match goal with FF : Forall2 _ l us |- _ => clear -FF K1 B1; induction FF; constructor; auto; eapply what_kept; eassumption end.
      * exact PU.
      * intros s (h2 & -> & C2). apply reaches_here. exists h2. split; [reflexivity|].
        apply (changed_trans h h1 h2 a b t1); [exists b1; auto|]. intros b2 T2 _ _.
        replace b2 with b1; [exact C2|]. destruct T1 as [T1 _], T2 as [T2 _]. unfold enc_track in *. congruence.
    + apply reaches_here. exists h1. split; [reflexivity|exact C].
Qed.

Lemma add_runs_at w : add_spec w.
Proof.
  induction w as [n|l IH] using what_rect'; intros h a b t p wh v K T GT GP W.
  - inversion W; subst. parts n. unfold from_env. 
    go_with ltac:(idtac; lazymatch goal with |- RefineBase.reaches _ _ (Ex add_rest _ _ _) _ => idtac | |- RefineBase.reaches _ _ (Ex (SAssign _ _ :: _) _ _ _) _ => refine (add_note_runs Y h a b t (mkNote (mkTone _) (mkSig _ _) _) wh p K T GT GP _); assumption end).
  - rewrite add_at_iter. pose proof (add_loop_runs l IH h a b t p) as R.
    inversion W; subst; unfold from_env.
    + go_with ltac:(idtac; lazymatch goal with |- RefineBase.reaches _ _ (Lp _ _ _ _ _ _) _ =>  eapply (R _ _ _ _ None); [exact T|exact GT|exact GP|constructor|eassumption|exact I] end).
    + go_with ltac:(idtac; lazymatch goal with |- RefineBase.reaches _ _ (Lp _ _ _ _ _ _) _ =>  eapply (R (IRef p0 0) vs _ _ None); [exact T|exact GT|exact GP|apply (y_ref _ _ p0 0%nat vs); assumption|eassumption|exact I] end).
Qed.

(** ** Positions *)
Definition good_arg (a : sig_arg) : Prop := match a with SA_sig s => good_sig s | _ => True end.
Inductive where_value (h : heap) (own : list nat) : option sig_arg -> value -> Prop :=
| wh_none : where_value h own None VNone
| wh_some a v : sig_value h a v -> v <> VNone -> (forall p, v = VRef p -> ~ In p own) -> good_arg a -> where_value h own (Some a) v.
Definition position_of (t : track) (w : option sig_arg) : res sig :=
  match w with None => Ok (t_max_position t) | Some a => sig_of_arg a end.
Lemma star_good l s : sig_star l = Ok s -> good_sig s.
Proof.
  unfold sig_star. destruct l as [|[n|] [|[d|] [|? ?]]]; try discriminate; [apply sig_new_good|]. destruct (n >=? 0); discriminate.
Qed.
Lemma position_good t w h own v p : good_track t -> where_value h own w v -> position_of t w = Ok p -> good_sig p.
Proof.
  intros (_ & M & _) W E. destruct W as [|a v _ _ _ G]; cbn in E; [injection E as <-; exact M|].
  destruct a; cbn in *; [injection E as <-; exact G|exact (star_good _ _ E)|discriminate].
Qed.

Ltac stars :=
  idtac; lazymatch goal with
  | |- RefineBase.reaches _ _ (Ca (VClass "Signature") (_ :: _) _ _ _) _ => fail
  | |- RefineBase.reaches _ _ (Ca (VClass "Signature") _ _ _ _) _ =>
      eapply reaches_steps;
      [apply star_also_runs; first [eassumption | apply chars_elems | apply bytes_elems]|]; outcome
  end.
Ltac stop_at_from := idtac; lazymatch goal with
  | |- RefineBase.reaches _ _ (Ex (SIf _ (SFor _ _ _ :: _) _ :: _) _ _ (KFun :: _)) _ => fail
  | _ => idtac end.
Lemma position_runs h a b t v w wv K Q : track_at h a b t -> where_value h [a; b] w wv ->
  (forall p, position_of t w = Ok p -> reaches (Ex add_from (from_env a v wv p) h (KFun :: K)) Q) ->
  (forall e, position_of t w = Err e -> Q (Thr e h)) ->
  reaches (add_call h a v wv K) Q.
Proof.
  intros [G _] W R E. unfold enc_track in G. destruct t as [s0 m0 [mn md] l0 so0]. cbn [t_signature t_max_denominator t_max_position t_sorted] in *. unfold add_call. compute_state.
  destruct W as [|x wv S N _ _].
  - cbn [position_of] in *. specialize (R _ eq_refl). unfold from_env in R.
    repeat (stop_at_from; adv). exact R.
  - cbn [position_of] in *. pose proof S as S'. destruct S; try congruence; cbn [sig_of_arg] in *;
      try (specialize (R _ eq_refl)); unfold from_env in R; try specialize (E _ eq_refl);
      try match goal with |- context [enc_sig ?s] => idtac end;
      repeat (first [stars | stop_at_from; adv]);
      first [exact R | apply R; reflexivity | apply R; assumption | apply reaches_here; first [exact E|apply E; assumption|apply E; reflexivity] | idtac].
Qed.

Lemma add_call_runs h a b t w wh v wv K : track_at h a b t -> good_track t -> what_value h [a; b] w v -> where_value h [a; b] wh wv ->
  reaches (add_call h a v wv K) (returns (no_value (snd (track_add t w wh))) K (changed h a b (fst (track_add t w wh)))).
Proof.
  intros T GT W H. unfold track_add. fold (position_of t wh). eapply position_runs; [exact T|exact H|..].
  - intros p E. rewrite E. apply add_runs_at; try assumption. eapply position_good; eassumption.
  - intros e E. rewrite E. cbn. eexists. split; [reflexivity|]. exists b. repeat split; try apply T; [left; reflexivity|intros; assumption].
Qed.
(** track.add(what, where=where), and track.add(what). *)
Lemma track_add_runs h a b t w wh v wv K : track_at h a b t -> good_track t -> what_value h [a; b] w v -> where_value h [a; b] wh wv ->
  reaches (Ca (VFun "Track.add") [VRef a; v] [("where", wv)] h K)
          (returns (no_value (snd (track_add t w wh))) K (changed h a b (fst (track_add t w wh)))).
Proof. intros. to (add_call h a v wv K). eapply add_call_runs; eassumption. Qed.
Lemma track_add_default_runs h a b t w v K : track_at h a b t -> good_track t -> what_value h [a; b] w v ->
  reaches (Ca (VFun "Track.add") [VRef a; v] [] h K)
          (returns (no_value (snd (track_add t w None))) K (changed h a b (fst (track_add t w None)))).
Proof. intros. to (add_call h a v VNone K). eapply add_call_runs; try eassumption. constructor. Qed.

(** ** Track.__init__ *)
Inductive pair_value (h : heap) (own : list nat) : what * option sig_arg -> value -> Prop :=
| pv_pair w wh v wv : what_value h own w v -> where_value h own wh wv -> pair_value h own (w, wh) (VTuple [v; wv]).
Inductive content_value (h : heap) : list (what * option sig_arg) -> value -> Prop :=
| cv_none : content_value h [] VNone
| cv_tuple l vs : Forall2 (pair_value h []) l vs -> content_value h l (VTuple vs)
| cv_list p l vs : get h p = Some (HList vs) -> Forall2 (pair_value h []) l vs -> content_value h l (VRef p).

Lemma sig_kept h h' a b : keeps [a; b] h h' -> forall d v, sig_value h d v -> (forall p, v = VRef p -> ~ In p [a; b]) -> sig_value h' d v.
Proof.
  intros K d v S N. destruct S; try (constructor; assumption).
  econstructor; [eapply keeps_get; [exact K|apply N; reflexivity|eassumption]|assumption].
Qed.
Lemma pair_kept h h' a b b' : keeps [a; b] h h' -> b' = b \/ get h b' = None ->
  forall x v, pair_value h [a; b] x v -> pair_value h' [a; b'] x v.
Proof.
  intros K B x v P. destruct P as [w wh v wv W H]. constructor; [eapply what_kept; eassumption|].
  destruct H as [|d v' S N F G]; constructor; try assumption; [eapply sig_kept; eassumption|].
  intros p ->. inversion S; subst. eapply fresh_not_in; [eassumption|apply F; reflexivity|exact B].
Qed.
Lemma what_plain h own w v : what_value h own w v -> plain_value v = true.
Proof. destruct 1; reflexivity. Qed.
Lemma where_plain h own w v : where_value h own w v -> plain_value v = true.
Proof. destruct 1 as [|d v S]; [reflexivity|]. destruct S; reflexivity. Qed.

Definition init_loop_body : list stmt :=
  Eval calc in match f_body src_Track___init__ with
  | [_; _; _; _; _; SIf _ [SFor _ _ b] _] => b | _ => [] end.
Definition init_target : target := TTuple [TName "note"; TName "position"].
Definition init_env (a : nat) (sv cv : value) (x : option (value * value)) : env :=
  match x with
  | None => [("self", VRef a); ("signature", sv); ("content", cv)]
  | Some (n, p) => [("self", VRef a); ("signature", sv); ("content", cv); ("note", n); ("position", p)]
  end.
Definition plain_pair (x : option (value * value)) : Prop :=
  match x with Some (n, p) => plain_value n = true /\ plain_value p = true | None => True end.
Lemma track_add_good t w wh h own v wv : good_track t -> what_value h own w v -> where_value h own wh wv -> good_track (fst (track_add t w wh)).
Proof.
  intros T W H. unfold track_add. fold (position_of t wh). destruct (position_of t wh) as [p|e] eqn:E; [|exact T].
  eapply add_at_good; try eassumption. eapply position_good; eassumption.
Qed.
Lemma init_loop_runs l : forall h a b t i vs sv cv x K (Q : state -> Prop),
  track_at h a b t -> good_track t -> yields h [a; b] i vs -> Forall2 (pair_value h [a; b]) l vs -> plain_pair x ->
  (forall t' h' r, add_content t l = Ok t' -> changed h a b t' h' -> reaches (Ex [] r h' K) Q) ->
  (forall e h', add_content t l = Err e -> keeps [a; b] h h' -> Q (Thr e h')) ->
  reaches (Lp init_target init_loop_body i (init_env a sv cv x) h K) Q.
Proof.
  induction l as [|[w wh] l IH]; intros h a b t i vs sv cv x K Q T GT I F PX OK ER; inversion F; subst.
  - eapply reaches_more; [cbn [step]; rewrite (yields_end _ _ _ _ _ _ _ I); reflexivity|].
    eapply OK; [reflexivity|]. exists b. repeat split; try apply T; [left; reflexivity|intros; assumption].
  - rename y into u. rename l' into us.
    match goal with W0 : pair_value _ _ _ u |- _ => inversion W0 as [w' wh' v wv W H]; subst; rename W0 into PV end.
    destruct (yields_next _ _ _ _ _ init_target init_loop_body (init_env a sv cv x) K I) as (i' & E & I').
    eapply reaches_more; [cbn [step]; rewrite E; reflexivity|].
    eapply (reaches_more _ _ _ (As [(TName "note", v); (TName "position", wv)] init_loop_body (init_env a sv cv x) h (KLoopF init_target init_loop_body i' :: K))); [reflexivity|].
    assert (PV1 : plain_value v = true) by exact (what_plain _ _ _ _ W).
    assert (PV2 : plain_value wv = true) by exact (where_plain _ _ _ _ H).
    eapply (reaches_steps _ _ _ (As [] init_loop_body (init_env a sv cv (Some (v, wv))) h (KLoopF init_target init_loop_body i' :: K))).
    { destruct x as [[x y]|]; [|econstructor; [reflexivity|]; econstructor; [reflexivity|]; apply steps_refl]. destruct PX as [PX PY].
      econstructor; [exact (assign_known melodia Y "note" v x _ _ (init_env a sv cv (Some (x, y))) _ _ eq_refl PX)|].
      econstructor; [exact (assign_known melodia Y "position" wv y _ _ (init_env a sv cv (Some (v, y))) _ _ eq_refl PY)|].
      apply steps_refl. }
    pose proof (proj1 T) as GA. unfold enc_track in GA. unfold init_env.
    repeat (first [values|lazymatch goal with
      |- RefineBase.reaches _ _ (Ca (VFun "Track.add") _ _ _ _) _ => fail | _ => adv end]).
    eapply reaches_trans; [eapply track_add_runs; eassumption|].
    cbn [add_content] in OK, ER. pose proof (track_add_good _ _ _ _ _ _ _ GT W H) as G1.
    destruct (track_add t w wh) as [t1 [[]|e]]; intros s (h1 & -> & C); cbn [no_value outcome_of ends fst snd] in *.
    + to (Ex [] (init_env a sv cv (Some (v, wv))) h1 (KLoopF init_target init_loop_body i' :: K)).
      to (Lp init_target init_loop_body i' (init_env a sv cv (Some (v, wv))) h1 K).
      pose proof C as (b1 & T1 & B1 & K1).
      apply (IH h1 a b1 t1 i' us sv cv (Some (v, wv)) K Q T1 G1).
      * eapply yields_kept; eassumption.
      * match goal with FF : Forall2 _ l us |- _ => clear -FF K1 B1; induction FF; constructor; auto; eapply pair_kept; eassumption end.
      * split; assumption.
      * intros t' h' r A C2. eapply OK; [exact A|]. apply (changed_trans h h1 h' a b t1); [exact C|]. intros b2 T2 _ _.
        replace b2 with b1; [exact C2|]. destruct T1 as [T1 _], T2 as [T2 _]. unfold enc_track in *. congruence.
      * intros e h' A K2. apply ER; [exact A|]. split.
        -- intros c o C1 G. apply (keeps_get _ _ _ _ _ K2); [|exact (keeps_get _ _ _ _ _ K1 C1 G)]. exact (fresh_not_in _ _ _ _ _ _ G C1 B1).
        -- rewrite (keeps_calls _ _ _ K2). exact (keeps_calls _ _ _ K1).
    + apply reaches_here. apply ER; [reflexivity|]. destruct C as (b1 & _ & _ & K1). exact K1.
Qed.

Definition init_tail : list stmt := Eval calc in match f_body src_Track___init__ with _ :: l => l | _ => [] end.
Definition made (h : heap) (r : res track) (K : list frame) (s : state) : Prop :=
  match r with
  | Ok t => exists h' a b, s = Rt (VRef a) h' K /\ track_at h' a b t /\ get h a = None /\ get h b = None /\ keeps [] h h'
  | Err e => exists h', s = Thr e h' /\ keeps [] h h'
  end.
Lemma fresh_none h : get h (next_place h) = None.
Proof. apply nth_error_None. apply Nat.le_refl. Qed.
Lemma fresh_what h h2 a b : keeps [] h h2 -> get h a = None -> get h b = None ->
  forall w v, what_value h [] w v -> what_value h2 [a; b] w v.
Proof.
  intros K A B. induction w as [n|l IH] using what_rect'; intros v H; inversion H; subst.
  - constructor; assumption.
  - constructor. match goal with F : Forall2 _ _ _ |- _ => clear H; induction F; inversion IH; subst; constructor; auto end.
  - econstructor; [eapply keeps_get; eassumption|intros [X|[X|[]]]; congruence|].
    match goal with F : Forall2 _ _ _, G : get _ _ = _ |- _ => clear H G; induction F; inversion IH; subst; constructor; auto end.
Qed.
Lemma fresh_pair h h2 a b : keeps [] h h2 -> get h a = None -> get h b = None ->
  forall x v, pair_value h [] x v -> pair_value h2 [a; b] x v.
Proof.
  intros K A B x v P. destruct P as [w wh v wv W H]. constructor; [eapply fresh_what; eassumption|].
  destruct H as [|d v' S N F G]; constructor; try assumption.
  - destruct S; try (constructor; assumption). econstructor; [eapply keeps_get; [exact K|apply F; reflexivity|eassumption]|assumption].
  - intros p -> X. inversion S; subst. destruct X as [X|[X|[]]]; congruence.
Qed.
Lemma fresh_pairs h h2 a b l vs : keeps [] h h2 -> get h a = None -> get h b = None ->
  Forall2 (pair_value h []) l vs -> Forall2 (pair_value h2 [a; b]) l vs.
Proof. intros K A B F. induction F; constructor; auto. eapply fresh_pair; eassumption. Qed.
Lemma empty_good s : good_sig s -> good_track (track_empty s).
Proof. intros G. repeat split; [constructor|cbn; discriminate|exact G]. Qed.
Lemma keeps_fresh h h2 h' a b : keeps [] h h2 -> get h a = None -> get h b = None -> keeps [a; b] h2 h' -> keeps [] h h'.
Proof.
  intros K1 A B K2. split.
  - intros p o N G. apply (keeps_get _ _ _ _ _ K2); [intros [X|[X|[]]]; congruence|exact (keeps_get _ _ _ _ _ K1 N G)].
  - rewrite (keeps_calls _ _ _ K2). exact (keeps_calls _ _ _ K1).
Qed.
Lemma fresh_after h h2 b b' : keeps [] h h2 -> get h b = None -> b' = b \/ get h2 b' = None -> get h b' = None.
Proof.
  intros K B [->|N]; [exact B|]. destruct (get h b') as [o|] eqn:G; [|reflexivity].
  rewrite (keeps_get _ _ _ _ _ K (fun x => x) G) in N. discriminate.
Qed.
Lemma track_new_runs h sa sv content cv K : sig_value h sa sv -> good_arg sa -> content_value h content cv ->
  reaches (Ca (VClass "Track") [sv; cv] [] h K) (made h (track_new sa content) K).
Proof.
  intros S G C. unfold track_new.
  assert (TAIL : forall s h1 a, good_sig s -> get h1 a = Some (HInst "Track" [("_signature", enc_sig s)]) -> get h a = None -> keeps [] h h1 ->
     reaches (Ex init_tail (init_env a sv cv None) h1 (KInitRef a :: K)) (made h (add_content (track_empty s) content) K)).
  { clear S G. intros [sn sd] h1 a GS A N K1. unfold init_env. 
    assert (AH : forall p o, get h p = Some o -> p <> a) by (intros p o P ->; congruence).
    repeat (lazymatch goal with |- RefineBase.reaches _ _ (Ex (SIf _ _ _ :: _) _ _ (KInitRef _ :: _)) _ => fail | _ => adv end).
    match goal with |- RefineBase.reaches _ _ (Ex _ _ ?H _) _ =>
      let b := lazymatch H with context [next_place ?x] => constr:(next_place x) end in
      assert (N1 : get h b = None); [|assert (N2 : track_at H a b (track_empty (mkSig sn sd))) by (split; heap_get);
      assert (N3 : keeps [] h H) by keep; revert N1 N2 N3; generalize H as h2; generalize b as b2] end.
    { match goal with |- ?x = None => destruct x as [o|] eqn:GH; [|reflexivity] end. exfalso.
      match type of GH with get h (next_place ?x) = _ => assert (GX : get x (next_place x) = Some o) end.
      { apply get_put_other; [exact (AH _ _ GH)|]. exact (keeps_get _ _ _ _ _ K1 (fun x => x) GH). }
      exact (old_new _ _ _ GX eq_refl). }
    intros b h2 NB T K2. pose proof (empty_good _ GS) as GT. fold add_content. generalize dependent (track_empty (mkSig sn sd)). intros t T GT.
    assert (OK : forall t' h' r, add_content t content = Ok t' -> changed h2 a b t' h' ->
      reaches (Ex [] r h' (KInitRef a :: K)) (made h (add_content t content) K)).
    { intros t' h' r E (b' & T' & B' & K'). to (Rt (VRef a) h' K). apply reaches_here. rewrite E.
      exists h', a, b'. refine (conj eq_refl (conj T' (conj N (conj (fresh_after _ _ _ _ K2 NB B') _)))).
      eapply (keeps_fresh h h2 h' a b); eassumption. }
    assert (ER : forall e h', add_content t content = Err e -> keeps [a; b] h2 h' -> made h (add_content t content) K (Thr e h')).
    { intros e h' E K'. rewrite E. exists h'. split; [reflexivity|]. exact (keeps_fresh h h2 h' a b K2 N NB K'). }
    destruct C as [|l vs F|p l vs P F]; go_with ltac:(idtac; lazymatch goal with
      | |- RefineBase.reaches _ _ (Ex [] _ _ (KInitRef _ :: _)) _ => eapply OK; [reflexivity|]
      | |- RefineBase.reaches _ _ (Lp _ _ _ _ _ _) _ => idtac end).
    - exists b. split; [exact T|]. split; [left; reflexivity|keep].
    - eapply (init_loop_runs l h2 a b t (ISeq vs) vs sv (VTuple vs) None); [exact T|exact GT|constructor|eapply fresh_pairs; eassumption|exact I| |exact ER].
      intros t' h' r E C. do 2 (eapply reaches_more; [reflexivity|]). eapply OK; eassumption.
    - eapply (init_loop_runs l h2 a b t (IRef p 0) vs sv (VRef p) None); [exact T|exact GT| |eapply fresh_pairs; eassumption|exact I| |exact ER].
      + apply (y_ref _ _ p 0%nat vs); [exact (keeps_get _ _ _ _ _ K2 (fun x => x) P)|intros [X|[X|[]]]; congruence].
      + intros t' h' r E C. do 2 (eapply reaches_more; [reflexivity|]). eapply OK; eassumption. }
  pose proof (fresh_none h) as N.
  pose proof S as S'. destruct S; cbn [sig_of_arg bind] in *;
  repeat (first [stars | lazymatch goal with |- RefineBase.reaches _ _ (Ex (SAssign (TAttr "self" "_max_denominator") _ :: _) _ _ (KInitRef _ :: _)) _ => fail | _ => adv end]);
  cbn [bind]; try (apply reaches_here; eexists; split; [reflexivity|keep]).
  all: try (eapply TAIL; [first [exact G|eapply star_good; eassumption]|heap_get|exact N|keep]).
Qed.
End Track.
