(** Running the statements of a program of Client.v gives what its meaning says. *)
From Coq Require Import ZArith List Bool String Lia Permutation.
From Verif Require Import Py PyFloat PySort Signature Tone Note Track Show MidiWriter MidiReader Processing PyAst PySem PySource PyProgram SpecBase SigFacts SortFacts FloatFacts
  TrackSpec MidiSpec DumpSpec TrackFacts TrackProps LoadFacts LoadProps WriterProps ProcessingProps
  RefineBase RefineSignature RefineTone RefineNote RefineTrack RefineAdd RefineEqual RefineSpec RefineProps RefineTrackProps RefineWriter RefineDump RefineDumps RefineDumpProps
  RefineProcess RefineDeep RefineLoad RefineLoadProps RefineTests RefineTerm Client RefineStore.
Import ListNotations.
Open Scope string_scope.
Open Scope list_scope.
Open Scope Z_scope.

Section Client.
Variable Y : python.
Hypothesis digits : digit_table (py_nd Y).
Hypothesis NAT : natural (py_sort Y).
Hypothesis CON : sort_contract (py_sort Y).
Hypothesis floats : forall i m s, is_float (py_gauss Y i m s) = true.
Notation steps := (PySem.steps melodia Y).
Notation reaches := (RefineBase.reaches melodia Y).
Notation sort := (py_sort Y).
Variable dp : nat.

(** What the machine does when a program means [res]: it goes on with the statements after it, or an exception ends it;
    or the functions of the library call each other more than [dp] deep, where Python raises RecursionError. *)
Definition done (st : store) (P : list (nat * nat)) (h : heap) (res : result) (rest : list stmt) (K : list frame) (s : state) : Prop :=
  match res with
  | Next st' T => exists P' r' h', s = Ex rest r' h' K /\ agrees st' P' r' h' /\ grows P h T P' h' /\ settles sort T (s_tracks st) (s_tracks st')
  | Stop e ts => (exists P' T h', s = Thr e h' /\ holds ts P' h' /\ grows P h T P' h' /\ settles sort T (s_tracks st) ts) \/ (e = RecursionError /\ deep dp s)
  end.

Lemma var_step st P r h h' x v K : agrees st P r h -> assoc x (s_vars st) = Some v -> PySem.step melodia Y (Ev (EName x) r h' K) = Some (Rt (enc_item P v) h' K).
Proof. intros A V. apply name_known; [|apply item_plain]. rewrite (a_env _ _ _ _ A), assoc_items, V. reflexivity. Qed.
Lemma global_none st P r h x v : agrees st P r h -> global melodia x = Some v -> assoc x r = None.
Proof.
  intros A G. rewrite (a_env _ _ _ _ A), assoc_items. destruct (assoc x (s_vars st)) as [w|] eqn:E; [|reflexivity]. exfalso.
  apply assoc_in in E. pose proof (a_unshadowed _ _ _ _ A) as U. unfold unshadowed in U. rewrite Forall_forall in U.
  specialize (U x (in_map fst _ _ E)). congruence.
Qed.
Lemma global_step st P r h h' x v K : agrees st P r h -> global melodia x = Some v -> plain_value v = true -> PySem.step melodia Y (Ev (EName x) r h' K) = Some (Rt v h' K).
Proof.
  intros A G PV. cbn. unfold name_step, variable. rewrite (global_none _ _ _ _ _ _ A G). cbn in G. rewrite G. destruct v; try discriminate; reflexivity.
Qed.
Lemma term_steps st P r h t m K : agrees st P r h -> mean Y (values (s_vars st)) t = Some m -> steps (Ev (code t) r h K) (PySem.ends (outcome_of enc_obj m) h K).
Proof.
  intros A M. eapply term_runs; [exact digits|eapply values_valid, (a_items _ _ _ _ A)| | |exact M].
  - intros x o V. rewrite (a_env _ _ _ _ A), assoc_items, (assoc_values _ _ _ (a_names _ _ _ _ A) V). reflexivity.
  - intros x v G. eapply global_none; eassumption.
Qed.
Lemma term_valid st P r h t o : agrees st P r h -> mean Y (values (s_vars st)) t = Some (Ok o) -> valid_obj o.
Proof. intros A M. eapply mean_valid; [eapply values_valid, (a_items _ _ _ _ A)|exact M]. Qed.
Lemma track_found st P r h x i t : agrees st P r h -> track_of st x = Some (i, t) ->
  exists a b, nth_error (s_tracks st) i = Some t /\ nth_error P i = Some (a, b) /\ track_at h a b t /\ sound t /\
    forall h' K, PySem.step melodia Y (Ev (EName x) r h' K) = Some (Rt (VRef a) h' K).
Proof.
  intros A E. unfold track_of in E. destruct (assoc x (s_vars st)) as [[o|j]|] eqn:V; try discriminate. destruct (nth_error (s_tracks st) j) as [u|] eqn:F; [|discriminate].
  injection E as -> ->. destruct (holds_track _ _ _ _ _ (a_holds _ _ _ _ A) F) as (a & b & N & T & S). exists a, b. repeat (split; [assumption|]).
  intros h' K. rewrite (var_step _ _ _ _ _ _ _ _ A V). cbn. rewrite (nth_error_nth _ _ (0, 0)%nat N). reflexivity.
Qed.

(** ** Stores *)
Lemma agrees_change st P r h ts P' h' n : agrees st P r h -> holds ts P' h' -> (List.length (s_tracks st) <= List.length ts)%nat ->
  (forall i a b, nth_error P i = Some (a, b) -> exists b', nth_error P' i = Some (a, b')) -> h_calls h' = n -> agrees (mkStore (s_vars st) ts n) P' r h'.
Proof.
  intros [A1 A2 A3 A4 A5 A6] H L S D. split; cbn; try assumption.
  - rewrite A1. unfold items. apply map_ext_in. intros [x v] I. cbn. f_equal. destruct v as [o|i]; [reflexivity|]. cbn.
    rewrite Forall_forall in A4. specialize (A4 _ I). cbn in A4. destruct (nth_error P i) as [[a b]|] eqn:E.
    + destruct (S i a b E) as (b' & E'). rewrite (nth_error_nth _ _ _ E), (nth_error_nth _ _ _ E'). reflexivity.
    + apply nth_error_None in E. rewrite (h_length _ _ _ A5) in E. lia.
  - eapply Forall_impl; [|exact A4]. intros [x [o|i]]; cbn; [auto|lia].
Qed.
Lemma agrees_assign st P r h x v : agrees st P r h -> free x = true -> ok_item (List.length (s_tracks st)) v ->
  agrees (assign x v st) P (items P (set_var x v (s_vars st))) h.
Proof.
  intros [A1 A2 A3 A4 A5 A6] F V. unfold free in F. destruct (global melodia x) eqn:G; [discriminate|]. split; cbn; try assumption; try reflexivity.
  - apply set_var_names, A2.
  - unfold unshadowed in *. rewrite Forall_map in *. apply set_var_forall; assumption.
  - apply set_var_forall; assumption.
Qed.
Lemma assign_steps st P r h h' x v rest K : agrees st P r h -> steps (Rt (enc_item P v) h' (KAssign (TName x) rest r :: K)) (Ex rest (items P (set_var x v (s_vars st))) h' K).
Proof.
  intros A. eapply steps_more; [reflexivity|]. eapply steps_more; [cbn; unfold PySem.assign_name|].
  { pose proof (assign_items P x v (s_vars st) h') as E. rewrite <- (a_env _ _ _ _ A) in E. unfold assign_name in E. rewrite E. reflexivity. }
  eapply steps_more; [reflexivity|]. apply steps_refl.
Qed.
(** x = v, with a store that has changed by the evaluation of v. *)
Lemma assign_end st P h st1 P1 r h1 x v rest K : agrees st1 P1 r h1 -> free x = true -> ok_item (List.length (s_tracks st1)) v ->
  grows P h [] P1 h1 -> settles sort [] (s_tracks st) (s_tracks st1) ->
  reaches (Rt (enc_item P1 v) h1 (KAssign (TName x) rest r :: K)) (done st P h (Next (assign x v st1) []) rest K).
Proof.
  intros A F V G S. eapply reaches_steps; [eapply assign_steps; exact A|]. apply reaches_here. exists P1. eexists. exists h1.
  split; [reflexivity|]. split; [eapply agrees_assign; eassumption|]. split; [exact G|exact S].
Qed.
Lemma stop_here st P r h e rest K : agrees st P r h -> done st P h (Stop e (s_tracks st)) rest K (Thr e h).
Proof. intros A. left. exists P, [], h. split; [reflexivity|]. split; [apply (a_holds _ _ _ _ A)|]. split; [apply grows_refl|apply settles_refl]. Qed.
Lemma given_cases st P r h t k res : agrees st P r h -> given Y st t k = Some res ->
  (exists o, valid_obj o /\ k o = Some res /\ forall K, steps (Ev (code t) r h K) (Rt (enc_obj o) h K)) \/
  (exists e, res = Stop e (s_tracks st) /\ forall K, steps (Ev (code t) r h K) (Thr e h)).
Proof.
  intros A E. unfold given in E. destruct (mean Y (values (s_vars st)) t) as [[o|e]|] eqn:M; try discriminate.
  - left. exists o. split; [eapply term_valid; eassumption|]. split; [exact E|]. intros K. apply (term_steps _ _ _ _ _ (Ok o) K A M).
  - right. exists e. injection E as <-. split; [reflexivity|]. intros K. apply (term_steps _ _ _ _ _ (Err e) K A M).
Qed.
Lemma fresh_places P ts h p : holds ts P h -> get h p = None -> ~ In p (places P).
Proof. intros H E I. exact (holds_get _ _ _ _ H I E). Qed.
Lemma kept_holds ts P h h' : holds ts P h -> keeps [] h h' -> holds ts P h'.
Proof.
  intros H [KP _]. apply (holds_update ts P h ts h' [] H eq_refl KP). intros i t a b E F. left. split; [exact E|]. split; intros [].
Qed.
Lemma kept_grows P h h' : keeps [] h h' -> grows P h [] P h'.
Proof. intros [KP _]. eapply grows_in; [exact KP|intros p []]. Qed.

(** A new track. *)
Lemma bring_end st P r h x t c d h' rest K : agrees st P r h -> free x = true -> sound t ->
  track_at h' c d t -> get h c = None -> get h d = None -> keeps [] h h' ->
  reaches (Rt (VRef c) h' (KAssign (TName x) rest r :: K))
    (done st P h (Next (assign x (Trk (List.length (s_tracks st))) (mkStore (s_vars st) (s_tracks st ++ [t]) (s_draws st))) []) rest K).
Proof.
  intros A F S T NC ND KP. pose proof (a_holds _ _ _ _ A) as H. pose proof (kept_holds _ _ _ _ H KP) as H'.
  assert (HP : holds (s_tracks st ++ [t]) (P ++ [(c, d)]) h').
  { apply holds_push; try assumption; (eapply fresh_places; [exact H|assumption]). }
  replace (VRef c) with (enc_item (P ++ [(c, d)]) (Trk (List.length (s_tracks st)))).
  2:{ cbn. f_equal. rewrite <- (h_length _ _ _ H), app_nth2 by lia. rewrite Nat.sub_diag. reflexivity. }
  eapply assign_end; [| exact F|cbn; rewrite app_length; cbn; lia| |apply settles_push].
  - eapply agrees_change; [exact A|exact HP|rewrite app_length; lia| |rewrite (keeps_calls _ _ _ KP); apply (a_draws _ _ _ _ A)].
    intros i a b E. exists b. apply nth_first, E.
  - eapply grows_push; [reflexivity|exact NC|exact ND|apply kept_grows, KP].
Qed.
Lemma bring_made st P r h x m rest K res s : agrees st P r h -> free x = true -> (forall t, m = Ok t -> sound t) -> bring x m st = Some res ->
  made h m (KAssign (TName x) rest r :: K) s -> reaches s (done st P h res rest K).
Proof.
  intros A F S B M. unfold bring in B. unfold made in M. destruct m as [t|e]; injection B as <-.
  - destruct M as (h' & c & d & -> & T & NC & ND & KP). eapply bring_end; eauto.
  - destruct M as (h' & -> & KP). apply reaches_here. left. exists P, [], h'. split; [reflexivity|]. split; [eapply kept_holds; [apply (a_holds _ _ _ _ A)|exact KP]|].
    split; [apply kept_grows, KP|apply settles_refl].
Qed.
Lemma bring_loaded st P r h x m rest K res s : agrees st P r h -> free x = true -> (forall t, m = Ok t -> sound t) -> bring x m st = Some res ->
  after_load dp h [] m (KAssign (TName x) rest r :: K) s -> reaches s (done st P h res rest K).
Proof.
  intros A F S B M. unfold bring in B. unfold after_load in M. destruct m as [t|e]; injection B as <-.
  - destruct M as (h' & c & d & -> & T & _ & NC & ND & KP). eapply bring_end; eauto.
  - apply reaches_here. apply raised_inv in M. destruct M as [(_ & h' & -> & KP)|[-> M]]; [left|right; auto].
    exists P, [], h'. split; [reflexivity|]. split; [eapply kept_holds; [apply (a_holds _ _ _ _ A)|exact KP]|].
    split; [apply kept_grows, KP|apply settles_refl].
Qed.
(** One track may have been sorted. *)
Lemma sorted_end st P r h i t a b t' h' : agrees st P r h -> nth_error (s_tracks st) i = Some t -> nth_error P i = Some (a, b) ->
  sound t -> t' = t \/ t' = fst (track_iter sort t) -> track_at h' a b t' -> keeps [a; b] h h' ->
  agrees (set_track i t' st) P r h' /\ grows P h [] P h' /\ settles sort [] (s_tracks st) (s_tracks (set_track i t' st)).
Proof.
  intros A E F S C T KP. split; [|split].
  - eapply agrees_change; [exact A| |cbn; rewrite set_length; lia|eauto|rewrite (keeps_calls _ _ _ KP); apply (a_draws _ _ _ _ A)].
    eapply holds_set; [apply (a_holds _ _ _ _ A)|exact F|apply KP|exact T|eapply sound_either; eassumption].
  - eapply grows_in; [apply KP|]. intros p [<-|[<-|[]]]; apply in_places; eauto 8.
  - eapply settles_set; [exact E|auto].
Qed.

(** ** Commands *)
Ltac word A := idtac;
  lazymatch goal with
  | V : forall h' K, PySem.step melodia Y (Ev (EName ?x) ?r h' K) = _ |- RefineBase.reaches _ _ (Ev (EName ?x) ?r _ _) _ => eapply reaches_more; [apply V|]
  | |- RefineBase.reaches _ _ (Ev (EName ?x) ?r ?h' ?K) _ =>
      let g := eval vm_compute in (global melodia x) in
      lazymatch g with Some ?v => eapply reaches_more; [apply (global_step _ _ _ _ h' x v K A); [vm_compute; reflexivity|reflexivity]|] end
  | V : forall K, PySem.steps melodia Y (Ev (code ?t) ?r ?h K) _ |- RefineBase.reaches _ _ (Ev (code ?t) ?r ?h _) _ => eapply reaches_steps; [apply V|]
  end.
Ltac ready := unfold set_to, read_code, meth_key, meth, call, attr, compare, name; cbn [List.map app].
Ltac walk A tac := repeat first [tac | word A | adv].
Lemma not_made m h K f a k h' : ~ made h m K (Ca f a k h' K).
Proof. destruct m as [t|e]; [intros (? & ? & ? & E & _)|intros (? & E & _)]; discriminate. Qed.

Lemma skip_runs st P r h rest K : agrees st P r h -> reaches (Ex rest r h K) (done st P h (Next st []) rest K).
Proof. intros A. apply reaches_here. exists P, r, h. split; [reflexivity|]. split; [exact A|]. split; [apply grows_refl|apply settles_refl]. Qed.
Lemma let_runs st P r h x t rest K res : agrees st P r h -> free x = true -> given Y st t (fun o => Some (Next (assign x (Val o) st) [])) = Some res ->
  reaches (Ex (set_to x (code t) ++ rest) r h K) (done st P h res rest K).
Proof.
  intros A F G. ready. adv. destruct (given_cases _ _ _ _ _ _ _ A G) as [(o & V & E & S)|(e & -> & S)]; (eapply reaches_steps; [apply S|]).
  - injection E as <-. change (enc_obj o) with (enc_item P (Val o)). eapply assign_end; [exact A|exact F|exact V|apply grows_refl|apply settles_refl].
  - apply reaches_here. eapply stop_here; exact A.
Qed.
Lemma alias_runs st P r h x y v rest K : agrees st P r h -> free x = true -> assoc y (s_vars st) = Some v ->
  reaches (Ex (set_to x (name y) ++ rest) r h K) (done st P h (Next (assign x v st) []) rest K).
Proof.
  intros A F E. ready. adv. eapply reaches_more; [exact (var_step _ _ _ _ _ _ _ _ A E)|].
  eapply assign_end; [exact A|exact F| |apply grows_refl|apply settles_refl].
  pose proof (a_items _ _ _ _ A) as I. rewrite Forall_forall in I. apply (I (y, v)), assoc_in, E.
Qed.
Lemma new_runs st P r h x rest K res : agrees st P r h -> free x = true -> bring x (track_new (SA_sig (mkSig 4 4)) []) st = Some res ->
  reaches (Ex (set_to x (call (name "Track") []) ++ rest) r h K) (done st P h res rest K).
Proof.
  intros A F B. ready. walk A ltac:(idtac; lazymatch goal with |- RefineBase.reaches _ _ (Ca (VClass "Track") _ _ _ ?K) _ =>
      eapply reaches_trans; [eapply (reaches_same Y _ (Ca (VClass "Track") [enc_sig (mkSig 4 4); VNone] [] h K)); [reflexivity|discriminate|apply not_made|eapply track_new_runs; [apply sv_sig|cbn; discriminate|constructor]]|] end).
  intros s M. eapply bring_made; [exact A|exact F| |exact B|exact M]. intros t. apply sound_new. intros s' [= <-]. split; [cbn; lia|exists 2; split; [lia|reflexivity]].
Qed.
Lemma arg_value o a h own : valid_obj o -> sig_arg_of o = Some a ->
  sig_value h a (enc_obj o) /\ good_arg a /\ where_value h own (Some a) (enc_obj o) /\ forall s, a = SA_sig s -> valid_sig s.
Proof.
  intros V E.
  assert (S : sig_value h a (enc_obj o)).
  { destruct o; try discriminate; injection E as <-; try constructor. repeat constructor. }
  assert (G : good_arg a) by (destruct o; try discriminate; injection E as <-; try exact Logic.I; apply valid_sig_good, V).
  split; [exact S|]. split; [exact G|]. split.
  - apply wh_some; [exact S| | |exact G]; destruct o; try discriminate; intros p X; discriminate X.
  - intros s ->. destruct o; try discriminate. injection E as <-. exact V.
Qed.
Lemma new_with_runs st P r h x t rest K res : agrees st P r h -> free x = true ->
  given Y st t (fun o => match sig_arg_of o with Some a => bring x (track_new a []) st | None => None end) = Some res ->
  reaches (Ex (set_to x (call (name "Track") [code t]) ++ rest) r h K) (done st P h res rest K).
Proof.
  intros A F G. ready. destruct (given_cases _ _ _ _ _ _ _ A G) as [(o & V & E & S)|(e & -> & S)].
  2:{ walk A fail. apply reaches_here. eapply stop_here; exact A. }
  destruct (sig_arg_of o) as [a|] eqn:SA; [|discriminate]. destruct (arg_value o a h [] V SA) as (SV & GA & _ & VS).
  set (v := enc_obj o) in *. clearbody v.
  walk A ltac:(idtac; lazymatch goal with |- RefineBase.reaches _ _ (Ca (VClass "Track") _ _ _ ?K) _ =>
      eapply reaches_trans; [eapply (reaches_same Y _ (Ca (VClass "Track") [v; VNone] [] h K)); [reflexivity|discriminate|apply not_made|eapply track_new_runs; [exact SV|exact GA|constructor]]|] end).
  intros s M. eapply bring_made; [exact A|exact F| |exact E|exact M]. intros u. apply sound_new, VS.
Qed.

Lemma changed_end st P r h i t a b t' h' : agrees st P r h -> nth_error (s_tracks st) i = Some t -> nth_error P i = Some (a, b) ->
  sound t' -> changed h a b t' h' ->
  exists P', agrees (set_track i t' st) P' r h' /\ grows P h [i] P' h' /\ settles sort [i] (s_tracks st) (s_tracks (set_track i t' st)).
Proof.
  intros A E F S (b' & T & B & KP). exists (set_nth P i (a, b')). split; [|split].
  - eapply agrees_change; [exact A| |cbn; rewrite set_length; lia| |rewrite (keeps_calls _ _ _ KP); apply (a_draws _ _ _ _ A)].
    + eapply holds_move; [apply (a_holds _ _ _ _ A)|exact F|apply KP|exact T|exact S|exact B].
    + intros k c d G. destruct (Nat.eq_dec k i) as [->|N].
      * rewrite F in G. injection G as <- <-. exists b'. eapply set_nth_same; exact F.
      * exists d. rewrite set_nth_other by exact N. exact G.
  - eapply grows_move; [exact F|apply KP|exact B].
  - eapply settles_set; [exact E|left; left; reflexivity].
Qed.
Lemma what_good o w h own : valid_obj o -> what_of o = Some w -> what_value h own w (enc_obj o) /\ Forall valid_note (notes_of w).
Proof.
  intros V E. destruct o; try discriminate; injection E as <-.
  - split; [constructor; apply valid_sig_good, V|constructor; [exact V|constructor]].
  - cbn [valid_obj enc_obj] in *. split.
    + apply wv_tuple. induction V as [|n l H V IH]; [constructor|]. constructor; [constructor; apply valid_sig_good, H|exact IH].
    + cbn. induction V as [|n l H V IH]; [constructor|]. cbn. constructor; assumption.
Qed.
Lemma added_end st P r h i t a b o s rest K res : agrees st P r h -> nth_error (s_tracks st) i = Some t -> nth_error P i = Some (a, b) ->
  sound (fst o) -> added i o st = Some res ->
  returns (no_value (snd o)) (KExpr rest r :: K) (changed h a b (fst o)) s -> reaches s (done st P h res rest K).
Proof.
  intros A E F S B (h' & -> & C). destruct (changed_end _ _ _ _ _ _ _ _ _ _ A E F S C) as (P' & A' & G & SE). unfold added in B. destruct (snd o) as [u|e]; injection B as <-.
  - eapply reaches_more; [reflexivity|]. apply reaches_here. exists P', r, h'. auto.
  - apply reaches_here. left. exists P', [i], h'. split; [reflexivity|]. split; [apply (a_holds _ _ _ _ A')|]. split; [exact G|exact SE].
Qed.
Lemma add_runs st P r h x i u t rest K res : agrees st P r h -> track_of st x = Some (i, u) ->
  given Y st t (fun o => match what_of o with Some v => added i (track_add u v None) st | None => None end) = Some res ->
  reaches (Ex ([SExpr (meth (name x) "add" [code t])] ++ rest) r h K) (done st P h res rest K).
Proof.
  intros A E G. ready. destruct (track_found _ _ _ _ _ _ _ A E) as (a & b & E1 & E2 & T & S & V). pose proof (proj1 T) as G1. unfold enc_track in G1.
  destruct (given_cases _ _ _ _ _ _ _ A G) as [(o & VO & E3 & ST)|(e & -> & ST)].
  2:{ walk A fail. apply reaches_here. eapply stop_here; exact A. }
  destruct (what_of o) as [w|] eqn:W; [|discriminate]. destruct (what_good o w h [a; b] VO W) as [WV NV].
  set (v := enc_obj o) in *. clearbody v. pose proof (what_plain _ _ _ _ WV).
  walk A ltac:(idtac; lazymatch goal with |- RefineBase.reaches _ _ (Ca (VFun "Track.add") _ _ _ ?K) _ =>
      eapply reaches_trans; [eapply track_add_default_runs; [exact T|apply sound_good, S|exact WV]|] end).
  intros s R. eapply added_end; [exact A|exact E1|exact E2| |exact E3|exact R]. apply sound_add; [exact S|]. split; [exact NV|discriminate].
Qed.
Lemma add_where_runs st P r h x i u t w rest K res : agrees st P r h -> track_of st x = Some (i, u) ->
  given Y st t (fun o => match what_of o with
    | Some v => given Y st w (fun p => match sig_arg_of p with Some a => added i (track_add u v (Some a)) st | None => None end)
    | None => None end) = Some res ->
  reaches (Ex ([SExpr (meth_key (name x) "add" (code t) "where" (code w))] ++ rest) r h K) (done st P h res rest K).
Proof.
  intros A E G. ready. destruct (track_found _ _ _ _ _ _ _ A E) as (a & b & E1 & E2 & T & S & V). pose proof (proj1 T) as G1. unfold enc_track in G1.
  destruct (given_cases _ _ _ _ _ _ _ A G) as [(o & VO & E3 & ST)|(e & -> & ST)].
  2:{ walk A fail. apply reaches_here. eapply stop_here; exact A. }
  destruct (what_of o) as [wh|] eqn:W; [|discriminate]. destruct (what_good o wh h [a; b] VO W) as [WV NV].
  set (v := enc_obj o) in *. clearbody v. pose proof (what_plain _ _ _ _ WV).
  destruct (given_cases _ _ _ _ _ _ _ A E3) as [(p & VP & E4 & ST')|(e & -> & ST')].
  2:{ walk A fail. apply reaches_here. eapply stop_here; exact A. }
  destruct (sig_arg_of p) as [sa|] eqn:SA; [|discriminate]. destruct (arg_value p sa h [a; b] VP SA) as (_ & _ & WH & VS).
  set (v' := enc_obj p) in *. clearbody v'. pose proof (where_plain _ _ _ _ WH).
  walk A ltac:(idtac; lazymatch goal with |- RefineBase.reaches _ _ (Ca (VFun "Track.add") _ _ _ ?K) _ =>
      eapply reaches_trans; [eapply track_add_runs; [exact T|apply sound_good, S|exact WV|exact WH]|] end).
  intros s R. eapply added_end; [exact A|exact E1|exact E2| |exact E4|exact R]. apply sound_add; [exact S|]. split; [exact NV|]. intros s' [= ->]. auto.
Qed.

(** Reading. *)
Lemma get_runs st P r h y g x i t rest K : agrees st P r h -> free y = true -> track_of st x = Some (i, t) ->
  reaches (Ex (set_to y (read_code g (name x)) ++ rest) r h K) (done st P h (Next (read Y y g i t st) []) rest K).
Proof.
  intros A F E. ready. destruct (track_found _ _ _ _ _ _ _ A E) as (a & b & E1 & E2 & T & S & V). pose proof (proj1 T) as G1. unfold enc_track in G1.
  assert (END : forall o, valid_obj o -> reaches (Rt (enc_obj o) h (KAssign (TName y) rest r :: K)) (done st P h (Next (assign y (Val o) st) []) rest K)).
  { intros o VO. change (enc_obj o) with (enc_item P (Val o)). eapply assign_end; [exact A|exact F|exact VO|apply grows_refl|apply settles_refl]. }
  destruct S as [[l I] VS]. pose proof (conj (ex_intro _ l I) VS : sound t) as S.
  destruct g; cbn [read].
  - walk A ltac:(idtac; lazymatch goal with |- RefineBase.reaches _ _ (Ca (VFun _) _ _ _ _) _ => eapply reaches_steps; [eapply track_signature_runs; exact (proj1 T)|]; apply (END (OSig _)) end). exact VS.
  - walk A ltac:(idtac; lazymatch goal with |- RefineBase.reaches _ _ (Ca (VFun _) _ _ _ _) _ => eapply reaches_steps; [eapply track_length_runs; exact (proj1 T)|]; apply (END (OSig _)) end).
    cbn [valid_obj]. rewrite (inv_len _ _ I). apply len_of_valid, (inv_entries _ _ I).
  - walk A ltac:(idtac; lazymatch goal with |- RefineBase.reaches _ _ (Ca (VFun _) _ _ _ _) _ => eapply reaches_steps; [eapply track_len_runs; exact T|]; apply (END (OInt _)) end). exact Logic.I.
  - walk A ltac:(idtac; lazymatch goal with |- RefineBase.reaches _ _ (Ca (VFun _) _ _ _ _) _ => eapply reaches_steps; [eapply track_str_runs; exact T|]; apply (END (OText _)) end). exact Logic.I.
  - walk A ltac:(idtac; lazymatch goal with |- RefineBase.reaches _ _ (Ca (VFun _) _ _ _ _) _ => eapply reaches_trans; [eapply track_repr_runs; [exact NAT|exact T|apply sound_good, S]|] end).
    intros s (h' & -> & T' & KP). cbn [PySem.ends]. rewrite repr_track in *.
    destruct (sorted_end _ _ _ _ _ _ _ _ _ _ A E1 E2 S (or_intror eq_refl) T' KP) as (A' & GR & SE).
    change (VStr ?x) with (enc_item P (Val (OText x))). eapply assign_end; [exact A'|exact F|exact Logic.I|exact GR|exact SE].
Qed.

(** Comparing. *)
Lemma sorted_two st P r h i t a b t' j u c d u' h' : agrees st P r h -> i <> j ->
  nth_error (s_tracks st) i = Some t -> nth_error P i = Some (a, b) -> sound t -> t' = t \/ t' = fst (track_iter sort t) ->
  nth_error (s_tracks st) j = Some u -> nth_error P j = Some (c, d) -> sound u -> u' = u \/ u' = fst (track_iter sort u) ->
  track_at h' a b t' -> track_at h' c d u' -> keeps [a; b; c; d] h h' ->
  let st' := set_track j u' (set_track i t' st) in
  agrees st' P r h' /\ grows P h [] P h' /\ settles sort [] (s_tracks st) (s_tracks st').
Proof.
  intros A N E1 E2 S C1 F1 F2 U C2 T1 T2 KP st'. change st' with (mkStore (s_vars st) (set_nth (set_nth (s_tracks st) i t') j u') (s_draws st)). split; [|split].
  - eapply agrees_change; [exact A| |cbn; rewrite !set_length; lia|eauto|rewrite (keeps_calls _ _ _ KP); apply (a_draws _ _ _ _ A)].
    cbn [set_track s_tracks]. apply (holds_update _ P h _ h' [a; b; c; d] (a_holds _ _ _ _ A)); [rewrite !set_length; reflexivity|apply KP|].
    intros k w e f G1 G2. apply nth_set in G1. destruct G1 as [[-> ->]|[M1 G1]].
    { right. rewrite F2 in G2. injection G2 as <- <-. split; [exact T2|exact (sound_either _ _ _ CON U C2)]. }
    apply nth_set in G1. destruct G1 as [[-> ->]|[M2 G1]].
    { right. rewrite E2 in G2. injection G2 as <- <-. split; [exact T1|exact (sound_either _ _ _ CON S C1)]. }
    left. split; [exact G1|]. destruct (others _ _ _ i k a b e f (a_holds _ _ _ _ A) (not_eq_sym M2) E2 G2) as [X1 X2].
    destruct (others _ _ _ j k c d e f (a_holds _ _ _ _ A) (not_eq_sym M1) F2 G2) as [X3 X4]. cbn in *. tauto.
  - eapply grows_in; [apply KP|]. intros p [<-|[<-|[<-|[<-|[]]]]]; apply in_places; eauto 8.
  - apply (settles_trans sort [] [] _ (set_nth (s_tracks st) i t')); eapply settles_set; [exact E1|right; exact C1| |right; exact C2]. rewrite set_nth_other by auto. exact F1.
Qed.
Lemma same_runs st P r h y (o : bool) x1 x2 i t j u rest K : agrees st P r h -> free y = true -> track_of st x1 = Some (i, t) -> track_of st x2 = Some (j, u) ->
  reaches (Ex (set_to y (compare (if o then CEq else CNe) (name x1) (name x2)) ++ rest) r h K) (done st P h (Next (same Y y o i j t u st) []) rest K).
Proof.
  intros A F E E'. ready. destruct (track_found _ _ _ _ _ _ _ A E) as (a & b & E1 & E2 & T & S & V). pose proof (proj1 T) as G1. unfold enc_track in G1.
  destruct (track_found _ _ _ _ _ _ _ A E') as (c & d & F1 & F2 & U & S' & V'). pose proof (proj1 U) as G2. unfold enc_track in G2.
  unfold same. destruct (track_eq sort t u) as [[q t'] u'] eqn:Q. destruct (eq_tracks _ _ _ _ _ _ Q) as [C1 C2].
  assert (RUN : forall K1, reaches (Ca (VFun "Track.__eq__") [VRef a; VRef c] [] h K1) (fun s => exists h', s = Rt (VBool q) h' K1 /\
     let st' := if Nat.eqb i j then set_track i t' st else set_track j u' (set_track i t' st) in
     agrees st' P r h' /\ grows P h [] P h' /\ settles sort [] (s_tracks st) (s_tracks st'))).
  { intros K1. destruct (Nat.eqb_spec i j) as [->|N].
    - rewrite E2 in F2. injection F2 as <- <-. rewrite E1 in F1. injection F1 as <-.
      eapply reaches_trans; [eapply (track_eq_self_runs Y h a b t); [exact NAT|exact CON|exact T|apply sound_good, S|exact Q]|].
      intros s (h' & -> & T' & KP). apply reaches_here. exists h'. split; [reflexivity|]. exact (sorted_end _ _ _ _ _ _ _ _ _ _ A E1 E2 S C1 T' KP).
    - destruct (h_apart _ _ _ (a_holds _ _ _ _ A) _ _ _ _ _ _ N E2 F2) as [AC BD].
      eapply reaches_trans; [eapply (track_eq_runs Y h a b t c d u); [exact NAT|exact CON|exact T|exact U|apply sound_good, S|apply sound_good, S'|exact AC|exact BD|exact Q]|].
      intros s (h' & -> & T' & U' & KP). apply reaches_here. exists h'. split; [reflexivity|].
      exact (sorted_two _ _ _ _ _ _ _ _ _ _ _ _ _ _ _ A N E1 E2 S C1 F1 F2 S' C2 T' U' KP). }
  set (st' := if Nat.eqb i j then _ else _) in *. clearbody st'.
  destruct o.
  - walk A ltac:(idtac; lazymatch goal with |- RefineBase.reaches _ _ (Ca (VFun "Track.__eq__") _ _ _ _) _ => eapply reaches_trans; [apply RUN|] end).
    intros s (h' & -> & A' & GR & SE). change (VBool q) with (enc_item P (Val (OBool q))). eapply assign_end; [exact A'|exact F|exact Logic.I|exact GR|exact SE].
  - walk A ltac:(idtac; lazymatch goal with |- RefineBase.reaches _ _ (Ca (VFun "Track.__eq__") _ _ _ _) _ => eapply reaches_trans; [apply RUN|] end).
    intros s (h' & -> & A' & GR & SE). eapply reaches_more; [reflexivity|].
    change (value_step melodia Y (VBool q) h' KNot (KAssign (TName y) rest r :: K)) with (Rt (enc_item P (Val (OBool (negb q)))) h' (KAssign (TName y) rest r :: K)). eapply assign_end; [exact A'|exact F|exact Logic.I|exact GR|exact SE].
Qed.

(** Writing. *)
Lemma written_end st P r h y i t a b bpm k rest K res s : agrees st P r h -> free y = true -> nth_error (s_tracks st) i = Some t -> nth_error P i = Some (a, b) -> sound t ->
  written Y y i t bpm k st = Some res ->
  returns (outcome_of VBytes (midi_dumps sort t bpm k)) (KAssign (TName y) rest r :: K) (fun h' => track_at h' a b (d_track (module_dump Y t bpm k)) /\ keeps [a; b] h h') s ->
  reaches s (done st P h res rest K).
Proof.
  intros A F E1 E2 S W (h' & -> & T & KP). destruct (sorted_end _ _ _ _ _ _ _ _ _ _ A E1 E2 S (dumped_track Y t bpm k) T KP) as (A' & GR & SE).
  unfold written in W. destruct (midi_dumps sort t bpm k) as [bs|e]; injection W as <-; cbn [outcome_of PySem.ends].
  - change (VBytes bs) with (enc_item P (Val (OBytes bs))). eapply assign_end; [exact A'|exact F|exact Logic.I|exact GR|exact SE].
  - apply reaches_here. left. exists P, [], h'. split; [reflexivity|]. split; [apply (a_holds _ _ _ _ A')|]. split; [exact GR|exact SE].
Qed.
Lemma dumps_runs st P r h y x i t rest K res : agrees st P r h -> free y = true -> track_of st x = Some (i, t) -> written Y y i t f_120 0 st = Some res ->
  reaches (Ex (set_to y (call (name "midi.dumps") [name x]) ++ rest) r h K) (done st P h res rest K).
Proof.
  intros A F E W. ready. destruct (track_found _ _ _ _ _ _ _ A E) as (a & b & E1 & E2 & T & S & V). pose proof (proj1 T) as G1. unfold enc_track in G1.
  walk A ltac:(idtac; lazymatch goal with |- RefineBase.reaches _ _ (Ca (VFun "midi.dumps") _ _ _ ?K) _ =>
     eapply reaches_trans; [eapply (reaches_same Y _ (Ca (VFun "midi.dumps") [VRef a; VFloat f_120; VInt 0] [] h K)); [reflexivity|discriminate| |exact (midi_dumps_runs Y h a b t f_120 0 K NAT CON T (sound_valid _ S))]|] end).
  - intros (h' & X & _). destruct (midi_dumps _ _ _ _); discriminate X.
  - intros s R. eapply written_end; [exact A|exact F|exact E1|exact E2|exact S|exact W|exact R].
Qed.
Lemma dumps_with_runs st P r h y x i t b0 k0 rest K res : agrees st P r h -> free y = true -> track_of st x = Some (i, t) ->
  given Y st b0 (fun b => given Y st k0 (fun k => match b, k with OFloat b, OInt k => written Y y i t b k st | _, _ => None end)) = Some res ->
  reaches (Ex (set_to y (call (name "midi.dumps") [name x; code b0; code k0]) ++ rest) r h K) (done st P h res rest K).
Proof.
  intros A F E G. ready. destruct (track_found _ _ _ _ _ _ _ A E) as (a & b & E1 & E2 & T & S & V). pose proof (proj1 T) as G1. unfold enc_track in G1.
  destruct (given_cases _ _ _ _ _ _ _ A G) as [(o & VO & E3 & ST)|(e & -> & ST)].
  2:{ walk A fail. apply reaches_here. eapply stop_here; exact A. }
  destruct (given_cases _ _ _ _ _ _ _ A E3) as [(p & VP & E4 & ST')|(e & -> & ST')].
  2:{ set (v := enc_obj o) in *. clearbody v. walk A fail. apply reaches_here. eapply stop_here; exact A. }
  destruct o; try discriminate. destruct p; try discriminate. cbn [enc_obj] in *.
  walk A ltac:(idtac; lazymatch goal with |- RefineBase.reaches _ _ (Ca (VFun "midi.dumps") _ _ _ ?K) _ =>
     eapply reaches_trans; [exact (midi_dumps_runs Y h a b t f z K NAT CON T (sound_valid _ S))|] end).
  intros s R. eapply written_end; [exact A|exact F|exact E1|exact E2|exact S|exact E4|exact R].
Qed.

(** Reading files. *)
Lemma loads_runs st P r h x t rest K res : agrees st P r h -> free x = true ->
  given Y st t (fun o => match o with OBytes b => if all_bytes b then bring x (midi_loads sort b None) st else None | _ => None end) = Some res ->
  reaches (Ex (set_to x (call (name "midi.loads") [code t]) ++ rest) r h K) (done st P h res rest K).
Proof.
  intros A F G. ready. destruct (given_cases _ _ _ _ _ _ _ A G) as [(o & VO & E & ST)|(e & -> & ST)].
  2:{ walk A fail. apply reaches_here. eapply stop_here; exact A. }
  destruct o; try discriminate. cbn [enc_obj] in *. destruct (all_bytes b) eqn:B; [|discriminate]. apply bytes_all in B.
  assert (L2 : forall K, reaches (Ca (VFun "midi.loads") [VBytes b; VNone] [] h K) (after_load dp h [] (midi_loads sort b None) K))
    by (intros K1; exact (module_loads_runs Y NAT CON dp b None h K1 B (load_fuel _ (mkMR 24) _ _ CON B))).
  walk A ltac:(idtac; lazymatch goal with |- RefineBase.reaches _ _ (Ca (VFun "midi.loads") _ _ _ ?K) _ =>
     eapply reaches_trans; [eapply reaches_like; [| |apply after_like|exact (L2 K)]; [reflexivity|discriminate]|] end).
  intros s R. eapply bring_loaded; [exact A|exact F| |exact E|exact R]. intros u. apply (sound_load _ (mkMR 24)); assumption.
Qed.
Lemma loads_with_runs st P r h x t k rest K res : agrees st P r h -> free x = true ->
  given Y st t (fun o => match o with OBytes b =>
     given Y st k (fun k => match k with OInt k => if all_bytes b then bring x (midi_loads sort b (Some k)) st else None | _ => None end) | _ => None end) = Some res ->
  reaches (Ex (set_to x (call (name "midi.loads") [code t; code k]) ++ rest) r h K) (done st P h res rest K).
Proof.
  intros A F G. ready. destruct (given_cases _ _ _ _ _ _ _ A G) as [(o & VO & E & ST)|(e & -> & ST)].
  2:{ walk A fail. apply reaches_here. eapply stop_here; exact A. }
  destruct o; try discriminate. cbn [enc_obj] in *.
  destruct (given_cases _ _ _ _ _ _ _ A E) as [(p & VP & E4 & ST')|(e & -> & ST')].
  2:{ walk A fail. apply reaches_here. eapply stop_here; exact A. }
  destruct p; try discriminate. cbn [enc_obj] in *. destruct (all_bytes b) eqn:B; [|discriminate]. apply bytes_all in B.
  assert (L2 : forall K, reaches (Ca (VFun "midi.loads") [VBytes b; VInt z] [] h K) (after_load dp h [] (midi_loads sort b (Some z)) K))
    by (intros K1; exact (module_loads_runs Y NAT CON dp b (Some z) h K1 B (load_fuel _ (mkMR 24) _ _ CON B))).
  walk A ltac:(idtac; lazymatch goal with |- RefineBase.reaches _ _ (Ca (VFun "midi.loads") _ _ _ ?K) _ => eapply reaches_trans; [exact (L2 K)|] end).
  intros s R. eapply bring_loaded; [exact A|exact F| |exact E4|exact R]. intros u. apply (sound_load _ (mkMR 24)); assumption.
Qed.

(** Random velocities. *)
Lemma randomized_end st P r h y i t a b mn mx me va rest K res s : agrees st P r h -> free y = true -> nth_error (s_tracks st) i = Some t -> nth_error P i = Some (a, b) -> sound t ->
  randomized Y y i t mn mx me va st = Some res ->
  (let o := randomize_velocities sort t mn mx me va (fun j => py_gauss Y (h_calls h + j) me (py_sqrt Y va)) in
   exists h', track_at h' a b (fst o) /\
       match snd o with
       | Ok t' => exists c d, s = Rt (VRef c) h' (KAssign (TName y) rest r :: K) /\ track_at h' c d t' /\ get h c = None /\ get h d = None /\ after_draws [a; b] (List.length (t_heap t)) h h'
       | Err e => s = Thr e h' /\ exists n, (n <= List.length (t_heap t))%nat /\ after_draws [a; b] n h h'
       end) ->
  reaches s (done st P h res rest K).
Proof.
  intros A F E1 E2 S W (h' & T & R). rewrite (a_draws _ _ _ _ A) in *. unfold randomized in W.
  destruct (is_float mn) eqn:F1; [|discriminate]. destruct (is_float mx) eqn:F2; [|discriminate]. destruct (is_float me) eqn:F3; [|discriminate]. destruct (is_float va) eqn:F4; [|discriminate].
  cbn [andb] in W. change (fun j => py_gauss Y (s_draws st + j) me (py_sqrt Y va)) with (draws Y (s_draws st) me va) in *.
  destruct (sound_randomize sort t mn mx me va (draws Y (s_draws st) me va) CON S F1 F2 F3 F4 (fun j => floats _ _ _)) as [C1 C2].
  set (o := randomize_velocities _ _ _ _ _ _ _) in *. clearbody o. pose proof (a_holds _ _ _ _ A) as H.
  assert (HS : forall KP : (forall p o, ~ In p [a; b] -> get h p = Some o -> get h' p = Some o), holds (set_nth (s_tracks st) i (fst o)) P h' /\ grows P h [] P h').
  { intros KP. split; [eapply holds_set; [exact H|exact E2|exact KP|exact T|exact (sound_either _ _ _ CON S C1)]|].
    eapply grows_in; [exact KP|]. intros p [<-|[<-|[]]]; apply in_places; eauto 8. }
  assert (SE : settles sort [] (s_tracks st) (set_nth (s_tracks st) i (fst o))) by (eapply settles_set; [exact E1|auto]).
  destruct (snd o) as [t'|e]; injection W as <-.
  - destruct R as (c & d & -> & T' & NC & ND & [KP DR]). destruct (HS KP) as [H' G].
    replace (VRef c) with (enc_item (P ++ [(c, d)]) (Trk (List.length (set_nth (s_tracks st) i (fst o))))).
    2:{ cbn. f_equal. rewrite <- (h_length _ _ _ H'), app_nth2 by lia. rewrite Nat.sub_diag. reflexivity. }
    eapply assign_end; [|exact F|cbn; rewrite app_length; cbn; lia| |].
    + eapply agrees_change; [exact A| |rewrite app_length, set_length; lia| |rewrite DR, (a_draws _ _ _ _ A); reflexivity].
      * apply holds_push; [exact H'|exact T'|apply C2; reflexivity| |]; (eapply fresh_places; [exact H|assumption]).
      * intros k e f G1. exists f. apply nth_first, G1.
    + eapply grows_push; [reflexivity|exact NC|exact ND|exact G].
    + apply (settles_trans sort [] [] _ _ _ SE). apply settles_push.
  - destruct R as (-> & n & _ & [KP DR]). destruct (HS KP) as [H' G]. apply reaches_here. left. exists P, [], h'. auto.
Qed.
Lemma randomize_default_runs st P r h y x i t rest K res : agrees st P r h -> free y = true -> track_of st x = Some (i, t) ->
  randomized Y y i t f_half f_one f_three_quarters (fdiv f_one (float_of_Z 100)) st = Some res ->
  reaches (Ex (set_to y (call (name "processing.randomize_velocities") [name x]) ++ rest) r h K) (done st P h res rest K).
Proof.
  intros A F E W. ready. destruct (track_found _ _ _ _ _ _ _ A E) as (a & b & E1 & E2 & T & S & V). pose proof (proj1 T) as G1. unfold enc_track in G1.
  replace (fdiv f_one (float_of_Z 100)) with (SpecFloat.S754_finite false 5764607523034235 (-59)) in W by (vm_compute; reflexivity).
  walk A ltac:(idtac; lazymatch goal with |- RefineBase.reaches _ _ (Ca (VFun "processing.randomize_velocities") _ _ _ ?K) _ =>
     eapply reaches_trans; [eapply reaches_same; [| | |exact (randomize_runs Y h a b t f_half f_one f_three_quarters (SpecFloat.S754_finite false 5764607523034235 (-59)) K NAT CON T (sound_good _ S))]; [reflexivity|discriminate|]|] end).
  - intros (h' & _ & X). destruct (snd _); [destruct X as (? & ? & X & _)|destruct X as [X _]]; discriminate X.
  - intros s R. eapply randomized_end; [exact A|exact F|exact E1|exact E2|exact S|exact W|exact R].
Qed.
Lemma randomize_with_runs st P r h y x i t t1 t2 t3 t4 rest K res : agrees st P r h -> free y = true -> track_of st x = Some (i, t) ->
  given Y st t1 (fun a => given Y st t2 (fun b => given Y st t3 (fun m => given Y st t4 (fun v =>
    match a, b, m, v with OFloat a, OFloat b, OFloat m, OFloat v => randomized Y y i t a b m v st | _, _, _, _ => None end)))) = Some res ->
  reaches (Ex (set_to y (call (name "processing.randomize_velocities") [name x; code t1; code t2; code t3; code t4]) ++ rest) r h K) (done st P h res rest K).
Proof.
  intros A F E G. ready. destruct (track_found _ _ _ _ _ _ _ A E) as (a & b & E1 & E2 & T & S & V). pose proof (proj1 T) as G1. unfold enc_track in G1.
  destruct (given_cases _ _ _ _ _ _ _ A G) as [(o1 & _ & W1 & ST1)|(e & -> & ST1)].
  2:{ walk A fail. apply reaches_here. eapply stop_here; exact A. }
  destruct (given_cases _ _ _ _ _ _ _ A W1) as [(o2 & _ & W2 & ST2)|(e & -> & ST2)].
  2:{ set (v1 := enc_obj o1) in *. clearbody v1. walk A fail. apply reaches_here. eapply stop_here; exact A. }
  destruct (given_cases _ _ _ _ _ _ _ A W2) as [(o3 & _ & W3 & ST3)|(e & -> & ST3)].
  2:{ set (v1 := enc_obj o1) in *. set (v2 := enc_obj o2) in *. clearbody v1 v2. walk A fail. apply reaches_here. eapply stop_here; exact A. }
  destruct (given_cases _ _ _ _ _ _ _ A W3) as [(o4 & _ & W4 & ST4)|(e & -> & ST4)].
  2:{ set (v1 := enc_obj o1) in *. set (v2 := enc_obj o2) in *. set (v3 := enc_obj o3) in *. clearbody v1 v2 v3. walk A fail. apply reaches_here. eapply stop_here; exact A. }
  destruct o1; try discriminate. destruct o2; try discriminate. destruct o3; try discriminate. destruct o4; try discriminate. cbn [enc_obj] in *.
  walk A ltac:(idtac; lazymatch goal with |- RefineBase.reaches _ _ (Ca (VFun "processing.randomize_velocities") _ _ _ ?K) _ =>
     eapply reaches_trans; [exact (randomize_runs Y h a b t f f0 f1 f2 K NAT CON T (sound_good _ S))|] end).
  intros s R. eapply randomized_end; [exact A|exact F|exact E1|exact E2|exact S|exact W4|exact R].
Qed.

(** ** Statements one after the other *)
Definition runs_like (c : cmd) (n : nat) : Prop := forall st P r h rest K res, agrees st P r h -> exec Y n c st = Some res ->
  reaches (Ex (compile c ++ rest) r h K) (done st P h res rest K).
Lemma done_seq st P h res rest K s : done st P h res [] (KSeq rest :: K) s -> reaches s (done st P h res rest K).
Proof.
  destruct res as [st' T|e ts]; intros D.
  - destruct D as (P' & r' & h' & -> & D). eapply reaches_more; [reflexivity|]. apply reaches_here. exists P', r', h'. split; [reflexivity|exact D].
  - apply reaches_here. exact D.
Qed.
Lemma done_after st P h st1 T P1 h1 res res2 rest K s : grows P h T P1 h1 -> settles sort T (s_tracks st) (s_tracks st1) ->
  follow (Some (Next st1 T)) (fun _ => Some res2) = Some res -> done st1 P1 h1 res2 rest K s -> done st P h res rest K s.
Proof.
  intros G S E D. cbn in E. destruct res2 as [st2 T2|e ts]; injection E as <-.
  - destruct D as (P' & r' & h' & -> & A & G' & S'). exists P', r', h'. split; [reflexivity|]. split; [exact A|].
    split; [eapply grows_trans; eassumption|eapply settles_trans; eassumption].
  - destruct D as [(P' & T' & h' & -> & H & G' & S')|D]; [left|right; exact D]. exists P', (T ++ T'), h'. split; [reflexivity|]. split; [exact H|].
    split; [eapply grows_trans; eassumption|eapply settles_trans; eassumption].
Qed.
(** From where the first part ends with the program [rest1], [k] says how it goes on. *)
Lemma follow_end st P h res1 k res rest1 K1 rest K s : done st P h res1 rest1 K1 s -> follow (Some res1) k = Some res ->
  (forall st1 T P1 r1 h1 res2, res1 = Next st1 T -> agrees st1 P1 r1 h1 -> grows P h T P1 h1 -> settles sort T (s_tracks st) (s_tracks st1) -> k st1 = Some res2 ->
     reaches (Ex rest1 r1 h1 K1) (done st1 P1 h1 res2 rest K)) ->
  reaches s (done st P h res rest K).
Proof.
  intros D E W. destruct res1 as [st1 T|e ts].
  - destruct D as (P1 & r1 & h1 & -> & A & G & S). cbn in E. destruct (k st1) as [res2|] eqn:KE; [|discriminate].
    eapply reaches_trans; [eapply W; eauto|]. intros s D2. apply reaches_here. eapply done_after; [exact G|exact S| |exact D2]. cbn. exact E.
  - cbn in E. injection E as <-. apply reaches_here. exact D.
Qed.
Lemma seq_runs n c d : runs_like c n -> runs_like d n -> forall st P r h rest K res, agrees st P r h -> follow (exec Y n c st) (exec Y n d) = Some res ->
  reaches (Ex ((compile c ++ compile d) ++ rest) r h K) (done st P h res rest K).
Proof.
  intros C D st P r h rest K res A E. rewrite <- app_assoc. destruct (exec Y n c st) as [res1|] eqn:X; [|discriminate].
  eapply reaches_trans; [eapply C; eassumption|]. intros s D1. eapply follow_end; [exact D1|exact E|].
  intros st1 T P1 r1 h1 res2 -> A1 G S E2. eapply D; eassumption.
Qed.
Lemma if_runs n t c d : runs_like c n -> runs_like d n -> forall st P r h rest K res, agrees st P r h ->
  given Y st t (fun o => match o with OBool b => exec Y n (if b then c else d) st | _ => None end) = Some res ->
  reaches (Ex ([SIf (code t) (compile c) (compile d)] ++ rest) r h K) (done st P h res rest K).
Proof.
  intros C D st P r h rest K res A G. cbn [app]. adv. destruct (given_cases _ _ _ _ _ _ _ A G) as [(o & V & E & S)|(e & -> & S)]; (eapply reaches_steps; [apply S|]).
  2:{ apply reaches_here. eapply stop_here; exact A. }
  destruct o as [|q| | | | | | | |]; try discriminate. destruct q; cbn [enc_obj].
  - to (Ex (compile c) r h (KSeq rest :: K)). eapply reaches_trans; [|intros s; apply done_seq]. rewrite <- (app_nil_r (compile c)) at 1. eapply C; eassumption.
  - to (Ex (compile d) r h (KSeq rest :: K)). eapply reaches_trans; [|intros s; apply done_seq]. rewrite <- (app_nil_r (compile d)) at 1. eapply D; eassumption.
Qed.
Lemma while_runs n t c : runs_like c n -> runs_like (While t c) n -> forall st P r h rest K res, agrees st P r h ->
  given Y st t (fun o => match o with OBool true => follow (exec Y n c st) (exec Y n (While t c)) | OBool false => Some (Next st []) | _ => None end) = Some res ->
  reaches (Ex ([SWhile (code t) (compile c)] ++ rest) r h K) (done st P h res rest K).
Proof.
  intros C W st P r h rest K res A G. cbn [app]. adv. destruct (given_cases _ _ _ _ _ _ _ A G) as [(o & V & E & S)|(e & -> & S)]; (eapply reaches_steps; [apply S|]).
  2:{ apply reaches_here. eapply stop_here; exact A. }
  destruct o as [|q| | | | | | | |]; try discriminate. destruct q; cbn [enc_obj].
  - to (Ex (compile c) r h (KLoopW (code t) (compile c) :: KSeq rest :: K)). destruct (exec Y n c st) as [res1|] eqn:X; [|discriminate].
    eapply reaches_trans; [rewrite <- (app_nil_r (compile c)) at 1; eapply C; eassumption|]. intros s D1. eapply follow_end; [exact D1|exact E|].
    intros st1 T P1 r1 h1 res2 -> A1 G1 S1 E2. 
    eapply (reaches_same Y _ (Ex ([SWhile (code t) (compile c)] ++ rest) r1 h1 K)); [reflexivity|discriminate| |exact (W _ _ _ _ rest K _ A1 E2)].
    intros D. destruct res2 as [st2 T2|e ts]; cbn in D.
    + destruct D as (P2 & r2 & h2 & D & _). injection D as D _ _. apply (f_equal (@List.length stmt)) in D. cbn in D. lia.
    + destruct D as [(? & ? & ? & D & _)|[_ (? & ? & ? & ? & ? & D & _)]]; discriminate D.
  - to (Ex [] r h (KSeq rest :: K)). adv. injection E as <-. apply skip_runs, A.
Qed.

(** for p, q in x *)
Lemma entry_steps st P r h p q e body K : agrees st P r h -> free p = true -> free q = true -> valid_sig (fst e) -> valid_note (snd e) ->
  exists r', steps (As [(TTuple [TName p; TName q], enc_entry e)] body r h K) (Ex body r' h K) /\
    agrees (assign q (Val (ONote (snd e))) (assign p (Val (OSig (fst e))) st)) P r' h.
Proof.
  intros A FP FQ VS VN. assert (A1 : agrees (assign p (Val (OSig (fst e))) st) P (items P (set_var p (Val (OSig (fst e))) (s_vars st))) h)
    by (eapply agrees_assign; eassumption).
  assert (A2 : agrees (assign q (Val (ONote (snd e))) (assign p (Val (OSig (fst e))) st)) P (items P (set_var q (Val (ONote (snd e))) (s_vars (assign p (Val (OSig (fst e))) st)))) h)
    by (eapply agrees_assign; eassumption).
  eexists. split; [|exact A2]. eapply steps_more; [reflexivity|]. eapply steps_more.
  { cbn. change (enc_sig (fst e)) with (enc_item P (Val (OSig (fst e)))). rewrite (a_env _ _ _ _ A), assign_items. reflexivity. }
  eapply steps_more.
  { cbn. change (enc_note (snd e)) with (enc_item P (Val (ONote (snd e)))). rewrite assign_items. reflexivity. }
  eapply steps_more; [reflexivity|]. apply steps_refl.
Qed.
Lemma each_runs n c p q i : runs_like c n -> free p = true -> free q = true ->
  forall l k st P r h t a b rest K res, agrees st P r h -> nth_error (s_tracks st) i = Some t -> nth_error P i = Some (a, b) -> t_sorted t = true ->
  skipn k (t_heap t) = l -> each (exec Y n c) p q i l st = Some res ->
  reaches (Lp (TTuple [TName p; TName q]) (compile c) (IRef b k) r h (KSeq rest :: K)) (done st P h res rest K).
Proof.
  intros C FP FQ. induction l as [|e l IH]; intros k st P r h t a b rest K res A E1 E2 TS SK E.
  - injection E as <-. destruct (h_at _ _ _ (a_holds _ _ _ _ A) _ _ _ _ E1 E2) as [[T1 T2] SO].
    eapply reaches_more. { cbn. rewrite T2. assert (N : nth_error (map enc_entry (t_heap t)) k = None) by (apply skipn_nil_nth; rewrite skipn_map, SK; reflexivity). rewrite N. reflexivity. }
    adv. apply skip_runs, A.
  - destruct (h_at _ _ _ (a_holds _ _ _ _ A) _ _ _ _ E1 E2) as [[T1 T2] SO].
    assert (SK' : skipn k (map enc_entry (t_heap t)) = enc_entry e :: map enc_entry l) by (rewrite skipn_map, SK; reflexivity).
    destruct (skipn_cons _ _ _ _ SK') as [N1 _]. destruct (skipn_cons _ _ _ _ SK) as [N2 SK2].
    eapply reaches_more. { cbn. rewrite T2, N1. reflexivity. }
    assert (V : valid_sig (fst e) /\ valid_note (snd e)).
    { destruct SO as [[es I] _]. pose proof (heap_entries _ _ I) as HE. rewrite Forall_forall in HE. destruct (HE e (nth_error_In _ _ N2)) as (V1 & _ & V2). auto. }
    destruct (entry_steps st P r h p q e (compile c) (KLoopF (TTuple [TName p; TName q]) (compile c) (IRef b (S k)) :: KSeq rest :: K) A FP FQ (proj1 V) (proj2 V)) as (r' & ST & A').
    eapply reaches_steps; [exact ST|]. cbn [each] in E. set (st' := assign q _ _) in *.
    destruct (exec Y n c st') as [res1|] eqn:X; [|discriminate].
    eapply reaches_trans; [rewrite <- (app_nil_r (compile c)) at 1; eapply (C st'); eassumption|]. intros s D1.
    change (done st P h res rest K) with (done st' P h res rest K).
    assert (E' : follow (Some res1) (each (exec Y n c) p q i l) = Some res /\ forall st1 T, res1 = Next st1 T -> ~ In i T).
    { destruct res1 as [st1 T|er ts]; [|injection E as <-; split; [reflexivity|discriminate]]. destruct (existsb (Nat.eqb i) T) eqn:B; [discriminate|]. split; [exact E|].
      intros ? ? [= <- <-] I. assert (X1 : existsb (Nat.eqb i) T = true) by (apply existsb_exists; exists i; split; [exact I|apply Nat.eqb_refl]). congruence. }
    destruct E' as [E' NI]. eapply follow_end; [exact D1|exact E'|]. intros st1 T P1 r1 h1 res2 -> A1 G1 S1 E3. specialize (NI _ _ eq_refl).
    adv. destruct (g_same _ _ _ _ _ G1 i a b E2) as (b' & F2 & [->|I]); [|contradiction]. destruct (S1 i t E1) as (t1 & F1 & F3).
    assert (t1 = t) as ->. { destruct F3 as [I|[->| ->]]; [contradiction|reflexivity|]. unfold track_iter. rewrite TS. reflexivity. }
    eapply IH; eassumption.
Qed.
Lemma for_runs n c p q x i t : runs_like c n -> free p = true -> free q = true -> forall st P r h rest K res, agrees st P r h -> track_of st x = Some (i, t) ->
  each (exec Y n c) p q i (snd (track_iter sort t)) (set_track i (fst (track_iter sort t)) st) = Some res ->
  reaches (Ex ([SFor (TTuple [TName p; TName q]) (name x) (compile c)] ++ rest) r h K) (done st P h res rest K).
Proof.
  intros C FP FQ st P r h rest K res A E W. ready. destruct (track_found _ _ _ _ _ _ _ A E) as (a & b & E1 & E2 & T & S & V). pose proof (proj1 T) as G1. unfold enc_track in G1.
  walk A ltac:(idtac; lazymatch goal with |- RefineBase.reaches _ _ (Ca (VFun "Track.__iter__") _ _ _ _) _ => eapply reaches_trans; [eapply track_iter_runs; [exact NAT|exact T|apply sound_good, S]|] end).
  intros s (h' & -> & T' & KP). cbn [PySem.ends]. adv.
  destruct (sorted_end _ _ _ _ _ _ _ _ _ _ A E1 E2 S (or_intror eq_refl) T' KP) as (A' & GR & SE).
  eapply reaches_trans.
  - eapply each_runs; [exact C|exact FP|exact FQ|exact A'|cbn; eapply set_nth_same; exact E1|exact E2| | |exact W].
    + unfold track_iter. destruct (t_sorted t) eqn:TS; [exact TS|reflexivity].
    + unfold track_iter. destruct (t_sorted t); reflexivity.
  - intros s D. apply reaches_here. eapply (done_after st P h _ [] P h' res res); [exact GR|exact SE| |exact D]. destruct res; reflexivity.
Qed.

(** ** Programs *)
Lemma exec_runs n : forall c, runs_like c n.
Proof.
  induction n as [|n IH]; intros c st P r h rest K res A E; [discriminate|]. cbn [exec] in E. destruct c; cbn [compile].
  - injection E as <-. apply skip_runs, A.
  - eapply seq_runs; [apply IH|apply IH|exact A|exact E].
  - destruct (free x) eqn:F; [|discriminate]. apply let_runs; assumption.
  - destruct (free x) eqn:F; [|discriminate]. destruct (assoc y (s_vars st)) as [v|] eqn:V; [|discriminate]. injection E as <-. apply alias_runs; assumption.
  - destruct t as [t|].
    + destruct (free x) eqn:F; [|discriminate]. apply new_with_runs; assumption.
    + destruct (free x) eqn:F; [|discriminate]. apply new_runs; assumption.
  - destruct (track_of st x) as [[i u]|] eqn:TR; [|discriminate]. destruct w as [w|].
    + eapply add_where_runs; [exact A|exact TR|]. exact E.
    + eapply add_runs; [exact A|exact TR|]. exact E.
  - destruct (free y) eqn:F; [|discriminate]. destruct (track_of st x) as [[i t]|] eqn:TR; [|discriminate]. injection E as <-. apply get_runs; assumption.
  - destruct (free y) eqn:F; [|discriminate]. destruct (track_of st x1) as [[i t]|] eqn:T1; [|discriminate]. destruct (track_of st x2) as [[j u]|] eqn:T2; [|discriminate].
    injection E as <-. apply same_runs; assumption.
  - destruct (free y) eqn:F; [|discriminate]. destruct (track_of st x) as [[i t]|] eqn:TR; [|discriminate]. destruct o as [[b k]|].
    + eapply dumps_with_runs; eassumption.
    + eapply dumps_runs; eassumption.
  - destruct (free x) eqn:F; [|discriminate]. destruct k as [k|].
    + eapply loads_with_runs; eassumption.
    + eapply loads_runs; eassumption.
  - destruct (free y) eqn:F; [|discriminate]. destruct (track_of st x) as [[i t]|] eqn:TR; [|discriminate]. destruct o as [[[[t1 t2] t3] t4]|].
    + eapply randomize_with_runs; eassumption.
    + eapply randomize_default_runs; eassumption.
  - eapply if_runs; [apply IH|apply IH|exact A|exact E].
  - eapply while_runs; [apply IH|apply IH|exact A|exact E].
  - destruct (free p) eqn:FP; [|discriminate]. destruct (free q) eqn:FQ; [|discriminate]. cbn [andb] in E.
    destruct (track_of st x) as [[i t]|] eqn:TR; [|discriminate]. eapply for_runs; [apply IH|exact FP|exact FQ|exact A|exact TR|exact E].
Qed.
End Client.
