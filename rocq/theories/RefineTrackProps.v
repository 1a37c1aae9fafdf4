(** The proofs of the properties of the source of core/track.py. *)
From Coq Require Import ZArith List Bool String Lia Permutation.
From Verif Require Import Py PyFloat PySort Timsort Signature Tone Note Track Show PyAst PySem PySource PyProgram SpecBase SigFacts SortFacts TimsortFacts SortNatural
  RefineBase RefineSignature RefineTone RefineNote RefineChord RefineTrack RefineAdd RefineEqual RefineSpec RefineProps.
Import ListNotations.
Open Scope string_scope.
Open Scope list_scope.
Open Scope Z_scope.

(** ** Every run *)
Section Deterministic.
Variable Y : python.
Hypothesis N : natural (py_sort Y).
Notation red := (red melodia Y).
Notation runs := (runs melodia Y).

Lemma sort_agree {A} (lt lt' : A -> A -> bool) l : (forall x y, In x l -> In y l -> lt x y = lt' x y) ->
  py_sort Y A lt l = py_sort Y A lt' l.
Proof.
  intros E. pose proof (N A A (fun x => x) lt' lt l E) as P. rewrite !map_id in P. exact P.
Qed.
Lemma set_nth_in {A} (l : list A) i v x : In x (set_nth l i v) -> x = v \/ In x l.
Proof.
  revert i. induction l as [|y l IH]; intros [|i] H; cbn in *; try tauto.
  - destruct H; [left; congruence|tauto].
  - destruct H as [H|H]; [tauto|]. destruct (IH _ H); tauto.
Qed.
Lemma siftdown_agree {A} (lt lt' : A -> A -> bool) (P : A -> Prop) : (forall x y, P x -> P y -> lt x y = lt' x y) ->
  forall fuel l pos v, (forall x, In x l -> P x) -> P v -> siftdown lt fuel l pos v = siftdown lt' fuel l pos v.
Proof.
  intros E. induction fuel as [|k IH]; intros l pos v L V; [reflexivity|]. cbn [siftdown].
  destruct (Nat.eqb pos 0); [reflexivity|]. destruct (nth_error l _) as [p|] eqn:H; [|reflexivity].
  apply nth_error_In in H. rewrite E by auto. destruct (lt' v p); [|reflexivity].
  apply IH; [|exact V]. intros x X. apply set_nth_in in X as [->|X]; auto.
Qed.
Lemma heappush_agree {A} (lt lt' : A -> A -> bool) l v : (forall x y, In x (l ++ [v]) -> In y (l ++ [v]) -> lt x y = lt' x y) ->
  heappush lt l v = heappush lt' l v.
Proof.
  intros E. apply (siftdown_agree lt lt' (fun x => In x (l ++ [v])) E); [auto|]. apply in_or_app. right. left. reflexivity.
Qed.
Lemma answers_agree k h l lt lt' : answers melodia Y k h l lt -> answers melodia Y k h l lt' ->
  forall x y, In x l -> In y l -> lt x y = lt' x y.
Proof.
  intros A B x y X Y'. destruct (A x y X Y') as (u & w & U & W & S). destruct (B x y X Y') as (u' & w' & U' & W' & S').
  assert (u' = u) by congruence. assert (w' = w) by congruence. subst.
  pose proof (steps_last Y _ _ _ S S' eq_refl) as L. inversion L; subst; [congruence|]. discriminate.
Qed.
Lemma red_one s t u : red s t -> red s u -> t = u.
Proof.
  intros A B. destruct A as [s t A|a k h K l lt G A|a v h K l lt G A]; inversion B; subst; try congruence; try discriminate.
  - assert (l0 = l) by congruence. subst. rewrite (sort_agree lt lt0 l); [reflexivity|]. eapply answers_agree; eassumption.
  - assert (l0 = l) by congruence. subst. rewrite (heappush_agree lt lt0 l v); [reflexivity|]. eapply answers_agree; eassumption.
Qed.
Lemma runs_through s t u : runs s t -> runs s u -> (forall w, ~ red u w) -> runs t u.
Proof.
  intros A. revert u. induction A as [s|s s' t R A IH]; intros u B L; [exact B|].
  inversion B; subst; [exfalso; eapply L; eassumption|]. apply IH; [|exact L].
  replace s' with s'0; [assumption|]. eapply red_one; eassumption.
Qed.
Lemma ends_last r h w : ~ red (ends r h []) w.
Proof. destruct r; intros R; inversion R; discriminate. Qed.
End Deterministic.

Lemma c74_runs : forall Y h vars e Q t, natural (py_sort Y) -> brings Y h vars e Q ->
  runs melodia Y (Ev e vars h []) t -> reaches melodia Y t (fun s => exists r h', s = ends r h' [] /\ Q r h').
Proof.
  intros Y h vars e Q t N B R. destruct (B []) as (u & R' & (r & h' & -> & H)).
  exists (ends r h' []). split; [|eauto]. eapply runs_through; try eassumption. apply ends_last.
Qed.
Lemma c74_once : forall Y h vars e Q r h', natural (py_sort Y) -> brings Y h vars e Q ->
  runs melodia Y (Ev e vars h []) (ends r h' []) -> Q r h'.
Proof.
  intros Y h vars e Q r h' N B R. destruct (c74_runs _ _ _ _ _ _ N B R) as (u & R' & (r2 & h2 & -> & H)).
  inversion R'; subst; [|exfalso; eapply ends_last; eassumption].
  destruct r, r2; cbn in *; try discriminate; match goal with E : _ = _ |- _ => injection E; intros; subst; assumption end.
Qed.
Lemma c74_sort : natural cpython_sort /\ sort_contract cpython_sort.
Proof. split; [exact cpython_sort_natural|exact cpython_sort_contract]. Qed.

(** ** Calls written in other ways *)
Lemma reaches_same Y s s' (Q : state -> Prop) : step melodia Y s = step melodia Y s' -> step melodia Y s' <> None -> ~ Q s' ->
  reaches melodia Y s' Q -> reaches melodia Y s Q.
Proof.
  intros E S NQ (t & R & H). inversion R as [|x y z A B]; subst; [contradiction|].
  inversion A; subst; try (cbn in S; congruence).
  exists t. split; [|exact H]. econstructor; [|exact B]. constructor. congruence.
Qed.

Ltac opening := intros; cbv zeta; unfold brings; intros K; unfold meth_key, meth, call, attr, binary, compare, name, elements_of; cbn [List.map].
Ltac until_call tac := repeat (first [tac | values | adv]).
Ltac done_here := apply reaches_here; eexists; eexists; split; [reflexivity|].

Lemma sig_plain h d v : sig_value h d v -> plain_value v = true.
Proof. destruct 1; reflexivity. Qed.
Lemma content_plain h d v : content_value h d v -> plain_value v = true.
Proof. destruct 1; reflexivity. Qed.

Lemma made_new h r K s : made h r K s -> exists v h', s = ends v h' K /\ new_track h r v h'.
Proof.
  unfold made, new_track. destruct r as [t|e].
  - intros (h' & a & b & -> & T & A & B & KP). exists (Ok (VRef a)), h'. split; [reflexivity|]. split; [exact KP|]. exists a, b. auto.
  - intros (h' & -> & KP). exists (Err e), h'. split; [reflexivity|]. split; [exact KP|reflexivity].
Qed.
Lemma c74_new : forall Y h sa s content c, sig_value h sa s -> good_arg sa -> content_value h content c ->
  let vars := [("s", s); ("c", c)] in
  brings Y h vars (call (name "Track") [name "s"; name "c"]) (new_track h (track_new sa content)) /\
  brings Y h vars (call (name "Track") [name "s"]) (new_track h (track_new sa [])) /\
  brings Y h vars (call (name "Track") []) (new_track h (track_new (SA_sig (mkSig 4 4)) [])).
Proof.
  intros Y h sa s content c S G C. pose proof (sig_plain _ _ _ S). pose proof (content_plain _ _ _ C).
  assert (NO : forall r K f a k, ~ made h r K (Ca f a k h K)).
  { intros [t|e] K f a k; [intros (? & ? & ? & E & _)|intros (? & E & _)]; discriminate. }
  repeat split; opening.
  - until_call ltac:(idtac; lazymatch goal with |- reaches _ _ (Ca (VClass "Track") _ _ _ _) _ =>
      eapply reaches_trans; [eapply track_new_runs; eassumption|] end).
    intros x M. apply reaches_here. apply made_new. exact M.
  - until_call ltac:(idtac; lazymatch goal with |- reaches _ _ (Ca (VClass "Track") _ _ _ _) _ =>
      eapply reaches_trans; [eapply (reaches_same Y _ (Ca (VClass "Track") [s; VNone] [] h K)); [reflexivity|discriminate|apply NO|eapply track_new_runs; [exact S|exact G|constructor]]|] end).
    intros x M. apply reaches_here. apply made_new. exact M.
  - until_call ltac:(idtac; lazymatch goal with |- reaches _ _ (Ca (VClass "Track") _ _ _ _) _ =>
      eapply reaches_trans; [eapply (reaches_same Y _ (Ca (VClass "Track") [enc_sig (mkSig 4 4); VNone] [] h K)); [reflexivity|discriminate|apply NO|eapply track_new_runs; [apply sv_sig|cbn; discriminate|constructor]]|] end).
    intros x M. apply reaches_here. apply made_new. exact M.
Qed.

Lemma c74_read : forall Y h a b t, track_at h a b t ->
  let vars := [("t", VRef a)] in
  evaluates Y h vars (attr (name "t") "signature") (a_sig (Ok (t_signature t))) /\
  evaluates Y h vars (attr (name "t") "length") (a_sig (Ok (track_length t))) /\
  evaluates Y h vars (call (name "len") [name "t"]) (an_int (track_len t)) /\
  evaluates Y h vars (call (name "str") [name "t"]) (a_text (Ok (track_str t))).
Proof.
  intros Y h a b t T. pose proof (proj1 T) as G. unfold enc_track in G.
  cbv zeta. repeat split; start.
  - until ltac:(eapply track_signature_runs; exact (proj1 T)).
  - until ltac:(eapply track_length_runs; exact (proj1 T)).
  - until ltac:(eapply track_len_runs; exact T).
  - until ltac:(eapply track_str_runs; exact T).
Qed.

Lemma c74_add : forall Y h a b t x v w w', track_at h a b t -> good_track t -> what_value h [a; b] x v -> where_value h [a; b] w w' ->
  let vars := [("t", VRef a); ("x", v); ("w", w')] in
  let after w r h' := r = no_value (snd (track_add t x w)) /\ changed h a b (fst (track_add t x w)) h' in
  brings Y h vars (meth_key (name "t") "add" (name "x") "where" (name "w")) (after w) /\
  brings Y h vars (meth (name "t") "add" [name "x"; name "w"]) (after w) /\
  brings Y h vars (meth (name "t") "add" [name "x"]) (after None).
Proof.
  intros Y h a b t x v w w' T GT X W. pose proof (proj1 T) as G. unfold enc_track in G.
  pose proof (what_plain _ _ _ _ X). pose proof (where_plain _ _ _ _ W).
  cbv zeta. repeat split; opening.
  - until_call ltac:(idtac; lazymatch goal with |- reaches _ _ (Ca (VFun "Track.add") _ _ _ _) _ =>
      eapply reaches_trans; [eapply track_add_runs; eassumption|] end).
    intros s (h' & -> & C). done_here. split; [reflexivity|exact C].
  - until_call ltac:(idtac; lazymatch goal with |- reaches _ _ (Ca (VFun "Track.add") _ _ _ _) _ =>
      eapply reaches_trans; [to (add_call h a v w' K); eapply add_call_runs; eassumption|] end).
    intros s (h' & -> & C). done_here. split; [reflexivity|exact C].
  - until_call ltac:(idtac; lazymatch goal with |- reaches _ _ (Ca (VFun "Track.add") _ _ _ _) _ =>
      eapply reaches_trans; [eapply track_add_default_runs; eassumption|] end).
    intros s (h' & -> & C). done_here. split; [reflexivity|exact C].
Qed.

Lemma comp_id_runs Y h b l r K : get h b = Some (HList l) -> (forall v, In v l -> plain_value v = true) -> forall rest k acc, skipn k l = rest ->
  steps melodia Y (comp_next CompList (EName "x") (TName "x") r (IRef b k) acc h K)
    (Rt (VRef (next_place h)) (new h (HList (rev acc ++ rest))) K).
Proof.
  intros G P. induction rest as [|v rest IH]; intros k acc E.
  - unfold comp_next, next. rewrite G, (skipn_nil_nth _ _ E). cbn. rewrite app_nil_r. apply steps_refl.
  - destruct (skipn_cons _ _ _ _ E) as [A B]. unfold comp_next, next. rewrite G, A. cbn [bind_target].
    eapply steps_more; [apply (name_known melodia Y "x" (set_var "x" v r) v); [|apply P; eapply nth_error_In; exact A]|].
    { clear. induction r as [|[y w] r IH]; [reflexivity|]. cbn [set_var]. destruct (String.eqb "x" y) eqn:Q; [reflexivity|].
      cbn [assoc]. rewrite Q. exact IH. }
    eapply steps_more; [reflexivity|]. cbn [value_step]. specialize (IH (S k) (v :: acc) B). cbn [rev] in IH. rewrite <- app_assoc in IH. exact IH.
Qed.
Lemma c74_iter : forall Y h a b t, natural (py_sort Y) -> track_at h a b t -> good_track t ->
  brings Y h [("t", VRef a)] (elements_of (name "t")) (fun r h' =>
    new_list h (map enc_entry (snd (track_iter (py_sort Y) t))) r h' /\
    track_at h' a b (fst (track_iter (py_sort Y) t)) /\ keeps [a; b] h h').
Proof.
  intros Y h a b t N T GT. pose proof (proj1 T) as G. unfold enc_track in G. opening.
  until_call ltac:(idtac; lazymatch goal with |- reaches _ _ (Ca (VFun "Track.__iter__") _ _ _ _) _ =>
      eapply reaches_trans; [eapply track_iter_runs; eassumption|] end).
  intros s (h1 & -> & T1 & K1). cbn [ends].
  eapply reaches_more; [reflexivity|]. cbn [value_step].
  eapply reaches_steps; [eapply (comp_id_runs Y h1 b _ _ _ (proj2 T1)); [|reflexivity]|].
  { intros v V. apply in_map_iff in V as (e & <- & _). reflexivity. }
  apply reaches_here. eexists (Ok (VRef _)), _. split; [reflexivity|]. cbn [rev app skipn]. rewrite iter_list.
  split; [eexists; split; [reflexivity|]; split; [apply get_new|]|].
  - destruct (get h (next_place h1)) as [o|] eqn:O; [|reflexivity]. exfalso.
    destruct (Nat.eq_dec (next_place h1) a) as [Ea|Na]; [exact (old_new _ _ _ (proj1 T1) (eq_sym Ea))|].
    destruct (Nat.eq_dec (next_place h1) b) as [Eb|Nb]; [exact (old_new _ _ _ (proj2 T1) (eq_sym Eb))|].
    refine (old_new h1 _ o _ eq_refl). apply (keeps_get _ _ _ _ _ K1); [intros [X|[X|[]]]; congruence|exact O].
  - split; [destruct T1; split; heap_get|]. keep.
Qed.

Lemma c74_eq : forall Y h a b t c d u, natural (py_sort Y) -> sort_contract (py_sort Y) ->
  track_at h a b t -> track_at h c d u -> good_track t -> good_track u -> a <> c -> b <> d ->
  let vars := [("t", VRef a); ("u", VRef c)] in
  let '(r, t', u') := track_eq (py_sort Y) t u in
  let after r v h' := v = Ok (VBool r) /\ track_at h' a b t' /\ track_at h' c d u' /\ keeps [a; b; c; d] h h' in
  brings Y h vars (compare CEq (name "t") (name "u")) (after r) /\
  brings Y h vars (compare CNe (name "t") (name "u")) (after (negb r)).
Proof.
  intros Y h a b t c d u N C T U GT GU AC BD. pose proof (proj1 T) as G. unfold enc_track in G.
  cbv zeta. destruct (track_eq (py_sort Y) t u) as [[r t'] u'] eqn:E. split; opening.
  - until_call ltac:(idtac; lazymatch goal with |- reaches _ _ (Ca (VFun "Track.__eq__") _ _ _ _) _ =>
      eapply reaches_trans; [eapply (track_eq_runs Y h a b t c d u); eassumption|] end).
    intros s (h' & -> & P). done_here. split; [reflexivity|exact P].
  - until_call ltac:(idtac; lazymatch goal with |- reaches _ _ (Ca (VFun "Track.__eq__") _ _ _ _) _ =>
      eapply reaches_trans; [eapply (track_eq_runs Y h a b t c d u); eassumption|] end).
    intros s (h' & -> & P). cbn [ends]. eapply reaches_more; [reflexivity|]. apply reaches_here. eexists (Ok (VBool (negb r))), _. split; [reflexivity|]. split; [reflexivity|exact P].
Qed.
Lemma c74_eq_self : forall Y h a b t, natural (py_sort Y) -> sort_contract (py_sort Y) -> track_at h a b t -> good_track t ->
  let '(r, t', _) := track_eq (py_sort Y) t t in
  brings Y h [("t", VRef a)] (compare CEq (name "t") (name "t")) (fun v h' => v = Ok (VBool r) /\ track_at h' a b t' /\ keeps [a; b] h h').
Proof.
  intros Y h a b t N C T GT. pose proof (proj1 T) as G. unfold enc_track in G.
  destruct (track_eq (py_sort Y) t t) as [[r t'] u'] eqn:E. opening.
  until_call ltac:(idtac; lazymatch goal with |- reaches _ _ (Ca (VFun "Track.__eq__") _ _ _ _) _ =>
      eapply reaches_trans; [eapply (track_eq_self_runs Y h a b t); eassumption|] end).
  intros s (h' & -> & P). done_here. split; [reflexivity|exact P].
Qed.
Lemma c74_repr : forall Y h a b t, natural (py_sort Y) -> track_at h a b t -> good_track t ->
  brings Y h [("t", VRef a)] (call (name "repr") [name "t"]) (fun v h' =>
    v = Ok (VStr (snd (track_repr (py_digits Y) (py_sort Y) t))) /\
    track_at h' a b (fst (track_repr (py_digits Y) (py_sort Y) t)) /\ keeps [a; b] h h').
Proof.
  intros Y h a b t N T GT. pose proof (proj1 T) as G. unfold enc_track in G. opening.
  until_call ltac:(idtac; lazymatch goal with |- reaches _ _ (Ca (VFun "Track.__repr__") _ _ _ _) _ =>
      eapply reaches_trans; [eapply (track_repr_runs Y h a b t); eassumption|] end).
  intros s (h' & -> & P). done_here. split; [reflexivity|exact P].
Qed.
