(** Programs that use the library, run as Python source. *)
From Coq Require Import ZArith QArith List Bool String Lia Permutation.
From Verif Require Import Py PyFloat PySort Signature Tone Note Track Show MidiWriter MidiReader Processing PyAst PySem PySource PyProgram SpecBase DecFacts SigFacts SortFacts FloatFacts NoteProps
  TrackSpec TrackFacts TrackProps
  RefineBase RefineNote RefineTrack RefineSpec RefineTrackProps RefineDeep RefineTests RefineTerm Client RefineStore RefineClient.
Import ListNotations.
Open Scope string_scope.
Open Scope list_scope.
Open Scope Z_scope.

(** ** Any program *)
(** The Python that runs the program: its digits, its sort, and random.gauss gives floats. *)
Definition usual (Y : python) : Prop :=
  digit_table (py_nd Y) /\ natural (py_sort Y) /\ sort_contract (py_sort Y) /\ forall i m s, is_float (py_gauss Y i m s) = true.

Lemma c81_programs : forall Y dp n c st P r h rest K res, usual Y -> agrees st P r h -> exec Y n c st = Some res ->
  reaches melodia Y (Ex (compile c ++ rest) r h K) (done Y dp st P h res rest K).
Proof. intros Y dp n c st P r h rest K res (D & N & C & F) A E. eapply exec_runs; eassumption. Qed.

(** The body of a function that ends with [return x]. *)
Definition body (c : cmd) (x : string) : list stmt := compile c ++ [SReturn (EName x)].
Lemma start h : agrees (mkStore [] [] (h_calls h)) [] [] h.
Proof.
  split; try reflexivity; try constructor.
  - reflexivity.
  - intros [|i] t a b; discriminate.
  - intros [|i] [|j] a b c d _; discriminate.
Qed.
Lemma return_item Y st P r h x v K : agrees st P r h -> assoc x (s_vars st) = Some v ->
  runs melodia Y (Ex [SReturn (EName x)] r h (KFun :: K)) (Rt (enc_item P v) h K).
Proof.
  intros A V. apply steps_runs. eapply steps_more; [reflexivity|]. eapply steps_more; [eapply var_step; eassumption|]. eapply steps_more; [reflexivity|].
  eapply steps_more; [reflexivity|]. constructor.
Qed.
(** What the caller gets from such a function. *)
Lemma c81_functions : forall Y n c x st0 P r h st T v K, usual Y -> agrees st0 P r h -> exec Y n c st0 = Some (Next st T) -> assoc x (s_vars st) = Some v ->
  reaches melodia Y (Ex (body c x) r h (KFun :: K)) (fun u => exists P' r' h', u = Rt (enc_item P' v) h' K /\
    agrees st P' r' h' /\ grows P h T P' h' /\ settles (py_sort Y) T (s_tracks st0) (s_tracks st)).
Proof.
  intros Y n c x st0 P r h st T v K U A E V. eapply reaches_trans; [exact (c81_programs Y 0 n c _ P r h [SReturn (EName x)] (KFun :: K) _ U A E)|].
  intros u (P' & r' & h' & -> & A' & G & SE). exists (Rt (enc_item P' v) h' K). split; [eapply return_item; eassumption|]. exists P', r', h'. auto.
Qed.
(** Every run of a function without arguments gets to the result. *)
Lemma c81_result : forall Y n c x h st T o s, usual Y -> exec Y n c (mkStore [] [] (h_calls h)) = Some (Next st T) ->
  assoc x (s_vars st) = Some (Val o) -> runs melodia Y (Ex (body c x) [] h [KFun]) s ->
  reaches melodia Y s (fun u => exists h', u = Rt (enc_obj o) h' [] /\ h_calls h' = s_draws st /\ forall p w, get h p = Some w -> get h' p = Some w).
Proof.
  intros Y n c x h st T o s U E V R. destruct (c81_functions Y n c x _ [] [] h st T _ [] U (start h) E V) as (u & R1 & P' & r' & h' & -> & A & G & _).
  exists (Rt (enc_obj o) h' []). split.
  - eapply runs_through; [exact (proj1 (proj2 U))|exact R|exact R1|]. intros w. apply (ends_last Y (Ok (enc_obj o))).
  - exists h'. split; [reflexivity|]. split; [exact (a_draws _ _ _ _ A)|]. intros p w. apply (g_kept _ _ _ _ _ G). intros [].
Qed.
Lemma c81_exception : forall Y n c x h e ts s, usual Y -> exec Y n c (mkStore [] [] (h_calls h)) = Some (Stop e ts) -> e <> RecursionError ->
  runs melodia Y (Ex (body c x) [] h [KFun]) s ->
  reaches melodia Y s (fun u => exists h', u = Thr e h' /\ forall p w, get h p = Some w -> get h' p = Some w).
Proof.
  intros Y n c x h e ts s U E NE R. destruct (c81_programs Y 0 n c _ [] [] h [SReturn (EName x)] [KFun] _ U (start h) E) as (u & R1 & [(P' & T & h' & -> & H & G & _)|[X _]]); [|contradiction].
  exists (Thr e h'). split.
  - eapply runs_through; [exact (proj1 (proj2 U))|exact R|exact R1|]. intros w. apply (ends_last Y (Err e)).
  - exists h'. split; [reflexivity|]. intros p w. apply (g_kept _ _ _ _ _ G). intros [].
Qed.
(** RecursionError: the calls get as deep as one wants. *)
Lemma c81_recursion : forall Y n c x h ts d, usual Y -> exec Y n c (mkStore [] [] (h_calls h)) = Some (Stop RecursionError ts) ->
  reaches melodia Y (Ex (body c x) [] h [KFun]) (fun u => deep d u \/ exists h', u = Thr RecursionError h').
Proof.
  intros Y n c x h ts d U E. eapply reaches_trans; [exact (c81_programs Y d n c _ [] [] h [SReturn (EName x)] [KFun] _ U (start h) E)|].
  intros u [(P' & T & h' & -> & _)|[_ D]]; apply reaches_here; eauto.
Qed.

(** ** Making a track from the notes of another one *)
(** y = Track(x.signature); for p, q in x: y.add(m, where=p) *)
Definition derive (m : term) : cmd :=
  Seq (Get "s" R_signature "x") (Seq (New "y" (Some (Var "s"))) (Each "p" "q" "x" (Add "y" m (Some (Var "p"))))).
(** The expression [m] gives the note [f q]. *)
Definition gives (Y : python) (m : term) (f : note -> note) : Prop :=
  forall s p n, valid_note n -> mean Y [("s", OSig s); ("p", OSig p); ("q", ONote n)] m = Some (Ok (ONote (f n))) /\ valid_note (f n).
Definition tail_ok (l : list (string * item)) : Prop := l = [] \/ exists p n, l = [("p", Val (OSig p)); ("q", Val (ONote n))].
Lemma derive_loop Y n m f s t0 d : gives Y m f -> forall l u ul tail, Inv u ul -> Forall (fun e => valid_sig (fst e) /\ valid_note (snd e)) l -> tail_ok tail ->
  exists tail' T, tail_ok tail' /\ ~ In 0%nat T /\
    each (exec Y (S n) (Add "y" m (Some (Var "p")))) "p" "q" 0 l (mkStore ([("x", Trk 0); ("s", Val (OSig s)); ("y", Trk 1)] ++ tail) [t0; u] d) =
    Some (Next (mkStore ([("x", Trk 0); ("s", Val (OSig s)); ("y", Trk 1)] ++ tail') [t0; run (py_sort Y) u (adds (map (fun e => (f (snd e), fst e)) l))] d) T).
Proof.
  intros G. induction l as [|[p k] l IH]; intros u ul tail I FA TO.
  - exists tail, []. split; [exact TO|]. split; [intros []|reflexivity].
  - inversion FA as [|? ? [VP VN] FA']; subst. cbn [fst snd] in VP, VN. destruct (G s p k VN) as [M V].
    assert (O : op_ok (OAdd (WNote (f k)) (Some (SA_sig p)))).
    { split; [constructor; [exact V|constructor]|]. intros s0 E. injection E as <-. exact VP. }
    destruct (track_add_inv u ul (WNote (f k)) (Some (SA_sig p)) I O) as (I' & _ & OK & _).
    specialize (OK (or_intror (ex_intro _ (SA_sig p) (ex_intro _ p (conj eq_refl eq_refl))))).
    assert (TO' : tail_ok [("p", Val (OSig p)); ("q", Val (ONote k))]) by (right; eauto).
    destruct (IH (fst (track_add u (WNote (f k)) (Some (SA_sig p)))) _ _ I' FA' TO') as (tail' & T & TO2 & N0 & E).
    exists tail', (1%nat :: T). split; [exact TO2|]. split; [intros [X|X]; [discriminate|exact (N0 X)]|].
    cbn [each fst snd].
    assert (X : exec Y (S n) (Add "y" m (Some (Var "p"))) (assign "q" (Val (ONote k)) (assign "p" (Val (OSig p)) (mkStore ([("x", Trk 0); ("s", Val (OSig s)); ("y", Trk 1)] ++ tail) [t0; u] d))) =
      Some (Next (mkStore ([("x", Trk 0); ("s", Val (OSig s)); ("y", Trk 1)] ++ [("p", Val (OSig p)); ("q", Val (ONote k))]) [t0; fst (track_add u (WNote (f k)) (Some (SA_sig p)))] d) [1%nat])).
    { destruct TO as [->|(p0 & n0 & ->)]; cbn [exec track_of]; unfold given;
        cbn [values s_vars s_tracks app assign set_var String.eqb Ascii.eqb Bool.eqb assoc track_of nth_error]; rewrite M; cbn [what_of mean assoc String.eqb Ascii.eqb Bool.eqb sig_arg_of]; unfold added; rewrite OK; reflexivity. }
    rewrite X. cbn [existsb Nat.eqb orb follow]. rewrite E. reflexivity.
Qed.
Lemma derive_exec Y m f s ops d : sort_contract (py_sort Y) -> gives Y m f -> valid_sig s -> Forall op_ok ops ->
  let t := run (py_sort Y) (track_empty s) ops in
  let u := run (py_sort Y) (track_empty s) (adds (map (fun e => (f (snd e), fst e)) (TrackSpec.yields (py_sort Y) t))) in
  exists vars T, assoc "y" vars = Some (Trk 1) /\ assoc "x" vars = Some (Trk 0) /\ ~ In 0%nat T /\
    exec Y 5 (derive m) (mkStore [("x", Trk 0)] [t] d) = Some (Next (mkStore vars [fst (track_iter (py_sort Y) t); u] d) T).
Proof.
  intros C G V O t u. destruct (run_inv (py_sort Y) C s ops O) as [I S]. fold t in I, S.
  assert (FA : Forall (fun e => valid_sig (fst e) /\ valid_note (snd e)) (TrackSpec.yields (py_sort Y) t)).
  { eapply Forall_impl; [|exact (yields_ok (py_sort Y) C t _ I)]. intros e (A & _ & B). auto. }
  destruct (derive_loop Y 1 m f s (fst (track_iter (py_sort Y) t)) d G (TrackSpec.yields (py_sort Y) t) (track_empty s) [] [] (inv_empty s) FA (or_introl eq_refl)) as (tail & T & TO & N0 & E).
  exists ([("x", Trk 0); ("s", Val (OSig s)); ("y", Trk 1)] ++ tail), T. split; [reflexivity|]. split; [reflexivity|]. split; [exact N0|].
  assert (E1 : exec Y 4 (Get "s" R_signature "x") (mkStore [("x", Trk 0)] [t] d) = Some (Next (mkStore [("x", Trk 0); ("s", Val (OSig s))] [t] d) [])).
  { rewrite <- S at 1. reflexivity. }
  assert (E2 : exec Y 3 (New "y" (Some (Var "s"))) (mkStore [("x", Trk 0); ("s", Val (OSig s))] [t] d) = Some (Next (mkStore [("x", Trk 0); ("s", Val (OSig s)); ("y", Trk 1)] [t; track_empty s] d) [])) by reflexivity.
  assert (E3 : exec Y 3 (Each "p" "q" "x" (Add "y" m (Some (Var "p")))) (mkStore [("x", Trk 0); ("s", Val (OSig s)); ("y", Trk 1)] [t; track_empty s] d) =
    Some (Next (mkStore ([("x", Trk 0); ("s", Val (OSig s)); ("y", Trk 1)] ++ tail) [fst (track_iter (py_sort Y) t); u] d) T)).
  { exact E. }
  unfold derive. change (follow (exec Y 4 (Get "s" R_signature "x") (mkStore [("x", Trk 0)] [t] d)) (fun st => follow (exec Y 3 (New "y" (Some (Var "s"))) st) (exec Y 3 (Each "p" "q" "x" (Add "y" m (Some (Var "p")))))) = 
    Some (Next (mkStore ([("x", Trk 0); ("s", Val (OSig s)); ("y", Trk 1)] ++ tail) [fst (track_iter (py_sort Y) t); u] d) T)).
  rewrite E1. cbn [follow]. rewrite E2. cbn [follow]. rewrite E3. reflexivity.
Qed.
Lemma one_track h a b t : track_at h a b t -> sound t -> agrees (mkStore [("x", Trk 0)] [t] (h_calls h)) [(a, b)] [("x", VRef a)] h.
Proof.
  intros A S. split; try reflexivity.
  - repeat constructor. intros [].
  - repeat constructor.
  - repeat constructor.
  - split; [reflexivity| |].
    + intros [|[|i]] u c d E F; try discriminate. injection E as <-. injection F as <- <-. auto.
    + intros [|[|i]] [|[|j]] c d e f N E F; try discriminate. congruence.
Qed.
Lemma derive_values Y f s ops : sort_contract (py_sort Y) -> (forall n, valid_note n -> valid_note (f n)) -> Forall op_ok ops ->
  let t := run (py_sort Y) (track_empty s) ops in
  let u := run (py_sort Y) (track_empty s) (adds (map (fun e => (f (snd e), fst e)) (TrackSpec.yields (py_sort Y) t))) in
  Forall op_ok (adds (map (fun e => (f (snd e), fst e)) (TrackSpec.yields (py_sort Y) t))) /\
  log (py_sort Y) (track_empty s) (adds (map (fun e => (f (snd e), fst e)) (TrackSpec.yields (py_sort Y) t))) = map (fun e => (fst e, f (snd e))) (TrackSpec.yields (py_sort Y) t) /\
  Permutation (map value_of (TrackSpec.yields (py_sort Y) u)) (map (fun e => value_of (fst e, f (snd e))) (log (py_sort Y) (track_empty s) ops)).
Proof.
  intros C G O t u. destruct (run_inv (py_sort Y) C s ops O) as [I S]. fold t in I, S.
  assert (O2 : Forall op_ok (adds (map (fun e => (f (snd e), fst e)) (TrackSpec.yields (py_sort Y) t)))).
  { apply adds_ok. rewrite Forall_map. eapply Forall_impl; [|exact (yields_ok (py_sort Y) C t _ I)]. intros e (A & _ & B). split; cbn; auto. }
  assert (L : log (py_sort Y) (track_empty s) (adds (map (fun e => (f (snd e), fst e)) (TrackSpec.yields (py_sort Y) t))) = map (fun e => (fst e, f (snd e))) (TrackSpec.yields (py_sort Y) t)).
  { rewrite adds_log, map_map. reflexivity. }
  split; [exact O2|]. split; [exact L|].
  destruct (run_inv (py_sort Y) C s _ O2) as [I2 S2]. fold u in I2, S2. rewrite L in I2.
  eapply perm_trans; [exact (inv_values _ _ _ C I2)|]. rewrite map_map.
  eapply perm_trans; [apply Permutation_map; exact (yields_perm _ C _ _ I)|]. rewrite map_map.
  rewrite <- (map_rescale (fun e => value_of (fst e, f (snd e))) (fun q n => (q, pitch (n_tone (f n)), Qred (sval (n_duration (f n))), Qred (fval (n_velocity (f n)))))
    (log (py_sort Y) (track_empty s) ops)); [|reflexivity|exact (inv_entries _ _ I)]. rewrite map_map. apply Permutation_refl.
Qed.
(** The function that makes a track of the changed notes returns a new track with these notes at the same positions. *)
Lemma c81_derive : forall Y m f h a b s ops K, usual Y -> gives Y m f -> valid_sig s -> Forall op_ok ops ->
  let t := run (py_sort Y) (track_empty s) ops in
  track_at h a b t ->
  reaches melodia Y (Ex (body (derive m) "y") [("x", VRef a)] h (KFun :: K)) (fun w => exists c d u h',
    w = Rt (VRef c) h' K /\ get h c = None /\ get h d = None /\ track_at h' c d u /\
    t_signature u = s /\ track_len u = track_len t /\
    Permutation (map value_of (TrackSpec.yields (py_sort Y) u)) (map (fun e => value_of (fst e, f (snd e))) (log (py_sort Y) (track_empty s) ops)) /\
    track_at h' a b (fst (track_iter (py_sort Y) t)) /\
    h_calls h' = h_calls h /\ forall p o, p <> a -> p <> b -> get h p = Some o -> get h' p = Some o).
Proof.
  intros Y m f h a b s ops K U G V O t A. pose proof U as (_ & _ & C & _).
  destruct (run_inv (py_sort Y) C s ops O) as [I S]. fold t in I, S.
  assert (SO : sound t) by (split; [eauto|rewrite S; exact V]).
  destruct (derive_exec Y m f s ops (h_calls h) C G V O) as (vars & T & VY & VX & N0 & E). fold t in E.
  destruct (derive_values Y f s ops C (fun n H => proj2 (G s s n H)) O) as (O2 & L2 & PV). fold t in O2, L2, PV.
  set (u := run (py_sort Y) (track_empty s) (adds (map (fun e => (f (snd e), fst e)) (TrackSpec.yields (py_sort Y) t)))) in *.
  destruct (run_inv (py_sort Y) C s _ O2) as [I2 S2]. fold u in I2, S2.
  eapply reaches_trans; [exact (c81_functions Y 5 (derive m) "y" _ _ _ h _ T (Trk 1) K U (one_track h a b t A SO) E VY)|].
  intros w (P' & r' & h' & -> & A' & GR & SE). apply reaches_here.
  pose proof (a_holds _ _ _ _ A') as H. cbn [s_tracks] in H.
  destruct (holds_track _ _ _ 1%nat u H eq_refl) as (c & d & P1 & T1 & _).
  destruct (holds_track _ _ _ 0%nat _ H eq_refl) as (a' & b' & P0 & T0 & _).
  destruct (g_same _ _ _ _ _ GR 0%nat a b eq_refl) as (b2 & P2 & [->|X]); [|contradiction].
  assert (E0 : a' = a /\ b' = b) by (split; congruence). destruct E0 as [-> ->].
  destruct (others _ _ _ 0%nat 1%nat _ _ _ _ H ltac:(discriminate) P0 P1) as [NC ND].
  assert (F : forall p, ~ In p [a; b] -> In p (places P') -> get h p = None).
  { intros p NP IP. destruct (g_new _ _ _ _ _ GR p IP) as [X|X]; [contradiction|exact X]. }
  exists c, d, u, h'.
  split; [cbn [enc_item]; rewrite (nth_error_nth _ _ (0, 0)%nat P1); reflexivity|].
  split; [apply F; [exact NC|apply in_places; eauto 8]|]. split; [apply F; [exact ND|apply in_places; eauto 8]|].
  split; [exact T1|]. split; [exact S2|].
  split. { rewrite (inv_track_len _ _ I2), (inv_track_len _ _ I), L2, map_length, (Permutation_length (yields_perm _ C _ _ I)), map_length. reflexivity. }
  split; [exact PV|]. split; [exact T0|]. split; [exact (a_draws _ _ _ _ A')|].
  intros p o NA NB. apply (g_kept _ _ _ _ _ GR). cbn. intros [X|[X|[]]]; congruence.
Qed.
(** Copying and transposing. *)
Definition raise_by (k : Z) (n : note) : note := mkNote (mkTone (pitch (n_tone n) + k)) (n_duration n) (n_velocity n).
Lemma copy_gives Y : gives Y (Var "q") (fun n => n).
Proof. intros s p n V. split; [reflexivity|exact V]. Qed.
Lemma transposed_gives Y k : gives Y (App2 O_transposed (Var "q") (Lit (OInt k))) (raise_by k).
Proof.
  intros s p n [VD VV]. split; [|split; [exact VD|exact VV]]. cbn. unfold note_transposed. rewrite note_init_ok by exact VV. reflexivity.
Qed.
Lemma c81_transpose : forall Y k h a b s ops K, usual Y -> valid_sig s -> Forall op_ok ops ->
  let t := run (py_sort Y) (track_empty s) ops in
  track_at h a b t ->
  reaches melodia Y (Ex (body (derive (App2 O_transposed (Var "q") (Lit (OInt k)))) "y") [("x", VRef a)] h (KFun :: K)) (fun w => exists c d u h',
    w = Rt (VRef c) h' K /\ get h c = None /\ get h d = None /\ track_at h' c d u /\
    t_signature u = s /\ track_len u = track_len t /\
    Permutation (map value_of (TrackSpec.yields (py_sort Y) u))
      (map (fun e => value_of (fst e, mkNote (mkTone (pitch (n_tone (snd e)) + k)) (n_duration (snd e)) (n_velocity (snd e)))) (log (py_sort Y) (track_empty s) ops)) /\
    track_at h' a b (fst (track_iter (py_sort Y) t)) /\
    h_calls h' = h_calls h /\ forall p o, p <> a -> p <> b -> get h p = Some o -> get h' p = Some o).
Proof. intros Y k h a b s ops K U V O t A. exact (c81_derive Y _ (raise_by k) h a b s ops K U (transposed_gives Y k) V O A). Qed.
(** y = Track(x.signature); for p, q in x: y.add(q, where=p); b = y == x *)
Lemma assoc_set {A} x (v : A) l : assoc x (set_var x v l) = Some v.
Proof.
  induction l as [|[y w] l IH]; cbn; [rewrite String.eqb_refl; reflexivity|]. destruct (String.eqb x y) eqn:E; cbn; [rewrite String.eqb_refl; reflexivity|rewrite E; exact IH].
Qed.
Definition copied : cmd := Seq (derive (Var "q")) (Same "b" true "y" "x").
Lemma c81_copy : forall Y h a b s ops K, usual Y -> valid_sig s -> Forall op_ok ops ->
  track_at h a b (run (py_sort Y) (track_empty s) ops) -> consistent (log (py_sort Y) (track_empty s) ops) ->
  reaches melodia Y (Ex (body copied "b") [("x", VRef a)] h (KFun :: K)) (fun w => exists h',
    w = Rt (VBool true) h' K /\ keeps [a; b] h h').
Proof.
  intros Y h a b s ops K U V O A CO. pose proof U as (_ & _ & C & _). set (t := run (py_sort Y) (track_empty s) ops) in *.
  destruct (run_inv (py_sort Y) C s ops O) as [I S]. fold t in I, S.
  assert (SO : sound t) by (split; [eauto|rewrite S; exact V]).
  destruct (derive_exec Y _ _ s ops (h_calls h) C (copy_gives Y) V O) as (vars & T & VY & VX & N0 & E). fold t in E.
  destruct (derive_values Y (fun n => n) s ops C (fun n H => H) O) as (O2 & L2 & PV). fold t in O2, L2, PV.
  set (u := run (py_sort Y) (track_empty s) (adds (map (fun e => (snd e, fst e)) (TrackSpec.yields (py_sort Y) t)))) in *.
  destruct (run_inv (py_sort Y) C s _ O2) as [I2 S2]. fold u in I2, S2.
  set (t' := fst (track_iter (py_sort Y) t)) in *.
  assert (EQ : eq_result (py_sort Y) u t = true).
  { destruct (c25_partial (py_sort Y) C s s _ ops V V O2 O) as (_ & _ & _ & _ & X). fold t u in X. apply X.
    - reflexivity.
    - rewrite L2. eapply perm_trans; [|exact (inv_values _ _ _ C I)]. rewrite map_map. apply Permutation_refl.
    - rewrite L2. rewrite (map_ext _ (fun e => e)) by (intros []; reflexivity). rewrite map_id.
      eapply consistent_in; [|exact (consistent_rescale _ (inv_entries _ _ I) CO)]. intros e. apply Permutation_in. exact (yields_perm _ C _ _ I).
    - exact CO. }
  assert (EQ' : exists u2 t2, track_eq (py_sort Y) u t' = (true, u2, t2)).
  { assert (X : eq_result (py_sort Y) u t' = true).
    { rewrite <- EQ. unfold eq_result, track_eq, t'. rewrite iter_signature, iter_twice. destruct (negb _); reflexivity. }
    unfold eq_result in X. destruct (track_eq (py_sort Y) u t') as [[r u2] t2]. cbn in X. subst r. eauto. }
  destruct EQ' as (u2 & t2 & EQ').
  assert (E2 : exec Y 6 copied (mkStore [("x", Trk 0)] [t] (h_calls h)) =
    Some (Next (assign "b" (Val (OBool true)) (mkStore vars [t2; u2] (h_calls h))) (T ++ []))).
  { unfold copied. cbn [exec] in E |- *. change (follow (exec Y 5 (derive (Var "q")) (mkStore [("x", Trk 0)] [t] (h_calls h))) (exec Y 5 (Same "b" true "y" "x")) =
      Some (Next (assign "b" (Val (OBool true)) (mkStore vars [t2; u2] (h_calls h))) (T ++ []))).
    change (exec Y 5 (derive (Var "q")) (mkStore [("x", Trk 0)] [t] (h_calls h)) = Some (Next (mkStore vars [t'; u] (h_calls h)) T)) in E.
    rewrite E. cbn [follow exec]. change (free "b") with true. cbn iota. unfold track_of. cbn [s_vars s_tracks]. rewrite VY, VX. cbn [nth_error].
    unfold same. rewrite EQ'. reflexivity. }
  eapply reaches_trans; [eapply (c81_functions Y 6 copied "b" _ _ _ h _ _ (Val (OBool true)) K U (one_track h a b t A SO) E2)|].
  { apply assoc_set. }
  intros w (P' & r' & h' & -> & A' & GR & SE). apply reaches_here. exists h'. split; [reflexivity|]. split; [|exact (a_draws _ _ _ _ A')].
  intros p o NP. apply (g_kept _ _ _ _ _ GR). exact NP.
Qed.

(** ** The meaning of a program does not depend on the bound *)
Lemma follow_more r r' k k' res : follow r k = Some res -> (forall x, r = Some x -> r' = Some x) -> (forall st x, k st = Some x -> k' st = Some x) -> follow r' k' = Some res.
Proof.
  intros E A B. destruct r as [[st T|e ts]|]; cbn in E; [| |discriminate].
  - rewrite (A _ eq_refl). cbn. destruct (k st) as [x|] eqn:X; [|discriminate]. rewrite (B _ _ X). exact E.
  - rewrite (A _ eq_refl). exact E.
Qed.
Lemma given_more Y st t k k' res : given Y st t k = Some res -> (forall o x, k o = Some x -> k' o = Some x) -> given Y st t k' = Some res.
Proof. unfold given. destruct (mean _ _ _) as [[o|e]|]; auto. Qed.
Lemma each_more run run' p q i : (forall st x, run st = Some x -> run' st = Some x) -> forall l st res, each run p q i l st = Some res -> each run' p q i l st = Some res.
Proof.
  intros A. induction l as [|e l IH]; intros st res; cbn [each]; [auto|]. destruct (run _) as [[st' T|e' ts]|] eqn:X; [| |discriminate]; rewrite (A _ _ X); [|auto].
  destruct (existsb _ _); [discriminate|]. intros E. refine (follow_more _ _ _ _ _ E _ _); [auto|]. intros. apply IH. assumption.
Qed.
Lemma exec_more Y n : forall c st res, exec Y n c st = Some res -> exec Y (S n) c st = Some res.
Proof.
  induction n as [|n IH]; intros c st res E; [discriminate|]. destruct c; cbn [exec] in E |- *; try exact E.
  - refine (follow_more _ _ _ _ _ E _ _); intros; apply IH; assumption.
  - refine (given_more _ _ _ _ _ _ E _). intros [] x; try discriminate. apply IH.
  - refine (given_more _ _ _ _ _ _ E _). intros [] x; try discriminate. destruct b; [|auto]. intros F.
    refine (follow_more _ _ _ _ _ F _ _); [intros y H; exact (IH _ _ _ H)|intros s y H; exact (IH _ _ _ H)].
  - destruct (free p && free q); [|discriminate]. destruct (track_of st x) as [[i t]|]; [|discriminate].
    refine (each_more _ _ _ _ _ _ _ _ _ E). apply IH.
Qed.
Lemma c81_bound : forall Y n m c st res res', exec Y n c st = Some res -> exec Y m c st = Some res' -> res = res'.
Proof.
  intros Y.
  assert (M : forall d n c st res, exec Y n c st = Some res -> exec Y (d + n) c st = Some res).
  { induction d; intros; [assumption|]. cbn. apply exec_more. auto. }
  intros n m c st res res' A B. apply (M m) in A. apply (M n) in B. rewrite Nat.add_comm in B. congruence.
Qed.
