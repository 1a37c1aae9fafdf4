(** Programs that add the notes of one track to another. *)
From Coq Require Import ZArith QArith Qreduction List Bool String Lia Permutation.
From Verif Require Import Py PyFloat PySort Signature Tone Note Track Show MidiWriter MidiReader Processing PyAst PySem PySource PyProgram SpecBase DecFacts SigFacts SigProps SortFacts FloatFacts NoteProps
  TrackSpec MidiSpec DumpSpec TripSpec TrackFacts TrackProps ObjectProps
  RefineBase RefineNote RefineTrack RefineSpec RefineTrackProps RefineDeep RefineTests RefineTerm Client RefineStore RefineClient RefineClientProps.
Import ListNotations.
Open Scope string_scope.
Open Scope list_scope.
Open Scope Z_scope.

(** o = y.length; for p, q in x: y.add(q, where=w) *)
Definition onto (w : term) : cmd := Seq (Get "o" R_length "y") (Each "p" "q" "x" (Add "y" (Var "q") (Some w))).
(** The expression [w] gives a position that is later by [k o] than [p]. *)
Definition later_by (Y : python) (w : term) (g : sig -> sig -> sig) (k : sig -> Q) : Prop :=
  forall o p n, valid_sig o -> valid_sig p -> mean Y [("o", OSig o); ("p", OSig p); ("q", ONote n)] w = Some (Ok (OSig (g o p))) /\ valid_sig (g o p) /\
    (sval (g o p) == sval p + k o)%Q.
Definition beside (Y : python) : later_by Y (Var "p") (fun _ p => p) (fun _ => 0%Q).
Proof. intros o p n VO VP. split; [reflexivity|]. split; [exact VP|ring]. Qed.
Definition sum_of (o p : sig) : sig := match sig_add p o with Ok s => s | Err _ => p end.
Lemma after (Y : python) : later_by Y (App2 O_add (Var "p") (Var "o")) sum_of sval.
Proof.
  intros o p n VO VP. destruct (sig_add_spec p o VP VO) as (s & E & V & _). destruct (c04_add p o VP VO) as (s' & E' & H & _). rewrite E in E'. injection E' as <-.
  unfold sum_of. cbn. rewrite E. split; [reflexivity|]. split; [exact V|exact H].
Qed.
(** A note moved by [k]. *)
Definition shifted (k : Q) (v : Q * Z * Q * Q) : Q * Z * Q * Q := let '(p, t, d, w) := v in (Qred (p + k), t, d, w).

Lemma onto_loop Y n w g k o t0 d : later_by Y w g k -> valid_sig o -> forall l u ul tail, Inv u ul -> Forall (fun e => valid_sig (fst e) /\ valid_note (snd e)) l -> tail_ok tail ->
  exists tail' T, tail_ok tail' /\ ~ In 0%nat T /\
    each (exec Y (S n) (Add "y" (Var "q") (Some w))) "p" "q" 0 l (mkStore ([("x", Trk 0); ("y", Trk 1); ("o", Val (OSig o))] ++ tail) [t0; u] d) =
    Some (Next (mkStore ([("x", Trk 0); ("y", Trk 1); ("o", Val (OSig o))] ++ tail') [t0; run (py_sort Y) u (adds (map (fun e => (snd e, g o (fst e))) l))] d) T).
Proof.
  intros G VO. induction l as [|[p m] l IH]; intros u ul tail I FA TO.
  - exists tail, []. split; [exact TO|]. split; [intros []|reflexivity].
  - inversion FA as [|? ? [VP VN] FA']; subst. cbn [fst snd] in VP, VN. destruct (G o p m VO VP) as (M & V & _).
    assert (O : op_ok (OAdd (WNote m) (Some (SA_sig (g o p))))).
    { split; [constructor; [exact VN|constructor]|]. intros s0 E. injection E as <-. exact V. }
    destruct (track_add_inv u ul (WNote m) (Some (SA_sig (g o p))) I O) as (I' & _ & OK & _).
    specialize (OK (or_intror (ex_intro _ (SA_sig (g o p)) (ex_intro _ (g o p) (conj eq_refl eq_refl))))).
    assert (TO' : tail_ok [("p", Val (OSig p)); ("q", Val (ONote m))]) by (right; eauto).
    destruct (IH (fst (track_add u (WNote m) (Some (SA_sig (g o p))))) _ _ I' FA' TO') as (tail' & T & TO2 & N0 & E).
    exists tail', (1%nat :: T). split; [exact TO2|]. split; [intros [X|X]; [discriminate|exact (N0 X)]|].
    cbn [each fst snd].
    assert (X : exec Y (S n) (Add "y" (Var "q") (Some w)) (assign "q" (Val (ONote m)) (assign "p" (Val (OSig p)) (mkStore ([("x", Trk 0); ("y", Trk 1); ("o", Val (OSig o))] ++ tail) [t0; u] d))) =
      Some (Next (mkStore ([("x", Trk 0); ("y", Trk 1); ("o", Val (OSig o))] ++ [("p", Val (OSig p)); ("q", Val (ONote m))]) [t0; fst (track_add u (WNote m) (Some (SA_sig (g o p))))] d) [1%nat])).
    { destruct TO as [->|(p0 & n0 & ->)]; cbn [exec track_of]; unfold given;
        cbn [values s_vars s_tracks app assign set_var String.eqb Ascii.eqb Bool.eqb assoc track_of nth_error]; change (mean Y ?v (Var "q")) with (Some (Ok (ONote m)));
        cbn [what_of]; rewrite M; cbn [sig_arg_of]; unfold added; rewrite OK; reflexivity. }
    rewrite X. cbn [existsb Nat.eqb orb follow]. rewrite E. reflexivity.
Qed.
Lemma two_tracks h a b c d t u : track_at h a b t -> sound t -> track_at h c d u -> sound u -> a <> c -> b <> d ->
  agrees (mkStore [("x", Trk 0); ("y", Trk 1)] [t; u] (h_calls h)) [(a, b); (c, d)] [("x", VRef a); ("y", VRef c)] h.
Proof.
  intros A S B U N1 N2. split; try reflexivity.
  - repeat constructor; cbn; intuition discriminate.
  - repeat constructor.
  - repeat constructor.
  - split; [reflexivity| |].
    + intros [|[|[|i]]] v e f E F; try discriminate; injection E as <-; injection F as <- <-; auto.
    + intros [|[|[|i]]] [|[|[|j]]] e f e' f' N E F; try discriminate; try congruence; injection E as <- <-; injection F as <- <-; auto.
Qed.

Lemma log_app sort : forall a b t, log sort t (a ++ b) = log sort t a ++ log sort (run sort t a) b.
Proof. induction a as [|o a IH]; intros b t; [reflexivity|]. cbn [app log]. rewrite IH, app_assoc. reflexivity. Qed.
Lemma onto_runs : forall Y w g k h a b c d s ops s' ops' K, usual Y -> later_by Y w g k -> valid_sig s -> Forall op_ok ops -> valid_sig s' -> Forall op_ok ops' ->
  let x := run (py_sort Y) (track_empty s) ops in
  let y := run (py_sort Y) (track_empty s') ops' in
  track_at h a b x -> track_at h c d y -> a <> c -> b <> d ->
  reaches melodia Y (Ex (body (onto w) "y") [("x", VRef a); ("y", VRef c)] h (KFun :: K)) (fun r => exists d' z h',
    r = Rt (VRef c) h' K /\ track_at h' c d' z /\ t_signature z = s' /\ track_len z = track_len y + track_len x /\
    Permutation (map value_of (TrackSpec.yields (py_sort Y) z))
      (map value_of (log (py_sort Y) (track_empty s') ops') ++ map (shifted (k (track_length y))) (map value_of (log (py_sort Y) (track_empty s) ops))) /\
    track_at h' a b (fst (track_iter (py_sort Y) x)) /\
    h_calls h' = h_calls h /\ forall p o, ~ In p [a; b; c; d] -> get h p = Some o -> get h' p = Some o).
Proof.
  intros Y w g k h a b c d s ops s' ops' K U G V O V' O' x y A B N1 N2. pose proof U as (_ & _ & C & _).
  destruct (run_inv (py_sort Y) C s ops O) as [I S]. fold x in I, S. destruct (run_inv (py_sort Y) C s' ops' O') as [I' S']. fold y in I', S'.
  assert (SX : sound x) by (split; [eauto|rewrite S; exact V]). assert (SY : sound y) by (split; [eauto|rewrite S'; exact V']).
  assert (VO : valid_sig (track_length y)) by (unfold track_length; rewrite (inv_len _ _ I'); apply len_of_valid, (inv_entries _ _ I')).
  set (o := track_length y) in *.
  assert (FA : Forall (fun e => valid_sig (fst e) /\ valid_note (snd e)) (TrackSpec.yields (py_sort Y) x)).
  { eapply Forall_impl; [|exact (yields_ok (py_sort Y) C x _ I)]. intros e (E1 & _ & E2). auto. }
  destruct (onto_loop Y 1 w g k o (fst (track_iter (py_sort Y) x)) (h_calls h) G VO (TrackSpec.yields (py_sort Y) x) y _ [] I' FA (or_introl eq_refl)) as (tail & T & TO & N0 & E).
  set (more := adds (map (fun e => (snd e, g o (fst e))) (TrackSpec.yields (py_sort Y) x))) in *. set (z := run (py_sort Y) y more) in *.
  assert (E1 : exec Y 3 (Get "o" R_length "y") (mkStore [("x", Trk 0); ("y", Trk 1)] [x; y] (h_calls h)) = Some (Next (mkStore [("x", Trk 0); ("y", Trk 1); ("o", Val (OSig o))] [x; y] (h_calls h)) [])) by reflexivity.
  assert (E2 : exec Y 3 (Each "p" "q" "x" (Add "y" (Var "q") (Some w))) (mkStore [("x", Trk 0); ("y", Trk 1); ("o", Val (OSig o))] [x; y] (h_calls h)) =
    Some (Next (mkStore ([("x", Trk 0); ("y", Trk 1); ("o", Val (OSig o))] ++ tail) [fst (track_iter (py_sort Y) x); z] (h_calls h)) T)) by exact E.
  assert (EX : exec Y 4 (onto w) (mkStore [("x", Trk 0); ("y", Trk 1)] [x; y] (h_calls h)) =
    Some (Next (mkStore ([("x", Trk 0); ("y", Trk 1); ("o", Val (OSig o))] ++ tail) [fst (track_iter (py_sort Y) x); z] (h_calls h)) T)).
  { unfold onto. change (exec Y 4 (Seq ?p ?q) ?st) with (follow (exec Y 3 p st) (exec Y 3 q)). rewrite E1. cbn [follow]. rewrite E2. reflexivity. }
  assert (OM : Forall op_ok (ops' ++ more)).
  { apply Forall_app. split; [exact O'|]. apply adds_ok. rewrite Forall_map. eapply Forall_impl; [|exact FA]. intros e (F1 & F2). split; cbn; [exact F2|]. apply (G o (fst e) (snd e) VO F1). }
  assert (EZ : z = run (py_sort Y) (track_empty s') (ops' ++ more)) by (rewrite run_app; reflexivity).
  assert (LZ : log (py_sort Y) (track_empty s') (ops' ++ more) = log (py_sort Y) (track_empty s') ops' ++ map (fun e => (g o (fst e), snd e)) (TrackSpec.yields (py_sort Y) x)).
  { rewrite log_app. unfold more. rewrite adds_log, map_map. reflexivity. }
  destruct (run_inv (py_sort Y) C s' _ OM) as [IZ SZ]. rewrite <- EZ in IZ, SZ. rewrite LZ in IZ.
  assert (PV : Permutation (map value_of (TrackSpec.yields (py_sort Y) z))
      (map value_of (log (py_sort Y) (track_empty s') ops') ++ map (shifted (k o)) (map value_of (log (py_sort Y) (track_empty s) ops)))).
  { eapply perm_trans; [exact (inv_values _ _ _ C IZ)|]. rewrite map_app. apply Permutation_app_head.
    replace (map value_of (map (fun e => (g o (fst e), snd e)) (TrackSpec.yields (py_sort Y) x))) with (map (shifted (k o)) (map value_of (TrackSpec.yields (py_sort Y) x))).
    - apply Permutation_map. exact (inv_values _ _ _ C I).
    - rewrite !map_map. apply map_ext_in. intros e IE. rewrite Forall_forall in FA. destruct (FA e IE) as [F1 F2]. destruct (G o (fst e) (snd e) VO F1) as (_ & _ & H).
      unfold shifted, value_of. cbn [fst snd]. f_equal. f_equal. f_equal. apply Qred_complete. rewrite Qred_correct. symmetry. exact H. }
  eapply reaches_trans; [exact (c81_functions Y 4 (onto w) "y" _ _ _ h _ T (Trk 1) K U (two_tracks h a b c d x y A SX B SY N1 N2) EX eq_refl)|].
  intros r (P' & r' & h' & -> & A' & GR & _). apply reaches_here.
  pose proof (a_holds _ _ _ _ A') as H. cbn [s_tracks] in H.
  destruct (holds_track _ _ _ 1%nat z H eq_refl) as (c' & d' & P1 & T1 & _).
  destruct (holds_track _ _ _ 0%nat _ H eq_refl) as (a' & b' & P0 & T0 & _).
  destruct (g_same _ _ _ _ _ GR 0%nat a b eq_refl) as (b2 & P2 & [->|X]); [|contradiction].
  destruct (g_same _ _ _ _ _ GR 1%nat c d eq_refl) as (d2 & P3 & _).
  assert (F0 : a' = a /\ b' = b) by (split; congruence). destruct F0 as [-> ->]. assert (F1 : c' = c) by congruence. subst c'.
  exists d', z, h'. split; [cbn [enc_item]; rewrite (nth_error_nth _ _ (0, 0)%nat P1); reflexivity|]. split; [exact T1|]. split; [exact SZ|].
  split. { rewrite (inv_track_len _ _ IZ), (inv_track_len _ _ I'), (inv_track_len _ _ I), app_length, map_length, (Permutation_length (yields_perm _ C _ _ I)), map_length. lia. }
  split; [exact PV|]. split; [exact T0|]. split; [exact (a_draws _ _ _ _ A')|].
  intros p q NP. apply (g_kept _ _ _ _ _ GR). exact NP.
Qed.

(** For two tracks: the notes of x at the end of y, and at their positions. *)
Lemma c89_append : forall Y h a b c d s ops s' ops' K, usual Y -> valid_sig s -> Forall op_ok ops -> valid_sig s' -> Forall op_ok ops' ->
  let x := run (py_sort Y) (track_empty s) ops in
  let y := run (py_sort Y) (track_empty s') ops' in
  track_at h a b x -> track_at h c d y -> a <> c -> b <> d ->
  let gives_back w k := reaches melodia Y (Ex (body (onto w) "y") [("x", VRef a); ("y", VRef c)] h (KFun :: K)) (fun r => exists d' z h',
    r = Rt (VRef c) h' K /\ track_at h' c d' z /\ t_signature z = s' /\ track_len z = track_len y + track_len x /\
    Permutation (map value_of (TrackSpec.yields (py_sort Y) z))
      (map value_of (contents (py_sort Y) s' ops') ++ map (shifted k) (map value_of (contents (py_sort Y) s ops))) /\
    track_at h' a b (fst (track_iter (py_sort Y) x)) /\
    h_calls h' = h_calls h /\ forall p o, ~ In p [a; b; c; d] -> get h p = Some o -> get h' p = Some o) in
  (** o = y.length; for p, q in x: y.add(q, where=p + o) *)
  gives_back (App2 O_add (Var "p") (Var "o")) (sval (track_length y)) /\
  (** o = y.length; for p, q in x: y.add(q, where=p) *)
  gives_back (Var "p") 0%Q.
Proof.
  intros Y h a b c d s ops s' ops' K U V O V' O' x y A B N1 N2 gives_back. split.
  - exact (onto_runs Y _ _ _ h a b c d s ops s' ops' K U (after Y) V O V' O' A B N1 N2).
  - exact (onto_runs Y _ _ _ h a b c d s ops s' ops' K U (beside Y) V O V' O' A B N1 N2).
Qed.
