(** The source of core/track.py computes what the model says (C74).

    As in PropRefine.v, [melodia] is the program made of the syntax trees.  A track is an object at a place [a]
    of the heap whose attribute _heap is the list at the place [b]: [track_at h a b t].  [brings Y h vars e Q]
    says that the expression [e] runs to a value or an exception that, with the heap after it, is in [Q]; [keeps l h h']
    that nothing outside the places [l] has changed (RefineSpec.v, RefineBase.v).  [good_track t] says that no
    denominator is zero.  [natural] is the part of the contract of list.sort that says that it only looks at the answers of
    comparisons. *)
From Coq Require Import ZArith List Bool String Lia.
From Verif Require Import Py PyFloat PySort Timsort Signature Tone Note Track Show PyAst PySem PySource PyProgram SpecBase
  RefineBase RefineSignature RefineTone RefineNote RefineTrack RefineAdd RefineSpec RefineTrackProps.
Import ListNotations.
Open Scope string_scope.
Open Scope list_scope.
Open Scope Z_scope.

(** C74: what an expression brings, every run of it brings: each can be continued to such an end, and
    each that ended, ended so. *)
Theorem C74_runs :
  forall Y h vars e Q t, natural (py_sort Y) -> brings Y h vars e Q ->
  runs melodia Y (Ev e vars h []) t -> reaches melodia Y t (fun s => exists r h', s = ends r h' [] /\ Q r h').
Proof. exact c74_runs. Qed.
Print Assumptions C74_runs.
Theorem C74_once :
  forall Y h vars e Q r h', natural (py_sort Y) -> brings Y h vars e Q ->
  runs melodia Y (Ev e vars h []) (ends r h' []) -> Q r h'.
Proof. exact c74_once. Qed.
Print Assumptions C74_once.
(** C74: the sort of CPython is a sort as supposed here. *)
Theorem C74_sort :
  natural cpython_sort /\ sort_contract cpython_sort.
Proof. exact c74_sort. Qed.
Print Assumptions C74_sort.

(** C74: Track(signature, content). *)
Theorem C74_new :
  forall Y h sa s content c, sig_value h sa s -> good_arg sa -> content_value h content c ->
  let vars := [("s", s); ("c", c)] in
  brings Y h vars (call (name "Track") [name "s"; name "c"]) (new_track h (track_new sa content)) /\
  brings Y h vars (call (name "Track") [name "s"]) (new_track h (track_new sa [])) /\
  brings Y h vars (call (name "Track") []) (new_track h (track_new (SA_sig (mkSig 4 4)) [])).
Proof. exact c74_new. Qed.
Print Assumptions C74_new.
(** C74: signature, length, len and str. *)
Theorem C74_read :
  forall Y h a b t, track_at h a b t ->
  let vars := [("t", VRef a)] in
  evaluates Y h vars (attr (name "t") "signature") (a_sig (Ok (t_signature t))) /\
  evaluates Y h vars (attr (name "t") "length") (a_sig (Ok (track_length t))) /\
  evaluates Y h vars (call (name "len") [name "t"]) (an_int (track_len t)) /\
  evaluates Y h vars (call (name "str") [name "t"]) (a_text (Ok (track_str t))).
Proof. exact c74_read. Qed.
Print Assumptions C74_read.
(** C74: add. *)
Theorem C74_add :
  forall Y h a b t x v w w', track_at h a b t -> good_track t -> what_value h [a; b] x v -> where_value h [a; b] w w' ->
  let vars := [("t", VRef a); ("x", v); ("w", w')] in
  let after w r h' := r = no_value (snd (track_add t x w)) /\ changed h a b (fst (track_add t x w)) h' in
  brings Y h vars (meth_key (name "t") "add" (name "x") "where" (name "w")) (after w) /\
  brings Y h vars (meth (name "t") "add" [name "x"; name "w"]) (after w) /\
  brings Y h vars (meth (name "t") "add" [name "x"]) (after None).
Proof. exact c74_add. Qed.
Print Assumptions C74_add.
(** C74: iteration. *)
Theorem C74_iter :
  forall Y h a b t, natural (py_sort Y) -> track_at h a b t -> good_track t ->
  brings Y h [("t", VRef a)] (elements_of (name "t")) (fun r h' =>
    new_list h (map enc_entry (snd (track_iter (py_sort Y) t))) r h' /\
    track_at h' a b (fst (track_iter (py_sort Y) t)) /\ keeps [a; b] h h').
Proof. exact c74_iter. Qed.
Print Assumptions C74_iter.
(** C74: == and != of two tracks, == of a track with itself, and repr. *)
Theorem C74_eq :
  forall Y h a b t c d u, natural (py_sort Y) -> sort_contract (py_sort Y) ->
  track_at h a b t -> track_at h c d u -> good_track t -> good_track u -> a <> c -> b <> d ->
  let vars := [("t", VRef a); ("u", VRef c)] in
  let '(r, t', u') := track_eq (py_sort Y) t u in
  let after r v h' := v = Ok (VBool r) /\ track_at h' a b t' /\ track_at h' c d u' /\ keeps [a; b; c; d] h h' in
  brings Y h vars (compare CEq (name "t") (name "u")) (after r) /\
  brings Y h vars (compare CNe (name "t") (name "u")) (after (negb r)).
Proof. exact c74_eq. Qed.
Print Assumptions C74_eq.
Theorem C74_eq_self :
  forall Y h a b t, natural (py_sort Y) -> sort_contract (py_sort Y) -> track_at h a b t -> good_track t ->
  let '(r, t', _) := track_eq (py_sort Y) t t in
  brings Y h [("t", VRef a)] (compare CEq (name "t") (name "t")) (fun v h' => v = Ok (VBool r) /\ track_at h' a b t' /\ keeps [a; b] h h').
Proof. exact c74_eq_self. Qed.
Print Assumptions C74_eq_self.
Theorem C74_repr :
  forall Y h a b t, natural (py_sort Y) -> track_at h a b t -> good_track t ->
  brings Y h [("t", VRef a)] (call (name "repr") [name "t"]) (fun v h' =>
    v = Ok (VStr (snd (track_repr (py_digits Y) (py_sort Y) t))) /\
    track_at h' a b (fst (track_repr (py_digits Y) (py_sort Y) t)) /\ keeps [a; b] h h').
Proof. exact c74_repr. Qed.
Print Assumptions C74_repr.

(** Track((3, 4)) is a new track, Track((1, 3)) raises ValueError. *)
Example C74_ex_new Y h :
  brings Y h [("s", VTuple [VInt 3; VInt 4]); ("c", VNone)] (call (name "Track") [name "s"])
    (new_track h (Ok (mkTrack (mkSig 3 4) 1 (mkSig 0 1) [] true))) /\
  brings Y h [("s", VTuple [VInt 1; VInt 3]); ("c", VNone)] (call (name "Track") [name "s"]) (new_track h (Err ValueError)).
Proof.
  assert (T : forall n d, sig_value h (SA_iter [EInt n; EInt d]) (VTuple [VInt n; VInt d])) by (intros; apply sv_tuple; repeat constructor).
  split; [exact (proj1 (proj2 (C74_new Y h _ _ [] VNone (T 3 4) I (cv_none h))))|exact (proj1 (proj2 (C74_new Y h _ _ [] VNone (T 1 3) I (cv_none h))))].
Qed.

(** A track at place 0 with a note at 1/4: adding a note at (0, 4) puts it in front of the heap. *)
Definition ex_entry (n d p : Z) : entry := (mkSig n d, mkNote (mkTone p) (mkSig 1 4) f_one).
Definition ex_heap : heap := mkHeap [enc_track 1 (mkTrack (mkSig 4 4) 4 (mkSig 1 2) [ex_entry 1 4 60] true); HList [enc_entry (ex_entry 1 4 60)]] 0.
Lemma ex_at : track_at ex_heap 0 1 (mkTrack (mkSig 4 4) 4 (mkSig 1 2) [ex_entry 1 4 60] true).
Proof. split; reflexivity. Qed.
Lemma ex_good : good_track (mkTrack (mkSig 4 4) 4 (mkSig 1 2) [ex_entry 1 4 60] true).
Proof. split; [constructor; [split; cbn; discriminate|constructor]|split; cbn; discriminate]. Qed.
Example C74_ex_add Y :
  let n := mkNote (mkTone 64) (mkSig 1 4) f_one in
  brings Y ex_heap [("t", VRef 0); ("x", enc_note n); ("w", VTuple [VInt 0; VInt 4])]
    (meth (name "t") "add" [name "x"; name "w"])
    (fun r h' => r = Ok VNone /\ changed ex_heap 0 1 (mkTrack (mkSig 4 4) 4 (mkSig 1 2) [ex_entry 0 4 64; ex_entry 1 4 60] false) h').
Proof.
  cbv zeta. assert (X : what_value ex_heap [0; 1]%nat (WNote (mkNote (mkTone 64) (mkSig 1 4) f_one)) (enc_note (mkNote (mkTone 64) (mkSig 1 4) f_one)))
    by (constructor; cbn; discriminate).
  assert (W : where_value ex_heap [0; 1]%nat (Some (SA_iter [EInt 0; EInt 4])) (VTuple [VInt 0; VInt 4])).
  { constructor; [apply sv_tuple; repeat constructor|discriminate|discriminate|exact I]. }
  exact (proj1 (proj2 (C74_add Y ex_heap 0%nat 1%nat _ _ _ _ _ ex_at ex_good X W))).
Qed.

(** Every run of t == t ends with True. *)
Example C74_ex_eq Y s : py_sort Y = cpython_sort ->
  runs melodia Y (Ev (compare CEq (name "t") (name "t")) [("t", VRef 0)] ex_heap []) s ->
  reaches melodia Y s (fun u => exists h', u = Rt (VBool true) h' []).
Proof.
  intros E R. assert (N : natural (py_sort Y)) by (rewrite E; exact (proj1 C74_sort)).
  assert (C : sort_contract (py_sort Y)) by (rewrite E; exact (proj2 C74_sort)).
  pose proof (C74_eq_self Y ex_heap 0%nat 1%nat _ N C ex_at ex_good) as B. rewrite E in B. cbn in B.
  destruct (C74_runs _ _ _ _ _ _ N B R) as (u & U & (r & h' & -> & -> & _)). exists (Rt (VBool true) h' []). split; [exact U|eauto].
Qed.
