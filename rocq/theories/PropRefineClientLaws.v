(** Laws of programs that make a track from another one (C81).

    Notation as in PropRefineClient.v.  [derive m]: y = Track(x.signature); for p, q in x: y.add(m, where=p).  [gives Y m f]: the expression [m] is
    the note [f q] for every note [q].  [track_at h a b t]: the track [t] is at [a] on the heap [h], its list at [b].  [copied]: copy x to y, then b = y == x. *)
From Coq Require Import ZArith QArith List Bool String Lia Permutation.
From Verif Require Import Py PyFloat PySort Signature Tone Note Track PyAst PySem PySource PyProgram SpecBase DecFacts SortFacts FloatFacts Show Timsort
  TrackSpec TrackProps RefineBase RefineTrack RefineTrackProps RefineDeep RefineTerm Client RefineStore RefineClient RefineClientProps.
Import ListNotations.
Open Scope string_scope.
Open Scope list_scope.
Open Scope Z_scope.

(** C81: a loop over a track that adds changed notes to a new one: any expression, transposing, copying. *)
Theorem C81_derive :
  forall Y m f h a b s ops K, usual Y -> gives Y m f -> valid_sig s -> Forall op_ok ops ->
  let t := run (py_sort Y) (track_empty s) ops in
  track_at h a b t ->
  reaches melodia Y (Ex (body (derive m) "y") [("x", VRef a)] h (KFun :: K)) (fun w => exists c d u h',
    w = Rt (VRef c) h' K /\ get h c = None /\ get h d = None /\ track_at h' c d u /\
    t_signature u = s /\ track_len u = track_len t /\
    Permutation (map value_of (TrackSpec.yields (py_sort Y) u)) (map (fun e => value_of (fst e, f (snd e))) (log (py_sort Y) (track_empty s) ops)) /\
    track_at h' a b (fst (track_iter (py_sort Y) t)) /\
    h_calls h' = h_calls h /\ forall p o, p <> a -> p <> b -> get h p = Some o -> get h' p = Some o).
Proof. exact c81_derive. Qed.
Print Assumptions C81_derive.
Theorem C81_transpose :
  forall Y k h a b s ops K, usual Y -> valid_sig s -> Forall op_ok ops ->
  let t := run (py_sort Y) (track_empty s) ops in
  track_at h a b t ->
  reaches melodia Y (Ex (body (derive (App2 O_transposed (Var "q") (Lit (OInt k)))) "y") [("x", VRef a)] h (KFun :: K)) (fun w => exists c d u h',
    w = Rt (VRef c) h' K /\ get h c = None /\ get h d = None /\ track_at h' c d u /\
    t_signature u = s /\ track_len u = track_len t /\
    Permutation (map value_of (TrackSpec.yields (py_sort Y) u))
      (map (fun e => value_of (fst e, mkNote (mkTone (pitch (n_tone (snd e)) + k)) (n_duration (snd e)) (n_velocity (snd e)))) (log (py_sort Y) (track_empty s) ops)) /\
    track_at h' a b (fst (track_iter (py_sort Y) t)) /\
    h_calls h' = h_calls h /\ forall p o, p <> a -> p <> b -> get h p = Some o -> get h' p = Some o).
Proof. exact c81_transpose. Qed.
Print Assumptions C81_transpose.
Theorem C81_copy :
  forall Y h a b s ops K, usual Y -> valid_sig s -> Forall op_ok ops ->
  track_at h a b (run (py_sort Y) (track_empty s) ops) -> consistent (log (py_sort Y) (track_empty s) ops) ->
  reaches melodia Y (Ex (body copied "b") [("x", VRef a)] h (KFun :: K)) (fun w => exists h',
    w = Rt (VBool true) h' K /\ keeps [a; b] h h').
Proof. exact c81_copy. Qed.
Print Assumptions C81_copy.

Definition ex_python : python :=
  mkPython ascii_digit shortest_digits (fun _ => Err OverflowError) (fun x => x) (fun _ _ _ => f_half) (fun _ a _ => a) cpython_sort.
Lemma ex_usual : usual ex_python.
Proof.
  split; [exact ascii_digit_table|]. split; [exact (proj1 c74_sort)|]. split; [exact (proj2 c74_sort)|]. reflexivity.
Qed.
(** Two eighths at the same position, copied. *)
Definition ex_ops : list op :=
  [OAdd (WNote (mkNote (mkTone 60) (mkSig 1 8) f_one)) (Some (SA_sig (mkSig 3 4))); OAdd (WNote (mkNote (mkTone 48) (mkSig 1 8) f_half)) (Some (SA_sig (mkSig 3 4)))].
Definition ex_track : track := run cpython_sort (track_empty (mkSig 4 4)) ex_ops.
Definition ex_heap : heap := mkHeap [enc_track 1 ex_track; HList (map enc_entry (t_heap ex_track))] 0.
Lemma ex_valid n k : 0 <= n -> 0 <= k -> valid_sig (mkSig n (2 ^ k)).
Proof. intros A B. split; [exact A|]. exists k. auto. Qed.
Lemma ex_ok : Forall op_ok ex_ops.
Proof.
  repeat apply Forall_cons; [| |apply Forall_nil].
  all: split; [apply Forall_cons; [split; [apply (ex_valid 1 3); lia|apply unit_test; reflexivity]|apply Forall_nil]|].
  all: intros s E; injection E as <-; apply (ex_valid 3 2); lia.
Qed.
Example C81_ex_copy K : reaches melodia ex_python (Ex (body copied "b") [("x", VRef 0)] ex_heap (KFun :: K)) (fun w => exists h', w = Rt (VBool true) h' K /\ keeps [0; 1]%nat ex_heap h').
Proof.
  apply (C81_copy ex_python ex_heap 0%nat 1%nat (mkSig 4 4) ex_ops K ex_usual (ex_valid 4 2 ltac:(lia) ltac:(lia)) ex_ok); [split; reflexivity|].
  intros e f [<-|[<-|[]]] [<-|[<-|[]]] A B; left; reflexivity.
Qed.
Example C81_ex_transpose K : reaches melodia ex_python (Ex (body (derive (App2 O_transposed (Var "q") (Lit (OInt 5)))) "y") [("x", VRef 0)] ex_heap (KFun :: K)) (fun w => exists c d u h',
  w = Rt (VRef c) h' K /\ (2 <= c)%nat /\ track_at h' c d u /\ Permutation (map value_of (TrackSpec.yields cpython_sort u)) [((3 # 4)%Q, 65, (1 # 8)%Q, 1%Q); ((3 # 4)%Q, 53, (1 # 8)%Q, (1 # 2)%Q)]).
Proof.
  destruct (C81_transpose ex_python 5 ex_heap 0%nat 1%nat (mkSig 4 4) ex_ops K ex_usual (ex_valid 4 2 ltac:(lia) ltac:(lia)) ex_ok) as (w & R & c & d & u & h' & -> & F & _ & T & _ & _ & P & _); [split; reflexivity|].
  exists (Rt (VRef c) h' K). split; [exact R|]. exists c, d, u, h'. split; [reflexivity|].
  split; [destruct c as [|[|c]]; [discriminate F|discriminate F|lia]|]. split; [exact T|exact P].
Qed.
