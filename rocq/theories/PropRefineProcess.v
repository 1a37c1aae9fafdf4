(** The source of processing/track.py computes what the model says (C76).

    As in PropRefineTrack.v; [py_gauss Y i] is what the i-th call of random.gauss in the whole run returns, an arbitrary
    function, and [after_draws l n h h'] says that nothing outside the places [l] has changed and that random.gauss
    has been called [n] times (RefineProcess.v). *)
From Coq Require Import ZArith List Bool String Lia.
From Verif Require Import Py PyFloat PySort Timsort Signature Tone Note Track Show Processing PyAst PySem PySource PyProgram SpecBase
  RefineBase RefineSignature RefineTone RefineNote RefineTrack RefineSpec RefineTrackProps RefineProcess.
Import ListNotations.
Open Scope string_scope.
Open Scope list_scope.
Open Scope Z_scope.

(** C76: randomize_velocities, with all arguments and with the default ones. *)
Theorem C76_randomize :
  forall Y h a b t mn mx me va, natural (py_sort Y) -> sort_contract (py_sort Y) -> track_at h a b t -> good_track t ->
  let vars := [("t", VRef a); ("lo", VFloat mn); ("hi", VFloat mx); ("m", VFloat me); ("s", VFloat va)] in
  let given mn mx me va r h' :=
    let o := randomize_velocities (py_sort Y) t mn mx me va (fun i => py_gauss Y (h_calls h + i) me (py_sqrt Y va)) in
    track_at h' a b (fst o) /\
    match snd o with
    | Ok t' => exists c d, r = Ok (VRef c) /\ track_at h' c d t' /\ get h c = None /\ get h d = None /\ after_draws [a; b] (List.length (t_heap t)) h h'
    | Err e => r = Err e /\ exists n, (n <= List.length (t_heap t))%nat /\ after_draws [a; b] n h h'
    end in
  brings Y h vars (call (name "processing.randomize_velocities") [name "t"; name "lo"; name "hi"; name "m"; name "s"]) (given mn mx me va) /\
  brings Y h vars (call (name "processing.randomize_velocities") [name "t"]) (given f_half f_one f_three_quarters (fdiv f_one (float_of_Z 100))).
Proof. exact c76_randomize. Qed.
Print Assumptions C76_randomize.

(** A track with one note of velocity 1, the values of gauss being 0.75: a new track with a note of velocity 0.75. *)
Definition ex_track (v : float) : track := mkTrack (mkSig 4 4) 4 (mkSig 1 2) [(mkSig 1 4, mkNote (mkTone 60) (mkSig 1 4) v)] true.
Definition ex_heap : heap := mkHeap [enc_track 1 (ex_track f_one); HList (map enc_entry (t_heap (ex_track f_one)))] 0.
Example C76_ex Y : py_sort Y = cpython_sort -> py_gauss Y = (fun _ _ _ => f_three_quarters) ->
  brings Y ex_heap [("t", VRef 0); ("lo", VFloat f_zero); ("hi", VFloat f_one); ("m", VFloat f_half); ("s", VFloat f_one)]
    (call (name "processing.randomize_velocities") [name "t"])
    (fun r h' => track_at h' 0 1 (ex_track f_one) /\ exists c d, r = Ok (VRef c) /\ (exists so, track_at h' c d (mkTrack (mkSig 4 4) 4 (mkSig 2 4) (t_heap (ex_track f_three_quarters)) so)) /\
       get ex_heap c = None /\ get ex_heap d = None /\ after_draws [0; 1]%nat 1 ex_heap h').
Proof.
  intros E G. assert (N : natural (py_sort Y)) by (rewrite E; exact (proj1 c74_sort)).
  assert (C : sort_contract (py_sort Y)) by (rewrite E; exact (proj2 c74_sort)).
  assert (T : track_at ex_heap 0 1 (ex_track f_one)) by (split; reflexivity).
  assert (V : good_track (ex_track f_one)) by (split; [constructor; [split; cbn; discriminate|constructor]|split; cbn; discriminate]).
  pose proof (proj2 (C76_randomize Y ex_heap 0%nat 1%nat _ f_zero f_one f_half f_one N C T V)) as B. cbv zeta in B. rewrite E, G in B.
  vm_compute (randomize_velocities _ _ _ _ _ _ _) in B. cbn [fst snd] in B.
  intros K. destruct (B K) as (s & R & r & h' & S & H1 & c & d & H2 & H3 & H4). exists s. split; [exact R|]. exists r, h'. split; [exact S|].
  split; [exact H1|]. exists c, d. split; [exact H2|]. split; [eexists; exact H3|exact H4].
Qed.
