(** The project's tests that draw random numbers pass, whatever is drawn (C78).

    test_midi_serialize and test_track_eq build tracks from random.randint and random.choice and compare them with
    assertions; an assertion that fails raises AssertionError.  The syntax trees of these test functions are in
    PySource.v too.  [randint_contract Y]: random.randint(a, b) gives a number from a to b (random.choice draws an index
    this way).  A test that passes ends with None. *)
From Coq Require Import ZArith List Bool String Lia.
From Verif Require Import Py PyFloat PySort Timsort Signature Tone Note Track Show MidiWriter MidiReader PyAst PySem PySource PyProgram SpecBase TrackSpec MidiSpec DumpSpec TripSpec
  TripProps SizeProps RefineBase RefineSignature RefineTone RefineNote RefineTrack RefineSpec RefineProps RefineTrackProps RefineTests.
Import ListNotations.
Open Scope string_scope.
Open Scope list_scope.
Open Scope Z_scope.

(** C78: t == midi.loads(midi.dumps(t)) is True, run from the source, for every track t that a MIDI file can hold. *)
Theorem C78_round_trip :
  forall Y h a b s ops, natural (py_sort Y) -> sort_contract (py_sort Y) -> valid_sig s -> Forall op_ok ops ->
  let l := contents (py_sort Y) s ops in
  Forall (fun e => in_midi_range 36 (snd e)) l -> sig_fits s -> Forall (fun e => last_pulse 96 e < 2 ^ 28) l -> Z.of_nat (List.length l) <= 1198000 ->
  ForallOrdPairs apart l -> TripSpec.plain l -> Forall audible l -> Forall (whole_note 96) l -> Forall byte_velocity l ->
  track_at h a b (run (py_sort Y) (track_empty s) ops) ->
  brings Y h [("t", VRef a)] (compare CEq (name "t") (call (name "midi.loads") [call (name "midi.dumps") [name "t"]]))
    (fun v h' => v = Ok (VBool true) /\ keeps [a; b] h h').
Proof. exact c78_round_trip. Qed.
Print Assumptions C78_round_trip.
(** C78: the two tests. *)
Theorem C78_tests :
  forall Y h, natural (py_sort Y) -> sort_contract (py_sort Y) -> randint_contract Y ->
  brings Y h [] (call (name "test_midi_serialize.test_midi_serialize") []) (fun v _ => v = Ok VNone) /\
  brings Y h [] (call (name "test_track.test_track_eq") []) (fun v _ => v = Ok VNone).
Proof. exact c78_tests. Qed.
Print Assumptions C78_tests.

(** A track with one note of a quarter at 1/4. *)
Definition ex_ops : list op := [OAdd (WNote (mkNote (mkTone 60) (mkSig 1 4) f_one)) (Some (SA_iter [EInt 1; EInt 4]))].
Definition ex_track : track := mkTrack (mkSig 4 4) 4 (mkSig 2 4) [(mkSig 1 4, mkNote (mkTone 60) (mkSig 1 4) f_one)] false.
Definition ex_heap : heap := mkHeap [enc_track 1 ex_track; HList [enc_entry (mkSig 1 4, mkNote (mkTone 60) (mkSig 1 4) f_one)]] 0.
Example C78_ex_round_trip Y : py_sort Y = cpython_sort ->
  brings Y ex_heap [("t", VRef 0)] (compare CEq (name "t") (call (name "midi.loads") [call (name "midi.dumps") [name "t"]]))
    (fun v h' => v = Ok (VBool true) /\ keeps [0; 1]%nat ex_heap h').
Proof.
  intros E. assert (N : natural (py_sort Y)) by (rewrite E; exact (proj1 c74_sort)).
  assert (C : sort_contract (py_sort Y)) by (rewrite E; exact (proj2 c74_sort)).
  assert (L : contents (py_sort Y) (mkSig 4 4) ex_ops = [(mkSig 1 4, mkNote (mkTone 60) (mkSig 1 4) f_one)]) by (rewrite E; vm_compute; reflexivity).
  apply (C78_round_trip Y ex_heap 0%nat 1%nat (mkSig 4 4) ex_ops N C); rewrite ?L.
  - split; [discriminate|exists 2; split; [discriminate|reflexivity]].
  - constructor; [|constructor]. split; [|discriminate]. constructor; [|constructor].
    split; [split; [discriminate|exists 2; split; [discriminate|reflexivity]]|]. vm_compute. repeat split; try discriminate.
  - constructor; [|constructor]. vm_compute. split; discriminate.
  - split; vm_compute; discriminate.
  - constructor; [|constructor]. vm_compute. reflexivity.
  - vm_compute. discriminate.
  - constructor; [constructor|constructor].
  - intros e f [<-|[]] [<-|[]] _ _. reflexivity.
  - constructor; [|constructor]. vm_compute. discriminate.
  - constructor; [|constructor]. split; exists 96; vm_compute; reflexivity.
  - constructor; [|constructor]. exists 127. split; [lia|vm_compute; reflexivity].
  - rewrite E. split; vm_compute; reflexivity.
Qed.

(** Every run of the two tests with the sort of CPython and a random.randint that always gives the least number. *)
Definition ex_python : python :=
  mkPython ascii_digit shortest_digits (fun _ => Err OverflowError) (fun x => x) (fun _ m _ => m) (fun _ a _ => a) cpython_sort.
Example C78_ex_tests h s f : In f ["test_midi_serialize.test_midi_serialize"; "test_track.test_track_eq"] ->
  runs melodia ex_python (Ev (call (name f) []) [] h []) s ->
  reaches melodia ex_python s (fun u => exists h', u = Rt VNone h' []).
Proof.
  assert (N : natural (py_sort ex_python)) by exact (proj1 c74_sort). assert (C : sort_contract (py_sort ex_python)) by exact (proj2 c74_sort).
  assert (D : randint_contract ex_python) by (intros i a b H; cbn; lia).
  destruct (C78_tests ex_python h N C D) as (A & B).
  intros [<-|[<-|[]]] R; [pose proof (c74_runs _ _ _ _ _ _ N A R) as (u & U & r & h' & -> & ->)|pose proof (c74_runs _ _ _ _ _ _ N B R) as (u & U & r & h' & -> & ->)];
    exists (Rt VNone h' []); (split; [exact U|eauto]).
Qed.
