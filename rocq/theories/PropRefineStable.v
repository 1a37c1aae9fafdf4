(** Writing and reading again and again, in runs of the source (C86).

    [storable l]: there are notes, they fit the file, the notes of one tone do not overlap, they are audible and last whole numbers of pulses;
    their velocities may be any.  [contents], [apart], [plain], [audible], [whole_note]: TripSpec.v. *)
From Coq Require Import ZArith QArith List Bool String Lia.
From Verif Require Import Py PyFloat PySort Timsort Signature Tone Note Track Show MidiWriter MidiReader PyAst PySem PySource PyProgram SpecBase DecFacts SortFacts FloatFacts
  TrackSpec MidiSpec DumpSpec TripSpec TrackProps TripProps SizeProps
  RefineBase RefineTrack RefineTrackProps RefineSpec RefineDeep RefineTerm Client RefineStore RefineClient RefineClientProps RefineFiles RefineStable.
Import ListNotations.
Open Scope string_scope.
Open Scope list_scope.
Open Scope Z_scope.

(** C86: b = midi.dumps(x); y = midi.loads(b, 0); c = midi.dumps(y); z = midi.loads(c); r = z == y; v = midi.loads(c, 0); d = midi.dumps(v); e = d == c *)
Print again.
Print storable.
Theorem C86_again :
  forall Y h a b s ops K, usual Y -> valid_sig s -> sig_fits s -> Forall op_ok ops ->
  track_at h a b (run (py_sort Y) (track_empty s) ops) -> storable (contents (py_sort Y) s ops) ->
  let ends_with x v := reaches melodia Y (Ex (body again x) [("x", VRef a)] h (KFun :: K)) (fun w => exists h', w = Rt v h' K /\ keeps [a; b] h h') in
  (** the track that was read is read again from its own file, *)
  ends_with "r" (VBool true) /\
  (** and from then on the bytes stay the same *)
  ends_with "e" (VBool true).
Proof. exact c86_again. Qed.
(** One command for the theorems of this file: it runs through all proofs below them, which takes long. *)
Definition C86_theorems := C86_again.
Print Assumptions C86_theorems.

(** Two notes; the velocity 1/2 is not one that can be read from a file, so that the first track that is read is not equal to the one written. *)
Definition ex_stable_ops : list op :=
  [OAdd (WNote (mkNote (mkTone 36) (mkSig 1 4) f_half)) (Some (SA_sig (mkSig 0 1))); OAdd (WNote (mkNote (mkTone 36) (mkSig 1 8) f_one)) (Some (SA_sig (mkSig 1 4)))].
Example C86_ex_storable : storable (contents cpython_sort (mkSig 4 4) ex_stable_ops).
Proof.
  replace (contents cpython_sort (mkSig 4 4) ex_stable_ops) with [(mkSig 0 1, mkNote (mkTone 36) (mkSig 1 4) f_half); (mkSig 1 4, mkNote (mkTone 36) (mkSig 1 8) f_one)] by (vm_compute; reflexivity).
  split; [discriminate|]. split; [repeat constructor; cbv; discriminate|]. split; [repeat constructor|]. split; [cbn; lia|].
  split; [apply FOP_cons; [apply Forall_cons; [intros _; left; cbv; discriminate|apply Forall_nil]|apply FOP_cons; [apply Forall_nil|apply FOP_nil]]|].
  split; [intros e f [<-|[<-|[]]] [<-|[<-|[]]] H1 H2; try reflexivity; cbv in H1; discriminate|].
  split; [repeat constructor; cbv; discriminate|].
  constructor; [split; [exists 0|exists 96]; reflexivity|]. constructor; [split; [exists 96|exists 48]; reflexivity|constructor].
Qed.
Example C86_ex_first : exists bs u, midi_dumps cpython_sort (run cpython_sort (track_empty (mkSig 4 4)) ex_stable_ops) f_120 0 = Ok bs /\
  midi_loads cpython_sort bs (Some 0) = Ok u /\ eq_result cpython_sort u (run cpython_sort (track_empty (mkSig 4 4)) ex_stable_ops) = false.
Proof. eexists _, _. split; [vm_compute; reflexivity|]. split; [vm_compute; reflexivity|]. vm_compute. reflexivity. Qed.
Definition ex_stable_python : python :=
  mkPython ascii_digit shortest_digits (fun _ => Err OverflowError) (fun x => x) (fun _ _ _ => f_half) (fun _ a _ => a) cpython_sort.
Example C86_ex : forall h a b, track_at h a b (run cpython_sort (track_empty (mkSig 4 4)) ex_stable_ops) ->
  reaches melodia ex_stable_python (Ex (body again "r") [("x", VRef a)] h [KFun]) (fun w => exists h', w = Rt (VBool true) h' [] /\ keeps [a; b] h h').
Proof.
  intros h a b T. refine (proj1 (C86_again ex_stable_python h a b (mkSig 4 4) ex_stable_ops [] _ _ _ _ T C86_ex_storable)).
  - split; [exact ascii_digit_table|]. split; [exact (proj1 c74_sort)|]. split; [exact (proj2 c74_sort)|]. reflexivity.
  - split; [cbn; lia|exists 2; split; [lia|reflexivity]].
  - split; cbn; [lia|apply Z.leb_le; reflexivity].
  - apply simple_ops_ok. vm_compute. reflexivity.
Qed.
