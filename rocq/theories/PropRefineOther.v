(** Files of other programs; tempo and channel of a file; the notes of a track added to another one: in runs of the source (C87, C88, C89).

    [file_says data q evs]: AcceptSpec.v; [voices], [tidy], [storable]: printed below; [note_events_of], [on_channel], [is_note]: MidiSpec.v;
    [tempo_fits]: DumpSpec.v; [contents], [apart], [plain], [audible], [whole_note], [byte_velocity]: TripSpec.v. *)
From Coq Require Import ZArith QArith List Bool String Lia Permutation.
From Verif Require Import Py PyFloat PySort Timsort Signature Tone Note Track Show MidiWriter MidiReader PyAst PySem PySource PyProgram SpecBase DecFacts SortFacts FloatFacts
  TrackSpec MidiSpec DumpSpec ReaderSpec AcceptSpec TripSpec TrackProps ReadFacts TripProps SizeProps ChannelProps AcceptProps
  RefineBase RefineTrack RefineTrackProps RefineSpec RefineDeep RefineTerm Client RefineStore RefineClient RefineClientProps RefineFiles RefineStable RefineOther RefineVoice RefineAppend.
Import ListNotations.
Open Scope string_scope.
Open Scope list_scope.
Open Scope Z_scope.

(** C87: y = midi.loads(b, k); c = midi.dumps(y); z = midi.loads(c); r = z == y *)
Print taken_over.
Print voices.
Print tidy.
Theorem C87_taken_over :
  forall Y h data k q evs K, usual Y -> Forall is_byte data -> file_says data q evs -> In k (voices evs) ->
  tidy q (on_channel k (note_events_of evs)) ->
  reaches melodia Y (Ex (body taken_over "r") [("b", VBytes data); ("k", VInt k)] h (KFun :: K)) (fun w => exists h', w = Rt (VBool true) h' K /\ keeps [] h h').
Proof. exact c87_taken_over. Qed.
(** C88: b = midi.dumps(x, q, k); y = midi.loads(b, k); r = y == x; z = midi.loads(b); e = z == x
    and b = midi.dumps(x, q, k); y = midi.loads(b, j) *)
Print through.
Print elsewhere.
Print storable.
Theorem C88_channel :
  forall Y h a b s ops q k j K, usual Y -> valid_sig s -> sig_fits s -> Forall op_ok ops ->
  track_at h a b (run (py_sort Y) (track_empty s) ops) ->
  storable (contents (py_sort Y) s ops) -> Forall byte_velocity (contents (py_sort Y) s ops) -> 0 <= k <= 15 -> tempo_fits q ->
  let vars := [("x", VRef a); ("q", VFloat q); ("k", VInt k); ("j", VInt j)] in
  let ends_with x v := reaches melodia Y (Ex (body through x) vars h (KFun :: K)) (fun w => exists h', w = Rt v h' K /\ keeps [a; b] h h') in
  (** read from its channel the track is the one that was written, *)
  ends_with "r" (VBool true) /\
  (** and without a channel too; *)
  ends_with "e" (VBool true) /\
  (** there is no other channel *)
  (j <> k -> reaches melodia Y (Ex (body elsewhere "y") vars h (KFun :: K)) (fun w => exists h', w = Thr ValueError h' /\
     forall p o, ~ In p [a; b] -> get h p = Some o -> get h' p = Some o)).
Proof. exact c88_channel. Qed.
(** C89: o = y.length; for p, q in x: y.add(q, where=w), with p + o or p for w *)
Print onto.
Print shifted.
Theorem C89_append :
  forall Y h a b c d s ops s' ops' K, usual Y -> valid_sig s -> Forall op_ok ops -> valid_sig s' -> Forall op_ok ops' ->
  let x := run (py_sort Y) (track_empty s) ops in
  let y := run (py_sort Y) (track_empty s') ops' in
  track_at h a b x -> track_at h c d y -> a <> c -> b <> d ->
  let gives_back w k := reaches melodia Y (Ex (body (onto w) "y") [("x", VRef a); ("y", VRef c)] h (KFun :: K)) (fun r => exists d' z h',
    r = Rt (VRef c) h' K /\ track_at h' c d' z /\ t_signature z = s' /\ track_len z = track_len y + track_len x /\
    Permutation (map value_of (TrackSpec.yields (py_sort Y) z))
      (map value_of (contents (py_sort Y) s' ops') ++ map (shifted k) (map value_of (contents (py_sort Y) s ops))) /\
    track_at h' a b (fst (track_iter (py_sort Y) x)) /\
    h_calls h' = h_calls h /\ forall p o, ~ In p [a; b; c; d] -> get h p = Some o -> get h' p = Some o) in
  (** o = y.length; for p, q in x: y.add(q, where=p + o) *)
  gives_back (App2 O_add (Var "p") (Var "o")) (sval (track_length y)) /\
  (** o = y.length; for p, q in x: y.add(q, where=p) *)
  gives_back (Var "p") 0%Q.
Proof. exact c89_append. Qed.
(** One command for the theorems of this file: it runs through all proofs below them, which takes long. *)
Definition C87_C88_C89_theorems := (C87_taken_over, C88_channel, C89_append).
Print Assumptions C87_C88_C89_theorems.

(** At 48 ticks per quarter: a quarter and a 16th on channel 3 under 3/4; the note on channel 1 is at no grid. *)
Definition ex_other_events : list (Z * midi_event) :=
  [(0, MTimeSignature 3 2 24 8); (0, MNoteOn 3 60 100); (7, MNoteOn 1 50 90); (41, MNoteOff 3 60 64); (0, MNoteOn 3 60 80); (5, MNoteOff 1 50 0); (7, MNoteOn 3 60 0)].
Definition ex_other_body : bytes := plain_bytes (ex_other_events ++ [(0, MEndOfTrack)]).
Definition ex_other : bytes :=
  [77; 84; 104; 100; 0; 0; 0; 6; 0; 0; 0; 1; 0; 48] ++ [77; 84; 114; 107; 0; 0; 0; Z.of_nat (List.length ex_other_body)] ++ ex_other_body.
Example C87_ex_says : file_says ex_other 48 ex_other_events.
Proof.
  exists [(name_header, [0; 0; 0; 1; 0; 48]); (name_track, ex_other_body)], (Some 48). split.
  - unfold ex_other. apply (C_cons name_header [0; 0; 0; 6] [0; 0; 0; 1; 0; 48]); try reflexivity.
    rewrite <- (app_nil_r ex_other_body) at 2.
    apply (C_cons name_track [0; 0; 0; Z.of_nat (List.length ex_other_body)]); try (vm_compute; reflexivity). constructor.
  - change (says (([] ++ [(name_header, [0; 0; 0; 1; 0; 48])]) ++ [(name_track, ex_other_body)]) (Some 48) (Some (48, ex_other_events))).
    eapply Y_track; [apply Y_header with (q := None)| |discriminate].
    + constructor.
    + exists 0, 48, []. split; [reflexivity|]. split; [reflexivity|lia].
    + exists 0, ex_other_body, []. split; [rewrite app_nil_r; reflexivity|]. split.
      * repeat split; repeat constructor; cbn; try lia; discriminate.
      * split; [lia|]. apply stream_bytes_read, plain_stream. repeat constructor; cbn; lia.
Qed.
Example C87_ex_tidy : tidy 48 (on_channel 3 (note_events_of ex_other_events)).
Proof.
  change (on_channel 3 (note_events_of ex_other_events)) with
    [mkNE 0 3 60 100 true; mkNE 48 3 60 64 false; mkNE 48 3 60 80 true; mkNE 60 3 60 0 false].
  split; [|split; [|cbn; lia]].
  - constructor; [cbn; repeat split; try lia; exists 0; lia|]. constructor; [cbn; repeat split; try lia; exists 32; lia|].
    constructor; [cbn; repeat split; try lia; exists 32; lia|]. constructor; [cbn; repeat split; try lia; exists 40; lia|constructor].
  - intros a b e f (e' & f' & A & B & L & ON & OFF & _) A' B'. rewrite A in A'. rewrite B in B'. injection A' as <-. injection B' as <-.
    destruct a as [|[|[|[|[|a]]]]]; cbn in A; try discriminate A; injection A as <-; try discriminate ON;
      destruct b as [|[|[|[|[|b]]]]]; cbn in B; try discriminate B; try lia; injection B as <-; try discriminate OFF; cbn; lia.
Qed.
Definition ex_other_python : python :=
  mkPython ascii_digit shortest_digits (fun _ => Err OverflowError) (fun x => x) (fun _ _ _ => f_half) (fun _ a _ => a) cpython_sort.
Example C87_ex : forall h, reaches melodia ex_other_python (Ex (body taken_over "r") [("b", VBytes ex_other); ("k", VInt 3)] h [KFun])
  (fun w => exists h', w = Rt (VBool true) h' [] /\ keeps [] h h').
Proof.
  intros h. refine (C87_taken_over ex_other_python h ex_other 3 48 ex_other_events [] _ _ C87_ex_says _ C87_ex_tidy).
  - split; [exact ascii_digit_table|]. split; [exact (proj1 c74_sort)|]. split; [exact (proj2 c74_sort)|]. reflexivity.
  - unfold is_byte. vm_compute. repeat constructor; discriminate.
  - vm_compute. auto.
Qed.
(** The voice 1 of the same file is at no grid: read, written and read again it is another track. *)
Example C87_ex_needed : exists u cs z, midi_loads cpython_sort ex_other (Some 1) = Ok u /\ midi_dumps cpython_sort u f_120 0 = Ok cs /\
  midi_loads cpython_sort cs None = Ok z /\ eq_result cpython_sort z u = false.
Proof. eexists _, _, _. split; [vm_compute; reflexivity|]. split; [vm_compute; reflexivity|]. split; [vm_compute; reflexivity|]. vm_compute. reflexivity. Qed.

(** Two notes on channel 9 at 90 beats per minute, the velocities of the bytes 80 and 127. *)
Definition ex_voice_ops : list op :=
  [OAdd (WNote (mkNote (mkTone 36) (mkSig 1 4) (velocity_of_byte 80))) (Some (SA_sig (mkSig 0 1))); OAdd (WNote (mkNote (mkTone 36) (mkSig 1 8) f_one)) (Some (SA_sig (mkSig 1 4)))].
Definition ex_voice_contents : list (sig * note) :=
  [(mkSig 0 1, mkNote (mkTone 36) (mkSig 1 4) (velocity_of_byte 80)); (mkSig 1 4, mkNote (mkTone 36) (mkSig 1 8) f_one)].
Lemma ex_voice_all : contents cpython_sort (mkSig 4 4) ex_voice_ops = ex_voice_contents.
Proof. vm_compute. reflexivity. Qed.
Example C88_ex_storable : storable ex_voice_contents /\ Forall byte_velocity ex_voice_contents.
Proof.
  split.
  - split; [discriminate|]. split; [repeat constructor; cbv; discriminate|]. split; [repeat constructor|]. split; [cbn; lia|].
    split; [apply FOP_cons; [apply Forall_cons; [intros _; left; cbv; discriminate|apply Forall_nil]|apply FOP_cons; [apply Forall_nil|apply FOP_nil]]|].
    split; [intros e f [<-|[<-|[]]] [<-|[<-|[]]] H1 H2; try reflexivity; cbv in H1; discriminate|].
    split; [repeat constructor; vm_compute; discriminate|].
    constructor; [split; [exists 0|exists 96]; reflexivity|]. constructor; [split; [exists 96|exists 48]; reflexivity|constructor].
  - constructor; [exists 80; split; [lia|reflexivity]|]. constructor; [exists 127; split; [lia|vm_compute; reflexivity]|constructor].
Qed.
Example C88_ex : forall h a b, track_at h a b (run cpython_sort (track_empty (mkSig 4 4)) ex_voice_ops) ->
  let vars := [("x", VRef a); ("q", VFloat (float_of_Z 90)); ("k", VInt 9); ("j", VInt 3)] in
  reaches melodia ex_other_python (Ex (body through "r") vars h [KFun]) (fun w => exists h', w = Rt (VBool true) h' [] /\ keeps [a; b] h h') /\
  reaches melodia ex_other_python (Ex (body elsewhere "y") vars h [KFun]) (fun w => exists h', w = Thr ValueError h').
Proof.
  intros h a b T vars. destruct (C88_channel ex_other_python h a b (mkSig 4 4) ex_voice_ops (float_of_Z 90) 9 3 []) as (R & _ & N).
  - split; [exact ascii_digit_table|]. split; [exact (proj1 c74_sort)|]. split; [exact (proj2 c74_sort)|]. reflexivity.
  - split; [cbn; lia|exists 2; split; [lia|reflexivity]].
  - split; cbn; [lia|apply Z.leb_le; reflexivity].
  - apply simple_ops_ok. vm_compute. reflexivity.
  - exact T.
  - change (py_sort ex_other_python) with cpython_sort. rewrite ex_voice_all. apply C88_ex_storable.
  - change (py_sort ex_other_python) with cpython_sort. rewrite ex_voice_all. apply C88_ex_storable.
  - lia.
  - exists 666666. split; [vm_compute; reflexivity|lia].
  - split; [exact R|]. eapply reaches_trans; [apply N; lia|]. intros w (h' & E & _). apply reaches_here. eauto.
Qed.
(** A velocity between two bytes is not read again as it was: the track is another one. *)
Example C88_ex_needed : exists bs u, let t := run cpython_sort (track_empty (mkSig 4 4)) [OAdd (WNote (mkNote (mkTone 36) (mkSig 1 4) f_half)) (Some (SA_sig (mkSig 0 1)))] in
  midi_dumps cpython_sort t f_120 9 = Ok bs /\ midi_loads cpython_sort bs (Some 9) = Ok u /\ eq_result cpython_sort u t = false.
Proof. eexists _, _. cbv zeta. split; [vm_compute; reflexivity|]. split; [vm_compute; reflexivity|]. vm_compute. reflexivity. Qed.

(** One note of an eighth at 1/4, added at the end of a track of length 3/8. *)
Definition ex_first_ops : list op := [OAdd (WNote (mkNote (mkTone 48) (mkSig 3 8) f_one)) (Some (SA_sig (mkSig 0 1)))].
Definition ex_second_ops : list op := [OAdd (WNote (mkNote (mkTone 50) (mkSig 1 8) f_half)) (Some (SA_sig (mkSig 1 4)))].
Example C89_ex : forall h a b c d, track_at h a b (run cpython_sort (track_empty (mkSig 4 4)) ex_second_ops) ->
  track_at h c d (run cpython_sort (track_empty (mkSig 3 4)) ex_first_ops) -> a <> c -> b <> d ->
  reaches melodia ex_other_python (Ex (body (onto (App2 O_add (Var "p") (Var "o"))) "y") [("x", VRef a); ("y", VRef c)] h [KFun]) (fun r => exists d' z h',
    r = Rt (VRef c) h' [] /\ track_at h' c d' z /\ t_signature z = mkSig 3 4 /\ track_len z = 2 /\
    Permutation (map value_of (TrackSpec.yields cpython_sort z)) [(0%Q, 48, (3 # 8)%Q, 1%Q); ((5 # 8)%Q, 50, (1 # 8)%Q, (1 # 2)%Q)]).
Proof.
  intros h a b c d A B N1 N2.
  destruct (C89_append ex_other_python h a b c d (mkSig 4 4) ex_second_ops (mkSig 3 4) ex_first_ops []) with (6 := A) (7 := B) as (R & _); try assumption.
  - split; [exact ascii_digit_table|]. split; [exact (proj1 c74_sort)|]. split; [exact (proj2 c74_sort)|]. reflexivity.
  - split; [cbn; lia|exists 2; split; [lia|reflexivity]].
  - apply simple_ops_ok. vm_compute. reflexivity.
  - split; [cbn; lia|exists 2; split; [lia|reflexivity]].
  - apply simple_ops_ok. vm_compute. reflexivity.
  - eapply reaches_trans; [exact R|]. intros r (d' & z & h' & E & T & S & L & P & _). apply reaches_here. exists d', z, h'.
    split; [exact E|]. split; [exact T|]. split; [exact S|]. split; [rewrite L; vm_compute; reflexivity|].
    eapply perm_trans; [exact P|]. vm_compute. apply Permutation_refl.
Qed.
