(** Programs that choose a tempo and a channel: what is written on a channel is read from this channel, and from no other. *)
From Coq Require Import ZArith QArith Qround Qreduction List Bool String Lia Permutation Sorted.
From Verif Require Import Py PyFloat PySort Signature Tone Note Track Show MidiWriter MidiReader Processing PyAst PySem PySource PyProgram SpecBase DecFacts SigFacts SortFacts FloatFacts NoteProps
  TrackSpec MidiSpec DumpSpec ReaderSpec TripSpec TrackFacts TrackProps WriterFacts WriterProps DumpProps TripFacts TripProps StableProps SizeProps ModuleProps
  RefineBase RefineNote RefineTrack RefineSpec RefineTrackProps RefineDeep RefineDumps RefineDumpProps RefineTests RefineTerm Client RefineStore RefineClient RefineClientProps RefineFiles RefineStable.
Import ListNotations.
Open Scope string_scope.
Open Scope list_scope.
Open Scope Z_scope.

Lemma channel_trip Y s ops bpm k : sort_contract (py_sort Y) -> valid_sig s -> sig_fits s -> Forall op_ok ops -> storable (contents (py_sort Y) s ops) ->
  Forall byte_velocity (contents (py_sort Y) s ops) -> 0 <= k <= 15 -> tempo_fits bpm ->
  exists bs u z, let t := run (py_sort Y) (track_empty s) ops in
    midi_dumps (py_sort Y) t bpm k = Ok bs /\ all_bytes bs = true /\ midi_loads (py_sort Y) bs (Some k) = Ok u /\ eq_result (py_sort Y) u t = true /\
    midi_loads (py_sort Y) bs None = Ok z /\ eq_result (py_sort Y) z t = true /\
    forall j, j <> k -> midi_loads (py_sort Y) bs (Some j) = Err ValueError.
Proof.
  intros C V SF O (NE & R & LP & LE & H1 & H2 & H3 & H4) BV K TF. set (l := contents (py_sort Y) s ops) in *.
  destruct (writer_36 bpm k K) as (w & W & TA & EW).
  destruct (c65_writes (py_sort Y) C _ _ _ _ _ w _ W TA ltac:(lia) s ops V O R SF TF LP ltac:(fold l; lia)) as (bs & EB & SZ). fold l in SZ.
  assert (TR : trip (py_sort Y) 96 k w (mkTone 36) (mkTone 36) (mkMR 24) s ops bs).
  { split; [eauto|exists ascii_digit, (TA_int 36); split; reflexivity|exact V|exact O|exact EB|lia]. }
  destruct (c32_file (py_sort Y) C _ _ _ _ _ w W s ops V O bs EB) as (_ & _ & _ & _ & _ & B3 & _).
  destruct (c40_equal (py_sort Y) C _ _ _ _ _ _ _ _ _ TR eq_refl H1 H2 H3 H4 BV) as (z & EZ & QZ & _ & _).
  destruct (c40_round_trip (py_sort Y) C _ _ _ _ _ _ _ _ _ TR H1 (plain_consistent _ H2) H3 H4) as (_ & _ & _ & _ & X). fold l in X.
  destruct (X NE) as (u & EL & SU & PU). change (pitch (mkTone 36) - pitch (mkTone 36)) with 0 in PU.
  destruct (run_inv (py_sort Y) C s ops O) as [I S]. fold (contents (py_sort Y) s ops) in I. fold l in I.
  destruct (c58_loaded (py_sort Y) C _ _ _ _ B3 EL) as (s' & ops' & V' & O' & _ & EU).
  destruct (run_inv (py_sort Y) C s' ops' O') as [I' S']. rewrite <- EU in I', S'. set (c := log (py_sort Y) (track_empty s') ops') in *.
  assert (EM : map (requantised 0) l = map value_of l).
  { apply map_ext_in. intros e He. pose proof (inv_entries _ _ I) as OK. rewrite Forall_forall in OK, BV. apply requantised_same; auto. }
  rewrite EM in PU.
  assert (PC : Permutation (map value_of c) (map value_of l)) by (eapply perm_trans; [apply Permutation_sym, (inv_values (py_sort Y) u c C I')|exact PU]).
  exists bs, u, z. cbv zeta. rewrite EW. split; [exact EB|]. split.
  { unfold all_bytes. apply forallb_forall. rewrite Forall_forall in B3. intros x IX. specialize (B3 x IX). unfold is_byte in B3. lia. }
  split; [exact EL|]. split.
  { eapply (same_values_equal (py_sort Y) u c _ l C I' I); [rewrite SU; exact V|rewrite S; exact V|rewrite SU, S; reflexivity|exact PC| |].
    - apply plain_consistent. eapply plain_values; [exact PC|exact H2].
    - apply plain_consistent, H2. }
  split; [exact EZ|]. split; [exact QZ|]. intros j NJ.
  destruct (dumped_load (py_sort Y) _ _ _ _ _ _ _ _ _ bs (mkMR 24) C W TA V O EB ltac:(lia)) as (t0 & l0 & _ & _ & _ & _ & D & _).
  apply D. pose proof (Permutation_length (inv_values (py_sort Y) _ l C I)) as L. rewrite !map_length in L.
  destruct (TrackSpec.yields (py_sort Y) (run (py_sort Y) (track_empty s) ops)); [|exact NJ]. destruct l; [congruence|discriminate L].
Qed.

(** b = midi.dumps(x, q, k); y = midi.loads(b, k); r = y == x; z = midi.loads(b); e = z == x *)
Definition through : cmd :=
  Seq (Dumps "b" "x" (Some (Var "q", Var "k"))) (Seq (Loads "y" (Var "b") (Some (Var "k"))) (Seq (Same "r" true "y" "x")
    (Seq (Loads "z" (Var "b") None) (Same "e" true "z" "x")))).
(** b = midi.dumps(x, q, k); y = midi.loads(b, j) *)
Definition elsewhere : cmd := Seq (Dumps "b" "x" (Some (Var "q", Var "k"))) (Loads "y" (Var "b") (Some (Var "j"))).

Lemma exec_dumps_at Y n y x st i t bs q k : free y = true -> track_of st x = Some (i, t) -> mean Y (values (s_vars st)) (Var "q") = Some (Ok (OFloat q)) ->
  mean Y (values (s_vars st)) (Var "k") = Some (Ok (OInt k)) -> midi_dumps (py_sort Y) t q k = Ok bs ->
  exec Y (S n) (Dumps y x (Some (Var "q", Var "k"))) st = Some (Next (assign y (Val (OBytes bs)) (set_track i (d_track (module_dump Y t q k)) st)) []).
Proof. intros F T Q K D. cbn [exec]. rewrite F, T. unfold given. rewrite Q. cbv beta iota. rewrite K. cbv beta iota. unfold written. rewrite D. reflexivity. Qed.
Lemma eq_after Y u t t' : (t' = t \/ t' = fst (track_iter (py_sort Y) t)) -> eq_result (py_sort Y) u t = true ->
  exists u3 t3, track_eq (py_sort Y) u t' = (true, u3, t3) /\ (t3 = t \/ t3 = fst (track_iter (py_sort Y) t)).
Proof.
  intros H EQ. unfold eq_result in EQ.
  assert (X : fst (fst (track_eq (py_sort Y) u t')) = true /\ (snd (track_eq (py_sort Y) u t') = t \/ snd (track_eq (py_sort Y) u t') = fst (track_iter (py_sort Y) t))).
  { assert (E : fst (fst (track_eq (py_sort Y) u t')) = fst (fst (track_eq (py_sort Y) u t))).
    { destruct H as [-> | ->]; [reflexivity|]. unfold track_eq. rewrite iter_signature, iter_twice. destruct (negb _); reflexivity. }
    split; [rewrite E; exact EQ|]. destruct H as [-> | ->]; unfold track_eq; rewrite ?iter_signature, ?iter_twice; destruct (negb _); auto. }
  destruct (track_eq (py_sort Y) u t') as [[r u3] t3]. cbn [fst snd] in X. destruct X as [-> X]. exists u3, t3. auto.
Qed.

(** The variables: a track, a tempo and two channels. *)
Definition four (q : float) (k j : Z) : list (string * item) := [("x", Trk 0); ("q", Val (OFloat q)); ("k", Val (OInt k)); ("j", Val (OInt j))].
Lemma through_exec Y t q k j bs u z d : midi_dumps (py_sort Y) t q k = Ok bs -> all_bytes bs = true -> midi_loads (py_sort Y) bs (Some k) = Ok u ->
  eq_result (py_sort Y) u t = true -> midi_loads (py_sort Y) bs None = Ok z -> eq_result (py_sort Y) z t = true ->
  exists st, exec Y 8 through (mkStore (four q k j) [t] d) = Some (Next st []) /\
    assoc "r" (s_vars st) = Some (Val (OBool true)) /\ assoc "e" (s_vars st) = Some (Val (OBool true)) /\ s_draws st = d.
Proof.
  intros D A L1 Q1 L2 Q2. set (t2 := d_track (module_dump Y t q k)).
  destruct (eq_after Y u t t2 (dumped_track Y t q k) Q1) as (u3 & t3 & E3 & H3).
  destruct (eq_after Y z t t3 H3 Q2) as (z4 & t4 & E4 & _).
  assert (S1 : forall N, exec Y (S N) (Dumps "b" "x" (Some (Var "q", Var "k"))) (mkStore (four q k j) [t] d) =
    Some (Next (mkStore (four q k j ++ [("b", Val (OBytes bs))]) [t2] d) [])).
  { intros N. erewrite (exec_dumps_at Y N "b" "x" _ 0%nat t bs q k); [reflexivity|reflexivity|reflexivity|reflexivity|reflexivity|exact D]. }
  assert (S2 : forall N, exec Y (S N) (Loads "y" (Var "b") (Some (Var "k"))) (mkStore (four q k j ++ [("b", Val (OBytes bs))]) [t2] d) =
    Some (Next (mkStore (four q k j ++ [("b", Val (OBytes bs)); ("y", Trk 1)]) [t2; u] d) [])).
  { intros N. cbn [exec]. change (free "y") with true. cbn iota. unfold given. change (mean Y _ (Var "b")) with (Some (Ok (OBytes bs))). change (mean Y _ (Var "k")) with (Some (Ok (OInt k))). cbv beta iota. rewrite A, L1. reflexivity. }
  assert (S3 : forall N, exec Y (S N) (Same "r" true "y" "x") (mkStore (four q k j ++ [("b", Val (OBytes bs)); ("y", Trk 1)]) [t2; u] d) =
    Some (Next (mkStore (four q k j ++ [("b", Val (OBytes bs)); ("y", Trk 1); ("r", Val (OBool true))]) [t3; u3] d) [])).
  { intros N. cbn [exec]. change (free "r") with true. cbn iota. unfold track_of. cbn [four app s_vars s_tracks assoc String.eqb Ascii.eqb Bool.eqb nth_error]. unfold same. rewrite E3. reflexivity. }
  assert (S4 : forall N, exec Y (S N) (Loads "z" (Var "b") None) (mkStore (four q k j ++ [("b", Val (OBytes bs)); ("y", Trk 1); ("r", Val (OBool true))]) [t3; u3] d) =
    Some (Next (mkStore (four q k j ++ [("b", Val (OBytes bs)); ("y", Trk 1); ("r", Val (OBool true)); ("z", Trk 2)]) [t3; u3; z] d) [])).
  { intros N. cbn [exec]. change (free "z") with true. cbn iota. unfold given. change (mean Y _ (Var "b")) with (Some (Ok (OBytes bs))). cbv beta iota. rewrite A, L2. reflexivity. }
  assert (S5 : forall N, exec Y (S N) (Same "e" true "z" "x") (mkStore (four q k j ++ [("b", Val (OBytes bs)); ("y", Trk 1); ("r", Val (OBool true)); ("z", Trk 2)]) [t3; u3; z] d) =
    Some (Next (mkStore (four q k j ++ [("b", Val (OBytes bs)); ("y", Trk 1); ("r", Val (OBool true)); ("z", Trk 2); ("e", Val (OBool true))]) [t4; u3; z4] d) [])).
  { intros N. cbn [exec]. change (free "e") with true. cbn iota. unfold track_of. cbn [four app s_vars s_tracks assoc String.eqb Ascii.eqb Bool.eqb nth_error]. unfold same. rewrite E4. reflexivity. }
  clearbody t2. eexists. split; [unfold through|].
  { eapply exec_seq; [apply S1|]. eapply exec_seq; [apply S2|]. eapply exec_seq; [apply S3|]. eapply exec_seq; [apply S4|apply S5]. }
  repeat split; reflexivity.
Qed.
Lemma elsewhere_exec Y t q k j bs d : midi_dumps (py_sort Y) t q k = Ok bs -> all_bytes bs = true -> midi_loads (py_sort Y) bs (Some j) = Err ValueError ->
  exec Y 8 elsewhere (mkStore (four q k j) [t] d) = Some (Stop ValueError [d_track (module_dump Y t q k)]).
Proof.
  intros D A L. set (t2 := d_track (module_dump Y t q k)).
  assert (S1 : forall N, exec Y (S N) (Dumps "b" "x" (Some (Var "q", Var "k"))) (mkStore (four q k j) [t] d) =
    Some (Next (mkStore (four q k j ++ [("b", Val (OBytes bs))]) [t2] d) [])).
  { intros N. erewrite (exec_dumps_at Y N "b" "x" _ 0%nat t bs q k); [reflexivity|reflexivity|reflexivity|reflexivity|reflexivity|exact D]. }
  assert (S2 : forall N, exec Y (S N) (Loads "y" (Var "b") (Some (Var "j"))) (mkStore (four q k j ++ [("b", Val (OBytes bs))]) [t2] d) = Some (Stop ValueError [t2])).
  { intros N. cbn [exec]. change (free "y") with true. cbn iota. unfold given. change (mean Y _ (Var "b")) with (Some (Ok (OBytes bs))). change (mean Y _ (Var "j")) with (Some (Ok (OInt j))). cbv beta iota. rewrite A, L. reflexivity. }
  clearbody t2. unfold elsewhere. change (exec Y 8 (Seq ?a ?b) ?s) with (follow (exec Y 7 a s) (exec Y 7 b)). rewrite S1. cbn [follow]. rewrite S2. reflexivity.
Qed.
Lemma four_vars h a b t q k j : track_at h a b t -> sound t ->
  agrees (mkStore (four q k j) [t] (h_calls h)) [(a, b)] [("x", VRef a); ("q", VFloat q); ("k", VInt k); ("j", VInt j)] h.
Proof.
  intros A S. split; try reflexivity.
  - repeat constructor; cbn; intuition discriminate.
  - repeat constructor.
  - repeat constructor.
  - split; [reflexivity| |].
    + intros [|[|i]] u c d E F; try discriminate. injection E as <-. injection F as <- <-. auto.
    + intros [|[|i]] [|[|i']] c d e f N E F; try discriminate. congruence.
Qed.

Lemma c88_channel : forall Y h a b s ops q k j K, usual Y -> valid_sig s -> sig_fits s -> Forall op_ok ops ->
  track_at h a b (run (py_sort Y) (track_empty s) ops) ->
  storable (contents (py_sort Y) s ops) -> Forall byte_velocity (contents (py_sort Y) s ops) -> 0 <= k <= 15 -> tempo_fits q ->
  let vars := [("x", VRef a); ("q", VFloat q); ("k", VInt k); ("j", VInt j)] in
  let ends_with x v := reaches melodia Y (Ex (body through x) vars h (KFun :: K)) (fun w => exists h', w = Rt v h' K /\ keeps [a; b] h h') in
  (** read from its channel the track is the one that was written, *)
  ends_with "r" (VBool true) /\
  (** and without a channel too; *)
  ends_with "e" (VBool true) /\
  (** there is no other channel *)
  (j <> k -> reaches melodia Y (Ex (body elsewhere "y") vars h (KFun :: K)) (fun w => exists h', w = Thr ValueError h' /\
     forall p o, ~ In p [a; b] -> get h p = Some o -> get h' p = Some o)).
Proof.
  intros Y h a b s ops q k j K U V SF O T ST BV KK TF vars ends_with. pose proof U as (_ & _ & C & _). destruct (run_inv (py_sort Y) C s ops O) as [I S].
  destruct (channel_trip Y s ops q k C V SF O ST BV KK TF) as (bs & u & z & D & A & L1 & Q1 & L2 & Q2 & LJ). set (t := run (py_sort Y) (track_empty s) ops) in *.
  assert (SO : sound t) by (split; [eauto|rewrite S; exact V]).
  destruct (through_exec Y t q k j bs u z (h_calls h) D A L1 Q1 L2 Q2) as (st & EX & ER & EE & ED).
  assert (F : forall x, assoc x (s_vars st) = Some (Val (OBool true)) -> ends_with x (VBool true)).
  { intros x AX. unfold ends_with. eapply reaches_trans; [eapply (c81_functions Y 8 through x _ _ _ h _ _ (Val (OBool true)) K U (four_vars h a b t q k j T SO) EX AX)|].
    intros w (P' & r' & h' & -> & A' & GR & _). apply reaches_here. exists h'. split; [reflexivity|]. split; [|rewrite <- ED; exact (a_draws _ _ _ _ A')].
    intros p o NP. apply (g_kept _ _ _ _ _ GR). exact NP. }
  split; [apply F, ER|]. split; [apply F, EE|]. intros NJ.
  pose proof (elsewhere_exec Y t q k j bs (h_calls h) D A (LJ j NJ)) as EX'.
  eapply reaches_trans; [exact (c81_programs Y 0 8 elsewhere _ _ _ h [SReturn (EName "y")] (KFun :: K) _ U (four_vars h a b t q k j T SO) EX')|].
  intros w [(P' & T' & h' & -> & H' & GR & _)|[X _]]; [|discriminate X]. apply reaches_here. exists h'. split; [reflexivity|].
  intros p o NP. apply (g_kept _ _ _ _ _ GR). exact NP.
Qed.
