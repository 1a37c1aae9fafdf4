(** Programs that write and read a track again and again: after the first time nothing changes any more. *)
From Coq Require Import ZArith QArith Qround Qreduction List Bool String Lia Permutation Sorted.
From Verif Require Import Py PyFloat PySort Signature Tone Note Track Show MidiWriter MidiReader Processing PyAst PySem PySource PyProgram SpecBase DecFacts SigFacts SortFacts FloatFacts NoteProps
  TrackSpec MidiSpec DumpSpec ReaderSpec TripSpec TrackFacts TrackProps WriterFacts WriterProps DumpProps TripProps StableProps SizeProps ModuleProps
  RefineBase RefineNote RefineTrack RefineSpec RefineTrackProps RefineDeep RefineDumps RefineDumpProps RefineTests RefineTerm Client RefineStore RefineClient RefineClientProps RefineFiles.
Import ListNotations.
Open Scope string_scope.
Open Scope list_scope.
Open Scope Z_scope.

(** Notes of which nothing but the velocity is lost in a file. *)
Definition storable (l : list (sig * note)) : Prop :=
  l <> [] /\ Forall (fun e => in_midi_range 36 (snd e)) l /\ Forall (fun e => last_pulse 96 e < 2 ^ 28) l /\ Z.of_nat (List.length l) <= 1198000 /\
  ForallOrdPairs apart l /\ TripSpec.plain l /\ Forall audible l /\ Forall (whole_note 96) l.

Lemma red_same a b : Qred a = Qred b -> (a == b)%Q.
Proof. intros E. rewrite <- (Qred_correct a), E. apply Qred_correct. Qed.
(** Times and pitches are those of a note of the other list. *)
Lemma same_times l k : Permutation (map value_of k) (map (requantised 0) l) -> forall e, In e k -> exists f, In f l /\
  (sval (fst e) == sval (fst f))%Q /\ pitch (n_tone (snd e)) = pitch (n_tone (snd f)) /\ (sval (n_duration (snd e)) == sval (n_duration (snd f)))%Q.
Proof.
  intros P e I. assert (J : In (value_of e) (map (requantised 0) l)) by (eapply Permutation_in; [exact P|apply in_map; exact I]).
  apply in_map_iff in J. destruct J as (f & E & J). exists f. split; [exact J|]. unfold requantised, value_of in E. assert (E1 : Qred (sval (fst e)) = Qred (sval (fst f))) by congruence. assert (E2 : pitch (n_tone (snd e)) = pitch (n_tone (snd f)) + 0) by congruence. assert (E3 : Qred (sval (n_duration (snd e))) = Qred (sval (n_duration (snd f)))) by congruence. clear E.
  split; [|split; [lia|]].
  - apply red_same, E1.
  - apply red_same, E3.
Qed.

Lemma one_trip sort w s ops : sort_contract sort -> writer_new ascii_digit 96 (TA_int 36) PyFloat.f_120 0 = Ok w -> valid_sig s -> sig_fits s -> Forall op_ok ops -> storable (contents sort s ops) ->
  exists bs u ops', trip sort 96 0 w (mkTone 36) (mkTone 36) (mkMR 24) s ops bs /\ Forall is_byte bs /\ load sort (mkMR 24) bs (Some 0) = Ok u /\
    u = run sort (track_empty s) ops' /\ Forall op_ok ops' /\ storable (contents sort s ops') /\ Forall byte_velocity (contents sort s ops') /\
    Permutation (map value_of (contents sort s ops')) (map (requantised 0) (contents sort s ops)).
Proof.
  intros C W V SF O (NE & R & LP & LE & H1 & H2 & H3 & H4). set (l := contents sort s ops) in *.
  assert (TA : tone_of_arg ascii_digit (TA_int 36) = Ok (mkTone 36)) by reflexivity.
  assert (TF : tempo_fits PyFloat.f_120) by (exists 500000; split; [vm_compute; reflexivity|lia]).
  destruct (c65_writes sort C _ _ _ _ _ w _ W TA ltac:(lia) s ops V O R SF TF LP ltac:(fold l; lia)) as (bs & EB & SZ). fold l in SZ.
  assert (TR : trip sort 96 0 w (mkTone 36) (mkTone 36) (mkMR 24) s ops bs).
  { split; [eauto|exists ascii_digit, (TA_int 36); split; reflexivity|exact V|exact O|exact EB|lia]. }
  destruct (c32_file sort C _ _ _ _ _ w W s ops V O bs EB) as (_ & _ & _ & _ & _ & B3 & _).
  destruct (c40_round_trip sort C _ _ _ _ _ _ _ _ _ TR H1 (plain_consistent _ H2) H3 H4) as (_ & _ & _ & _ & X). fold l in X.
  destruct (X NE) as (u & EL & SU & PU). change (pitch (mkTone 36) - pitch (mkTone 36)) with 0 in PU.
  destruct (c58_loaded sort C _ _ _ _ B3 EL) as (s' & ops' & V' & O' & _ & EU).
  destruct (run_inv sort C s' ops' O') as [I' S']. rewrite <- EU in I', S'. assert (SS : s' = s) by congruence. rewrite SS in EU, I'. fold (contents sort s ops') in I'.
  destruct (loaded_facts sort _ _ _ _ _ _ _ _ _ _ _ _ C TR EL I') as (_ & F2 & F3 & F4 & _).
  set (k := contents sort s ops') in *.
  assert (PK : Permutation (map value_of k) (map (requantised 0) l)) by (eapply perm_trans; [apply Permutation_sym, (inv_values sort u k C I')|exact PU]).
  pose proof (same_times l k PK) as ST. rewrite Forall_forall in R, LP, H4.
  exists bs, u, ops'. split; [exact TR|]. split; [exact B3|]. split; [exact EL|]. split; [exact EU|]. split; [exact O'|]. split; [|split; [exact F4|exact PK]].
  split; [intros Z; fold k in Z; rewrite Z in PK; apply Permutation_length in PK; rewrite !map_length in PK; destruct l; [congruence|discriminate PK]|].
  split; [apply Forall_forall; intros e I; destruct (ST e I) as (f & J & _ & E & _); specialize (R f J); unfold in_midi_range, note_pitch in *; rewrite E; exact R|].
  split; [apply Forall_forall; intros e I; destruct (ST e I) as (f & J & E1 & _ & E2); specialize (LP f J); unfold last_pulse in *; rewrite E1, E2; exact LP|].
  split; [pose proof (Permutation_length PK) as L; rewrite !map_length in L; fold k; rewrite L; exact LE|].
  split; [exact F2|]. split.
  { intros e f I J E1 E2. destruct (ST e I) as (e' & I2 & A1 & A2 & A3). destruct (ST f J) as (f' & J' & B1 & B2 & B4).
    rewrite A3, B4. apply H2; [exact I2|exact J'|rewrite <- A1, <- B1; exact E1|congruence]. }
  split; [exact F3|]. apply Forall_forall. intros e I. destruct (ST e I) as (f & J & E1 & _ & E2). destruct (H4 f J) as [(a & A) (b & B)].
  split; [exists a; rewrite E1; exact A|exists b; rewrite E2; exact B].
Qed.

(** Two trips. *)
Lemma two_trips Y s ops : sort_contract (py_sort Y) -> valid_sig s -> sig_fits s -> Forall op_ok ops -> storable (contents (py_sort Y) s ops) ->
  exists bs u cs z v, let t := run (py_sort Y) (track_empty s) ops in
    midi_dumps (py_sort Y) t PyFloat.f_120 0 = Ok bs /\ all_bytes bs = true /\ midi_loads (py_sort Y) bs (Some 0) = Ok u /\
    midi_dumps (py_sort Y) u PyFloat.f_120 0 = Ok cs /\ all_bytes cs = true /\ midi_loads (py_sort Y) cs None = Ok z /\ eq_result (py_sort Y) z u = true /\
    midi_loads (py_sort Y) cs (Some 0) = Ok v /\ midi_dumps (py_sort Y) v PyFloat.f_120 0 = Ok cs /\
    track_len u = track_len t.
Proof.
  intros C V SF O ST. destruct (writer_36 PyFloat.f_120 0 ltac:(lia)) as (w & W & TA & EW).
  destruct (one_trip _ w s ops C W V SF O ST) as (bs & u & ops' & TR & BB & EL & EU & O' & ST' & BV & PK).
  destruct (one_trip _ w s ops' C W V SF O' ST') as (cs & v & ops'' & TR' & BC & EL' & EV & O'' & ST'' & BV' & PK').
  destruct (c53_partial _ C _ _ _ _ _ _ _ _ _ _ _ _ _ TR EL EU TR' (proj1 (proj2 (proj2 (proj2 (proj2 (proj2 ST')))))) (or_intror (proj2 (proj2 (proj2 (proj2 (proj2 (proj2 (proj2 ST'))))))))) as (z & EZ & QZ & _ & _).
  assert (AB : forall b, Forall is_byte b -> all_bytes b = true).
  { intros b B. unfold all_bytes. apply forallb_forall. rewrite Forall_forall in B. intros x IX. specialize (B x IX). unfold is_byte in B. lia. }
  destruct (run_inv (py_sort Y) C s ops O) as [I _]. destruct (run_inv (py_sort Y) C s ops' O') as [I' _].
  exists bs, u, cs, z, v. cbv zeta. rewrite !EW.
  split; [exact (trip_dumped _ _ _ _ _ _ _ _ _ _ TR)|]. split; [apply AB, BB|]. split; [exact EL|].
  split; [rewrite EU; exact (trip_dumped _ _ _ _ _ _ _ _ _ _ TR')|]. split; [apply AB, BC|]. split; [exact EZ|]. split; [exact QZ|]. split; [exact EL'|].
  split.
  - assert (EM : map (requantised 0) (contents (py_sort Y) s ops') = map value_of (contents (py_sort Y) s ops')).
    { apply map_ext_in. intros e He. pose proof (inv_entries _ _ I') as OK. rewrite Forall_forall in OK, BV. apply requantised_same; auto. }
    rewrite EM in PK'.
    destruct (c52_partial _ C _ _ _ _ _ w s ops'' ops' W V O'' O' PK') as (D1 & _ & D2).
    specialize (D2 (plain_consistent _ (proj1 (proj2 (proj2 (proj2 (proj2 (proj2 ST''))))))) (plain_consistent _ (proj1 (proj2 (proj2 (proj2 (proj2 (proj2 ST')))))))).
    pose proof (trip_dumped _ _ _ _ _ _ _ _ _ _ TR') as DD. rewrite EV. unfold dumps in *. cbv zeta in *. rewrite D1, D2. exact DD.
  - rewrite EU, (inv_track_len _ _ I'), (inv_track_len _ _ I). pose proof (Permutation_length PK) as L. rewrite !map_length in L. unfold contents in L. rewrite L. reflexivity.
Qed.

(** b = midi.dumps(x); y = midi.loads(b, 0); c = midi.dumps(y); z = midi.loads(c); r = z == y; v = midi.loads(c, 0); d = midi.dumps(v); e = d == c *)
Definition again : cmd :=
  Seq (Dumps "b" "x" None) (Seq (Loads "y" (Var "b") (Some (Lit (OInt 0)))) (Seq (Dumps "c" "y" None) (Seq (Loads "z" (Var "c") None) (Seq (Same "r" true "z" "y")
    (Seq (Loads "v" (Var "c") (Some (Lit (OInt 0)))) (Seq (Dumps "d" "v" None) (Let "e" (App2 (O_cmp CEq) (Var "d") (Var "c"))))))))).
Lemma exec_dumps Y n y x st i t bs : free y = true -> track_of st x = Some (i, t) -> midi_dumps (py_sort Y) t PyFloat.f_120 0 = Ok bs ->
  exec Y (S n) (Dumps y x None) st = Some (Next (assign y (Val (OBytes bs)) (set_track i (d_track (module_dump Y t PyFloat.f_120 0)) st)) []).
Proof. intros F T D. cbn [exec]. rewrite F, T. unfold written. rewrite D. reflexivity. Qed.
Lemma same_text_refl b : same_text b b = true.
Proof. unfold same_text. destruct (list_eq_dec Z.eq_dec b b); [reflexivity|congruence]. Qed.
Lemma again_exec Y t bs u cs z v d : midi_dumps (py_sort Y) t PyFloat.f_120 0 = Ok bs -> all_bytes bs = true -> midi_loads (py_sort Y) bs (Some 0) = Ok u ->
  midi_dumps (py_sort Y) u PyFloat.f_120 0 = Ok cs -> all_bytes cs = true -> midi_loads (py_sort Y) cs None = Ok z -> eq_result (py_sort Y) z u = true ->
  midi_loads (py_sort Y) cs (Some 0) = Ok v -> midi_dumps (py_sort Y) v PyFloat.f_120 0 = Ok cs ->
  exists st, exec Y 11 again (mkStore [("x", Trk 0)] [t] d) = Some (Next st []) /\
    assoc "r" (s_vars st) = Some (Val (OBool true)) /\ assoc "e" (s_vars st) = Some (Val (OBool true)) /\ s_draws st = d.
Proof.
  intros D1 A1 L1 D2 A2 L2 EQ L3 D3.
  set (t2 := d_track (module_dump Y t PyFloat.f_120 0)). set (u2 := d_track (module_dump Y u PyFloat.f_120 0)). set (v2 := d_track (module_dump Y v PyFloat.f_120 0)).
  assert (EQ' : exists z3 u3, track_eq (py_sort Y) z u2 = (true, z3, u3)).
  { assert (X : eq_result (py_sort Y) z u2 = true).
    { unfold u2. destruct (dumped_track Y u PyFloat.f_120 0) as [-> | ->]; [exact EQ|].
      rewrite <- EQ. unfold eq_result, track_eq. rewrite iter_signature, iter_twice. destruct (negb _); reflexivity. }
    unfold eq_result in X. destruct (track_eq (py_sort Y) z u2) as [[r z3] u3]. cbn in X. subst r. eauto. }
  destruct EQ' as (z3 & u3 & EQ').
  assert (E1 : forall N, exec Y (S N) (Dumps "b" "x" None) (mkStore [("x", Trk 0)] [t] d) = Some (Next (mkStore [("x", Trk 0); ("b", Val (OBytes bs))] [t2] d) [])).
  { intros N. erewrite (exec_dumps Y N "b" "x" _ 0%nat t bs); [reflexivity|reflexivity|reflexivity|exact D1]. }
  assert (E2 : forall N, exec Y (S N) (Loads "y" (Var "b") (Some (Lit (OInt 0)))) (mkStore [("x", Trk 0); ("b", Val (OBytes bs))] [t2] d) =
    Some (Next (mkStore [("x", Trk 0); ("b", Val (OBytes bs)); ("y", Trk 1)] [t2; u] d) [])).
  { intros N. cbn [exec]. change (free "y") with true. cbn iota. unfold given. change (mean Y _ (Var "b")) with (Some (Ok (OBytes bs))). change (mean Y _ (Lit (OInt 0))) with (Some (Ok (OInt 0))). cbv beta iota. rewrite A1, L1. reflexivity. }
  assert (E3 : forall N, exec Y (S N) (Dumps "c" "y" None) (mkStore [("x", Trk 0); ("b", Val (OBytes bs)); ("y", Trk 1)] [t2; u] d) =
    Some (Next (mkStore [("x", Trk 0); ("b", Val (OBytes bs)); ("y", Trk 1); ("c", Val (OBytes cs))] [t2; u2] d) [])).
  { intros N. erewrite (exec_dumps Y N "c" "y" _ 1%nat u cs); [reflexivity|reflexivity|reflexivity|exact D2]. }
  assert (E4 : forall N, exec Y (S N) (Loads "z" (Var "c") None) (mkStore [("x", Trk 0); ("b", Val (OBytes bs)); ("y", Trk 1); ("c", Val (OBytes cs))] [t2; u2] d) =
    Some (Next (mkStore [("x", Trk 0); ("b", Val (OBytes bs)); ("y", Trk 1); ("c", Val (OBytes cs)); ("z", Trk 2)] [t2; u2; z] d) [])).
  { intros N. cbn [exec]. change (free "z") with true. cbn iota. unfold given. change (mean Y _ (Var "c")) with (Some (Ok (OBytes cs))). cbv beta iota. rewrite A2, L2. reflexivity. }
  assert (E5 : forall N, exec Y (S N) (Same "r" true "z" "y") (mkStore [("x", Trk 0); ("b", Val (OBytes bs)); ("y", Trk 1); ("c", Val (OBytes cs)); ("z", Trk 2)] [t2; u2; z] d) =
    Some (Next (mkStore [("x", Trk 0); ("b", Val (OBytes bs)); ("y", Trk 1); ("c", Val (OBytes cs)); ("z", Trk 2); ("r", Val (OBool true))] [t2; u3; z3] d) [])).
  { intros N. cbn [exec]. change (free "r") with true. cbn iota. unfold track_of. cbn [s_vars s_tracks assoc String.eqb Ascii.eqb Bool.eqb nth_error]. unfold same. rewrite EQ'. reflexivity. }
  assert (E6 : forall N, exec Y (S N) (Loads "v" (Var "c") (Some (Lit (OInt 0)))) (mkStore [("x", Trk 0); ("b", Val (OBytes bs)); ("y", Trk 1); ("c", Val (OBytes cs)); ("z", Trk 2); ("r", Val (OBool true))] [t2; u3; z3] d) =
    Some (Next (mkStore [("x", Trk 0); ("b", Val (OBytes bs)); ("y", Trk 1); ("c", Val (OBytes cs)); ("z", Trk 2); ("r", Val (OBool true)); ("v", Trk 3)] [t2; u3; z3; v] d) [])).
  { intros N. cbn [exec]. change (free "v") with true. cbn iota. unfold given. change (mean Y _ (Var "c")) with (Some (Ok (OBytes cs))). change (mean Y _ (Lit (OInt 0))) with (Some (Ok (OInt 0))). cbv beta iota. rewrite A2, L3. reflexivity. }
  assert (E7 : forall N, exec Y (S N) (Dumps "d" "v" None) (mkStore [("x", Trk 0); ("b", Val (OBytes bs)); ("y", Trk 1); ("c", Val (OBytes cs)); ("z", Trk 2); ("r", Val (OBool true)); ("v", Trk 3)] [t2; u3; z3; v] d) =
    Some (Next (mkStore [("x", Trk 0); ("b", Val (OBytes bs)); ("y", Trk 1); ("c", Val (OBytes cs)); ("z", Trk 2); ("r", Val (OBool true)); ("v", Trk 3); ("d", Val (OBytes cs))] [t2; u3; z3; v2] d) [])).
  { intros N. erewrite (exec_dumps Y N "d" "v" _ 3%nat v cs); [reflexivity|reflexivity|reflexivity|exact D3]. }
  assert (E8 : forall N, exec Y (S N) (Let "e" (App2 (O_cmp CEq) (Var "d") (Var "c"))) (mkStore [("x", Trk 0); ("b", Val (OBytes bs)); ("y", Trk 1); ("c", Val (OBytes cs)); ("z", Trk 2); ("r", Val (OBool true)); ("v", Trk 3); ("d", Val (OBytes cs))] [t2; u3; z3; v2] d) =
    Some (Next (mkStore [("x", Trk 0); ("b", Val (OBytes bs)); ("y", Trk 1); ("c", Val (OBytes cs)); ("z", Trk 2); ("r", Val (OBool true)); ("v", Trk 3); ("d", Val (OBytes cs)); ("e", Val (OBool true))] [t2; u3; z3; v2] d) [])).
  { intros N. cbn [exec]. change (free "e") with true. cbn iota. unfold given. change (mean Y _ (App2 (O_cmp CEq) (Var "d") (Var "c"))) with (Some (Ok (OBool (same_text cs cs)))). rewrite same_text_refl. reflexivity. }
  clearbody t2 u2 v2. eexists. split; [unfold again|].
  { eapply exec_seq; [apply E1|]. eapply exec_seq; [apply E2|]. eapply exec_seq; [apply E3|]. eapply exec_seq; [apply E4|]. eapply exec_seq; [apply E5|]. eapply exec_seq; [apply E6|]. eapply exec_seq; [apply E7|apply E8]. }
  repeat split; reflexivity.
Qed.

Lemma c86_again : forall Y h a b s ops K, usual Y -> valid_sig s -> sig_fits s -> Forall op_ok ops ->
  track_at h a b (run (py_sort Y) (track_empty s) ops) -> storable (contents (py_sort Y) s ops) ->
  let ends_with x v := reaches melodia Y (Ex (body again x) [("x", VRef a)] h (KFun :: K)) (fun w => exists h', w = Rt v h' K /\ keeps [a; b] h h') in
  (** the track that was read is read again from its own file, *)
  ends_with "r" (VBool true) /\
  (** and from then on the bytes stay the same *)
  ends_with "e" (VBool true).
Proof.
  intros Y h a b s ops K U V SF O T ST ends_with. pose proof U as (_ & _ & C & _). destruct (run_inv (py_sort Y) C s ops O) as [I S].
  destruct (two_trips Y s ops C V SF O ST) as (bs & u & cs & z & v & D1 & A1 & L1 & D2 & A2 & L2 & EQ & L3 & D3 & _). set (t := run (py_sort Y) (track_empty s) ops) in *.
  assert (SO : sound t) by (split; [eauto|rewrite S; exact V]).
  destruct (again_exec Y t bs u cs z v (h_calls h) D1 A1 L1 D2 A2 L2 EQ L3 D3) as (st & EX & ER & EE & ED).
  assert (F : forall x, assoc x (s_vars st) = Some (Val (OBool true)) -> ends_with x (VBool true)).
  { intros x AX. unfold ends_with. eapply reaches_trans; [eapply (c81_functions Y 11 again x _ _ _ h _ _ (Val (OBool true)) K U (one_track h a b t T SO) EX AX)|].
    intros q (P' & r' & h' & -> & A' & GR & _). apply reaches_here. exists h'. split; [reflexivity|]. split; [|rewrite <- ED; exact (a_draws _ _ _ _ A')].
    intros p o NP. apply (g_kept _ _ _ _ _ GR). exact NP. }
  split; apply F; assumption.
Qed.
