(** Files written by other programs: what was read from one is written and read again without change. *)
From Coq Require Import ZArith QArith Qround Qreduction List Bool String Lia Lqa Permutation Sorted.
From Verif Require Import Py PyFloat PySort Signature Tone Note Track Show MidiWriter MidiReader Processing PyAst PySem PySource PyProgram SpecBase DecFacts SigFacts SortFacts FloatFacts NoteProps
  TrackSpec MidiSpec DumpSpec ReaderSpec AcceptSpec TripSpec TrackFacts TrackProps VelocityFacts PairFacts LoadFacts LoadProps AcceptProps WriterFacts WriterProps DumpProps TripFacts TripProps StableProps SizeProps ModuleProps
  RefineBase RefineNote RefineTrack RefineSpec RefineTrackProps RefineDeep RefineDumps RefineDumpProps RefineTests RefineTerm Client RefineStore RefineClient RefineClientProps RefineFiles RefineStable.
Import ListNotations.
Open Scope string_scope.
Open Scope list_scope.
Open Scope Z_scope.

(** The note events of a channel at [q] ticks per quarter: data bytes are below 128, times are multiples of the 128th part of a whole note and
    not beyond what can be written, every note lasts, and there are not too many. *)
Definition tidy (q : Z) (l : list note_event) : Prop :=
  Forall (fun e => ne_pitch e <= 127 /\ ne_velocity e <= 127 /\ (q | 32 * ne_time e) /\ 96 * ne_time e < 2 ^ 28 * q) l /\
  (forall a b e f, is_note l a b -> nth_error l a = Some e -> nth_error l b = Some f -> ne_time e < ne_time f) /\
  Z.of_nat (List.length l) <= 1198000.

Lemma listed_length l pairs : notes_listed l pairs -> (List.length pairs <= List.length l)%nat.
Proof.
  intros [H S]. rewrite <- (map_length snd pairs), <- (seq_length (List.length l) 0). apply NoDup_incl_length.
  - clear H. induction S as [|x r _ IH F]; constructor; [|exact IH]. intros I. rewrite Forall_forall in F. specialize (F x I). lia.
  - intros x I. apply in_map_iff in I. destruct I as ([a b] & <- & I). apply H in I. destruct I as (e & f & _ & B & _). apply in_seq. cbn [snd].
    assert (b < List.length l)%nat by (apply nth_error_Some; congruence). lia.
Qed.

Lemma chan_sig_fits evs c : evs_ok evs -> sig_fits (chan_sig evs c).
Proof.
  intros (He & _). assert (HB : forall p nn dd, last_signature p (signatures_of (-1) evs) = Some (nn, dd) -> sig_fits (mkSig nn (2 ^ dd))).
  { intros p nn dd H. apply last_signature_in in H. destruct (signatures_bytes evs (-1) He _ H) as [H1 H2]. unfold is_byte in *. cbn [fst snd] in *.
    split; cbn [nominator denominator]; [lia|]. apply Z.pow_le_mono_r; lia. }
  unfold chan_sig. destruct (last_signature c _) as [[nn dd]|] eqn:E; [eapply HB, E|].
  destruct (last_signature (-1) _) as [[nn dd]|] eqn:E2; [eapply HB, E2|]. split; cbn [nominator denominator]; [lia|]. apply Z.leb_le. reflexivity.
Qed.

(** A time on the grid is a whole number of pulses. *)
Lemma grid_time q t : 0 < q -> (q | 32 * t) -> exists j, 32 * t = j * q /\ ((t * 4096 / q)%Z # 16384 == j # 128)%Q.
Proof.
  intros Q (j & E). exists j. split; [exact E|]. replace (t * 4096) with (j * 128 * q) by lia. rewrite Z.div_mul by lia.
  unfold Qeq. cbn [Qnum Qden]. lia.
Qed.
Lemma grid_pulses j : (inject_Z (4 * 96) * (j # 128) == inject_Z (3 * j))%Q.
Proof. unfold Qeq, Qmult, inject_Z. cbn [Qnum Qden]. lia. Qed.

Lemma other_file Y data k q evs : sort_contract (py_sort Y) -> Forall is_byte data -> file_says data q evs -> In k (voices evs) ->
  tidy q (on_channel k (note_events_of evs)) ->
  exists u cs z, midi_loads (py_sort Y) data (Some k) = Ok u /\ midi_dumps (py_sort Y) u PyFloat.f_120 0 = Ok cs /\ all_bytes cs = true /\
    midi_loads (py_sort Y) cs None = Ok z /\ eq_result (py_sort Y) z u = true.
Proof.
  intros C B F K (T1 & T2 & T3). destruct (accepted_finish (py_sort Y) (mkMR 24) data q evs C B F) as (_ & OK & _).
  destruct (c57_meaning (py_sort Y) C (mkMR 24) data q evs B F) as (M & _). destruct (M k K) as (u & pairs & EL & NL & PU & SU). clear M.
  set (l := on_channel k (note_events_of evs)) in *. cbn [mr_delta] in PU.
  pose proof (c59_apart (py_sort Y) C (mkMR 24) data k u B EL) as AP.
  destruct (c58_loaded (py_sort Y) C _ _ _ _ B EL) as (s & ops & V & O & _ & EU).
  destruct (run_inv (py_sort Y) C s ops O) as [I S]. rewrite <- EU in I, S. fold (contents (py_sort Y) s ops) in I. set (c := contents (py_sort Y) s ops) in *.
  assert (SF : sig_fits s) by (rewrite <- S, SU; apply chan_sig_fits, OK).
  pose proof (inv_values (py_sort Y) u c C I) as PC. pose proof (inv_entries _ _ I) as EC.
  destruct (channel_events_ok k evs OK) as [NE _]. fold l in NE.
  assert (X : forall e, In e c -> exists x y i j, 0 < q /\ 1 <= ne_velocity x <= 127 /\ 0 <= ne_pitch x <= 127 /\ 32 * ne_time x = i * q /\
    32 * ne_time y = j * q /\ ne_time x < ne_time y /\ 96 * ne_time y < 2 ^ 28 * q /\
    (sval (fst e) == i # 128)%Q /\ pitch (n_tone (snd e)) = ne_pitch x - 24 /\ (sval (n_duration (snd e)) == (j - i) # 128)%Q /\
    (fval (n_velocity (snd e)) == fval (velocity_of_byte (ne_velocity x)))%Q).
  { intros e IE. assert (J : In (value_of e) (map (ReaderSpec.note_read 24 q l) pairs)).
    { eapply Permutation_in; [exact PU|]. eapply Permutation_in; [apply Permutation_sym; exact PC|apply in_map; exact IE]. }
    apply in_map_iff in J. destruct J as ([a b] & E & J). apply NL in J. pose proof J as N. destruct J as (x & y & HA & HB & _ & ON & _ & _ & _ & _).
    pose proof (T2 a b x y N HA HB) as LT. unfold ReaderSpec.note_read in E. cbn [fst snd] in E. rewrite HA, HB in E.
    rewrite Forall_forall in T1, NE. pose proof (nth_error_In _ _ HA) as IA. pose proof (nth_error_In _ _ HB) as IB.
    destruct (T1 x IA) as (P1 & P2 & P3 & P4). destruct (T1 y IB) as (_ & _ & P5 & P6). destruct (NE x IA) as (P7 & P8 & P9). unfold is_byte in *.
    assert (Q : 0 < q) by nia.
    assert (VX : ne_velocity x <> 0).
    { intros Z. apply filter_In in IA. destruct IA as [IA _]. apply in_flat_map in IA. destruct IA as (te & _ & IA). unfold note_event_of in IA.
      destruct (snd te); cbn in IA; try tauto; destruct IA as [<-|[]]; cbn in *; [discriminate|]. subst. discriminate. }
    destruct (grid_time q (ne_time x) Q P3) as (i & E1 & G1). destruct (grid_time q (ne_time y) Q P5) as (j & E2 & _).
    destruct (grid_time q (ne_time y - ne_time x) Q) as (m & E3 & G3); [exists (j - i); lia|].
    assert (m = j - i) by nia. subst m. unfold value_of in E. symmetry in E. apply four_parts in E. destruct E as (V1 & V2 & V3 & V4).
    apply red_same in V1, V3, V4. exists x, y, i, j. split; [exact Q|]. split; [lia|]. split; [lia|]. split; [exact E1|]. split; [exact E2|]. split; [exact LT|]. split; [exact P6|].
    split; [rewrite V1; exact G1|]. split; [exact V2|]. split; [rewrite V3; exact G3|exact V4]. }
  assert (R : Forall (fun e => in_midi_range 36 (snd e)) c).
  { apply Forall_forall. intros e IE. destruct (X e IE) as (x & y & i & j & _ & _ & P & _ & _ & _ & _ & _ & E & _). unfold in_midi_range, note_pitch. rewrite E. lia. }
  assert (W : Forall (whole_note 96) c).
  { apply Forall_forall. intros e IE. destruct (X e IE) as (x & y & i & j & _ & _ & _ & _ & _ & _ & _ & E1 & _ & E2 & _).
    split; [exists (3 * i); rewrite E1; apply grid_pulses|exists (3 * (j - i)); rewrite E2; apply grid_pulses]. }
  assert (LP : Forall (fun e => last_pulse 96 e < 2 ^ 28) c).
  { apply Forall_forall. intros e IE. destruct (X e IE) as (x & y & i & j & Q & _ & _ & _ & Ej & _ & L & E1 & _ & E2 & _).
    unfold last_pulse. rewrite E1, E2, !grid_pulses, !Qfloor_Z. nia. }
  assert (AU : Forall audible c).
  { apply Forall_forall. intros e IE. destruct (X e IE) as (x & y & i & j & _ & P & _ & _ & _ & _ & _ & _ & _ & _ & E). rewrite Forall_forall in EC. destruct (EC e IE) as [_ Hn].
    unfold audible. rewrite (note_velocity_eq _ Hn). pose proof (read_velocity_valid (ne_velocity x) ltac:(lia)) as Hvk.
    rewrite (vbyte_value _ _ (proj2 Hn) Hvk E). destruct (velocity_byte_eq _ Hvk) as [E2 _]. rewrite byte_again in E2 by lia.
    unfold vbyte. injection E2 as <-. lia. }
  assert (BV : Forall byte_velocity c).
  { apply Forall_forall. intros e IE. destruct (X e IE) as (x & y & i & j & _ & P & _ & _ & _ & _ & _ & _ & _ & _ & E). exists (ne_velocity x). split; [lia|exact E]. }
  assert (AC : ForallOrdPairs apart c) by (eapply apart_values; [exact PC|exact AP]).
  assert (LA : forall e, In e c -> (0 < sval (n_duration (snd e)))%Q).
  { intros e IE. destruct (X e IE) as (x & y & i & j & Q & _ & _ & Ei & Ej & L & _ & _ & _ & E & _). rewrite E. unfold Qlt. cbn [Qnum Qden]. nia. }
  assert (PL : TripSpec.plain c).
  { intros e f IE IF E1 E2. pose proof (LA e IE) as L1. pose proof (LA f IF) as L2. destruct (ForallOrdPairs_In AC e f IE IF) as [->|[H|H]]; [reflexivity| |]; exfalso.
    - destruct (H E2) as [H'|H']; unfold note_end in H'; lra.
    - destruct (H (eq_sym E2)) as [H'|H']; unfold note_end in H'; lra. }
  assert (LC : Z.of_nat (List.length c) <= 1198000).
  { pose proof (listed_length _ _ NL) as H. pose proof (Permutation_length PC) as H1. pose proof (Permutation_length PU) as H2. rewrite !map_length in H1, H2. lia. }
  destruct (writer_36 PyFloat.f_120 0 ltac:(lia)) as (w & WN & _ & EW).
  assert (TA : tone_of_arg ascii_digit (TA_int 36) = Ok (mkTone 36)) by reflexivity.
  assert (TF : tempo_fits PyFloat.f_120) by (exists 500000; split; [vm_compute; reflexivity|lia]).
  destruct (c65_writes (py_sort Y) C _ _ _ _ _ w _ WN TA ltac:(lia) s ops V O R SF TF LP ltac:(fold c; lia)) as (bs & EB & SZ). fold c in SZ.
  assert (TR : trip (py_sort Y) 96 0 w (mkTone 36) (mkTone 36) (mkMR 24) s ops bs).
  { split; [eauto|exists ascii_digit, (TA_int 36); split; reflexivity|exact V|exact O|exact EB|lia]. }
  destruct (c32_file (py_sort Y) C _ _ _ _ _ w WN s ops V O bs EB) as (_ & _ & _ & _ & _ & B3 & _).
  destruct (c40_equal (py_sort Y) C _ _ _ _ _ _ _ _ _ TR eq_refl AC PL AU W BV) as (z & EZ & QZ & _ & _). rewrite <- EU in EB, QZ.
  exists u, bs, z. split; [exact EL|]. split; [rewrite EW; exact EB|]. split; [|split; [exact EZ|exact QZ]].
  unfold all_bytes. apply forallb_forall. rewrite Forall_forall in B3. intros x IX. specialize (B3 x IX). unfold is_byte in B3. lia.
Qed.

(** y = midi.loads(b, k); c = midi.dumps(y); z = midi.loads(c); r = z == y *)
Definition taken_over : cmd :=
  Seq (Loads "y" (Var "b") (Some (Var "k"))) (Seq (Dumps "c" "y" None) (Seq (Loads "z" (Var "c") None) (Same "r" true "z" "y"))).
Lemma taken_over_exec Y data k u cs z d : all_bytes data = true -> midi_loads (py_sort Y) data (Some k) = Ok u ->
  midi_dumps (py_sort Y) u PyFloat.f_120 0 = Ok cs -> all_bytes cs = true -> midi_loads (py_sort Y) cs None = Ok z -> eq_result (py_sort Y) z u = true ->
  exists st, exec Y 7 taken_over (mkStore [("b", Val (OBytes data)); ("k", Val (OInt k))] [] d) = Some (Next st []) /\
    assoc "r" (s_vars st) = Some (Val (OBool true)) /\ s_draws st = d.
Proof.
  intros A1 L1 D2 A2 L2 EQ. set (u2 := d_track (module_dump Y u PyFloat.f_120 0)).
  assert (EQ' : exists z3 u3, track_eq (py_sort Y) z u2 = (true, z3, u3)).
  { assert (X : eq_result (py_sort Y) z u2 = true).
    { unfold u2. destruct (dumped_track Y u PyFloat.f_120 0) as [-> | ->]; [exact EQ|].
      rewrite <- EQ. unfold eq_result, track_eq. rewrite iter_signature, iter_twice. destruct (negb _); reflexivity. }
    unfold eq_result in X. destruct (track_eq (py_sort Y) z u2) as [[r z3] u3]. cbn in X. subst r. eauto. }
  destruct EQ' as (z3 & u3 & EQ'). pose (bk := [("b", Val (OBytes data)); ("k", Val (OInt k))]).
  assert (E2 : forall N, exec Y (S N) (Loads "y" (Var "b") (Some (Var "k"))) (mkStore [("b", Val (OBytes data)); ("k", Val (OInt k))] [] d) =
    Some (Next (mkStore [("b", Val (OBytes data)); ("k", Val (OInt k)); ("y", Trk 0)] [u] d) [])).
  { intros N. cbn [exec]. change (free "y") with true. cbn iota. unfold given. change (mean Y _ (Var "b")) with (Some (Ok (OBytes data))). change (mean Y _ (Var "k")) with (Some (Ok (OInt k))). cbv beta iota. rewrite A1, L1. reflexivity. }
  assert (E3 : forall N, exec Y (S N) (Dumps "c" "y" None) (mkStore [("b", Val (OBytes data)); ("k", Val (OInt k)); ("y", Trk 0)] [u] d) =
    Some (Next (mkStore [("b", Val (OBytes data)); ("k", Val (OInt k)); ("y", Trk 0); ("c", Val (OBytes cs))] [u2] d) [])).
  { intros N. erewrite (exec_dumps Y N "c" "y" _ 0%nat u cs); [reflexivity|reflexivity|reflexivity|exact D2]. }
  assert (E4 : forall N, exec Y (S N) (Loads "z" (Var "c") None) (mkStore [("b", Val (OBytes data)); ("k", Val (OInt k)); ("y", Trk 0); ("c", Val (OBytes cs))] [u2] d) =
    Some (Next (mkStore [("b", Val (OBytes data)); ("k", Val (OInt k)); ("y", Trk 0); ("c", Val (OBytes cs)); ("z", Trk 1)] [u2; z] d) [])).
  { intros N. cbn [exec]. change (free "z") with true. cbn iota. unfold given. change (mean Y _ (Var "c")) with (Some (Ok (OBytes cs))). cbv beta iota. rewrite A2, L2. reflexivity. }
  assert (E5 : forall N, exec Y (S N) (Same "r" true "z" "y") (mkStore [("b", Val (OBytes data)); ("k", Val (OInt k)); ("y", Trk 0); ("c", Val (OBytes cs)); ("z", Trk 1)] [u2; z] d) =
    Some (Next (mkStore [("b", Val (OBytes data)); ("k", Val (OInt k)); ("y", Trk 0); ("c", Val (OBytes cs)); ("z", Trk 1); ("r", Val (OBool true))] [u3; z3] d) [])).
  { intros N. cbn [exec]. change (free "r") with true. cbn iota. unfold track_of. cbn [s_vars s_tracks assoc String.eqb Ascii.eqb Bool.eqb nth_error]. unfold same. rewrite EQ'. reflexivity. }
  clearbody u2. eexists. split; [unfold taken_over|].
  { eapply exec_seq; [apply E2|]. eapply exec_seq; [apply E3|]. eapply exec_seq; [apply E4|apply E5]. }
  repeat split; reflexivity.
Qed.

Lemma file_vars h data k : agrees (mkStore [("b", Val (OBytes data)); ("k", Val (OInt k))] [] (h_calls h)) [] [("b", VBytes data); ("k", VInt k)] h.
Proof.
  split; try reflexivity.
  - repeat constructor; cbn; intuition discriminate.
  - repeat constructor.
  - repeat constructor.
  - split; [reflexivity| |]; intros [|i]; discriminate.
Qed.

Lemma c87_taken_over : forall Y h data k q evs K, usual Y -> Forall is_byte data -> file_says data q evs -> In k (voices evs) ->
  tidy q (on_channel k (note_events_of evs)) ->
  reaches melodia Y (Ex (body taken_over "r") [("b", VBytes data); ("k", VInt k)] h (KFun :: K)) (fun w => exists h', w = Rt (VBool true) h' K /\ keeps [] h h').
Proof.
  intros Y h data k q evs K U B F I T. pose proof U as (_ & _ & C & _).
  destruct (other_file Y data k q evs C B F I T) as (u & cs & z & L1 & D & A2 & L2 & EQ).
  assert (A1 : all_bytes data = true).
  { unfold all_bytes. apply forallb_forall. rewrite Forall_forall in B. intros x IX. specialize (B x IX). unfold is_byte in B. lia. }
  destruct (taken_over_exec Y data k u cs z (h_calls h) A1 L1 D A2 L2 EQ) as (st & EX & ER & ED).
  eapply reaches_trans; [eapply (c81_functions Y 7 taken_over "r" _ _ _ h _ _ (Val (OBool true)) K U (file_vars h data k) EX ER)|].
  intros w (P' & r' & h' & -> & A' & GR & _). apply reaches_here. exists h'. split; [reflexivity|]. split; [|rewrite <- ED; exact (a_draws _ _ _ _ A')].
  intros p o NP. apply (g_kept _ _ _ _ _ GR). exact NP.
Qed.
