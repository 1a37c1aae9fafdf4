(** Programs that write a piece note by note, from their text to the track, the file and back. *)
From Coq Require Import ZArith QArith List Bool String Lia Permutation Sorted.
From Verif Require Import Py PyFloat PySort Signature Tone Note Track Show MidiWriter MidiReader Processing PyAst PySem PySource PyProgram SpecBase DecFacts SigFacts SortFacts FloatFacts NoteProps
  TrackSpec MidiSpec DumpSpec ReaderSpec TripSpec TrackFacts TrackProps WriterProps TripProps SizeProps ModuleProps
  RefineBase RefineNote RefineTrack RefineSpec RefineTrackProps RefineDeep RefineDumps RefineDumpProps RefineTests RefineTerm Client RefineStore RefineClient RefineClientProps RefineFiles.
Import ListNotations.
Open Scope string_scope.
Open Scope list_scope.
Open Scope Z_scope.

(** x.add(Note(pitch, (n, d), velocity), where=(m, e)) *)
Record line := mkLine { l_pitch : Z; l_n : Z; l_d : Z; l_velocity : float; l_m : Z; l_e : Z }.
Definition pair_of (n d : Z) : term := App2 O_pair (Lit (OInt n)) (Lit (OInt d)).
Definition line_cmd (i : line) : cmd :=
  Add "x" (New_note (Lit (OInt (l_pitch i))) (pair_of (l_n i) (l_d i)) (Lit (OFloat (l_velocity i)))) (Some (pair_of (l_m i) (l_e i))).
Fixpoint lines (l : list line) : cmd := match l with [] => Skip | i :: l => Seq (line_cmd i) (lines l) end.
(** x = Track((n, d)), then the lines *)
Definition piece (n d : Z) (l : list line) : cmd := Seq (New "x" (Some (pair_of n d))) (lines l).

Definition line_ok (i : line) : Prop := valid_sig (mkSig (l_n i) (l_d i)) /\ valid_velocity (l_velocity i) /\ valid_sig (mkSig (l_m i) (l_e i)).
Definition note_on_line (i : line) : sig * note := (mkSig (l_m i) (l_e i), mkNote (mkTone (l_pitch i)) (mkSig (l_n i) (l_d i)) (l_velocity i)).
Definition ops_on (l : list line) : list op := map (fun i => OAdd (WNote (snd (note_on_line i))) (Some (SA_iter [EInt (l_m i); EInt (l_e i)]))) l.

Lemma position_of_pair n d : position_of (SA_iter [EInt n; EInt d]) = if (0 <=? n) && (0 <? d) && (d =? 2 ^ Z.log2 d) then Some (mkSig n d) else None.
Proof. reflexivity. Qed.
Lemma pair_position n d : valid_sig (mkSig n d) -> position_of (SA_iter [EInt n; EInt d]) = Some (mkSig n d).
Proof.
  intros [A (k & B & E)]. cbn in A, E. rewrite position_of_pair, E, Z.log2_pow2, Z.eqb_refl by exact B.
  pose proof (Z.pow_pos_nonneg 2 k ltac:(lia) B). replace (0 <=? n) with true by lia. replace (0 <? 2 ^ k) with true by lia. reflexivity.
Qed.
Lemma pair_ok n d : valid_sig (mkSig n d) -> sig_of_arg (SA_iter [EInt n; EInt d]) = Ok (mkSig n d).
Proof. intros [A B]. exact (SigFacts.sig_new_ok n d A B). Qed.
Lemma pair_bad n d : ~ valid_sig (mkSig n d) -> sig_of_arg (SA_iter [EInt n; EInt d]) = Err ValueError.
Proof. intros V. apply (SigFacts.sig_new_err n d). intros [A B]. apply V. split; assumption. Qed.
Lemma sig_decides n d : valid_sig (mkSig n d) \/ ~ valid_sig (mkSig n d).
Proof.
  destruct (position_of (SA_iter [EInt n; EInt d])) as [p|] eqn:E.
  - left. pose proof (position_of_valid _ _ E ltac:(discriminate)) as V. rewrite position_of_pair in E. destruct (_ && _); [|discriminate]. injection E as <-. exact V.
  - right. intros V. rewrite (pair_position n d V) in E. discriminate.
Qed.
Lemma velocity_decides v : is_float v = true -> valid_velocity v \/ ~ valid_velocity v.
Proof.
  intros F. destruct (fle f_zero v && fle v f_one) eqn:E; [left; apply unit_test; assumption|right].
  intros V. apply (unit_test v F) in V. congruence.
Qed.

Lemma mean_pair Y vars n d : mean Y vars (pair_of n d) = Some (Ok (OPair n d)).
Proof. reflexivity. Qed.
Lemma mean_note Y vars p n d v : is_float v = true ->
  mean Y vars (New_note (Lit (OInt p)) (pair_of n d) (Lit (OFloat v))) =
    Some (answer ONote (let! s := sig_of_arg (SA_iter [EInt n; EInt d]) in note_init (mkTone p) s v)).
Proof. intros F. cbn [mean literal pair_of has mean2 tone_arg_of sig_arg_of]. rewrite F. reflexivity. Qed.

Lemma line_good Y n i t d : is_float (l_velocity i) = true -> line_ok i ->
  exec Y (S n) (line_cmd i) (mkStore [("x", Trk 0)] [t] d) = added 0 (track_add t (WNote (snd (note_on_line i))) (Some (SA_iter [EInt (l_m i); EInt (l_e i)]))) (mkStore [("x", Trk 0)] [t] d).
Proof.
  intros F (A & B & C). unfold line_cmd. cbn [exec]. unfold track_of. cbn [s_vars s_tracks assoc String.eqb Ascii.eqb Bool.eqb nth_error].
  unfold given. rewrite mean_note by exact F. rewrite (pair_ok _ _ A). cbn [bind]. rewrite (note_init_ok _ _ _ B). cbn [answer what_of].
  rewrite mean_pair. cbn [sig_arg_of]. reflexivity.
Qed.
Definition floats (l : list line) : Prop := Forall (fun i => is_float (l_velocity i) = true) l.
Lemma line_op_ok i : line_ok i -> op_ok (OAdd (WNote (snd (note_on_line i))) (Some (SA_iter [EInt (l_m i); EInt (l_e i)]))).
Proof. intros (A & B & _). split; [apply Forall_cons; [split; assumption|apply Forall_nil]|discriminate]. Qed.
Lemma lines_good Y l : floats l -> Forall line_ok l -> forall t lg d, Inv t lg ->
  exists T, exec Y (S (List.length l)) (lines l) (mkStore [("x", Trk 0)] [t] d) = Some (Next (mkStore [("x", Trk 0)] [run (py_sort Y) t (ops_on l)] d) T).
Proof.
  induction l as [|i l IH]; intros F O t lg d I; [exists []; reflexivity|]. inversion F as [|? ? F1 F2]; subst. inversion O as [|? ? O1 O2]; subst.
  set (r := track_add t (WNote (snd (note_on_line i))) (Some (SA_iter [EInt (l_m i); EInt (l_e i)]))).
  destruct (track_add_inv t lg _ _ I (line_op_ok i O1)) as (I' & _ & G & _). fold r in I', G.
  assert (G' : snd r = Ok tt) by (apply G; right; eexists _, _; split; [reflexivity|apply pair_position, O1]). clear G.
  destruct (IH F2 O2 (fst r) _ d I') as [T E]. exists ([0]%nat ++ T). cbn [lines List.length].
  change (follow (exec Y (S (List.length l)) (line_cmd i) (mkStore [("x", Trk 0)] [t] d)) (exec Y (S (List.length l)) (lines l)) =
    Some (Next (mkStore [("x", Trk 0)] [run (py_sort Y) (fst r) (ops_on l)] d) ([0]%nat ++ T))).
  rewrite line_good by assumption. fold r. unfold added. rewrite G'.
  unfold set_track. cbn [follow s_vars s_tracks s_draws set_nth]. rewrite E. reflexivity.
Qed.
Lemma line_bad Y n i t d : is_float (l_velocity i) = true -> ~ line_ok i -> exec Y (S n) (line_cmd i) (mkStore [("x", Trk 0)] [t] d) = Some (Stop ValueError [t]).
Proof.
  intros F B. unfold line_cmd. cbn [exec]. unfold track_of. cbn [s_vars s_tracks assoc String.eqb Ascii.eqb Bool.eqb nth_error].
  unfold given. rewrite mean_note by exact F.
  destruct (sig_decides (l_n i) (l_d i)) as [S|S]; [|rewrite (pair_bad _ _ S); reflexivity]. rewrite (pair_ok _ _ S). cbn [bind].
  destruct (velocity_decides _ F) as [V|V]; [|rewrite (note_init_err _ _ _ F V); reflexivity]. rewrite (note_init_ok _ _ _ V). cbn [answer what_of].
  rewrite mean_pair. cbn [sig_arg_of]. unfold added, track_add. rewrite pair_bad; [reflexivity|]. intros W. apply B. split; [exact S|]. split; assumption.
Qed.
Lemma line_decides i : is_float (l_velocity i) = true -> line_ok i \/ ~ line_ok i.
Proof.
  intros F. destruct (sig_decides (l_n i) (l_d i)) as [A|A], (velocity_decides _ F) as [B|B], (sig_decides (l_m i) (l_e i)) as [C|C];
    try (left; split; [exact A|split; assumption]); right; intros (A' & B' & C'); contradiction.
Qed.
Lemma lines_bad Y l : floats l -> ~ Forall line_ok l -> forall t lg d, Inv t lg ->
  exists ts, exec Y (S (List.length l)) (lines l) (mkStore [("x", Trk 0)] [t] d) = Some (Stop ValueError ts).
Proof.
  induction l as [|i l IH]; intros F O t lg d I; [exfalso; apply O; constructor|]. inversion F as [|? ? F1 F2]; subst. cbn [lines List.length].
  change (exists ts, follow (exec Y (S (List.length l)) (line_cmd i) (mkStore [("x", Trk 0)] [t] d)) (exec Y (S (List.length l)) (lines l)) = Some (Stop ValueError ts)).
  destruct (line_decides i F1) as [O1|O1]; [|rewrite line_bad by assumption; eexists; reflexivity].
  set (r := track_add t (WNote (snd (note_on_line i))) (Some (SA_iter [EInt (l_m i); EInt (l_e i)]))).
  destruct (track_add_inv t lg _ _ I (line_op_ok i O1)) as (I' & _ & G & _). fold r in I', G.
  assert (G' : snd r = Ok tt) by (apply G; right; eexists _, _; split; [reflexivity|apply pair_position, O1]). clear G.
  destruct (IH F2 (fun X => O (Forall_cons _ O1 X)) (fst r) _ d I') as [ts E]. exists ts.
  rewrite line_good by assumption. fold r. unfold added. rewrite G'.
  unfold set_track. cbn [follow s_vars s_tracks s_draws set_nth]. rewrite E. reflexivity.
Qed.

Lemma piece_good Y n d l c : floats l -> valid_sig (mkSig n d) -> Forall line_ok l ->
  exists T, exec Y (S (S (List.length l))) (piece n d l) (mkStore [] [] c) = Some (Next (mkStore [("x", Trk 0)] [run (py_sort Y) (track_empty (mkSig n d)) (ops_on l)] c) T).
Proof.
  intros F V O. destruct (lines_good Y l F O (track_empty (mkSig n d)) [] c (inv_empty _)) as [T E]. exists T.
  change (follow (exec Y (S (List.length l)) (New "x" (Some (pair_of n d))) (mkStore [] [] c)) (exec Y (S (List.length l)) (lines l)) =
    Some (Next (mkStore [("x", Trk 0)] [run (py_sort Y) (track_empty (mkSig n d)) (ops_on l)] c) T)).
  assert (E1 : exec Y (S (List.length l)) (New "x" (Some (pair_of n d))) (mkStore [] [] c) = Some (Next (mkStore [("x", Trk 0)] [track_empty (mkSig n d)] c) [])).
  { cbn [exec]. change (free "x") with true. cbn iota. unfold given. rewrite mean_pair. cbn [sig_arg_of]. unfold track_new. rewrite (pair_ok _ _ V). reflexivity. }
  rewrite E1. cbn [follow]. rewrite E. reflexivity.
Qed.
Lemma piece_bad Y n d l c : floats l -> ~ (valid_sig (mkSig n d) /\ Forall line_ok l) ->
  exists ts, exec Y (S (S (List.length l))) (piece n d l) (mkStore [] [] c) = Some (Stop ValueError ts).
Proof.
  intros F B. change (exists ts, follow (exec Y (S (List.length l)) (New "x" (Some (pair_of n d))) (mkStore [] [] c)) (exec Y (S (List.length l)) (lines l)) = Some (Stop ValueError ts)).
  cbn [exec]. change (free "x") with true. cbn iota. unfold given. rewrite mean_pair. cbn [sig_arg_of]. unfold track_new.
  destruct (sig_decides n d) as [V|V]; [|rewrite (pair_bad _ _ V); eexists; reflexivity]. rewrite (pair_ok _ _ V).
  destruct (lines_bad Y l F (fun X => B (conj V X)) (track_empty (mkSig n d)) [] c (inv_empty _)) as [ts E]. exists ts.
  change (follow (Some (Next (mkStore [("x", Trk 0)] [track_empty (mkSig n d)] c) [])) (exec Y (S (List.length l)) (lines l)) = Some (Stop ValueError ts)).
  cbn [follow]. rewrite E. reflexivity.
Qed.

Lemma ops_on_ok l : Forall line_ok l -> Forall op_ok (ops_on l).
Proof. intros O. unfold ops_on. rewrite Forall_map. eapply Forall_impl; [|exact O]. exact line_op_ok. Qed.
Lemma log_on sort l : Forall line_ok l -> forall t, log sort t (ops_on l) = map note_on_line l.
Proof.
  induction 1 as [|i l O _ IH]; intros t; [reflexivity|]. cbn [ops_on map log additions]. rewrite pair_position by apply O. cbn [notes_of map app].
  unfold ops_on in IH. rewrite IH. reflexivity.
Qed.
Lemma contents_on sort s l : Forall line_ok l -> contents sort s (ops_on l) = map note_on_line l.
Proof. intros O. apply log_on. exact O. Qed.

(** ** What the caller gets *)
Definition made (Y : python) (h : heap) (n d : Z) (l : list line) (w : state) (K : list frame) : Prop :=
  exists a b t h', w = Rt (VRef a) h' K /\ get h a = None /\ get h b = None /\ track_at h' a b t /\
    t_signature t = mkSig n d /\ track_len t = Z.of_nat (List.length l) /\
    Permutation (map placed (TrackSpec.yields (py_sort Y) t)) (map placed (map note_on_line l)) /\
    StronglySorted in_order (TrackSpec.yields (py_sort Y) t) /\ keeps [] h h'.
Lemma c83_score : forall Y n d l h K, usual Y -> floats l ->
  (valid_sig (mkSig n d) -> Forall line_ok l -> reaches melodia Y (Ex (body (piece n d l) "x") [] h (KFun :: K)) (fun w => made Y h n d l w K)) /\
  (~ (valid_sig (mkSig n d) /\ Forall line_ok l) ->
     reaches melodia Y (Ex (body (piece n d l) "x") [] h (KFun :: K)) (fun w => exists h', w = Thr ValueError h' /\ forall p o, get h p = Some o -> get h' p = Some o)).
Proof.
  intros Y n d l h K U F. pose proof U as (_ & _ & C & _). split.
  - intros V O. destruct (piece_good Y n d l (h_calls h) F V O) as [T E].
    eapply reaches_trans; [eapply (c81_functions Y _ _ "x" _ _ _ h _ _ (Trk 0) K U (start h) E eq_refl)|].
    intros w (P' & r' & h' & -> & A & G & _). apply reaches_here.
    pose proof (a_holds _ _ _ _ A) as HO. pose proof (h_length _ _ _ HO) as HL. destruct P' as [|[a b] [|? ?]]; try discriminate HL.
    destruct (h_at _ _ _ HO 0%nat _ a b eq_refl eq_refl) as [TA _]. cbn [s_tracks nth_error] in TA.
    destruct (run_inv (py_sort Y) C (mkSig n d) _ (ops_on_ok l O)) as [I S]. rewrite log_on in I by exact O.
    exists a, b, (run (py_sort Y) (track_empty (mkSig n d)) (ops_on l)), h'. split; [reflexivity|].
    assert (FR : forall p, In p [a; b] -> get h p = None).
    { intros p IP. destruct (g_new _ _ _ _ _ G p) as [[]|X]; [|exact X]. cbn. destruct IP as [<-|[<-|[]]]; auto. }
    split; [apply FR; left; reflexivity|]. split; [apply FR; right; left; reflexivity|]. split; [exact TA|]. split; [exact S|].
    split; [rewrite (inv_track_len _ _ I), map_length; reflexivity|].
    destruct (c17_contents (py_sort Y) C (mkSig n d) _ (ops_on_ok l O)) as [PM _]. rewrite log_on in PM by exact O. split; [exact PM|].
    split; [exact (c18_order (py_sort Y) C (mkSig n d) _ (ops_on_ok l O))|].
    split; [|exact (a_draws _ _ _ _ A)]. intros p o _. apply (g_kept _ _ _ _ _ G). intros [].
  - intros B. destruct (piece_bad Y n d l (h_calls h) F B) as [ts E].
    eapply reaches_trans; [exact (c81_programs Y 0 _ _ _ [] [] h [SReturn (EName "x")] (KFun :: K) _ U (start h) E)|].
    intros u [(P' & T & h' & -> & H & G & _)|[X _]]; [|discriminate X]. apply reaches_here. exists h'. split; [reflexivity|].
    intros p o. apply (g_kept _ _ _ _ _ G). intros [].
Qed.

(** ** The file *)
Lemma exec_then Y n c d st st' st'' T T' : exec Y n c st = Some (Next st' T) -> exec Y n d st' = Some (Next st'' T') -> exec Y (S n) (Seq c d) st = Some (Next st'' (T ++ T')).
Proof. intros A B. cbn [exec]. rewrite A. cbn [follow]. rewrite B. reflexivity. Qed.
(** the piece, then b = midi.dumps(x, bpm, k) *)
Definition to_file (n d : Z) (l : list line) (bpm : float) (k : Z) : cmd := Seq (piece n d l) (Dumps "b" "x" (Some (Lit (OFloat bpm), Lit (OInt k)))).
Lemma c83_file : forall Y n d l bpm k h K, usual Y -> floats l -> valid_sig (mkSig n d) -> Forall line_ok l ->
  all_fit (mkSig n d) (map note_on_line l) bpm k -> Z.of_nat (List.length l) <= 2 ^ 28 ->
  reaches melodia Y (Ex (body (to_file n d l bpm k) "b") [] h (KFun :: K)) (fun w => exists bs h',
    w = Rt (VBytes bs) h' K /\ file_of (mkSig n d) (map note_on_line l) bpm k bs /\ keeps [] h h').
Proof.
  intros Y n d l bpm k h K U F V O FI LE. pose proof U as (_ & _ & C & _). destruct (piece_good Y n d l (h_calls h) F V O) as [T E].
  destruct (file_written (py_sort Y) (mkSig n d) (ops_on l) bpm k C V (ops_on_ok l O)) as (bs & EB & FB).
  { rewrite contents_on by exact O. exact FI. } { rewrite contents_on, map_length by exact O. exact LE. }
  rewrite contents_on in FB by exact O. set (t := run (py_sort Y) (track_empty (mkSig n d)) (ops_on l)) in *.
  set (t2 := d_track (module_dump Y t bpm k)).
  assert (E2 : exec Y (S (S (List.length l))) (Dumps "b" "x" (Some (Lit (OFloat bpm), Lit (OInt k)))) (mkStore [("x", Trk 0)] [t] (h_calls h)) =
    Some (Next (mkStore [("x", Trk 0); ("b", Val (OBytes bs))] [t2] (h_calls h)) [])).
  { cbn [exec]. change (free "b") with true. cbn iota. unfold track_of. cbn [s_vars s_tracks assoc String.eqb Ascii.eqb Bool.eqb nth_error]. unfold given. cbn [mean literal]. unfold written. rewrite EB. reflexivity. }
  pose proof (exec_then _ _ _ _ _ _ _ _ _ E E2) as E3.
  eapply reaches_trans; [eapply (c81_functions Y _ _ "b" _ _ _ h _ _ (Val (OBytes bs)) K U (start h) E3 eq_refl)|].
  intros w (P' & r' & h' & -> & A & G & _). apply reaches_here. exists bs, h'. split; [reflexivity|]. split; [exact FB|].
  split; [|exact (a_draws _ _ _ _ A)]. intros p o _. apply (g_kept _ _ _ _ _ G). intros [].
Qed.
(** the piece, then b = midi.dumps(x); y = midi.loads(b); r = y == x *)
Definition to_file_and_back (n d : Z) (l : list line) : cmd :=
  Seq (piece n d l) (Seq (Dumps "b" "x" None) (Seq (Loads "y" (Var "b") None) (Same "r" true "y" "x"))).
Lemma c83_back : forall Y n d l h K, usual Y -> floats l -> valid_sig (mkSig n d) -> Forall line_ok l ->
  let notes := map note_on_line l in
  Forall (fun e => in_midi_range 36 (snd e)) notes -> sig_fits (mkSig n d) -> Forall (fun e => last_pulse 96 e < 2 ^ 28) notes -> Z.of_nat (List.length l) <= 1198000 ->
  ForallOrdPairs apart notes -> TripSpec.plain notes -> Forall audible notes -> Forall (whole_note 96) notes -> Forall byte_velocity notes ->
  reaches melodia Y (Ex (body (to_file_and_back n d l) "r") [] h (KFun :: K)) (fun w => exists h', w = Rt (VBool true) h' K /\ keeps [] h h').
Proof.
  intros Y n d l h K U F V O notes R SF LP LE H1 H2 H3 H4 H5. pose proof U as (_ & _ & C & _). destruct (piece_good Y n d l (h_calls h) F V O) as [T E].
  pose proof (ops_on_ok l O) as OO. pose proof (contents_on (py_sort Y) (mkSig n d) l O) as CO. fold notes in CO.
  destruct (writer_36 PyFloat.f_120 0 ltac:(lia)) as (w & W & TA & EW).
  assert (TF : tempo_fits PyFloat.f_120) by (exists 500000; split; [vm_compute; reflexivity|lia]).
  assert (LN : Z.of_nat (List.length notes) <= 1198000) by (unfold notes; rewrite map_length; exact LE).
  rewrite <- CO in R, LP, LN, H1, H2, H3, H4, H5.
  destruct (c65_round_trip (py_sort Y) C ascii_digit 96 (TA_int 36) PyFloat.f_120 0 w _ ascii_digit (TA_int 36) (mkMR 24) _ W TA ltac:(lia) eq_refl TA eq_refl
    (mkSig n d) (ops_on l) V OO R SF TF LP LN H1 H2 H3 H4 H5) as (bs & u & EB & EL & EQ & _ & _).
  destruct (c32_file (py_sort Y) C _ _ _ _ _ w W (mkSig n d) (ops_on l) V OO bs EB) as (_ & _ & _ & _ & _ & B3 & _).
  set (t := run (py_sort Y) (track_empty (mkSig n d)) (ops_on l)) in *.
  assert (DU : midi_dumps (py_sort Y) t PyFloat.f_120 0 = Ok bs) by (rewrite EW; exact EB).
  assert (AB : all_bytes bs = true).
  { unfold all_bytes. apply forallb_forall. rewrite Forall_forall in B3. intros x IX. specialize (B3 x IX). unfold is_byte in B3. lia. }
  set (t2 := d_track (module_dump Y t PyFloat.f_120 0)).
  assert (EQ' : exists u3 t3, track_eq (py_sort Y) u t2 = (true, u3, t3)).
  { assert (X : eq_result (py_sort Y) u t2 = true).
    { unfold t2. destruct (dumped_track Y t PyFloat.f_120 0) as [-> | ->]; [exact EQ|].
      rewrite <- EQ. unfold eq_result, track_eq. rewrite iter_signature, iter_twice. destruct (negb _); reflexivity. }
    unfold eq_result in X. destruct (track_eq (py_sort Y) u t2) as [[r u3] t3]. cbn in X. subst r. eauto. }
  destruct EQ' as (u3 & t3 & EQ').
  assert (E1 : forall N, exec Y (S N) (Dumps "b" "x" None) (mkStore [("x", Trk 0)] [t] (h_calls h)) = Some (Next (mkStore [("x", Trk 0); ("b", Val (OBytes bs))] [t2] (h_calls h)) [])).
  { intros N. cbn [exec]. change (free "b") with true. cbn iota. unfold track_of. cbn [s_vars s_tracks assoc String.eqb Ascii.eqb Bool.eqb nth_error]. unfold written. rewrite DU. reflexivity. }
  assert (E2 : forall N, exec Y (S N) (Loads "y" (Var "b") None) (mkStore [("x", Trk 0); ("b", Val (OBytes bs))] [t2] (h_calls h)) =
    Some (Next (mkStore [("x", Trk 0); ("b", Val (OBytes bs)); ("y", Trk 1)] [t2; u] (h_calls h)) [])).
  { intros N. cbn [exec]. change (free "y") with true. cbn iota. unfold given. change (mean Y _ (Var "b")) with (Some (Ok (OBytes bs))). cbv beta iota. rewrite AB. assert (EL2 : midi_loads (py_sort Y) bs None = Ok u) by exact EL. rewrite EL2. reflexivity. }
  assert (E3 : forall N, exec Y (S N) (Same "r" true "y" "x") (mkStore [("x", Trk 0); ("b", Val (OBytes bs)); ("y", Trk 1)] [t2; u] (h_calls h)) =
    Some (Next (mkStore [("x", Trk 0); ("b", Val (OBytes bs)); ("y", Trk 1); ("r", Val (OBool true))] [t3; u3] (h_calls h)) [])).
  { intros N. cbn [exec]. change (free "r") with true. cbn iota. unfold track_of. cbn [s_vars s_tracks assoc String.eqb Ascii.eqb Bool.eqb nth_error]. unfold same. rewrite EQ'. reflexivity. }
  assert (E' : exec Y (S (S (S (S (List.length l))))) (piece n d l) (mkStore [] [] (h_calls h)) = Some (Next (mkStore [("x", Trk 0)] [t] (h_calls h)) T)) by (do 2 apply exec_more; exact E).
  pose proof (exec_then _ _ _ _ _ _ _ _ _ E' (exec_seq _ _ _ _ _ _ _ (E1 _) (exec_seq _ _ _ _ _ _ _ (E2 _) (E3 _)))) as EX.
  eapply reaches_trans; [eapply (c81_functions Y _ _ "r" _ _ _ h _ _ (Val (OBool true)) K U (start h) EX eq_refl)|].
  intros q (P' & r' & h' & -> & A & G & _). apply reaches_here. exists h'. split; [reflexivity|].
  split; [|exact (a_draws _ _ _ _ A)]. intros p o _. apply (g_kept _ _ _ _ _ G). intros [].
Qed.
