(** Running the source of tests/melodia/io/test_midi_serialize.py and of test_track_eq (tests/melodia/core/test_track.py 87-93). *)
From Coq Require Import ZArith QArith List Bool String Lia Permutation SpecFloat.
From Verif Require Import Py PyFloat PySort Signature Tone Note Track Show MidiWriter MidiReader PyAst PySem PySource PyProgram SpecBase SigFacts SortFacts
  TrackSpec MidiSpec DumpSpec TrackFacts TrackProps TripSpec StableProps SizeProps
  RefineBase RefineSignature RefineTone RefineNote RefineTrack RefineAdd RefineEqual RefineSpec RefineTrackProps RefineWriter RefineDump RefineDumps RefineDumpProps RefineDeep RefineLoad.
Import ListNotations.
Open Scope string_scope.
Open Scope list_scope.
Open Scope Z_scope.

(** random.randint(a, b) is between a and b. *)
Definition randint_contract (Y : python) : Prop := forall i a b, a <= b -> a <= py_randint Y i a b <= b.

(** ** Tracks with a history *)
Lemma valid_sig_good s : valid_sig s -> good_sig s.
Proof. intros [_ H]. apply pow2_pos in H. unfold good_sig. lia. Qed.
Lemma inv_valid t l : Inv t l -> good_sig (t_signature t) -> valid_track t.
Proof.
  intros I G. split; [|split; [|exact G]].
  - eapply Forall_impl; [|exact (heap_entries _ _ I)]. intros e (A & _ & B). split; [exact A|apply B].
  - rewrite (inv_len _ _ I). apply valid_sig_good, len_of_valid, (inv_entries _ _ I).
Qed.
Lemma run_valid sort s ops : sort_contract sort -> good_sig s -> Forall op_ok ops -> valid_track (run sort (track_empty s) ops).
Proof. intros C S O. destruct (run_inv sort C s ops O) as [I E]. eapply inv_valid; [exact I|rewrite E; exact S]. Qed.

(** dump leaves the track sorted. *)
Lemma iter_twice sort t : track_iter sort (fst (track_iter sort t)) = track_iter sort t.
Proof. unfold track_iter. destruct (t_sorted t) eqn:S; cbn; rewrite ?S; reflexivity. Qed.
Lemma dump_track sort w t : d_track (dump sort w t) = fst (track_iter sort t).
Proof.
  unfold dump. destruct (track_iter sort t) as [t' l]. destruct (all_events _ _ _ _); [|reflexivity]. destruct (format_header_chunk _ _ _); [|reflexivity].
  destruct (let! _ := _ in _); reflexivity.
Qed.
Lemma module_track Y t bpm ch bs : midi_dumps (py_sort Y) t bpm ch = Ok bs -> d_track (module_dump Y t bpm ch) = fst (track_iter (py_sort Y) t).
Proof. unfold midi_dumps, module_dump. destruct (writer_new _ _ _ _ _); [intros _; apply dump_track|discriminate]. Qed.
Lemma iter_signature sort t : t_signature (fst (track_iter sort t)) = t_signature t.
Proof. unfold track_iter. destruct (t_sorted t); reflexivity. Qed.
Lemma eq_sorted sort t u : eq_result sort (fst (track_iter sort t)) u = eq_result sort t u.
Proof.
  unfold eq_result, track_eq. rewrite iter_signature, iter_twice. destruct (negb _); [reflexivity|]. reflexivity.
Qed.

Section Tests.
Variable Y : python.
Hypothesis natural_sort : natural (py_sort Y).
Hypothesis contract : sort_contract (py_sort Y).
Notation steps := (steps melodia Y).
Notation reaches := (reaches melodia Y).
Notation sort := (py_sort Y).
Notation ends := PySem.ends.

(** ** t == midi.loads(midi.dumps(t)) *)
Definition trip_expr (x : string) : expr :=
  ECmp (EName x) [(CEq, EOp (OCall [APos]) [EName "midi.loads"; EOp (OCall [APos]) [EName "midi.dumps"; EName x]])].

Lemma trip_runs h a b t bs u x r K : track_at h a b t -> valid_track t -> valid_track (fst (track_iter sort t)) ->
  midi_dumps sort t f_120 0 = Ok bs -> Forall is_byte bs -> midi_loads sort bs None = Ok u ->
  assoc x r = Some (VRef a) -> assoc "midi.loads" r = None -> assoc "midi.dumps" r = None ->
  reaches (Ev (trip_expr x) r h K) (returns (Ok (VBool (eq_result sort t u))) K (fun h' => keeps [a; b] h h')).
Proof.
  intros T V V' D B L X XL XD.
  pose proof (proj1 T) as G0. unfold enc_track in G0. unfold trip_expr.
  assert (NX : forall h K, PySem.step melodia Y (Ev (EName x) r h K) = Some (Rt (VRef a) h K)) by (intros; apply name_known; [exact X|reflexivity]).
  assert (NL : forall h K, PySem.step melodia Y (Ev (EName "midi.loads") r h K) = Some (Rt (VFun "midi.loads") h K)) by (intros; cbn; unfold name_step, variable; rewrite XL; reflexivity).
  assert (ND : forall h K, PySem.step melodia Y (Ev (EName "midi.dumps") r h K) = Some (Rt (VFun "midi.dumps") h K)) by (intros; cbn; unfold name_step, variable; rewrite XD; reflexivity).
  eapply reaches_more; [reflexivity|]. eapply reaches_more; [apply NX|]. do 2 (eapply reaches_more; [reflexivity|]).
  eapply reaches_more; [apply NL|]. do 2 (eapply reaches_more; [reflexivity|]). eapply reaches_more; [apply ND|].
  eapply reaches_more; [reflexivity|]. eapply reaches_more; [apply NX|]. eapply reaches_more; [reflexivity|].
  match goal with |- RefineBase.reaches _ _ ?s _ => let k := match s with context [KArgs ?o [?l] [] r :: ?k] => constr:(KArgs o [l] [] r :: k) end in change s with (Ca (VFun "midi.dumps") [VRef a] [] h k) end.
  eapply reaches_trans.
  { eapply (reaches_same Y _ (Ca (VFun "midi.dumps") [VRef a; VFloat f_120; VInt 0] [] h _)); [reflexivity|discriminate| |eapply midi_dumps_runs; eassumption].
    intros (h' & E & _). destruct (outcome_of _ _); discriminate E. }
  intros ? (h1 & -> & T1 & K1). rewrite (module_track _ _ _ _ _ D) in T1. rewrite D. cbn [outcome_of ends].
  eapply reaches_more; [reflexivity|].
  match goal with |- RefineBase.reaches _ _ ?s _ => let k := match s with context [KCmp (VRef a) CEq [] r :: ?k] => constr:(KCmp (VRef a) CEq [] r :: k) end in change s with (Ca (VFun "midi.loads") [VBytes bs] [] h1 k) end.
  eapply reaches_trans.
  { eapply (reaches_like Y); [| |apply (after_like 0)|eapply (module_loads_runs Y natural_sort contract 0 bs None h1 _ B)]; [reflexivity|discriminate|rewrite L; discriminate]. }
  rewrite L. intros ? (h2 & c & d & -> & T2 & G2 & NC & NDD & K2). cbn [ends].
  assert (T1' : track_at h2 a b (fst (track_iter sort t))) by (destruct T1; split; heap_get).
  pose proof (proj1 T1') as A1. unfold enc_track in A1.
  assert (AC : a <> c) by (intros ->; destruct T1; congruence). assert (BD : b <> d) by (intros ->; destruct T1; congruence).
  destruct (track_eq sort (fst (track_iter sort t)) u) as [[q t'] u'] eqn:E.
  assert (EQ : q = eq_result sort t u) by (rewrite <- eq_sorted; unfold eq_result; rewrite E; reflexivity). rewrite <- EQ.
  repeat (lazymatch goal with |- RefineBase.reaches _ _ (Ca (VFun "Track.__eq__") _ _ _ _) _ => fail | _ => adv end).
  eapply reaches_trans; [eapply (track_eq_runs Y h2 a b _ c d u); try eassumption; apply valid_track_good; assumption|].
  intros s (h3 & -> & _ & _ & K3). cbn [ends].
  repeat adv. apply reaches_here. exists h3. split; [reflexivity|].
  assert (NC' : get h c = None).
  { destruct (get h c) as [o|] eqn:GC; [|reflexivity]. exfalso. destruct (Nat.eq_dec c b) as [->|NB]; [destruct T1; congruence|].
    rewrite (keeps_get _ _ _ c o K1) in NC; [discriminate|intros [Z|[Z|[]]]; congruence|exact GC]. }
  assert (ND' : get h d = None).
  { destruct (get h d) as [o|] eqn:GC; [|reflexivity]. exfalso. destruct (Nat.eq_dec d a) as [->|NB]; [destruct T1; congruence|].
    rewrite (keeps_get _ _ _ d o K1) in NDD; [discriminate|intros [Z|[Z|[]]]; congruence|exact GC]. }
  split; [|rewrite (keeps_calls _ _ _ K3), (keeps_calls _ _ _ K2), (keeps_calls _ _ _ K1); reflexivity].
  intros p o NP GP. apply (keeps_get _ _ _ p o K3); [|apply (keeps_get _ _ _ p o K2); [intros []|apply (keeps_get _ _ _ p o K1 NP GP)]].
  intros [Z|[Z|[Z|[Z|[]]]]]; [apply NP; left; exact Z|apply NP; right; left; exact Z|congruence|congruence].
Qed.

Lemma dumped_trip_runs s ops bs u h a b x r K : valid_sig s -> Forall op_ok ops -> track_at h a b (run sort (track_empty s) ops) ->
  midi_dumps sort (run sort (track_empty s) ops) f_120 0 = Ok bs -> midi_loads sort bs None = Ok u ->
  assoc x r = Some (VRef a) -> assoc "midi.loads" r = None -> assoc "midi.dumps" r = None ->
  reaches (Ev (trip_expr x) r h K) (returns (Ok (VBool (eq_result sort (run sort (track_empty s) ops) u))) K (fun h' => keeps [a; b] h h')).
Proof.
  intros VS O T E1 E2 X XL XD. eapply trip_runs; try eassumption.
  - apply run_valid; [exact contract|apply valid_sig_good, VS|exact O].
  - change (fst (track_iter sort (run sort (track_empty s) ops))) with (TrackSpec.step sort (run sort (track_empty s) ops) OIter).
    replace (TrackSpec.step sort (run sort (track_empty s) ops) OIter) with (run sort (track_empty s) (ops ++ [OIter])) by (unfold run; rewrite fold_left_app; reflexivity).
    apply run_valid; [exact contract|apply valid_sig_good, VS|apply Forall_app; split; [exact O|repeat constructor]].
  - eapply (dumped_bytes sort ascii_digit 96 default_middle_c f_120 0); [exact contract|reflexivity|reflexivity|exact VS|exact O|exact E1].
Qed.

(** Whatever the history of the track, under the conditions of C65. *)
Lemma round_trip_runs s ops h a b x r K : valid_sig s -> Forall op_ok ops ->
  Forall (fun e => in_midi_range 36 (snd e)) (contents sort s ops) -> sig_fits s ->
  Forall (fun e => last_pulse 96 e < 2 ^ 28) (contents sort s ops) -> Z.of_nat (List.length (contents sort s ops)) <= 1198000 ->
  ForallOrdPairs apart (contents sort s ops) -> TripSpec.plain (contents sort s ops) ->
  Forall audible (contents sort s ops) -> Forall (whole_note 96) (contents sort s ops) -> Forall byte_velocity (contents sort s ops) ->
  track_at h a b (run sort (track_empty s) ops) ->
  assoc x r = Some (VRef a) -> assoc "midi.loads" r = None -> assoc "midi.dumps" r = None ->
  reaches (Ev (trip_expr x) r h K) (returns (Ok (VBool true)) K (fun h' => keeps [a; b] h h')).
Proof.
  intros VS O R F P N A PL AU W BV T X XL XD.
  destruct (c65_round_trip sort contract ascii_digit 96 default_middle_c f_120 0 (mkWriter 96 384 24 f_120 0) (mkTone 36)
    ascii_digit default_middle_c (mkMR 24) (mkTone 36)) with (s := s) (ops := ops)
    as (bs & u & E1 & E2 & _ & E3 & _); try assumption; try reflexivity; try lia.
  { exists 500000. split; [vm_compute; reflexivity|lia]. }
  rewrite <- E3. eapply dumped_trip_runs; try eassumption.
Qed.
Lemma spread_trip_runs k l h a b x r K : 0 <= k <= 100 -> Forall drawn l -> (List.length l <= 300)%nat ->
  track_at h a b (run sort (track_empty (mkSig k 16)) (spread 1 l)) ->
  assoc x r = Some (VRef a) -> assoc "midi.loads" r = None -> assoc "midi.dumps" r = None ->
  reaches (Ev (trip_expr x) r h K) (returns (Ok (VBool true)) K (fun h' => keeps [a; b] h h')).
Proof.
  intros RK FD LL T X XL XD. destruct (c65_test_suite sort contract k l RK FD ltac:(lia)) as (bs & u & E1 & E2 & E3).
  rewrite <- E3. eapply dumped_trip_runs; try eassumption; [|apply spread_ok, FD]. split; cbn; [lia|]. exists 4. split; [lia|reflexivity].
Qed.

(** ** random *)
Hypothesis draws : randint_contract Y.
Lemma randint_reaches lo hi h K (Q : state -> Prop) : lo <= hi ->
  (forall z h', lo <= z <= hi -> (forall p, get h' p = get h p) -> reaches (Rt (VInt z) h' K) Q) ->
  reaches (Ca (VBuiltin "random.randint") [VInt lo; VInt hi] [] h K) Q.
Proof. intros L R. eapply reaches_more; [reflexivity|]. apply R; [apply draws, L|reflexivity]. Qed.
Lemma track_same h h' a b t : (forall p, get h' p = get h p) -> track_at h a b t -> track_at h' a b t.
Proof. intros E [A B]. split; rewrite E; assumption. Qed.

Lemma note_int_runs p d den v h K : steps (Ca (VClass "Note") [VInt p; VTuple [VInt d; VInt den]; VFloat v] [] h K)
  (ends (outcome_of enc_note (let! s := sig_of_arg (SA_iter [EInt d; EInt den]) in note_init (mkTone p) s v)) h K).
Proof.
  assert (B : sig_value h (SA_iter [EInt d; EInt den]) (VTuple [VInt d; VInt den])) by (constructor; repeat constructor).
  go_with ltac:(idtac; lazymatch goal with |- PySem.steps _ _ (Ex [SIf _ _ _; SIf _ _ _; SAssign _ _] _ _ (KInit :: _)) _ =>
    first [eapply RefineNote.init_rest_runs; exact B | eapply (RefineNote.init_rest_runs Y (tone_new _)); exact B] end).
Qed.

Lemma note_16_reaches p d kws v h K (Q : state -> Prop) : 0 <= d -> (kws = [] /\ v = default_velocity) \/ (kws = [("velocity", VFloat f_one)] /\ v = f_one) ->
  reaches (Rt (enc_note (mkNote (mkTone p) (mkSig d 16) v)) h K) Q ->
  reaches (Ca (VClass "Note") [VInt p; VTuple [VInt d; VInt 16]] kws h K) Q.
Proof.
  intros D KW R. eapply reaches_trans with (Q := fun s => s = Rt (enc_note (mkNote (mkTone p) (mkSig d 16) v)) h K); [|intros ? ->; exact R].
  eapply (reaches_same Y _ (Ca (VClass "Note") [VInt p; VTuple [VInt d; VInt 16]; VFloat v] [] h K)); [destruct KW as [[-> ->]|[-> ->]]; reflexivity|discriminate|discriminate|].
  eapply reaches_steps; [apply note_int_runs|]. cbn [sig_of_arg sig_star]. unfold sig_new. replace (d >=? 0) with true by lia. apply reaches_here. destruct KW as [[_ ->]|[_ ->]]; reflexivity.
Qed.

Lemma track_16_reaches k c cv kws h K (Q : state -> Prop) : 0 <= k -> content_value h c cv ->
  (kws = [("signature", VTuple [VInt k; VInt 16])] /\ cv = VNone) \/ kws = [("signature", VTuple [VInt k; VInt 16]); ("content", cv)] ->
  (forall s, made h (track_new (SA_iter [EInt k; EInt 16]) c) K s -> reaches s Q) ->
  reaches (Ca (VClass "Track") [] kws h K) Q.
Proof.
  intros D C KW R. eapply reaches_trans; [|exact R].
  eapply (reaches_same Y _ (Ca (VClass "Track") [VTuple [VInt k; VInt 16]; cv] [] h K)).
  - destruct KW as [[-> ->]| ->]; reflexivity.
  - discriminate.
  - unfold made. destruct (track_new _ _); [intros (? & ? & ? & E & _)|intros (? & E & _)]; discriminate.
  - apply track_new_runs; [apply sv_tuple; repeat constructor|exact Logic.I|exact C].
Qed.
Lemma new_16 k : 0 <= k -> track_new (SA_iter [EInt k; EInt 16]) [] = Ok (track_empty (mkSig k 16)).
Proof. intros L. unfold track_new. cbn [sig_of_arg sig_star]. unfold sig_new. replace (k >=? 0) with true by lia. reflexivity. Qed.

Lemma range_ints lo hi : exists zs, range_list lo hi = map VInt zs /\ List.length zs = Z.to_nat (hi - lo).
Proof. exists (map (fun k => lo + Z.of_nat k) (seq 0 (Z.to_nat (hi - lo)))). split; [unfold range_list; rewrite map_map; reflexivity|]. rewrite map_length, seq_length. reflexivity. Qed.

(** ** random_track_without_overlaps *)
Definition over_loop : target * list stmt :=
  Eval calc in match f_body src_test_midi_serialize_random_track_without_overlaps with _ :: _ :: SFor t _ b :: _ => (t, b) | _ => (TName "", []) end.
Definition over_target := Eval cbv in fst over_loop.
Definition over_body := Eval cbv in snd over_loop.
Definition over_env (a : nat) (p : Z) (x : option (Z * note)) : env :=
  match x with
  | None => [("track", VRef a); ("p", VInt p)]
  | Some (i, n) => [("track", VRef a); ("p", VInt p); ("_", VInt i); ("note", enc_note n)]
  end.
Lemma spread_add s ops i l p d : run sort (run sort (track_empty s) (ops ++ [OAdd (WNote (mkNote (mkTone p) (mkSig d 16) f_one)) (Some (SA_iter [EInt (200 * i); EInt 16]))])) (spread (i + 1) l) =
  run sort (run sort (track_empty s) ops) (spread i ((p, d) :: l)).
Proof. unfold run. rewrite fold_left_app. reflexivity. Qed.

Lemma over_loop_runs a k K (Q : state -> Prop) : 0 <= k -> forall n i ops h b x,
  0 <= i -> Forall op_ok ops -> track_at h a b (run sort (track_empty (mkSig k 16)) ops) ->
  (forall l h' b' x', List.length l = n -> Forall drawn l -> track_at h' a b' (run sort (run sort (track_empty (mkSig k 16)) ops) (spread i l)) ->
     reaches (Ex [] (over_env a (200 * (i - 1 + Z.of_nat n)) x') h' K) Q) ->
  forall vs, List.length vs = n ->
  reaches (Lp over_target over_body (ISeq (map VInt vs)) (over_env a (200 * (i - 1)) x) h K) Q.
Proof.
  intros K0. induction n as [|n IH]; intros i ops h b x I O T OK vs LV; (destruct vs as [|v vs]; [|]); try discriminate.
  - eapply reaches_more; [reflexivity|]. cbn [loop_step next]. replace (i - 1) with (i - 1 + Z.of_nat 0) by lia.
    apply (OK [] h b x eq_refl); [constructor|exact T].
  - eapply (reaches_more _ _ _ (As [(over_target, VInt v)] over_body (over_env a (200 * (i - 1)) x) h (KLoopF over_target over_body (ISeq (map VInt vs)) :: K))); [reflexivity|].
    assert (NEXT : forall p d h2 b2 x', 30 <= p <= 90 -> 0 <= d <= 100 ->
      track_at h2 a b2 (fst (track_add (run sort (track_empty (mkSig k 16)) ops) (WNote (mkNote (mkTone p) (mkSig d 16) f_one)) (Some (SA_iter [EInt (200 * i); EInt 16])))) ->
      reaches (Lp over_target over_body (ISeq (map VInt vs)) (over_env a (200 * i) x') h2 K) Q).
    { intros p d h2 b2 x' P D T2. replace (200 * i) with (200 * (i + 1 - 1)) by lia.
      apply (IH (i + 1) (ops ++ [OAdd (WNote (mkNote (mkTone p) (mkSig d 16) f_one)) (Some (SA_iter [EInt (200 * i); EInt 16]))]) h2 b2); [lia| | | |injection LV as LV; exact LV].
      - apply Forall_app. split; [exact O|]. apply (spread_ok [(p, d)] i). constructor; [split; assumption|constructor].
      - unfold run. rewrite fold_left_app. exact T2.
      - intros l h' b' x2 LL FD T3. rewrite spread_add in T3. replace (i + 1 - 1 + Z.of_nat n) with (i - 1 + Z.of_nat (S n)) by lia.
        apply (OK ((p, d) :: l) h' b'); [cbn; congruence|constructor; [split; assumption|exact FD]|exact T3]. }
    assert (GT : good_track (run sort (track_empty (mkSig k 16)) ops)).
    { apply valid_track_good, run_valid; [exact contract|cbn; discriminate|exact O]. }
    pose proof (fun p d P D => proj1 (proj2 (proj2 (track_add_inv _ _ (WNote (mkNote (mkTone p) (mkSig d 16) f_one)) (Some (SA_iter [EInt (200 * i); EInt 16])) (proj1 (run_inv sort contract (mkSig k 16) ops O))
       (Forall_inv (spread_ok [(p, d)] i (Forall_cons (p, d) (conj P D : drawn (p, d)) (Forall_nil _)))))))) as ADD.
    set (t := run sort (track_empty (mkSig k 16)) ops) in *. clearbody t.
    clear IH OK. pose proof note_int_runs as NR.
    unfold over_target at 1, over_body at 1. unfold over_env at 1. destruct x as [[xi [[xp] [xd xe] xv]]|]; [unfold enc_note at 1, enc_tone at 1, enc_sig at 1|]; cbn [n_tone n_duration n_velocity pitch nominator denominator]. 
    all: repeat (lazymatch goal with |- RefineBase.reaches _ _ (Ca (VBuiltin "random.randint") _ _ _ _) _ => fail | _ => adv end).
    all: apply randint_reaches; [lia|]; intros p h1 RP H1.
    all: repeat (lazymatch goal with |- RefineBase.reaches _ _ (Ca (VBuiltin "random.randint") _ _ _ _) _ => fail | _ => adv end).
    all: apply randint_reaches; [lia|]; intros d h2 RD H2.
    all: repeat (lazymatch goal with |- RefineBase.reaches _ _ (Ca (VClass "Note") _ _ _ _) _ => fail | _ => adv end).
    all: apply note_16_reaches with (v := f_one); [lia|right; split; reflexivity|].
    all: assert (T2 : track_at h2 a b t) by (apply (track_same h1); [exact H2|apply (track_same h); assumption]).
    all: pose proof (proj1 T2) as G2; unfold enc_track in G2.
    all: assert (W1 : what_value h2 [a; b] (WNote (mkNote (mkTone p) (mkSig d 16) f_one)) (enc_note (mkNote (mkTone p) (mkSig d 16) f_one))) by (constructor; discriminate).
    all: assert (W2 : where_value h2 [a; b] (Some (SA_iter [EInt (200 * i); EInt 16])) (VTuple [VInt (200 * i); VInt 16])) by (constructor; [apply sv_tuple; repeat constructor|discriminate|discriminate|exact Logic.I]).
    all: pose proof (fun K => add_call_runs Y h2 a b t _ _ _ _ K T2 GT W1 W2) as AD.
    all: specialize (ADD p d RP RD); specialize (NEXT p d).
    all: unfold enc_note, enc_tone, enc_sig; cbn [n_tone n_duration n_velocity pitch nominator denominator].
    all: repeat (lazymatch goal with |- RefineBase.reaches _ _ (Ca (VFun "Track.add") _ _ _ _) _ => fail | _ => adv end).
    all: replace (200 * (i - 1) + 200) with (200 * i) by lia.
    all: eapply reaches_more; [reflexivity|]; eapply reaches_trans; [exact (AD _)|]; intros ? (h3 & -> & b3 & T3 & _).
    all: rewrite ADD by (right; eexists; eexists; split; [reflexivity|]; unfold TrackSpec.position_of; replace (0 <=? 200 * i) with true by lia; reflexivity).
    all: do 2 (eapply reaches_more; [reflexivity|]).
    all: exact (NEXT h3 b3 (Some (v, mkNote (mkTone p) (mkSig d 16) f_one)) RP RD T3).
Qed.

Lemma over_runs h K : reaches (Ca (VFun "test_midi_serialize.random_track_without_overlaps") [] [] h K)
  (fun s => exists a b k l h', s = Rt (VRef a) h' K /\ 0 <= k <= 100 /\ Forall drawn l /\ (List.length l <= 300)%nat /\
     track_at h' a b (run sort (track_empty (mkSig k 16)) (spread 1 l))).
Proof.
  repeat (lazymatch goal with |- RefineBase.reaches _ _ (Ca (VBuiltin "random.randint") _ _ _ _) _ => fail | _ => adv end).
  apply randint_reaches; [lia|]. intros k h1 RK _.
  repeat (lazymatch goal with |- RefineBase.reaches _ _ (Ca (VClass "Track") _ _ _ _) _ => fail | _ => adv end).
  eapply (track_16_reaches k); [lia|apply cv_none|left; split; reflexivity|]. rewrite new_16 by lia. intros ? (h2 & a & b & -> & T & _).
  repeat (lazymatch goal with |- RefineBase.reaches _ _ (Ca (VBuiltin "random.randint") _ _ _ _) _ => fail | _ => adv end).
  apply randint_reaches; [lia|]. intros n h3 RN H3.
  do 3 (eapply reaches_more; [reflexivity|]).
  cbn [value_step]. eapply reaches_more; [reflexivity|].
  eapply (reaches_more _ _ _ (Lp over_target over_body (ISeq (range_list 0 n)) (over_env a 0 None) h3 (KSeq [SReturn (EName "track")] :: KFun :: K))); [reflexivity|].
  destruct (range_ints 0 n) as (zs & -> & LZ).
  apply (over_loop_runs a k _ _ ltac:(lia) (Z.to_nat (n - 0)) 1 [] h3 b None ltac:(lia) (Forall_nil _)); [exact (track_same _ _ _ _ _ H3 T)| |exact LZ].
  intros l h' b' x' LL FD TT. cbn [run fold_left] in TT.
  unfold over_env. destruct x' as [[xi [[xp] [xd xe] xv]]|]; [unfold enc_note, enc_tone, enc_sig; cbn [n_tone n_duration n_velocity pitch nominator denominator]|].
  all: repeat adv; apply reaches_here; exists a, b', k, l, h'; (split; [reflexivity|]); (split; [lia|]); (split; [exact FD|]); (split; [lia|exact TT]).
Qed.

(** ** test_midi_serialize *)
Definition serialize_loop : target * list stmt :=
  Eval calc in match f_body src_test_midi_serialize_test_midi_serialize with _ :: _ :: _ :: _ :: SFor t _ b :: _ => (t, b) | _ => (TName "", []) end.
Definition serialize_target := Eval cbv in fst serialize_loop.
Definition serialize_body := Eval cbv in snd serialize_loop.
Definition serialize_env (e o : nat) (x : option (Z * nat)) : env :=
  match x with
  | None => [("empty_track", VRef e); ("one_note_track", VRef o)]
  | Some (i, a) => [("empty_track", VRef e); ("one_note_track", VRef o); ("_", VInt i); ("track", VRef a)]
  end.

Definition one_note : note := mkNote (mkTone 0) (mkSig 3 8) f_one.
Definition one_ops : list op := [OAdd (WNote one_note) (Some (SA_iter [EInt 7; EInt 16]))].
Lemma serialize_loop_runs e o K (Q : state -> Prop) : (forall h x, reaches (Ex [] (serialize_env e o x) h K) Q) ->
  forall zs h x, reaches (Lp serialize_target serialize_body (ISeq (map VInt zs)) (serialize_env e o x) h K) Q.
Proof.
  intros OK. induction zs as [|z zs IH]; intros h x; [eapply reaches_more; [reflexivity|]; apply OK|].
  eapply (reaches_more _ _ _ (As [(serialize_target, VInt z)] serialize_body (serialize_env e o x) h (KLoopF serialize_target serialize_body (ISeq (map VInt zs)) :: K))); [reflexivity|].
  unfold serialize_env at 1, serialize_target at 1, serialize_body at 1. destruct x as [[xi xa]|].
  all: repeat (lazymatch goal with |- RefineBase.reaches _ _ (Ca (VFun _) _ _ _ _) _ => fail | _ => adv end).
  all: eapply reaches_trans; [apply over_runs|]; intros ? (a & b & k & l & h1 & -> & RK & FD & LL & T).
  all: do 3 (eapply reaches_more; [reflexivity|]); cbn [assign_step]; eapply reaches_more; [reflexivity|].
  all: eapply reaches_trans; [apply (spread_trip_runs k l h1 a b "track" (serialize_env e o (Some (z, a))) _ RK FD LL T); reflexivity|].
  all: intros ? (h2 & -> & _); cbn [ends]; do 3 (eapply reaches_more; [reflexivity|]); exact (IH h2 (Some (z, a))).
Qed.
Lemma serialize_runs h K : reaches (Ca (VFun "test_midi_serialize.test_midi_serialize") [] [] h K) (fun s => exists h', s = Rt VNone h' K).
Proof.
  repeat (lazymatch goal with |- RefineBase.reaches _ _ (Ca (VClass "Track") _ _ _ _) _ => fail | _ => adv end).
  eapply (track_16_reaches 17); [lia|apply cv_none|left; split; reflexivity|]. rewrite new_16 by lia. intros ? (h1 & e & b1 & -> & T1 & _).
  do 3 (eapply reaches_more; [reflexivity|]).
  cbn [assign_step]. eapply reaches_more; [reflexivity|].
  eapply reaches_trans.
  { eapply (round_trip_runs (mkSig 17 16) [] h1 e b1 "empty_track"); [split; cbn; [lia|exists 4; split; [lia|reflexivity]]|constructor|constructor|split; cbn; lia|constructor|cbn; lia|constructor|intros ? ? []|constructor|constructor|constructor|exact T1|reflexivity..]. }
  intros ? (h2 & -> & _). cbn [ends].
  repeat (lazymatch goal with |- RefineBase.reaches _ _ (Ca (VClass "Note") _ _ _ _) _ => fail | _ => adv end).
  eapply reaches_steps; [apply note_int_runs|].
  match goal with |- context [PySem.ends ?r] => let x := eval vm_compute in r in change r with x end. cbn [ends].
  repeat (lazymatch goal with |- RefineBase.reaches _ _ (Ca (VClass "Track") _ _ _ _) _ => fail | _ => adv end).
  eapply (track_16_reaches 17 [(WNote one_note, Some (SA_iter [EInt 7; EInt 16]))]); [lia| |right; reflexivity|].
  { eapply cv_list; [apply get_new|]. constructor; [|constructor]. constructor; [apply (wv_note _ _ one_note); discriminate|].
    constructor; [apply sv_tuple; repeat constructor|discriminate|discriminate|exact Logic.I]. }
  change (track_new (SA_iter [EInt 17; EInt 16]) [(WNote one_note, Some (SA_iter [EInt 7; EInt 16]))]) with (Ok (run sort (track_empty (mkSig 17 16)) one_ops)).
  intros ? (h3 & o & b3 & -> & T3 & _). clear T1.
  do 4 (eapply reaches_more; [reflexivity|]).
  eapply reaches_trans.
  { eapply (round_trip_runs (mkSig 17 16) one_ops h3 o b3 "one_note_track"); try exact T3; try reflexivity;
    change (contents sort (mkSig 17 16) one_ops) with [(mkSig 7 16, one_note)].
    - split; cbn; [lia|]. exists 4. split; [lia|reflexivity].
    - constructor; [|constructor]. split; [|discriminate]. constructor; [|constructor]. split; [split; cbn; [lia|exists 3; split; [lia|reflexivity]]|exact valid_f_one].
    - constructor; [cbv; split; discriminate|constructor].
    - split; cbn; lia.
    - constructor; [reflexivity|constructor].
    - cbn. lia.
    - constructor; [constructor|constructor].
    - intros e1 e2 [<-|[]] [<-|[]] _ _. reflexivity.
    - constructor; [vm_compute; discriminate|constructor].
    - constructor; [split; [exists 168; reflexivity|exists 144; reflexivity]|constructor].
    - constructor; [exists 127; split; [lia|exact f_one_127]|constructor]. }
  intros ? (h4 & -> & _). cbn [ends].
  repeat (lazymatch goal with |- RefineBase.reaches _ _ (Lp _ _ _ _ _ _) _ => fail | _ => adv end).
  match goal with |- RefineBase.reaches _ _ (Lp _ _ (ISeq ?l) _ _ _) _ => change l with (range_list 0 10) end.
  destruct (range_ints 0 10) as (zs & -> & _).
  change (set_var "one_note_track" (VRef o) (set_var "empty_track" (VRef e) [])) with (serialize_env e o None).
  apply (serialize_loop_runs e o (KSeq [] :: KFun :: K)). intros h5 x'. unfold serialize_env. destruct x' as [[? ?]|]; repeat adv; apply reaches_here; eexists; reflexivity.
Qed.

(** ** random_track *)
Definition ran_loop : target * list stmt :=
  Eval calc in match f_body src_test_track_random_track with _ :: SFor t _ b :: _ => (t, b) | _ => (TName "", []) end.
Definition ran_target := Eval cbv in fst ran_loop.
Definition ran_body := Eval cbv in snd ran_loop.
Definition ran_env (a : nat) (x : option (Z * note * Z * Z)) : env :=
  match x with
  | None => [("track", VRef a)]
  | Some (i, n, p, q) => [("track", VRef a); ("_", VInt i); ("note", enc_note n); ("position", VTuple [VInt p; VInt q])]
  end.
Lemma choice_reaches l h p K (Q : state -> Prop) : get h p = Some (HList l) -> l <> [] ->
  (forall v h', In v l -> (forall p, get h' p = get h p) -> reaches (Rt v h' K) Q) ->
  reaches (Ca (VBuiltin "random.choice") [VRef p] [] h K) Q.
Proof.
  intros G NE R. set (z := py_randint Y (h_calls h) 0 (Z.of_nat (List.length l) - 1)).
  assert (B : 0 <= z <= Z.of_nat (List.length l) - 1) by (apply draws; destruct l; [congruence|cbn [List.length]; lia]).
  destruct (nth_error l (Z.to_nat z)) as [v|] eqn:E; [|apply nth_error_None in E; lia].
  eapply (reaches_more _ _ _ (Rt v (mkHeap (h_objs h) (S (h_calls h))) K)).
  - cbn. unfold builtin_step. cbn. rewrite G. fold z. rewrite E. reflexivity.
  - apply R; [eapply nth_error_In; exact E|reflexivity].
Qed.
Lemma ran_loop_runs a k K (Q : state -> Prop) : 0 <= k -> 
  (forall h ops b x, Forall op_ok ops -> track_at h a b (run sort (track_empty (mkSig k 16)) ops) -> reaches (Ex [] (ran_env a x) h K) Q) ->
  forall vs ops h b x, Forall op_ok ops -> track_at h a b (run sort (track_empty (mkSig k 16)) ops) ->
  reaches (Lp ran_target ran_body (ISeq (map VInt vs)) (ran_env a x) h K) Q.
Proof.
  intros K0 OK. induction vs as [|v vs IH]; intros ops h b x O T.
  - eapply reaches_more; [reflexivity|]. cbn [loop_step next map]. exact (OK h ops b x O T).
  - eapply (reaches_more _ _ _ (As [(ran_target, VInt v)] ran_body (ran_env a x) h (KLoopF ran_target ran_body (ISeq (map VInt vs)) :: K))); [reflexivity|].
    assert (GT : good_track (run sort (track_empty (mkSig k 16)) ops)).
    { apply valid_track_good, run_valid; [exact contract|cbn; discriminate|exact O]. }
    assert (STEP : forall p d n q h2 b2, 0 <= d -> 0 <= n -> In q [1; 2; 4; 8; 16; 32; 64; 128; 256; 512] ->
      let o := (WNote (mkNote (mkTone p) (mkSig d 16) default_velocity)) in let w := Some (SA_iter [EInt n; EInt q]) in
      snd (track_add (run sort (track_empty (mkSig k 16)) ops) o w) = Ok tt /\
      (track_at h2 a b2 (fst (track_add (run sort (track_empty (mkSig k 16)) ops) o w)) -> forall x',
       reaches (Lp ran_target ran_body (ISeq (map VInt vs)) (ran_env a x') h2 K) Q)).
    { intros p d n q h2 b2 D N IQ o w.
      assert (OO : op_ok (OAdd o w)).
      { split; [|discriminate]. constructor; [|constructor]. split; [split; cbn; [lia|exists 4; split; [lia|reflexivity]]|]. repeat split; try discriminate; exact Logic.I. }
      split.
      - apply (track_add_inv _ _ o w (proj1 (run_inv sort contract (mkSig k 16) ops O)) OO). right. unfold w. eexists. exists (mkSig n q). split; [reflexivity|].
        unfold TrackSpec.position_of. replace (0 <=? n) with true by lia. cbn in IQ. repeat (destruct IQ as [<-|IQ]; [reflexivity|]). destruct IQ.
      - intros T2 x'. apply (IH (ops ++ [OAdd o w]) h2 b2 x'); [apply Forall_app; split; [exact O|constructor; [exact OO|constructor]]|].
        unfold run. rewrite fold_left_app. exact T2. }
    set (t := run sort (track_empty (mkSig k 16)) ops) in *. clearbody t. clear IH OK.
    unfold ran_target at 1, ran_body at 1. unfold ran_env at 1. destruct x as [[[[xi [[xp] [xd xe] xv]] xn] xq]|]; [unfold enc_note at 1, enc_tone at 1, enc_sig at 1; cbn [n_tone n_duration n_velocity pitch nominator denominator]|].
    all: repeat (lazymatch goal with |- RefineBase.reaches _ _ (Ca (VBuiltin "random.randint") _ _ _ _) _ => fail | _ => adv end).
    all: apply randint_reaches; [lia|]; intros p h1 RP H1.
    all: repeat (lazymatch goal with |- RefineBase.reaches _ _ (Ca (VBuiltin "random.randint") _ _ _ _) _ => fail | _ => adv end).
    all: apply randint_reaches; [lia|]; intros d h2 RD H2.
    all: repeat (lazymatch goal with |- RefineBase.reaches _ _ (Ca (VClass "Note") _ _ _ _) _ => fail | _ => adv end).
    all: apply note_16_reaches with (v := default_velocity); [lia|left; split; reflexivity|].
    all: unfold enc_note at 1, enc_tone at 1, enc_sig at 1; cbn [n_tone n_duration n_velocity pitch nominator denominator].
    all: repeat (lazymatch goal with |- RefineBase.reaches _ _ (Ca (VBuiltin "random.randint") _ _ _ _) _ => fail | _ => adv end).
    all: apply randint_reaches; [lia|]; intros n h3 RN H3.
    all: repeat (lazymatch goal with |- RefineBase.reaches _ _ (Ca (VBuiltin "random.choice") _ _ _ _) _ => fail | _ => adv end).
    all: eapply choice_reaches; [apply get_new|discriminate|]; intros w h4 IW H4.
    all: assert (EW : exists q, w = VInt q /\ In q [1; 2; 4; 8; 16; 32; 64; 128; 256; 512]) by (cbn in IW |- *; repeat (destruct IW as [<-|IW]; [eexists; split; [reflexivity|tauto]|]); destruct IW).
    all: destruct EW as (q & -> & IQ); clear IW.
    all: assert (T3 : track_at h3 a b t) by (apply (track_same h2); [exact H3|apply (track_same h1); [exact H2|apply (track_same h); assumption]]).
    all: match type of H4 with forall p, get _ p = get ?H p => assert (T3' : track_at H a b t) by (destruct T3; split; heap_get) end.
    all: pose proof (track_same _ _ _ _ _ H4 T3') as T4; pose proof (proj1 T4) as G4; unfold enc_track in G4.
    all: assert (W1 : what_value h4 [a; b] (WNote (mkNote (mkTone p) (mkSig d 16) default_velocity)) (enc_note (mkNote (mkTone p) (mkSig d 16) default_velocity))) by (constructor; discriminate).
    all: assert (W2 : where_value h4 [a; b] (Some (SA_iter [EInt n; EInt q])) (VTuple [VInt n; VInt q])) by (constructor; [apply sv_tuple; repeat constructor|discriminate|discriminate|exact Logic.I]).
    all: pose proof (fun K => add_call_runs Y h4 a b t _ _ _ _ K T4 GT W1 W2) as AD.
    all: destruct (STEP p d n q h4 b (proj1 RD) (proj1 RN) IQ) as [AOK _].
    all: repeat (lazymatch goal with |- RefineBase.reaches _ _ (Ca (VFun "Track.add") _ _ _ _) _ => fail | _ => adv end).
    all: eapply reaches_more; [reflexivity|]; eapply reaches_trans; [exact (AD _)|]; intros ? (h5 & -> & b5 & T5 & _); rewrite AOK.
    all: do 2 (eapply reaches_more; [reflexivity|]).
    all: exact (proj2 (STEP p d n q h5 b5 (proj1 RD) (proj1 RN) IQ) T5 (Some (v, mkNote (mkTone p) (mkSig d 16) default_velocity, n, q))).
Qed.

Lemma ran_runs h K : reaches (Ca (VFun "test_track.random_track") [] [] h K)
  (fun s => exists a b k ops h', s = Rt (VRef a) h' K /\ 0 <= k /\ Forall op_ok ops /\ track_at h' a b (run sort (track_empty (mkSig k 16)) ops)).
Proof.
  repeat (lazymatch goal with |- RefineBase.reaches _ _ (Ca (VBuiltin "random.randint") _ _ _ _) _ => fail | _ => adv end).
  apply randint_reaches; [lia|]. intros k h1 RK _.
  repeat (lazymatch goal with |- RefineBase.reaches _ _ (Ca (VClass "Track") _ _ _ _) _ => fail | _ => adv end).
  eapply (track_16_reaches k); [lia|apply cv_none|left; split; reflexivity|]. rewrite new_16 by lia. intros ? (h2 & a & b & -> & T & _).
  repeat (lazymatch goal with |- RefineBase.reaches _ _ (Ca (VBuiltin "random.randint") _ _ _ _) _ => fail | _ => adv end).
  apply randint_reaches; [lia|]. intros n h3 RN H3.
  do 4 (eapply reaches_more; [reflexivity|]).
  eapply (reaches_more _ _ _ (Lp ran_target ran_body (ISeq (range_list 0 n)) (ran_env a None) h3 (KSeq [SReturn (EName "track")] :: KFun :: K))); [reflexivity|].
  destruct (range_ints 0 n) as (zs & -> & LZ).
  apply (ran_loop_runs a k _ _ (proj1 RK)) with (ops := []) (b := b); [|constructor|exact (track_same _ _ _ _ _ H3 T)].
  intros h' ops b' x' O TT.
  unfold ran_env. destruct x' as [[[[xi [[xp] [xd xe] xv]] xn] xq]|]; [unfold enc_note, enc_tone, enc_sig; cbn [n_tone n_duration n_velocity pitch nominator denominator]|].
  all: repeat adv; apply reaches_here; exists a, b', k, ops, h'; (split; [reflexivity|]); (split; [lia|]); (split; [exact O|exact TT]).
Qed.

(** ** test_track_eq *)
Lemma eq_self s ops : valid_sig s -> Forall op_ok ops -> eq_result sort (run sort (track_empty s) ops) (run sort (track_empty s) ops) = true.
Proof.
  intros VS O. destruct (run_inv sort contract s ops O) as [I E].
  apply (eq_result_spec sort _ _ _ _ contract I I); [rewrite E; exact VS|rewrite E; exact VS|]. split; reflexivity.
Qed.
Definition eq_loop : target * list stmt :=
  Eval calc in match f_body src_test_track_test_track_eq with _ :: _ :: SFor t _ b :: _ => (t, b) | _ => (TName "", []) end.
Definition eq_target := Eval cbv in fst eq_loop.
Definition eq_body := Eval cbv in snd eq_loop.
Definition eq_env (x : option (Z * nat)) : env :=
  match x with
  | None => []
  | Some (i, a) => [("_", VInt i); ("track", VRef a)]
  end.
Lemma eq_loop_runs K (Q : state -> Prop) : (forall h x, reaches (Ex [] (eq_env x) h K) Q) ->
  forall zs h x, reaches (Lp eq_target eq_body (ISeq (map VInt zs)) (eq_env x) h K) Q.
Proof.
  intros OK. induction zs as [|z zs IH]; intros h x; [eapply reaches_more; [reflexivity|]; apply OK|].
  eapply (reaches_more _ _ _ (As [(eq_target, VInt z)] eq_body (eq_env x) h (KLoopF eq_target eq_body (ISeq (map VInt zs)) :: K))); [reflexivity|].
  unfold eq_env at 1, eq_target at 1, eq_body at 1. destruct x as [[xi xa]|].
  all: repeat (lazymatch goal with |- RefineBase.reaches _ _ (Ca (VFun _) _ _ _ _) _ => fail | _ => adv end).
  all: eapply reaches_trans; [apply ran_runs|]; intros ? (a & b & k & ops & h1 & -> & RK & O & T).
  all: assert (VS : valid_sig (mkSig k 16)) by (split; cbn; [lia|exists 4; split; [lia|reflexivity]]).
  all: pose proof (eq_self _ _ VS O) as ES; pose proof (valid_track_good _ (run_valid sort _ ops contract (valid_sig_good _ VS) O)) as GT.
  all: set (t := run sort (track_empty (mkSig k 16)) ops) in *; clearbody t; pose proof (proj1 T) as G; unfold enc_track in G.
  all: unfold eq_result in ES; destruct (track_eq sort t t) as [[r t'] u'] eqn:E; cbn [fst] in ES; subst r.
  all: repeat (lazymatch goal with |- RefineBase.reaches _ _ (Ca (VFun "Track.__eq__") _ _ _ _) _ => fail | _ => adv end).
  all: eapply reaches_trans; [eapply (track_eq_self_runs Y h1 a b t); eassumption|]; intros ? (h2 & -> & _); cbn [ends].
  all: do 3 (eapply reaches_more; [reflexivity|]); exact (IH h2 (Some (z, a))).
Qed.

Lemma two_tracks_reaches i j o h K (Q : state -> Prop) : 0 <= i -> 0 <= j ->
  track_eq sort (track_empty (mkSig i 16)) (track_empty (mkSig j 16)) = (i =? j, track_empty (mkSig i 16), track_empty (mkSig j 16)) ->
  (forall h', reaches (Rt (VBool (match o with CEq => i =? j | _ => negb (i =? j) end)) h' K) Q) -> o = CEq \/ o = CNe ->
  reaches (Ev (ECmp (EOp (OCall [AKey "signature"; AKey "content"]) [EName "Track"; EOp OTuple [EConst (VInt i); EConst (VInt 16)]; EOp OList []])
     [(o, EOp (OCall [AKey "signature"; AKey "content"]) [EName "Track"; EOp OTuple [EConst (VInt j); EConst (VInt 16)]; EOp OList []])]) [] h K) Q.
Proof.
  intros I J TE R O.
  repeat (lazymatch goal with |- RefineBase.reaches _ _ (Ca (VClass "Track") _ _ _ _) _ => fail | _ => adv end).
  eapply (track_16_reaches i []); [exact I|eapply cv_list; [apply get_new|constructor]|right; reflexivity|]. rewrite new_16 by lia.
  intros ? (h1 & a & b & -> & T1 & _).
  repeat (lazymatch goal with |- RefineBase.reaches _ _ (Ca (VClass "Track") _ _ _ _) _ => fail | _ => adv end).
  eapply (track_16_reaches j []); [exact J|eapply cv_list; [apply get_new|constructor]|right; reflexivity|]. rewrite new_16 by lia.
  intros ? (h2 & c & d & -> & T2 & NC & ND & K2).
  assert (T1' : track_at h2 a b (track_empty (mkSig i 16))) by (destruct T1; split; heap_get).
  assert (TB : get (new h1 (HList [])) a <> None) by (destruct T1 as [A1 B1]; intros X; enough (get (new h1 (HList [])) a = Some (enc_track b (track_empty (mkSig i 16)))) by congruence; heap_get).
  assert (TC : get (new h1 (HList [])) b <> None) by (destruct T1 as [A1 B1]; intros X; enough (get (new h1 (HList [])) b = Some (HList [])) by congruence; heap_get).
  assert (AC : a <> c) by congruence. assert (BD : b <> d) by congruence.
  pose proof (proj1 T1') as G1. unfold enc_track in G1. cbn [track_empty t_signature t_max_denominator t_max_position t_sorted] in G1.
  destruct O as [-> | ->].
  all: repeat (lazymatch goal with |- RefineBase.reaches _ _ (Ca (VFun "Track.__eq__") _ _ _ _) _ => fail | _ => adv end).
  all: eapply reaches_trans; [eapply (track_eq_runs Y h2 a b _ c d); [exact natural_sort|exact contract|exact T1'|exact T2|apply empty_good; discriminate|apply empty_good; discriminate|exact AC|exact BD|exact TE]|].
  all: intros ? (h3 & -> & _); cbn [ends]; repeat (eapply reaches_more; [reflexivity|]); apply R.
Qed.

Lemma track_eq_test_runs h K : reaches (Ca (VFun "test_track.test_track_eq") [] [] h K) (fun s => exists h', s = Rt VNone h' K).
Proof.
  do 2 (eapply reaches_more; [reflexivity|]).
  apply two_tracks_reaches; [lia|lia|reflexivity| |left; reflexivity]. intros h1.
  do 3 (eapply reaches_more; [reflexivity|]).
  apply two_tracks_reaches; [lia|lia|reflexivity| |right; reflexivity]. intros h2.
  repeat (lazymatch goal with |- RefineBase.reaches _ _ (Lp _ _ _ _ _ _) _ => fail | _ => adv end).
  match goal with |- RefineBase.reaches _ _ (Lp _ _ (ISeq ?l) _ _ _) _ => change l with (range_list 0 10) end.
  destruct (range_ints 0 10) as (zs & -> & _).
  apply (eq_loop_runs (KSeq [] :: KFun :: K)) with (x := None). intros h5 x'. unfold eq_env. destruct x' as [[? ?]|]; repeat adv; apply reaches_here; eexists; reflexivity.
Qed.
End Tests.

(** ** The claims *)
Lemma c78_round_trip : forall Y h a b s ops, natural (py_sort Y) -> sort_contract (py_sort Y) -> valid_sig s -> Forall op_ok ops ->
  let l := contents (py_sort Y) s ops in
  Forall (fun e => in_midi_range 36 (snd e)) l -> sig_fits s -> Forall (fun e => last_pulse 96 e < 2 ^ 28) l -> Z.of_nat (List.length l) <= 1198000 ->
  ForallOrdPairs apart l -> TripSpec.plain l -> Forall audible l -> Forall (whole_note 96) l -> Forall byte_velocity l ->
  track_at h a b (run (py_sort Y) (track_empty s) ops) ->
  brings Y h [("t", VRef a)] (compare CEq (name "t") (call (name "midi.loads") [call (name "midi.dumps") [name "t"]]))
    (fun v h' => v = Ok (VBool true) /\ keeps [a; b] h h').
Proof.
  intros Y h a b s ops N C VS O l. intros. intros K. eapply reaches_trans; [eapply (round_trip_runs Y N C s ops h a b "t"); try eassumption; reflexivity|].
  intros u (h' & -> & KE). apply reaches_here. exists (Ok (VBool true)), h'. auto.
Qed.
Lemma c78_tests : forall Y h, natural (py_sort Y) -> sort_contract (py_sort Y) -> randint_contract Y ->
  brings Y h [] (call (name "test_midi_serialize.test_midi_serialize") []) (fun v _ => v = Ok VNone) /\
  brings Y h [] (call (name "test_track.test_track_eq") []) (fun v _ => v = Ok VNone).
Proof.
  intros Y h N C D. split; intros K; unfold call, name; cbn [List.map].
  all: repeat (lazymatch goal with |- RefineBase.reaches _ _ (Ca (VFun _) _ _ _ _) _ => fail | _ => adv end).
  - eapply reaches_trans; [apply (serialize_runs Y N C D)|]. intros ? (h' & ->). apply reaches_here. exists (Ok VNone), h'. auto.
  - eapply reaches_trans; [apply (track_eq_test_runs Y N C D)|]. intros ? (h' & ->). apply reaches_here. exists (Ok VNone), h'. auto.
Qed.
