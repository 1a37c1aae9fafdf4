(** Choosing a channel (C47) and the signature of several channels (C48): the parts that are false,
    and what holds for dumped files. *)
From Coq Require Import ZArith QArith Qround Qreduction List Bool Lia ZifyBool Sorted Permutation.
From Verif Require Import Py PyFloat PySort Timsort Signature Tone Note Track MidiWriter MidiReader
  SpecBase TrackSpec MidiSpec ReaderSpec DumpSpec SigFacts SigProps FloatFacts NoteProps SortFacts TimsortFacts TrackFacts TrackProps VarLenFacts
  StreamFacts PairFacts TimeFacts VelocityFacts WriterFacts WriterProps ReadFacts LoadFacts FileFacts ReaderProps LoadProps
  TripSpec TripFacts TripProps StableProps.
Import ListNotations.
Open Scope Z_scope.

(** The plainest bytes of a list of events: one-byte times and lengths, every status byte. *)
Definition plain_payload (e : midi_event) : bytes :=
  match e with
  | MNoteOff _ p v | MNoteOn _ p v => [p; v]
  | MOther _ d => d
  | _ => match meta_of e with Some (k, d) => k :: Z.of_nat (length d) :: d | None => [] end
  end.
Definition plain_bytes (evs : list (Z * midi_event)) : bytes :=
  flat_map (fun te => fst te :: status_of (snd te) :: plain_payload (snd te)) evs.

Definition plain_event (te : Z * midi_event) : Prop :=
  0 <= fst te < 128 /\ match meta_of (snd te) with Some (_, d) => Z.of_nat (length d) < 128 | None => True end.

Lemma plain_payload_ok e : match meta_of e with Some (_, d) => Z.of_nat (length d) < 128 | None => True end -> payload e (plain_payload e).
Proof.
  intros H. destruct e; cbn [plain_payload meta_of] in *; try constructor;
    match goal with |- payload ?e (?k :: ?n :: ?d) => change (k :: n :: d) with (k :: [n] ++ d); apply (P_meta e k d); [reflexivity|apply vlq_small; cbn in *; lia] end.
Qed.

Lemma plain_stream : forall evs previous, Forall plain_event evs -> stream_bytes previous evs (plain_bytes evs).
Proof.
  induction evs as [|[dt e] r IH]; intros previous H; [constructor|]. inversion H as [|? ? [H1 H2] H3]; subst. cbn [fst snd] in *.
  change (plain_bytes ((dt, e) :: r)) with ([dt] ++ (status_of e :: plain_payload e) ++ plain_bytes r).
  constructor; [apply vlq_small; lia|constructor; apply plain_payload_ok, H2|apply IH, H3].
Qed.

(** ** C47 *)
Lemma yields_consistent sort t l : sort_contract sort -> Inv t l -> consistent (yields sort t) -> consistent l.
Proof.
  intros Hs HI HC e f He Hf E1 E2. pose proof (yields_perm sort Hs _ _ HI) as HP.
  assert (HY : forall x, In x l -> exists y, In y (yields sort t) /\ (sval (fst y) == sval (fst x))%Q /\ snd y = snd x).
  { intros x Hx. exists (rescale (maxden l) x). split; [eapply Permutation_in; [apply Permutation_sym, HP|apply in_map, Hx]|].
    split; [|reflexivity]. pose proof (inv_entries _ _ HI) as HE. cbn [rescale fst]. apply resc_val; [|apply maxden_pow2, HE|apply maxden_in, Hx].
    rewrite Forall_forall in HE. apply HE, Hx. }
  destruct (HY e He) as (e' & A1 & A2 & A3). destruct (HY f Hf) as (f' & B1 & B2 & B3).
  specialize (HC e' f' A1 B1). rewrite A2, B2, A3, B3 in HC. apply HC; assumption.
Qed.

Definition other_channels_raise (sort : sort_fn) : Prop :=
  forall m q b evs dt c, 0 < q <= 32767 -> stream_bytes None (evs ++ [(dt, MEndOfTrack)]) b -> evs_ok evs ->
  Z.of_nat (length b) < 2 ^ 24 -> (forall e, In e (note_events_of evs) -> ne_channel e <> c) ->
  load sort m (smf q b) (Some c) = Err ValueError.

Definition own_channel_is_all (sort : sort_fn) : Prop :=
  forall ppq channel w c c' m s ops bs, trip sort ppq channel w c c' m s ops bs ->
  exists t u, load sort m bs (Some channel) = Ok t /\ load sort m bs None = Ok u /\ eq_result sort t u = true.

Definition third_writer := mkWriter 96 384 24 f_120 3.

Lemma c47_refuted : sort_contract cpython_sort /\ ~ other_channels_raise cpython_sort /\ ~ own_channel_is_all cpython_sort.
Proof.
  split; [exact cpython_sort_contract|]. split; intros H.
  - assert (HS : stream_bytes None ([] ++ [(0, MEndOfTrack)]) [0; 255; 47; 0]).
    { apply (plain_stream [(0, MEndOfTrack)]). repeat constructor; cbn; lia. }
    specialize (H (mkMR 24) 96 [0; 255; 47; 0] [] 0 0 ltac:(lia) HS ltac:(repeat split; constructor) eq_refl ltac:(intros e [])).
    vm_compute in H. discriminate.
  - assert (E : exists bs, dumps cpython_sort third_writer (run cpython_sort (track_empty (mkSig 4 4)) []) = Ok bs /\
      Z.of_nat (length bs) < 22 + 2 ^ 24 /\ load cpython_sort (mkMR 24) bs (Some 3) = Err ValueError).
    { eexists. split; [vm_compute; reflexivity|]. split; vm_compute; reflexivity. }
    destruct E as (bs & E1 & E2 & E3).
    destruct (H 96 3 third_writer (mkTone 36) (mkTone 36) (mkMR 24) (mkSig 4 4) [] bs) as (t & u & E4 & _); [|congruence].
    constructor; try assumption.
    + exists ascii_digit, default_middle_c, f_120. split; reflexivity.
    + exists ascii_digit, default_middle_c. split; reflexivity.
    + apply (valid_pow 4 2); lia.
    + constructor.
Qed.

Lemma c47_dumped : forall sort, sort_contract sort -> forall ppq channel w c c' m s ops bs,
  trip sort ppq channel w c c' m s ops bs -> contents sort s ops <> [] ->
  exists t u, load sort m bs (Some channel) = Ok t /\ load sort m bs None = Ok u /\
    (forall c0, c0 <> channel -> load sort m bs (Some c0) = Err ValueError) /\
    (sval (t_signature t) == sval (t_signature u))%Q /\
    Permutation (map value_of (yields sort t)) (map value_of (yields sort u)) /\
    (consistent (yields sort t) -> eq_result sort t u = true /\ eq_result sort u t = true).
Proof.
  intros sort Hs ppq channel w c c' m s ops bs [(nd & mc & bpm & Hnew & Hc) _ HS Ho E HL] Hne.
  destruct (run_inv sort Hs s ops Ho) as [HI Hsig].
  destruct (dumped_load sort nd ppq mc bpm channel w c s ops bs m Hs Hnew Hc HS Ho E HL) as (t & l & T1 & T2 & T3 & T4 & T4' & T5).
  assert (Hch : match yields sort (run sort (track_empty s) ops) with [] => 0 | _ => channel end = channel).
  { destruct (yields sort (run sort (track_empty s) ops)) eqn:EY; [|reflexivity]. exfalso. apply Hne.
    pose proof (inv_values sort _ _ Hs HI) as HP. rewrite EY in HP. apply Permutation_nil in HP. apply map_eq_nil in HP. exact HP. }
  rewrite Hch in T4, T4'.
  destruct (merged_one sort t l Hs T1) as (M1 & M2 & M3); [rewrite T2; exact HS|].
  exists t, (merged sort [t]). split; [exact T4|]. split; [exact T5|]. split; [exact T4'|].
  split; [symmetry; exact M2|]. split; [apply Permutation_sym, M3|]. intros HC.
  assert (HP : Permutation (map value_of l) (map value_of (yields sort t))) by (apply Permutation_sym, (inv_values sort t l Hs T1)).
  pose proof (yields_consistent sort t l Hs T1 HC) as HC'.
  assert (V1 : valid_sig (t_signature t)) by (rewrite T2; exact HS).
  assert (V2 : valid_sig (t_signature (merged sort [t]))).
  { destruct (merged_inv sort [t] Hs) as [_ I2]; [constructor; [eexists; exact T1|constructor]|]. rewrite I2. apply max_signature_valid.
    constructor; [exact V1|constructor]. }
  split; eapply same_values_equal; try eassumption.
  - symmetry. exact M2.
  - apply Permutation_sym, HP.
Qed.

(** ** C48 *)
Definition merged_is_largest (sort : sort_fn) : Prop :=
  forall m q b evs dt t, 0 < q <= 32767 -> stream_bytes None (evs ++ [(dt, MEndOfTrack)]) b -> evs_ok evs ->
  Z.of_nat (length b) < 2 ^ 24 -> load sort m (smf q b) None = Ok t ->
  forall c u, load sort m (smf q b) (Some c) = Ok u -> (sval (t_signature u) <= sval (t_signature t))%Q.

Definition two_signatures : list (Z * midi_event) :=
  [(0, MChannelPrefix 0); (0, MTimeSignature 7 3 24 8); (0, MChannelPrefix 1); (0, MTimeSignature 3 2 24 8);
   (0, MNoteOn 0 60 64); (96, MNoteOff 0 60 0); (0, MNoteOn 1 60 64); (96, MNoteOff 1 60 0)].
Lemma c48_refuted : sort_contract cpython_sort /\ ~ merged_is_largest cpython_sort.
Proof.
  split; [exact cpython_sort_contract|]. intros H.
  assert (HS : stream_bytes None (two_signatures ++ [(0, MEndOfTrack)]) (plain_bytes (two_signatures ++ [(0, MEndOfTrack)]))).
  { apply plain_stream. unfold two_signatures. cbn [app]. repeat (constructor; [split; cbn; lia|]). constructor. }
  assert (HE : evs_ok two_signatures).
  { unfold two_signatures. split; [|split]; repeat (constructor; [cbn; unfold is_byte; try lia; try discriminate|]); constructor. }
  assert (E : exists t u, load cpython_sort (mkMR 24) (smf 96 (plain_bytes (two_signatures ++ [(0, MEndOfTrack)]))) None = Ok t /\
    load cpython_sort (mkMR 24) (smf 96 (plain_bytes (two_signatures ++ [(0, MEndOfTrack)]))) (Some 0) = Ok u /\
    t_signature t = mkSig 3 4 /\ t_signature u = mkSig 7 8).
  { eexists _, _. split; [vm_compute; reflexivity|]. split; [vm_compute; reflexivity|]. split; reflexivity. }
  destruct E as (t & u & E1 & E2 & E3 & E4).
  specialize (H (mkMR 24) 96 _ two_signatures 0 t ltac:(lia) HS HE eq_refl E1 0 u E2). rewrite E3, E4 in H. vm_compute in H. congruence.
Qed.
