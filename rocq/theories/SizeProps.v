(** The size of a dumped file, and dumping and loading again without conditions on the bytes (C65). *)
From Coq Require Import ZArith QArith Qround List Bool Lia ZifyBool Permutation Sorted.
From Verif Require Import Py PyFloat PySort Timsort Signature Tone Note Track MidiWriter MidiReader
  SpecBase TrackSpec MidiSpec ReaderSpec DumpSpec SigFacts SigProps NoteProps TrackFacts TrackProps VarLenFacts TimeFacts
  VelocityFacts WriterFacts WriterProps TripSpec TripFacts TripProps ModuleProps.
Import ListNotations.
Open Scope Z_scope.

(** The last pulse of a note. *)
Definition last_pulse (ppq : Z) (e : sig * note) : Z :=
  Qfloor (inject_Z (4 * ppq) * sval (fst e)) + Qfloor (inject_Z (4 * ppq) * sval (n_duration (snd e))).

Lemma format_events_app : forall a b, format_events (a ++ b) =
  (let! x := format_events a in let! y := format_events b in Ok (x ++ y)).
Proof.
  induction a as [|[dt e] a IH]; intros b; cbn [app format_events].
  - destruct (format_events b); reflexivity.
  - destruct (format_var_len dt); [|reflexivity]. cbn [bind]. rewrite IH.
    destruct (format_events a); [|reflexivity]. cbn [bind]. destruct (format_events b); [|reflexivity]. cbn [bind].
    rewrite <- !app_assoc. reflexivity.
Qed.

Lemma notes_size ch : forall l b, Forall (fun te => 0 <= fst te < 2 ^ 28) l ->
  Forall (fun te : Z * midi_event => channel_note ch (snd te)) l -> format_events (map on_wire l) = Ok b ->
  (4 * length l <= length b <= 7 * length l)%nat.
Proof.
  induction l as [|[dt e] r IH]; intros b H1 H2 E; cbn [map on_wire fst snd format_events] in E.
  - injection E as <-. cbn. lia.
  - inversion H1 as [|? ? A1 A2]; subst. inversion H2 as [|? ? B1 B2]; subst. cbn [fst snd] in *.
    destruct (c31_encoding dt ltac:(lia)) as (ds & Ed & _ & _ & Hd & HL). rewrite Ed in E. cbn [bind] in E.
    destruct (format_events (map on_wire r)) as [rest|]; cbn [bind] in E; [|discriminate].
    assert (EB : b = with_bit7 ds ++ wire e ++ rest) by congruence. subst b. clear E. rewrite !app_length. specialize (IH rest A2 B2 eq_refl).
    assert ((length (with_bit7 ds) <= 4)%nat) by (apply HL; lia).
    assert ((1 <= length (with_bit7 ds))%nat).
    { rewrite with_bit7_length. destruct Hd as [->|(d & r' & -> & _)]; cbn [length]; lia. }
    assert (HW : length (wire e) = 3%nat).
    { destruct B1 as (p & v & [->| ->] & _); reflexivity. }
    rewrite HW. cbn [length]. unfold bytes in *. lia.
Qed.

Lemma body_size w s k items b ch : Forall (fun te => 0 <= fst te < 2 ^ 28) (deltas 0 (note_stream w items)) ->
  Forall (fun te : Z * midi_event => channel_note ch (snd te)) (deltas 0 (note_stream w items)) ->
  WriterFacts.plain (events_of w s k items) b ->
  let n := length (deltas 0 (note_stream w items)) in (19 + 4 * n <= length b <= 19 + 7 * n)%nat.
Proof.
  intros H1 H2 H n. unfold WriterFacts.plain, events_of in H. rewrite !map_app, !format_events_app in H.
  destruct (format_events (map on_wire (deltas 0 (note_stream w items)))) as [y|] eqn:EY.
  - change (format_events (map on_wire [(0, MEndOfTrack)])) with (@Ok bytes [0; 255; 47; 0]) in H.
    change (format_events (map on_wire [(0, MTimeSignature (nominator s) (Z.log2 (denominator s)) (w_ppq w) 8); (0, MMeta 81 (be_bytes 3 k))]))
      with (@Ok bytes ([0; 255; 88; 4; nominator s; Z.log2 (denominator s); w_ppq w; 8; 0; 255; 81; Z.of_nat (length (be_bytes 3 k))] ++ be_bytes 3 k ++ [])) in H.
    cbn [bind] in H.
    assert (EB : b = ([0; 255; 88; 4; nominator s; Z.log2 (denominator s); w_ppq w; 8; 0; 255; 81; Z.of_nat (length (be_bytes 3 k))] ++ be_bytes 3 k ++ []) ++ y ++ [0; 255; 47; 0]) by congruence.
    clear H. destruct (notes_size ch _ _ H1 H2 EY) as [L1 L2]. fold n in L1, L2. subst b.
    repeat rewrite app_length. rewrite be_bytes_length. cbn [length]. unfold bytes in *. lia.
  - cbn [bind] in H. destruct (format_events (map on_wire [_; _])); discriminate.
Qed.

Lemma smf_size q b : length (smf q b) = (22 + length b)%nat.
Proof. unfold smf, smf_header, chunk. rewrite !app_length, !be_bytes_length. cbn [length]. lia. Qed.

Lemma c65_writes : forall sort, sort_contract sort -> forall nd ppq middle_c bpm channel w c,
  writer_new nd ppq middle_c bpm channel = Ok w -> tone_of_arg nd middle_c = Ok c -> ppq <= 255 ->
  forall s ops, valid_sig s -> Forall op_ok ops ->
  Forall (fun e => in_midi_range (pitch c) (snd e)) (contents sort s ops) -> sig_fits s -> tempo_fits bpm ->
  Forall (fun e => last_pulse ppq e < 2 ^ 28) (contents sort s ops) -> Z.of_nat (length (contents sort s ops)) <= 2 ^ 28 ->
  exists bs, dumps sort w (run sort (track_empty s) ops) = Ok bs /\
    41 + 8 * Z.of_nat (length (contents sort s ops)) <= Z.of_nat (length bs) <= 41 + 14 * Z.of_nat (length (contents sort s ops)).
Proof.
  intros sort Hs nd ppq mc bpm ch w c Hnew Hc Hp s ops HS Ho Hr Hf Ht HT Hn.
  destruct (writer_new_ok _ _ _ _ _ _ Hnew) as (Hw & Hq & Hbpm & _ & c' & Hc' & Hd).
  rewrite Hc in Hc'. injection Hc' as <-. subst ppq bpm.
  destruct (run_inv sort Hs s ops Ho) as [HI Hsig]. unfold contents in *. set (t := run sort (track_empty s) ops) in *. set (l := log sort (track_empty s) ops) in *.
  rewrite <- Hsig in HS, Hf. pose proof (proj2 (in_range_log sort w _ t l Hs HI Hd) Hr) as Hr'.
  assert (HR : representable w (t_signature t) (yields sort t)) by (repeat split; try assumption; apply Hf).
  destruct (dump_good sort w t l Hs Hw HI HS HR) as (k & b & Ek & Hk & Hb & Hst & E).
  pose proof (yields_entry_ok sort t _ Hs HI) as Hok.
  assert (Hsmall : Forall (fun te => 0 <= fst te < 2 ^ 28) (note_stream w (yields sort t))).
  { eapply Permutation_Forall; [apply Permutation_sym, tsort_perm|].
    eapply Permutation_Forall; [apply Permutation_sym, (start_end_log sort w _ t l Hs HI Hd)|].
    apply Forall_flat_map. apply Forall_forall. intros e He.
    rewrite Forall_forall in HT. specialize (HT e He). unfold last_pulse in HT.
    pose proof (inv_entries _ _ HI) as Hi. rewrite Forall_forall in Hi. destruct (Hi e He) as [V1 [V2 _]].
    destruct Hw as (Hpq & _).
    pose proof (pulses_nonneg (w_ppq w) (sval (fst e)) ltac:(lia) (sval_nonneg _ V1)) as P1.
    pose proof (pulses_nonneg (w_ppq w) (sval (n_duration (snd e))) ltac:(lia) (sval_nonneg _ V2)) as P2.
    unfold pulses in P1, P2. unfold start_end. constructor; [cbn [fst]; lia|]. constructor; [cbn [fst]; lia|constructor]. }
  assert (Hdel : Forall (fun te => 0 <= fst te < 2 ^ 28) (deltas 0 (note_stream w (yields sort t)))).
  { apply deltas_small; [apply tsort_sorted|lia|exact Hsmall]. }
  assert (EL : length (deltas 0 (note_stream w (yields sort t))) = (2 * length l)%nat).
  { rewrite <- (map_length snd), deltas_snd, map_length. unfold note_stream.
    rewrite (Permutation_length (tsort_perm _)), onoff_length.
    rewrite (Permutation_length (yields_perm sort Hs t l HI)), map_length. reflexivity. }
  assert (HL := body_size w (t_signature t) k (yields sort t) b (w_channel w) Hdel
    ltac:(apply (deltas_forall (channel_note (w_channel w))), note_stream_notes; assumption) Hb).
  cbv zeta in HL. rewrite EL in HL. unfold dumps. rewrite E.
  destruct (Z.ltb_spec (Z.of_nat (length b)) (2 ^ 32)) as [L|L]; cbn [d_result d_written].
  - eexists. split; [reflexivity|]. rewrite smf_size. lia.
  - exfalso. lia.
Qed.

(** Everything about the round trip in terms of what was added. *)
Lemma c65_round_trip : forall sort, sort_contract sort -> forall nd ppq middle_c bpm channel w c nd' middle_c' m c',
  writer_new nd ppq middle_c bpm channel = Ok w -> tone_of_arg nd middle_c = Ok c -> ppq <= 255 ->
  midi_reader_new nd' middle_c' = Ok m -> tone_of_arg nd' middle_c' = Ok c' -> pitch c' = pitch c ->
  forall s ops, valid_sig s -> Forall op_ok ops ->
  Forall (fun e => in_midi_range (pitch c) (snd e)) (contents sort s ops) -> sig_fits s -> tempo_fits bpm ->
  Forall (fun e => last_pulse ppq e < 2 ^ 28) (contents sort s ops) ->
  Z.of_nat (length (contents sort s ops)) <= 1198000 ->
  ForallOrdPairs apart (contents sort s ops) -> TripSpec.plain (contents sort s ops) ->
  Forall audible (contents sort s ops) -> Forall (whole_note ppq) (contents sort s ops) -> Forall byte_velocity (contents sort s ops) ->
  exists bs t, dumps sort w (run sort (track_empty s) ops) = Ok bs /\ load sort m bs None = Ok t /\
    eq_result sort t (run sort (track_empty s) ops) = true /\ eq_result sort (run sort (track_empty s) ops) t = true /\
    map value_of (yields sort t) = map value_of (yields sort (run sort (track_empty s) ops)).
Proof.
  intros sort Hs nd ppq mc bpm ch w c nd' mc' m c' Hnew Hc Hp Hm Hc' Ec s ops HS Ho Hr Hf Ht HT Hn H1 H2 H3 H4 H5.
  destruct (c65_writes sort Hs nd ppq mc bpm ch w c Hnew Hc Hp s ops HS Ho Hr Hf Ht HT ltac:(lia)) as (bs & E & HL).
  assert (T : trip sort ppq ch w c c' m s ops bs).
  { split; try assumption; [exists nd, mc, bpm; auto|exists nd', mc'; auto|lia]. }
  destruct (c40_equal sort Hs _ _ _ _ _ _ _ _ _ T Ec H1 H2 H3 H4 H5) as (t & T1 & T2 & T3 & T4).
  exists bs, t. auto.
Qed.

(** ** The tracks of tests/melodia/io/test_midi_serialize.py *)

(** random_track_without_overlaps (test_midi_serialize.py 7-17), the random numbers being given: the
    notes have the pitches and durations of [l], the i-th one at 200 i / 16. *)
Fixpoint spread (i : Z) (l : list (Z * Z)) : list op :=
  match l with
  | [] => []
  | (p, d) :: r => OAdd (WNote (mkNote (mkTone p) (mkSig d 16) f_one)) (Some (SA_iter [EInt (200 * i); EInt 16])) :: spread (i + 1) r
  end.
Fixpoint spread_contents (i : Z) (l : list (Z * Z)) : list (sig * note) :=
  match l with
  | [] => []
  | (p, d) :: r => (mkSig (200 * i) 16, mkNote (mkTone p) (mkSig d 16) f_one) :: spread_contents (i + 1) r
  end.

Lemma spread_log sort : forall l i t, 0 <= i -> log sort t (spread i l) = spread_contents i l.
Proof.
  induction l as [|[p d] r IH]; intros i t Hi; [reflexivity|]. cbn [spread log spread_contents].
  rewrite IH by lia. cbn [additions notes_of].
  assert (E : position_of (SA_iter [EInt (200 * i); EInt 16]) = Some (mkSig (200 * i) 16)).
  { unfold position_of. replace (0 <=? 200 * i) with true by lia. reflexivity. }
  rewrite E. reflexivity.
Qed.

Definition drawn (pd : Z * Z) : Prop := 30 <= fst pd <= 90 /\ 0 <= snd pd <= 100.

Lemma spread_in : forall l i e, In e (spread_contents i l) ->
  exists j p d, i <= j < i + Z.of_nat (length l) /\ In (p, d) l /\ e = (mkSig (200 * j) 16, mkNote (mkTone p) (mkSig d 16) f_one).
Proof.
  induction l as [|[p d] r IH]; intros i e He; [destruct He|]. cbn [spread_contents] in He. cbn [length].
  destruct He as [<-|He].
  - exists i, p, d. split; [lia|]. split; [left; reflexivity|reflexivity].
  - destruct (IH _ _ He) as (j & p' & d' & H1 & H2 & H3). exists j, p', d'. split; [lia|]. split; [right; exact H2|exact H3].
Qed.

Lemma spread_at : forall l i j m n, In (mkSig (200 * j) 16, m) (spread_contents i l) -> In (mkSig (200 * j) 16, n) (spread_contents i l) -> m = n.
Proof.
  induction l as [|[p d] r IH]; intros i j m n H1 H2; [destruct H1|]. cbn [spread_contents] in H1, H2.
  destruct H1 as [H1|H1], H2 as [H2|H2]; [congruence| | |eapply IH; eauto]; exfalso.
  - destruct (spread_in _ _ _ H2) as (j' & p' & d' & J & _ & E). assert (200 * i = 200 * j) by congruence. assert (200 * j = 200 * j') by congruence. lia.
  - destruct (spread_in _ _ _ H1) as (j' & p' & d' & J & _ & E). assert (200 * i = 200 * j) by congruence. assert (200 * j = 200 * j') by congruence. lia.
Qed.

Lemma spread_apart : forall l i, Forall drawn l -> ForallOrdPairs apart (spread_contents i l).
Proof.
  induction l as [|[p d] r IH]; intros i H; [constructor|]. inversion H as [|? ? H1 H2]; subst. cbn [spread_contents].
  constructor; [|apply IH, H2]. apply Forall_forall. intros f Hf.
  destruct (spread_in _ _ _ Hf) as (j & p' & d' & J & _ & ->). intros _. left.
  unfold note_end. cbn [fst snd n_duration]. unfold sval. cbn [nominator denominator Z.to_pos].
  unfold drawn in H1. cbn [fst snd] in H1. unfold Qle, Qplus. cbn [Qnum Qden]. lia.
Qed.

Lemma f_one_127 : (fval f_one == fval (velocity_of_byte 127))%Q.
Proof. vm_compute. reflexivity. Qed.

Lemma spread_length : forall l i, length (spread_contents i l) = length l.
Proof. induction l as [|[p d] r IH]; intros i; [reflexivity|]. cbn [spread_contents length]. rewrite IH. reflexivity. Qed.

Lemma valid_f_one : valid_velocity f_one.
Proof. repeat split; try discriminate; exact I. Qed.

Lemma spread_ok : forall l i, Forall drawn l -> Forall op_ok (spread i l).
Proof.
  induction l as [|[p d] r IH]; intros i H; [constructor|]. inversion H as [|? ? H1 H2]; subst. cbn [spread].
  constructor; [|apply IH, H2]. split; [|discriminate]. constructor; [|constructor]. unfold drawn in H1. cbn [fst snd] in H1.
  split; cbn; [|apply valid_f_one]. split; cbn; [lia|]. exists 4. split; [lia|reflexivity].
Qed.

Lemma c65_test_suite : forall sort, sort_contract sort -> forall k l, 0 <= k <= 100 -> Forall drawn l -> Z.of_nat (length l) <= 50000 ->
  let t := run sort (track_empty (mkSig k 16)) (spread 1 l) in
  exists bs u, midi_dumps sort t f_120 0 = Ok bs /\ midi_loads sort bs None = Ok u /\ eq_result sort t u = true.
Proof.
  intros sort Hs k l Hk Hl Hn t.
  assert (EC : contents sort (mkSig k 16) (spread 1 l) = spread_contents 1 l) by (apply spread_log; lia).
  assert (HIn : forall P : sig * note -> Prop,
    (forall j p d, 1 <= j <= 50000 -> 30 <= p <= 90 -> 0 <= d <= 100 -> P (mkSig (200 * j) 16, mkNote (mkTone p) (mkSig d 16) f_one)) ->
    Forall P (spread_contents 1 l)).
  { intros P HP. apply Forall_forall. intros e He. destruct (spread_in _ _ _ He) as (j & p & d & J & Hpd & ->).
    rewrite Forall_forall in Hl. specialize (Hl _ Hpd). unfold drawn in Hl. cbn [fst snd] in Hl. apply HP; lia. }
  assert (H16 : forall z, (inject_Z (4 * 96) * sval (mkSig z 16) == inject_Z (24 * z))%Q).
  { intros z. unfold sval, Qeq, Qmult, inject_Z. cbn [nominator denominator Z.to_pos Qnum Qden].
    change (Z.pos (1 * 16)) with 16. lia. }
  destruct (c65_round_trip sort Hs ascii_digit 96 default_middle_c f_120 0 (module_writer f_120 0) (mkTone 36)
    ascii_digit default_middle_c (mkMR 24) (mkTone 36)) with (s := mkSig k 16) (ops := spread 1 l)
    as (bs & u & E1 & E2 & _ & E3 & _); try rewrite EC; try reflexivity; try lia.
  - split; cbn; [lia|]. exists 4. split; [lia|reflexivity].
  - apply spread_ok, Hl.
  - apply HIn. intros j p d J Hp Hd. unfold in_midi_range, note_pitch. cbn [snd n_tone pitch]. lia.
  - split; cbn [nominator denominator]; [lia|]. change 16 with (2 ^ 4). apply Z.pow_le_mono_r; lia.
  - exists 500000. split; [vm_compute; reflexivity|lia].
  - apply HIn. intros j p d J Hp Hd. unfold last_pulse. cbn [fst snd n_duration]. rewrite !H16, !Qfloor_Z. lia.
  - rewrite spread_length. lia.
  - apply spread_apart, Hl.
  - intros e f He Hf Ep _. destruct (spread_in _ _ _ He) as (j & p & d & J & Hpd & ->).
    destruct (spread_in _ _ _ Hf) as (j' & p' & d' & J' & Hpd' & ->).
    cbn [fst snd n_tone n_duration] in *. assert (j = j').
    { unfold sval, Qeq in Ep. cbn [nominator denominator Z.to_pos Qnum Qden] in Ep. lia. }
    subst j'. pose proof (spread_at _ _ _ _ _ He Hf) as EE. injection EE as _ ->. reflexivity.
  - apply HIn. intros j p d J Hp Hd. unfold audible, note_velocity. cbn [snd n_velocity]. vm_compute. discriminate.
  - apply HIn. intros j p d J Hp Hd. split; cbn [fst snd n_duration]; [exists (24 * (200 * j))|exists (24 * d)]; apply H16.
  - apply HIn. intros j p d J Hp Hd. exists 127. split; [lia|]. apply f_one_127.
  - exists bs, u. unfold midi_dumps, midi_loads. auto.
Qed.
