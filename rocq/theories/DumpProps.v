(** Proofs of C52: what the bytes written by dump depend on. *)
From Coq Require Import ZArith QArith Qreduction Qround List Bool Permutation Sorted Lia.
From Verif Require Import Py PyFloat PySort Timsort Signature Tone Note Track MidiWriter
  SpecBase TrackSpec MidiSpec ReaderSpec DumpSpec SigFacts SigProps FloatFacts NoteProps SortFacts TimsortFacts TrackFacts TrackProps
  VarLenFacts StreamFacts TimeFacts VelocityFacts WriterFacts WriterProps TripSpec TripFacts TripProps StableProps.
Import ListNotations.
Open Scope Z_scope.

(** C52 in full: the same signature and the same contents, added in whatever order and with
    whatever observations in between, give the same bytes. *)
Definition contents_determine_bytes (sort : sort_fn) : Prop :=
  forall nd ppq middle_c bpm channel w s ops ops', writer_new nd ppq middle_c bpm channel = Ok w ->
  valid_sig s -> Forall op_ok ops -> Forall op_ok ops' ->
  Permutation (contents sort s ops) (contents sort s ops') ->
  d_written (dump sort w (run sort (track_empty s) ops)) = d_written (dump sort w (run sort (track_empty s) ops')).

Lemma c52_refuted : sort_contract cpython_sort /\ ~ contents_determine_bytes cpython_sort.
Proof.
  split; [exact cpython_sort_contract|]. intros H.
  set (n := fun k d v => OAdd (WNote (mkNote (mkTone 36) (mkSig k d) v)) (Some (SA_sig (mkSig 0 1)))).
  assert (E : exists w, writer_new ascii_digit 96 default_middle_c f_120 0 = Ok w) by (eexists; reflexivity).
  destruct E as [w Hw].
  assert (Hn : forall k v, 0 <= k -> valid_velocity v -> op_ok (n 1 (2 ^ k) v)).
  { intros k v Hk Hv. split; [|intros s E; injection E as <-; apply (valid_pow 0 0); lia].
    constructor; [|constructor]. split; [apply (valid_pow 1 k); lia|exact Hv]. }
  assert (H1 : op_ok (n 1 2 f_half)) by (apply (Hn 1); [lia|]; apply unit_test; reflexivity).
  assert (H2 : op_ok (n 1 4 f_one)) by (apply (Hn 2); [lia|]; apply unit_test; reflexivity).
  specialize (H _ _ _ _ _ w (mkSig 4 4) [n 1 2 f_half; n 1 4 f_one] [n 1 4 f_one; n 1 2 f_half] Hw (valid_pow 4 2 ltac:(lia) ltac:(lia))).
  injection Hw as <-.
  assert (HX : forall A B C, A -> B -> C -> (A -> B -> C -> False) -> False) by auto.
  apply (HX (Forall op_ok [n 1 2 f_half; n 1 4 f_one]) (Forall op_ok [n 1 4 f_one; n 1 2 f_half])
            (Permutation (contents cpython_sort (mkSig 4 4) [n 1 2 f_half; n 1 4 f_one]) (contents cpython_sort (mkSig 4 4) [n 1 4 f_one; n 1 2 f_half]))).
  - constructor; [exact H1|constructor; [exact H2|constructor]].
  - constructor; [exact H2|constructor; [exact H1|constructor]].
  - vm_compute. apply perm_swap.
  - intros A B C. specialize (H A B C). vm_compute in H. discriminate.
Qed.

(** ** What determines the bytes *)
Lemma onoff_value w e f : entry_ok e -> entry_ok f -> value_of e = value_of f -> onoff w e = onoff w f.
Proof.
  intros [_ He] [_ Hf] E. unfold value_of in E. apply four_parts in E. destruct E as (E1 & E2 & E3 & E4).
  apply Qred_eq in E1, E3, E4. unfold onoff, midi_pitch. rewrite E2.
  assert (P : forall a b, (a == b)%Q -> pulses (w_ppq w) a = pulses (w_ppq w) b) by (intros a b HQ; unfold pulses; rewrite HQ; reflexivity).
  rewrite (P _ _ E1), (P _ _ E3), (vbyte_value _ _ (proj2 He) (proj2 Hf) E4). reflexivity.
Qed.

Lemma flat_onoff_value w : forall l m, Forall entry_ok l -> Forall entry_ok m -> map value_of l = map value_of m ->
  flat_map (onoff w) l = flat_map (onoff w) m.
Proof.
  induction l as [|e l IH]; intros [|f m] Hl Hm E; try discriminate; [reflexivity|].
  inversion Hl; inversion Hm; subst. cbn [flat_map].
  assert (E1 : value_of e = value_of f) by exact (f_equal (hd (value_of e)) E).
  assert (E2 : map value_of l = map value_of m) by exact (f_equal (@tl _) E).
  rewrite (onoff_value w e f), (IH m) by assumption. reflexivity.
Qed.

Lemma flat_onoff_perm w : forall l m, Forall entry_ok l -> Forall entry_ok m -> Permutation (map value_of l) (map value_of m) ->
  Permutation (flat_map (onoff w) l) (flat_map (onoff w) m).
Proof.
  intros l m Hl Hm HP. destruct (Permutation_map_inv value_of m HP) as (m' & E & HP').
  assert (Hm' : Forall entry_ok m') by (eapply Permutation_Forall; eassumption).
  rewrite (flat_onoff_value w l m' Hl Hm' E). apply Permutation_flat_map, Permutation_sym, HP'.
Qed.

Lemma sorted_Z_unique : forall l m : list Z, StronglySorted Z.le l -> StronglySorted Z.le m -> Permutation l m -> l = m.
Proof.
  induction l as [|x l IH]; intros m Hl Hm HP.
  - apply Permutation_nil in HP. subst. reflexivity.
  - destruct m as [|y m]; [apply Permutation_sym, Permutation_nil in HP; discriminate|].
    inversion Hl as [|? ? Hl1 Hl2]; inversion Hm as [|? ? Hm1 Hm2]; subst. rewrite Forall_forall in Hl2, Hm2.
    assert (x = y).
    { assert (Hx : In x (y :: m)) by (eapply Permutation_in; [exact HP|left; reflexivity]).
      assert (Hy : In y (x :: l)) by (eapply Permutation_in; [apply Permutation_sym, HP|left; reflexivity]).
      destruct Hx as [->|Hx]; [reflexivity|]. destruct Hy as [->|Hy]; [reflexivity|].
      specialize (Hl2 _ Hy). specialize (Hm2 _ Hx). lia. }
    subst y. f_equal. apply IH; try assumption. eapply Permutation_cons_inv, HP.
Qed.

Lemma by_time_sorted {X} (l : list (Z * X)) : StronglySorted by_time l -> StronglySorted Z.le (map fst l).
Proof.
  induction 1 as [|x l Hs IH HF]; cbn [map]; constructor; [exact IH|]. apply Forall_map. exact HF.
Qed.

Lemma deltas_times {X} : forall (l m : list (Z * X)) last, map fst l = map fst m -> map fst (deltas last l) = map fst (deltas last m).
Proof.
  induction l as [|[t e] l IH]; intros [|[u f] m] last E; try discriminate; [reflexivity|].
  cbn [map fst] in E. injection E as <- E. cbn [deltas map fst]. f_equal. apply IH, E.
Qed.

Lemma plain_same_length : forall evs evs' b b', map fst evs = map fst evs' ->
  map (fun te : Z * midi_event => length (wire (snd te))) evs = map (fun te => length (wire (snd te))) evs' ->
  WriterFacts.plain evs b -> WriterFacts.plain evs' b' -> length b = length b'.
Proof.
  unfold WriterFacts.plain. induction evs as [|[t e] r IH]; intros [|[u f] r'] b b' E1 E2 H H'; try discriminate.
  - injection H as <-. injection H' as <-. reflexivity.
  - cbn [map fst snd] in E1, E2. injection E1 as <- E1.
    assert (E3 : length (wire e) = length (wire f)) by exact (f_equal (hd 0%nat) E2).
    assert (E4 : map (fun te : Z * midi_event => length (wire (snd te))) r = map (fun te => length (wire (snd te))) r') by exact (f_equal (@tl _) E2).
    cbn [map on_wire fst snd format_events] in H, H'. destruct (format_var_len t) as [v|]; [|discriminate]. cbn [bind] in H, H'.
    destruct (format_events (map on_wire r)) as [x|] eqn:Ex; [|discriminate]. destruct (format_events (map on_wire r')) as [x'|] eqn:Ex'; [|discriminate].
    cbn [bind] in H, H'. injection H as <-. injection H' as <-. specialize (IH r' x x' E1 E4 eq_refl Ex').
    change (length (v ++ wire e ++ x) = length (v ++ wire f ++ x')). unfold bytes in *. rewrite !app_length, E3, IH. reflexivity.
Qed.

Lemma notes_three ch l : Forall (fun te : Z * midi_event => channel_note ch (snd te)) l ->
  map (fun te : Z * midi_event => length (wire (snd te))) l = repeat 3%nat (length l).
Proof.
  induction 1 as [|[t e] l (p & v & [He|He] & _) Hl IH]; [reflexivity| |]; cbn [snd] in He; subst e; cbn [map repeat length]; rewrite IH; reflexivity.
Qed.

Lemma all_events_unwritable sort w s items : sort_contract sort -> writer_ok w -> valid_sig s -> Forall entry_ok items ->
  ~ representable w s items -> Forall (fun e : entry => in_range w (snd e)) items ->
  all_events sort w s items = all_events sort w s [].
Proof.
  intros Hsort Hw Hs Hok Hn D.
  assert (Hn' : ~ representable w s []). { intros (_ & H). apply Hn. split; assumption. }
  destruct (all_events_err sort w s items Hsort Hw Hs Hok Hn) as (e & E & _).
  destruct (all_events_err sort w s [] Hsort Hw Hs (Forall_nil _) Hn') as (e' & E' & _). rewrite E, E'. f_equal.
  unfold all_events in E, E'. rewrite note_events_ok in E by assumption. cbn [bind note_events] in E, E'.
  destruct (format_signature s (w_ppq w) 8) as [?|?]; cbn [bind] in E, E'; [|congruence].
  destruct (tempo_of_bpm (w_bpm w)) as [k|?]; cbn [bind] in E, E'; [|congruence].
  destruct (format_tempo k) as [?|?]; cbn [bind] in E, E'; [discriminate|congruence].
Qed.

Lemma c52_partial : forall sort, sort_contract sort -> forall nd ppq middle_c bpm channel w s ops ops',
  writer_new nd ppq middle_c bpm channel = Ok w -> valid_sig s -> Forall op_ok ops -> Forall op_ok ops' ->
  Permutation (map value_of (contents sort s ops)) (map value_of (contents sort s ops')) ->
  let o := dump sort w (run sort (track_empty s) ops) in
  let o' := dump sort w (run sort (track_empty s) ops') in
  d_result o = d_result o' /\ length (d_written o) = length (d_written o') /\
  (consistent (contents sort s ops) -> consistent (contents sort s ops') -> d_written o = d_written o').
Proof.
  intros sort Hs nd ppq mc bpm ch w s ops ops' Hnew HS Ho Ho' HP o o'.
  destruct (writer_new_ok _ _ _ _ _ _ Hnew) as (Hw & _).
  destruct (run_inv sort Hs s ops Ho) as [It St]. destruct (run_inv sort Hs s ops' Ho') as [Iu Su].
  fold (contents sort s ops) in It. fold (contents sort s ops') in Iu. subst o o'.
  set (t := run sort (track_empty s) ops) in *. set (u := run sort (track_empty s) ops') in *.
  pose proof (yields_entry_ok sort t _ Hs It) as Hokt. pose proof (yields_entry_ok sort u _ Hs Iu) as Hoku.
  assert (HV : Permutation (map value_of (yields sort t)) (map value_of (yields sort u))).
  { eapply perm_trans; [apply (inv_values _ _ _ Hs It)|]. eapply perm_trans; [exact HP|].
    apply Permutation_sym, (inv_values _ _ _ Hs Iu). }
  assert (HR : Forall (fun e : entry => in_range w (snd e)) (yields sort t) <-> Forall (fun e : entry => in_range w (snd e)) (yields sort u)).
  { assert (HX : forall l m, Permutation (map value_of l) (map value_of m) -> Forall (fun e : entry => in_range w (snd e)) l -> Forall (fun e : entry => in_range w (snd e)) m).
    { intros l m P H. apply Forall_forall. intros e He. apply (in_map value_of) in He. apply (Permutation_in _ (Permutation_sym P)) in He.
      apply in_map_iff in He. destruct He as (f & E & Hf). unfold value_of in E. apply four_parts in E. destruct E as (_ & E & _).
      rewrite Forall_forall in H. specialize (H f Hf). unfold in_range, midi_pitch in *. rewrite E in H. exact H. }
    split; apply HX; [exact HV|apply Permutation_sym, HV]. }
  assert (HRR : representable w (t_signature t) (yields sort t) <-> representable w (t_signature u) (yields sort u)).
  { unfold representable. rewrite HR, St, Su. reflexivity. }
  rewrite <- St in HS. pose proof HS as HSu. rewrite St, <- Su in HSu.
  destruct (representable_dec w (t_signature t) (yields sort t)) as [R|R].
  - pose proof (proj1 HRR R) as Ru.
    destruct (dump_good sort w t _ Hs Hw It HS R) as (k & b & Ek & Hk & Hb & _ & E).
    destruct (dump_good sort w u _ Hs Hw Iu HSu Ru) as (k' & b' & Ek' & _ & Hb' & _ & E').
    rewrite Ek in Ek'. injection Ek' as <-.
    assert (HL : length b = length b').
    { pose proof (note_stream_notes w _ Hw Hokt (proj1 R)) as N1. pose proof (note_stream_notes w _ Hw Hoku (proj1 Ru)) as N2.
      pose proof (flat_onoff_perm w _ _ Hokt Hoku HV) as HF.
      assert (HF' : Permutation (note_stream w (yields sort t)) (note_stream w (yields sort u))).
      { unfold note_stream. eapply perm_trans; [apply tsort_perm|]. eapply perm_trans; [exact HF|]. apply Permutation_sym, tsort_perm. }
      assert (HT : map fst (note_stream w (yields sort t)) = map fst (note_stream w (yields sort u))).
      { apply sorted_Z_unique; [apply by_time_sorted, tsort_sorted..|]. apply Permutation_map, HF'. }
      eapply plain_same_length; [| |exact Hb|exact Hb']; unfold events_of; rewrite St, Su; rewrite !map_app.
      - rewrite (deltas_times _ _ 0 HT). reflexivity.
      - rewrite (notes_three (w_channel w) (deltas 0 (note_stream w (yields sort t)))), (notes_three (w_channel w) (deltas 0 (note_stream w (yields sort u)))).
        + assert (EL : length (deltas 0 (note_stream w (yields sort t))) = length (deltas 0 (note_stream w (yields sort u)))).
          { rewrite <- (map_length snd), <- (map_length snd (deltas 0 (note_stream w (yields sort u)))), !deltas_snd, !map_length. apply Permutation_length, HF'. }
          rewrite EL. reflexivity.
        + apply deltas_forall, N2.
        + apply deltas_forall, N1. }
    rewrite HL in E. rewrite E, E'. split; [destruct (Z.of_nat (length b') <? 2 ^ 32); reflexivity|]. split.
    + destruct (Z.of_nat (length b') <? 2 ^ 32); cbn [d_written]; [|reflexivity]. unfold smf, chunk, bytes in *. rewrite !app_length, HL, !be_bytes_length. reflexivity.
    + intros C C'. destruct (inv_same_order sort t u _ _ Hs It Iu HP) as [_ EY]. specialize (EY C C').
      unfold WriterFacts.plain, events_of, note_stream in Hb, Hb'. rewrite St in Hb. rewrite Su in Hb'.
      rewrite (flat_onoff_value w _ _ Hokt Hoku EY) in Hb. rewrite Hb in Hb'. injection Hb' as ->. destruct (Z.of_nat (length b') <? 2 ^ 32); reflexivity.
  - assert (Ru : ~ representable w (t_signature u) (yields sort u)) by (intros Ru; apply R, HRR, Ru).
    destruct (dump_bad sort w t _ Hs Hw It HS R) as (e & E & EV & _). destruct (dump_bad sort w u _ Hs Hw Iu HSu Ru) as (e' & E' & EV' & _).
    assert (HE : e = e').
    { destruct (Forall_dec (fun e : entry => in_range w (snd e))) with (l := yields sort t) as [D|D].
      - intros x. unfold in_range. destruct (Z_le_dec 0 (midi_pitch w (snd x))), (Z_le_dec (midi_pitch w (snd x)) 127); [left; lia|right; lia..].
      - pose proof (all_events_unwritable sort w _ _ Hs Hw HS Hokt R D) as A1.
        pose proof (all_events_unwritable sort w _ _ Hs Hw HSu Hoku Ru (proj1 HR D)) as A2.
        destruct (all_events_err sort w _ _ Hs Hw HS Hokt R) as (x & X & _).
        destruct (all_events_err sort w _ _ Hs Hw HSu Hoku Ru) as (y & Y & _).
        assert (XY : x = y) by (rewrite X, St in A1; rewrite Y, Su in A2; congruence).
        pose proof (track_iter_sig sort t) as E1. pose proof (track_iter_sig sort u) as E2.
        unfold dump in E, E'. unfold yields in X, Y.
        destruct (track_iter sort t) as [t' it]. destruct (track_iter sort u) as [u' iu]. cbn [fst snd] in *.
        rewrite E1, X in E. rewrite E2, Y in E'. congruence.
      - rewrite (EV D). symmetry. apply EV'. rewrite <- HR. exact D. }
    subst e'. rewrite E, E'. auto.
Qed.
