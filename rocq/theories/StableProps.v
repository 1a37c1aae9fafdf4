(** Loaded tracks (C47, C48, C53, C58, C59). *)
From Coq Require Import ZArith QArith Qround Qreduction List Bool Lia ZifyBool Sorted Permutation Lqa.
From Verif Require Import Py PyFloat PySort Timsort Signature Tone Note Track MidiWriter MidiReader
  SpecBase TrackSpec MidiSpec ReaderSpec DumpSpec SigFacts SigProps FloatFacts NoteProps SortFacts TimsortFacts TrackFacts TrackProps VarLenFacts
  StreamFacts PairFacts TimeFacts VelocityFacts WriterFacts WriterProps ReadFacts LoadFacts FileFacts ReaderProps LoadProps TripSpec TripFacts TripProps.
Import ListNotations.
Open Scope Z_scope.

(** ** Loaded tracks are tracks *)
Definition add_op (e : entry) : op := OAdd (WNote (snd e)) (Some (SA_sig (fst e))).

Lemma adds_run sort : forall es t, LoadFacts.adds t es = run sort t (map add_op es).
Proof.
  induction es as [|e es IH]; intros t; [reflexivity|]. cbn [map]. unfold run. cbn [fold_left]. fold (run sort (step sort t (add_op e)) (map add_op es)).
  rewrite <- IH. unfold LoadFacts.adds at 1. cbn [fold_left]. f_equal. unfold add_op, step, track_add. cbn [sig_of_arg add_at].
  destruct (add_note t (snd e) (fst e)) as [t' [u|x]]; reflexivity.
Qed.

Lemma adds_log_es sort : forall es t, log sort t (map add_op es) = es.
Proof.
  induction es as [|[p n] es IH]; intros t; [reflexivity|]. cbn [map log]. rewrite IH. reflexivity.
Qed.

Lemma add_ops_ok es : Forall entry_ok es -> Forall op_ok (map add_op es).
Proof.
  intros H. apply Forall_map. eapply Forall_impl; [|exact H]. intros [p n] [Hp Hn]. split.
  - cbn. constructor; [exact Hn|constructor].
  - intros s E. injection E as <-. exact Hp.
Qed.

Lemma max_sig_valid : forall ts mx, valid_sig mx -> Forall (fun t => valid_sig (t_signature t)) ts -> valid_sig (fold_left take_max ts mx).
Proof.
  induction ts as [|t ts IH]; intros mx Hm H; [exact Hm|]. inversion H as [|? ? H1 H2]; subst. cbn [fold_left]. apply IH; [|exact H2].
  unfold take_max. destruct (sig_gt _ _); assumption.
Qed.
Lemma max_signature_valid ts : Forall (fun t => valid_sig (t_signature t)) ts -> valid_sig (max_signature ts).
Proof. intros H. apply (max_sig_valid ts (mkSig 0 1)); [apply (valid_pow 0 0); lia|exact H]. Qed.

Lemma good_sigs sort m file q evs : evs_ok evs -> good_load sort m file q evs ->
  Forall (fun t => valid_sig (t_signature t)) (map (chan_track m q evs) (chans evs)).
Proof.
  intros He (H & _). apply Forall_map, Forall_forall. intros c Hc. destruct (H c Hc) as (_ & _ & ->). apply chan_sig_valid, He.
Qed.

Lemma load_adds sort m file ch t : sort_contract sort -> Forall is_byte file -> load sort m file ch = Ok t ->
  exists s es, valid_sig s /\ Forall entry_ok es /\ t = LoadFacts.adds (track_empty s) es.
Proof.
  intros Hs HB E. destruct (load_cases sort m file Hs HB) as [[e E']|(q & evs & A1 & A2 & A3 & A4)]; [congruence|].
  pose proof (good_invs _ _ _ _ _ A4) as HI. pose proof (good_sigs _ _ _ _ _ A2 A4) as HS. destruct A4 as (G1 & G2 & G3). destruct ch as [c|].
  - destruct (in_dec Z.eq_dec c (chans evs)) as [Hc|Hc]; [|rewrite (G2 c Hc) in E; discriminate].
    destruct (G1 c Hc) as (F1 & F2 & F3). rewrite F1 in E. injection E as <-.
    exists (chan_sig evs c), (chan_entries m q (on_channel c (note_events_of evs))).
    split; [apply chan_sig_valid, A2|]. split; [apply (inv_entries _ _ F2)|reflexivity].
  - rewrite G3 in E. injection E as <-. eexists _, _. split; [|split; [|reflexivity]].
    + apply max_signature_valid, HS.
    + apply Forall_flat_map. eapply Forall_impl; [|exact HI]. intros u [l Hl]. apply (yields_entries_ok sort Hs u l Hl).
Qed.

Lemma c58_loaded : forall sort, sort_contract sort -> forall m file channel t, Forall is_byte file ->
  load sort m file channel = Ok t ->
  exists s ops, valid_sig s /\ Forall op_ok ops /\ Forall (fun o => is_add o = true) ops /\ t = run sort (track_empty s) ops.
Proof.
  intros sort Hs m file ch t HB E. destruct (load_adds sort m file ch t Hs HB E) as (s & es & H1 & H2 & ->).
  exists s, (map add_op es). split; [exact H1|]. split; [apply add_ops_ok, H2|]. split; [|apply adds_run].
  apply Forall_map, Forall_forall. reflexivity.
Qed.

(** ** Notes of one channel do not overlap *)
Lemma pair_apart m q l a b a' b' : 0 < q -> Forall ne_ok l -> by_times l -> is_note l a b -> is_note l a' b' -> (b < b')%nat ->
  apart (pair_entry m q l (a, b)) (pair_entry m q l (a', b')).
Proof.
  intros Hq Hl Ht (e & f & A1 & A2 & A3 & A4 & A5 & A6 & A7 & A8) (e' & f' & B1 & B2 & B3 & B4 & B5 & B6 & B7 & B8) Hb.
  unfold apart, note_end, pair_entry. cbn [fst snd]. rewrite A1, A2, B1, B2. cbn [fst snd n_tone n_duration].
  unfold pitch_to_tone, tone_new. cbn [pitch]. intros Ep. assert (Epp : ne_pitch e' = ne_pitch e) by lia. left.
  assert (Hba : (b <= a')%nat).
  { destruct (Nat.le_gt_cases b a') as [H|H]; [exact H|]. exfalso.
    assert (ne_on f = true) by (apply (B8 b f); [lia|exact A2|congruence]). congruence. }
  pose proof (by_times_nth l a b e f Ht ltac:(lia) A1 A2) as T1.
  pose proof (by_times_nth l b a' f e' Ht Hba A2 B1) as T2.
  rewrite Forall_forall in Hl. destruct (Hl e (nth_error_In _ _ A1)) as (N1 & _).
  destruct (time_to_signature_ok (ne_time e) q N1 Hq) as (_ & _ & V1 & _).
  destruct (time_to_signature_ok (ne_time f - ne_time e) q ltac:(lia) Hq) as (_ & _ & V2 & _).
  destruct (time_to_signature_ok (ne_time e') q ltac:(lia) Hq) as (_ & _ & V3 & _).
  rewrite V1, V2, V3. unfold Qle, Qplus. cbn [Qnum Qden].
  assert (HF : ne_time e * 4096 / q + (ne_time f - ne_time e) * 4096 / q <= ne_time e' * 4096 / q).
  { apply Z.div_le_lower_bound; [lia|].
    pose proof (Z.mul_div_le (ne_time e * 4096) q Hq). pose proof (Z.mul_div_le ((ne_time f - ne_time e) * 4096) q Hq). lia. }
  nia.
Qed.

Lemma chan_apart m q l : 0 < q -> Forall ne_ok l -> by_times l -> ForallOrdPairs apart (chan_entries m q l).
Proof.
  intros Hq Hl Ht. destruct (note_pairs_listed l) as [H1 H2]. unfold chan_entries.
  apply (fop_map _ _ (fun x y : nat * nat => (snd x < snd y)%nat)).
  - intros [a b] [a' b'] Ha Hb Hlt. apply pair_apart; try assumption; apply H1; assumption.
  - clear H1. induction (note_pairs l) as [|x r IH]; [constructor|]. cbn [map] in H2. inversion H2 as [|? ? H3 H4]; subst.
    constructor; [|apply IH, H3]. rewrite Forall_map in H4. exact H4.
Qed.

Lemma c59_apart : forall sort, sort_contract sort -> forall m file c t, Forall is_byte file ->
  load sort m file (Some c) = Ok t -> ForallOrdPairs apart (yields sort t).
Proof.
  intros sort Hs m file c t HB E. destruct (load_any sort Hs m file HB) as [E'|[[E' _]|[[E' _]|(q & evs & ts & A1 & A2 & A3 & A4 & A5)]]]; try congruence.
  pose proof (finish_good sort m file q evs ts A2 A4 A5) as (G1 & G2 & _).
  destruct (in_dec Z.eq_dec c (chans evs)) as [Hc|Hc]; [|rewrite (G2 c Hc) in E; discriminate].
  destruct (G1 c Hc) as (E1 & E2 & _). rewrite E1 in E. injection E as <-. apply (yields_apart sort _ _ Hs E2).
  destruct (channel_events_ok c evs A2) as [Hl Hb]. destruct (Z.ltb_spec 0 q) as [Hq|Hq]; [apply chan_apart; assumption|].
  unfold tracks_of in A4. destruct (Z.ltb_spec 0 q); [lia|]. cbn [orb] in A4.
  destruct (forallb _ (chans evs)) eqn:EF; [|discriminate]. rewrite forallb_forall in EF. specialize (EF c Hc).
  unfold chan_entries. destruct (note_pairs _); [constructor|discriminate].
Qed.

(** ** C53 *)
Lemma forall_values (P : entry -> Prop) l m : (forall e f, entry_ok e -> entry_ok f -> value_of e = value_of f -> P e -> P f) ->
  Forall entry_ok l -> Forall entry_ok m -> Permutation (map value_of l) (map value_of m) -> Forall P l -> Forall P m.
Proof.
  intros HR Hl Hm HP H. apply Forall_forall. intros f Hf. rewrite Forall_forall in *.
  destruct (value_in m l f (Permutation_sym HP) Hf) as (e & He & E). apply (HR e f); auto.
Qed.

Lemma fop_pull {A B} (v : A -> B) (R' : B -> B -> Prop) (R : A -> A -> Prop) : (forall e f, R' (v e) (v f) -> R e f) ->
  forall l, ForallOrdPairs R' (map v l) -> ForallOrdPairs R l.
Proof.
  intros H. induction l as [|x l IH]; intros HO; [constructor|]. cbn [map] in HO. destruct (ForallOrdPairs_inv _ _ _ HO) as [Ha Hb].
  constructor; [|apply IH, Hb]. rewrite Forall_map in Ha. eapply Forall_impl; [|exact Ha]. intros y. apply H.
Qed.

Lemma apart_values l m : Permutation (map value_of l) (map value_of m) -> ForallOrdPairs apart l -> ForallOrdPairs apart m.
Proof.
  intros HP HA. set (R' := fun x y : Q * Z * Q * Q => exists e f, value_of e = x /\ value_of f = y /\ apart e f).
  apply (fop_pull value_of R').
  - intros e f (e' & f' & E1 & E2 & H). unfold apart, note_end in *.
    destruct (value_of_eq _ _ E1) as (A1 & A2 & A3 & _). destruct (value_of_eq _ _ E2) as (B1 & B2 & B3 & _).
    intros Hp. rewrite <- A1, <- A3, <- B1, <- B3. apply H. congruence.
  - apply (fop_perm R' (map value_of l)); [|exact HP|].
    + intros x y (e & f & E1 & E2 & H). exists f, e. auto using apart_sym.
    + apply (fop_map _ _ apart); [|exact HA]. intros x y _ _ H. exists x, y. auto.
Qed.

Lemma stream_ne w items e : Forall entry_ok items -> In e (flat_map note_event_of (note_stream w items)) -> ne_on e = true -> 1 <= ne_velocity e <= 127.
Proof.
  intros Hok H Hon. apply in_flat_map in H. destruct H as (te & Hte & He).
  apply (Permutation_in _ (tsort_perm (flat_map (onoff w) items))) in Hte. apply in_flat_map in Hte. destruct Hte as (it & Hit & Hte).
  rewrite Forall_forall in Hok. destruct (Hok it Hit) as [_ [_ Hv]]. destruct (velocity_byte_eq _ Hv) as [_ HB].
  destruct Hte as [<-|[<-|[]]]; cbn [note_event_of snd fst] in He; destruct He as [<-|[]]; cbn [ne_on ne_velocity] in *; [|discriminate].
  fold (vbyte (n_velocity (snd it))) in HB. lia.
Qed.

Lemma stream_starts w items x y : writer_ok w -> Forall entry_ok items -> In (x, y) (stream_notes w items) ->
  1 <= ne_velocity x <= 127 /\ 0 <= ne_time x <= ne_time y.
Proof.
  intros Hw Hok. unfold stream_notes. rewrite <- scan_pairs. intros H. apply in_map_iff in H. destruct H as ([a b] & E & H).
  apply note_pairs_listed in H. destruct H as (e & f & Ha & Hb & Hab & Hon & Hoff & _).
  unfold events_at in E. cbn [fst snd] in E. rewrite (nth_error_nth _ _ dummy Ha), (nth_error_nth _ _ dummy Hb) in E. injection E as <- <-.
  split; [eapply stream_ne; [exact Hok|eapply nth_error_In, Ha|exact Hon]|]. split.
  - pose proof (nth_error_In _ _ Ha) as HI. apply in_flat_map in HI. destruct HI as (te & Hte & He). rewrite (note_event_of_time _ _ He).
    apply (Permutation_in _ (tsort_perm (flat_map (onoff w) items))) in Hte. pose proof (onoff_nonneg w items Hw Hok) as HN.
    rewrite Forall_forall in HN. apply HN, Hte.
  - eapply (by_times_nth _ a b e f); [|lia|exact Ha|exact Hb]. apply flat_times.
    pose proof (tsort_sorted (flat_map (onoff w) items)) as HS. fold (note_stream w items) in HS.
    clear -HS. induction HS as [|te l H IH Hx]; cbn [map]; constructor; [exact IH|]. apply Forall_map. eapply Forall_impl; [|exact Hx].
    intros z Hz. exact Hz.
Qed.

Lemma dumped_bytes sort nd ppq middle_c bpm channel w c s ops bs : sort_contract sort ->
  writer_new nd ppq middle_c bpm channel = Ok w -> tone_of_arg nd middle_c = Ok c ->
  valid_sig s -> Forall op_ok ops -> dumps sort w (run sort (track_empty s) ops) = Ok bs -> Forall is_byte bs.
Proof.
  intros Hs Hnew Hc HS Ho E.
  destruct (dumped_stream sort _ _ _ _ _ _ _ _ _ _ Hs Hnew Hc HS Ho E) as (k & b & E1 & E2 & E3 & E4 & _). rewrite E1. apply smf_bytes, E4.
Qed.

Lemma Qred_eq p q : Qred p = Qred q -> (p == q)%Q.
Proof. intros H. rewrite <- (Qred_correct p), <- (Qred_correct q), H. reflexivity. Qed.

Lemma audible_value e f : entry_ok e -> entry_ok f -> value_of e = value_of f -> audible e -> audible f.
Proof.
  intros [_ He] [_ Hf] E. unfold audible. rewrite (note_velocity_eq _ He), (note_velocity_eq _ Hf).
  destruct (value_of_eq _ _ E) as (_ & _ & _ & EV). rewrite (vbyte_value _ _ (proj2 He) (proj2 Hf) EV). auto.
Qed.
Lemma byte_velocity_value e f : value_of e = value_of f -> byte_velocity e -> byte_velocity f.
Proof.
  intros E (k & Hk & H). destruct (value_of_eq _ _ E) as (_ & _ & _ & EV). exists k. split; [exact Hk|]. rewrite <- EV. exact H.
Qed.
Lemma whole_note_value ppq e f : value_of e = value_of f -> whole_note ppq e -> whole_note ppq f.
Proof.
  intros E [[k Hk] [j Hj]]. destruct (value_of_eq _ _ E) as (E1 & _ & E3 & _). split; [exists k; rewrite <- E1; exact Hk|exists j; rewrite <- E3; exact Hj].
Qed.

Lemma four_parts {A B : Type} (a a' : A) (b b' : B) (c c' : A) (d d' : A) : (a, b, c, d) = (a', b', c', d') -> a = a' /\ b = b' /\ c = c' /\ d = d'.
Proof. intros H. inversion H. auto. Qed.

(** What holds for every track loaded from a dumped file. *)
Lemma loaded_facts sort ppq channel w c c' m s ops bs ch t1 k : sort_contract sort -> trip sort ppq channel w c c' m s ops bs ->
  load sort m bs ch = Ok t1 -> Inv t1 k ->
  (sval (t_signature t1) == sval s)%Q /\ ForallOrdPairs apart k /\ Forall audible k /\ Forall byte_velocity k /\
  ((ppq | 4096) -> Forall (whole_note ppq) k).
Proof.
  intros Hs [(nd & mc & bpm & Hnew & Hc) _ HS Ho E HL] EL HIk.
  destruct (run_inv sort Hs s ops Ho) as [HI Hsig].
  destruct (dumped_load sort nd ppq mc bpm channel w c s ops bs m Hs Hnew Hc HS Ho E HL) as (t & l & T1 & T2 & T3 & T4 & T4' & T5).
  destruct (writer_new_ok _ _ _ _ _ _ Hnew) as (Hw & Hq & _).
  pose proof (dumped_bytes sort _ _ _ _ _ _ _ _ _ _ Hs Hnew Hc HS Ho E) as HB.
  pose proof (c59_apart sort Hs m bs _ t HB T4) as HA.
  destruct (merged_one sort t l Hs T1) as (M1 & M2 & M3); [rewrite T2; exact HS|].
  assert (H1 : (sval (t_signature t1) == sval s)%Q /\ Permutation (map value_of (yields sort t)) (map value_of (yields sort t1))).
  { destruct ch as [c0|].
    - destruct (Z.eq_dec c0 (match yields sort (run sort (track_empty s) ops) with [] => 0 | _ :: _ => channel end)) as [->|Hn].
      + rewrite T4 in EL. injection EL as <-. rewrite T2. split; [reflexivity|apply Permutation_refl].
      + rewrite (T4' c0 Hn) in EL. discriminate.
    - rewrite T5 in EL. injection EL as <-. rewrite M2, T2. split; [reflexivity|apply Permutation_sym, M3]. }
  destruct H1 as [H1 H2]. split; [exact H1|].
  assert (HP : Permutation (map value_of (yields sort t)) (map value_of k)) by (eapply perm_trans; [exact H2|apply (inv_values sort t1 k Hs HIk)]).
  split; [apply (apart_values _ _ HP HA)|].
  pose proof (yields_entry_ok sort t l Hs T1) as Hok. pose proof (inv_entries _ _ HIk) as Hokk.
  pose proof (yields_entry_ok sort _ _ Hs HI) as Hitems.
  assert (HV : Forall (fun e : entry => exists x y, In (x, y) (stream_notes w (yields sort (run sort (track_empty s) ops))) /\
                 value_of e = pair_read (mr_delta m) ppq (x, y)) (yields sort t)).
  { apply Forall_forall. intros e He. assert (HIn : In (value_of e) (map (pair_read (mr_delta m) ppq) (stream_notes w (yields sort (run sort (track_empty s) ops))))).
    { eapply Permutation_in; [exact T3|apply in_map, He]. }
    apply in_map_iff in HIn. destruct HIn as ([x y] & Exy & Hxy). exists x, y. auto. }
  assert (HVk : Forall (fun e : entry => exists x y, In (x, y) (stream_notes w (yields sort (run sort (track_empty s) ops))) /\
                 value_of e = pair_read (mr_delta m) ppq (x, y)) k).
  { eapply (forall_values _ (yields sort t)); [|exact Hok|exact Hokk|exact HP|exact HV]. intros e f _ _ Ee (x & y & Hxy & Ev). exists x, y. split; [exact Hxy|congruence]. }
  rewrite Forall_forall in HVk, Hokk. split; [|split].
  - apply Forall_forall. intros e He. destruct (HVk e He) as (x & y & Hxy & Ev). destruct (stream_starts w _ x y Hw Hitems Hxy) as [Hb _].
    unfold pair_read, value_of in Ev. apply four_parts in Ev. destruct Ev as (_ & _ & _ & Ev). apply Qred_eq in Ev. destruct (Hokk e He) as [_ Hn].
    unfold audible. rewrite (note_velocity_eq _ Hn). pose proof (read_velocity_valid (ne_velocity x) ltac:(lia)) as Hvk.
    rewrite (vbyte_value _ _ (proj2 Hn) Hvk Ev). destruct (velocity_byte_eq _ Hvk) as [E2 _]. rewrite byte_again in E2 by lia.
    unfold vbyte. injection E2 as <-. lia.
  - apply Forall_forall. intros e He. destruct (HVk e He) as (x & y & Hxy & Ev). destruct (stream_starts w _ x y Hw Hitems Hxy) as [Hb _].
    unfold pair_read, value_of in Ev. apply four_parts in Ev. destruct Ev as (_ & _ & _ & Ev). apply Qred_eq in Ev. exists (ne_velocity x). split; [lia|exact Ev].
  - intros [j Hj]. assert (Hpos : 1 <= ppq) by (destruct Hw; lia). apply Forall_forall. intros e He. destruct (HVk e He) as (x & y & Hxy & Ev).
    destruct (stream_starts w _ x y Hw Hitems Hxy) as [_ Ht].
    unfold pair_read, value_of in Ev. apply four_parts in Ev. destruct Ev as (Ep & _ & Ed & _). apply Qred_eq in Ep, Ed.
    assert (HQ : forall z, (inject_Z (4 * ppq) * ((z * 4096 / ppq)%Z # 16384) == inject_Z z)%Q).
    { intros z. rewrite Hj, Z.mul_assoc, Z.div_mul by lia. unfold Qeq, Qmult, inject_Z. cbn [Qnum Qden].
      change (Z.pos (1 * 16384)) with (4 * 4096). rewrite Hj. ring. }
    split; [exists (ne_time x); rewrite Ep; apply HQ|exists (ne_time y - ne_time x); rewrite Ed; apply HQ].
Qed.

Definition stable (sort : sort_fn) : Prop :=
  forall ppq channel w c m s ops bs t1 s' ops' bs' t2,
    trip sort ppq channel w c c m s ops bs -> load sort m bs None = Ok t1 ->
    t1 = run sort (track_empty s') ops' -> trip sort ppq channel w c c m s' ops' bs' -> load sort m bs' None = Ok t2 ->
    eq_result sort t2 t1 = true.

Lemma c53_partial : forall sort, sort_contract sort -> forall ppq channel w c m s ops bs ch t1 s' ops' bs',
  trip sort ppq channel w c c m s ops bs -> load sort m bs ch = Ok t1 ->
  t1 = run sort (track_empty s') ops' -> trip sort ppq channel w c c m s' ops' bs' ->
  plain (contents sort s' ops') -> (ppq | 4096) \/ Forall (whole_note ppq) (contents sort s' ops') ->
  exists t2, load sort m bs' None = Ok t2 /\ eq_result sort t2 t1 = true /\ eq_result sort t1 t2 = true /\
    map value_of (yields sort t2) = map value_of (yields sort t1).
Proof.
  intros sort Hs ppq channel w c m s ops bs ch t1 s' ops' bs' HT EL Et HT' HP HW.
  destruct (run_inv sort Hs s' ops' (trip_ops _ _ _ _ _ _ _ _ _ _ HT')) as [HI _]. rewrite <- Et in HI. fold (contents sort s' ops') in HI.
  destruct (loaded_facts sort ppq channel w c c m s ops bs ch t1 _ Hs HT EL HI) as (_ & F2 & F3 & F4 & F5).
  assert (F6 : Forall (whole_note ppq) (contents sort s' ops')) by (destruct HW as [H|H]; [apply F5, H|exact H]).
  destruct (c40_equal sort Hs ppq channel w c c m s' ops' bs' HT' eq_refl F2 HP F3 F6 F4) as (t2 & R1 & R2 & R3 & R4).
  rewrite <- Et in R2, R3, R4. exists t2. auto.
Qed.

(** A note at pulse 32 of 96 per quarter moves back by one pulse each time. *)
Definition drifting : list op := [OAdd (WNote (mkNote (mkTone 36) (mkSig 1 4) f_one)) (Some (SA_sig (mkSig 43 512)))].
Definition drifted (n : Z) : list op := [OAdd (WNote (mkNote (mkTone 36) (mkSig 1 4) f_one)) (Some (SA_sig (mkSig n 16384)))].

Lemma c53_refuted : sort_contract cpython_sort /\ ~ stable cpython_sort.
Proof.
  split; [exact cpython_sort_contract|]. intros H.
  assert (E : exists bs bs' t2, dumps cpython_sort default_writer (run cpython_sort (track_empty (mkSig 4 4)) drifting) = Ok bs /\
    Z.of_nat (length bs) < 22 + 2 ^ 24 /\ load cpython_sort (mkMR 24) bs None = Ok (run cpython_sort (track_empty (mkSig 4 4)) (drifted 1365)) /\
    dumps cpython_sort default_writer (run cpython_sort (track_empty (mkSig 4 4)) (drifted 1365)) = Ok bs' /\ Z.of_nat (length bs') < 22 + 2 ^ 24 /\
    load cpython_sort (mkMR 24) bs' None = Ok t2 /\ eq_result cpython_sort t2 (run cpython_sort (track_empty (mkSig 4 4)) (drifted 1365)) = false).
  { eexists _, _, _. split; [vm_compute; reflexivity|]. split; [vm_compute; reflexivity|]. split; [vm_compute; reflexivity|].
    split; [vm_compute; reflexivity|]. split; [vm_compute; reflexivity|]. split; [vm_compute; reflexivity|]. vm_compute. reflexivity. }
  destruct E as (bs & bs' & t2 & E1 & E2 & E3 & E4 & E5 & E6 & E7).
  assert (Ho : Forall op_ok drifting) by (apply simple_ops_ok; vm_compute; reflexivity).
  assert (Ho' : Forall op_ok (drifted 1365)) by (apply simple_ops_ok; vm_compute; reflexivity).
  specialize (H _ _ _ _ _ _ _ _ _ (mkSig 4 4) (drifted 1365) bs' t2 (default_trip cpython_sort drifting bs Ho E1 E2) E3 eq_refl
    (default_trip cpython_sort (drifted 1365) bs' Ho' E4 E5) E6).
  rewrite E7 in H. discriminate.
Qed.
