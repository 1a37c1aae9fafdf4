(** Dumping and loading again (C40, C41, C47, C53). *)
From Coq Require Import ZArith QArith Qround Qreduction List Bool Lia ZifyBool Sorted Permutation Lqa.
From Verif Require Import Py PyFloat PySort Timsort Signature Tone Note Track MidiWriter MidiReader
  SpecBase TrackSpec MidiSpec ReaderSpec DumpSpec SigFacts SigProps FloatFacts NoteProps SortFacts TimsortFacts TrackFacts TrackProps VarLenFacts
  StreamFacts PairFacts TimeFacts VelocityFacts WriterFacts WriterProps ReadFacts LoadFacts FileFacts ReaderProps LoadProps TripSpec TripFacts.
Import ListNotations.
Open Scope Z_scope.

(** ** Notes that do not overlap *)
Lemma apart_sym e f : apart e f -> apart f e.
Proof. unfold apart. intros H E. destruct (H (eq_sym E)); auto. Qed.

Lemma fop_perm {A} (R : A -> A -> Prop) l m : (forall x y, R x y -> R y x) -> Permutation l m -> ForallOrdPairs R l -> ForallOrdPairs R m.
Proof.
  intros HS HP. induction HP as [|x l m HP IH|x y l|l m n H1 IH1 H2 IH2]; intros H.
  - constructor.
  - destruct (ForallOrdPairs_inv _ _ _ H) as [Ha Hb]. constructor; [|apply IH, Hb]. eapply Permutation_Forall; eassumption.
  - destruct (ForallOrdPairs_inv _ _ _ H) as [Ha Hb]. destruct (ForallOrdPairs_inv _ _ _ Hb) as [Hc Hd].
    inversion Ha as [|? ? He Hf]; subst. constructor; [constructor; [apply HS, He|exact Hc]|]. constructor; assumption.
  - apply IH2, IH1, H.
Qed.
Lemma fop_map {A B} (f : A -> B) (R : B -> B -> Prop) (S : A -> A -> Prop) l : 
  (forall x y, In x l -> In y l -> S x y -> R (f x) (f y)) -> ForallOrdPairs S l -> ForallOrdPairs R (map f l).
Proof.
  induction l as [|x l IH]; intros H HO; [constructor|]. destruct (ForallOrdPairs_inv _ _ _ HO) as [Ha Hb]. cbn [map]. constructor.
  - apply Forall_map, Forall_forall. intros y Hy. apply H; [left; reflexivity|right; exact Hy|]. rewrite Forall_forall in Ha. apply Ha, Hy.
  - apply IH; [|exact Hb]. intros a b Ha' Hb'. apply H; right; assumption.
Qed.
Lemma fop_combine {A} (R S T : A -> A -> Prop) l :
  (forall x y, In x l -> In y l -> R x y -> S x y -> T x y) -> StronglySorted R l -> ForallOrdPairs S l -> ForallOrdPairs T l.
Proof.
  induction l as [|x l IH]; intros H H1 H2; [constructor|]. inversion H1 as [|? ? H3 H4]; subst.
  destruct (ForallOrdPairs_inv _ _ _ H2) as [Ha Hb]. constructor.
  - rewrite Forall_forall in *. intros y Hy. apply H; [left; reflexivity|right; exact Hy|apply H4, Hy|apply Ha, Hy].
  - apply IH; [|assumption|assumption]. intros a b Ha' Hb'. apply H; right; assumption.
Qed.

Lemma yields_apart sort t l : sort_contract sort -> Inv t l -> ForallOrdPairs apart l -> ForallOrdPairs apart (yields sort t).
Proof.
  intros Hs HI H. apply (fop_perm apart (map (rescale (maxden l)) l)); [apply apart_sym|apply Permutation_sym, yields_perm; assumption|].
  pose proof (inv_entries _ _ HI) as Hok.
  assert (HV : forall e, In e l -> (sval (resc (maxden l) (fst e)) == sval (fst e))%Q).
  { intros e He. pose proof Hok as Hok'. rewrite Forall_forall in Hok'. apply resc_val; [apply Hok', He|apply maxden_pow2, Hok|apply maxden_in, He]. }
  apply (fop_map _ _ apart); [|exact H]. intros e f He Hf Ha Hp. unfold note_end. cbn [rescale fst snd].
  rewrite (HV e He), (HV f Hf). apply Ha, Hp.
Qed.

Lemma over_items sort w t l : sort_contract sort -> writer_ok w -> Inv t l -> consistent l -> ForallOrdPairs apart l ->
  ForallOrdPairs (over w) (yields sort t).
Proof.
  intros Hs Hw HI HC HA. assert (Hp : 1 <= w_ppq w) by (destruct Hw; lia).
  pose proof (yields_entry_ok sort t l Hs HI) as Hok.
  apply (fop_combine value_le apart); [|apply (yields_sorted_value sort Hs t l); assumption|apply (yields_apart sort t l); assumption].
  intros e f He Hf Hle Ha. rewrite Forall_forall in Hok. destruct (Hok e He) as [Ve [De _]]. destruct (Hok f Hf) as [Vf [Df _]].
  assert (H1 : (sval (fst e) <= sval (fst f))%Q).
  { destruct Hle as [[H|[H _]]|[H _]]; [lra|rewrite H; apply Qle_refl|rewrite H; apply Qle_refl]. }
  split; [apply pulses_mono; [lia|exact H1]|]. intros Em.
  assert (Ep : pitch (n_tone (snd e)) = pitch (n_tone (snd f))) by (unfold midi_pitch in Em; lia).
  assert (H2 : (note_end e <= sval (fst f))%Q).
  { destruct (Ha Ep) as [H|H]; [exact H|]. unfold note_end in *. pose proof (sval_nonneg _ De). pose proof (sval_nonneg _ Df).
    destruct Hle as [[H3|[H3 H4]]|[H3 H4]]; [lra| |destruct H4 as (_ & H4 & _); lra].
    destruct H4 as [H4|(_ & [H4|[H4 _]])]; [lia|lra|lra]. }
  eapply Z.le_trans; [apply pulses_add|]. apply pulses_mono; [lia|exact H2].
Qed.

(** ** What remains of the notes *)
Lemma note_velocity_eq n : valid_note n -> note_velocity n = vbyte (n_velocity n).
Proof. intros [_ Hv]. unfold note_velocity, vbyte. destruct (velocity_byte_eq _ Hv) as [-> _]. reflexivity. Qed.

Lemma read_back_pair w c delta e : entry_ok e -> w_delta w = 60 - c ->
  pair_read delta (w_ppq w) (on_event w e, off_event w e) = read_back (w_ppq w) (60 - c - delta) e.
Proof.
  intros [_ Hn] Hd. unfold pair_read, on_event, off_event, read_back. cbn [ne_time ne_pitch ne_velocity].
  rewrite (note_velocity_eq _ Hn). unfold midi_pitch. rewrite Hd.
  replace (pitch (n_tone (snd e)) + (60 - c) - delta) with (pitch (n_tone (snd e)) + (60 - c - delta)) by lia.
  replace (pulses (w_ppq w) (sval (fst e)) + pulses (w_ppq w) (sval (n_duration (snd e))) - pulses (w_ppq w) (sval (fst e)))
    with (pulses (w_ppq w) (sval (n_duration (snd e)))) by lia. reflexivity.
Qed.

Lemma cut_comp ppq x y : (x == y)%Q -> cut ppq x = cut ppq y.
Proof. intros H. unfold cut. rewrite (Qfloor_comp (inject_Z (4 * ppq) * x) (inject_Z (4 * ppq) * y)); [reflexivity|]. rewrite H. reflexivity. Qed.

Lemma map_rescale_read_back ppq shift l : Forall entry_ok l ->
  map (read_back ppq shift) (map (rescale (maxden l)) l) = map (read_back ppq shift) l.
Proof.
  apply (map_rescale (read_back ppq shift) (fun q n => (Qred (cut ppq q), pitch (n_tone n) + shift, Qred (cut ppq (sval (n_duration n))),
     Qred (fval (velocity_of_byte (note_velocity n)))))).
  intros e. unfold read_back. rewrite (cut_comp ppq (Qred (sval (fst e))) (sval (fst e))); [reflexivity|apply Qred_correct].
Qed.

Lemma trip_values sort w c delta t l : sort_contract sort -> writer_ok w -> w_delta w = 60 - c -> Inv t l ->
  ForallOrdPairs apart l -> consistent l -> Forall audible l ->
  Permutation (map (pair_read delta (w_ppq w)) (stream_notes w (yields sort t))) (map (read_back (w_ppq w) (60 - c - delta)) l).
Proof.
  intros Hs Hw Hd HI HA HC HV. pose proof (yields_entry_ok sort t l Hs HI) as Hok. pose proof (inv_entries _ _ HI) as Hl.
  assert (Hh : Forall heard (yields sort t)).
  { eapply Permutation_Forall; [apply Permutation_sym, (yields_perm sort Hs t l HI)|]. apply Forall_map.
    rewrite Forall_forall in *. intros e He. unfold heard. cbn [rescale snd]. rewrite <- note_velocity_eq by (apply Hl, He). apply HV, He. }
  eapply perm_trans; [apply Permutation_map, (stream_scan w _ Hw Hok Hh (over_items sort w t l Hs Hw HI HC HA))|].
  rewrite map_map. erewrite map_ext_in.
  - eapply perm_trans; [apply Permutation_map, (yields_perm sort Hs t l HI)|]. rewrite map_rescale_read_back by exact Hl. apply Permutation_refl.
  - intros e He. apply read_back_pair; [|exact Hd]. rewrite Forall_forall in Hok. apply Hok, He.
Qed.

Lemma whole_cut ppq s : 1 <= ppq <= 255 -> valid_sig s -> whole ppq (sval s) -> (cut ppq (sval s) == sval s)%Q.
Proof.
  intros Hq Hs [k Hk]. destruct (sig_normalized_spec s Hs) as (s' & _ & [Hn Hd] & Hv & Hodd & _).
  rewrite <- Hv in Hk. rewrite (cut_comp _ _ _ (Qeq_sym _ _ Hv)), <- Hv. clear Hv.
  pose proof (pow2_odd_coprime _ _ Hd Hodd) as Hg. pose proof (pow2_pos _ Hd) as Hpos.
  destruct s' as [n d]. cbn [nominator denominator] in *. unfold sval in *. cbn [nominator denominator] in *.
  unfold cut. rewrite (Qfloor_comp _ _ Hk), Qfloor_Z.
  assert (Hk' : 4 * ppq * n = k * d).
  { unfold Qeq, Qmult, inject_Z in Hk. cbn [Qnum Qden] in Hk. rewrite Pos.mul_1_l, Z2Pos.id in Hk by lia. lia. }
  assert (Hdiv : (d | 4 * ppq)).
  { apply Z.gauss with n; [exists k; lia|rewrite Z.gcd_comm; exact Hg]. }
  assert (Hd14 : (d | 16384)).
  { apply Z.divide_pos_le in Hdiv; [|lia]. destruct (pow2_divide d 16384 Hd) as [H _]; [exists 14; split; [lia|reflexivity]|lia|].
    exists (16384 / d). exact H. }
  destruct Hd14 as [j Hj].
  assert (E : k * 4096 = j * n * ppq).
  { assert (k * 4096 * d = j * n * ppq * d); [|nia]. nia. }
  rewrite E, Z.div_mul by lia. unfold Qeq. cbn [Qnum Qden]. rewrite Z2Pos.id by lia. nia.
Qed.

Lemma whole_read_back ppq shift e : 1 <= ppq <= 255 -> entry_ok e -> whole_note ppq e -> read_back ppq shift e = requantised shift e.
Proof.
  intros Hq [H1 [H2 _]] [W1 W2]. unfold read_back, requantised.
  rewrite (Qred_complete _ _ (whole_cut ppq _ Hq H1 W1)), (Qred_complete _ _ (whole_cut ppq _ Hq H2 W2)). reflexivity.
Qed.

(** A velocity that was read for a byte. *)
Lemma vbyte_value v u : valid_velocity v -> valid_velocity u -> (fval v == fval u)%Q -> vbyte v = vbyte u.
Proof.
  intros Hv Hu H. unfold vbyte.
  assert (Qfloor (product v) <= Qfloor (product u)) by (apply Qfloor_resp_le, product_mono; [assumption..|rewrite H; apply Qle_refl]).
  assert (Qfloor (product u) <= Qfloor (product v)) by (apply Qfloor_resp_le, product_mono; [assumption..|rewrite H; apply Qle_refl]). lia.
Qed.
Lemma byte_velocity_same e : entry_ok e -> byte_velocity e ->
  (fval (velocity_of_byte (note_velocity (snd e))) == fval (n_velocity (snd e)))%Q.
Proof.
  intros [_ Hn] (k & Hk & E). rewrite (note_velocity_eq _ Hn). destruct Hn as [_ Hv].
  pose proof (read_velocity_valid k ltac:(lia)) as Hvk. rewrite (vbyte_value _ _ Hv Hvk E).
  destruct (velocity_byte_eq _ Hvk) as [E2 _]. rewrite byte_again in E2 by exact Hk. unfold vbyte. injection E2 as <-. symmetry. exact E.
Qed.

Lemma requantised_same e : entry_ok e -> byte_velocity e -> requantised 0 e = value_of e.
Proof.
  intros He Hb. unfold requantised, value_of. rewrite (Qred_complete _ _ (byte_velocity_same e He Hb)), Z.add_0_r. reflexivity.
Qed.

(** ** The round trip *)
Lemma reader_delta nd mc m c : midi_reader_new nd mc = Ok m -> tone_of_arg nd mc = Ok c -> mr_delta m = 60 - pitch c.
Proof. unfold midi_reader_new. intros H Hc. rewrite Hc in H. cbn [bind] in H. assert (E : m = {| mr_delta := 60 - pitch c |}) by congruence. subst m. reflexivity. Qed.

Lemma merged_one sort t l : sort_contract sort -> Inv t l -> valid_sig (t_signature t) ->
  Inv (merged sort [t]) (yields sort t) /\ (sval (t_signature (merged sort [t])) == sval (t_signature t))%Q /\
  Permutation (map value_of (yields sort (merged sort [t]))) (map value_of (yields sort t)).
Proof.
  intros Hs HI HS. destruct (merged_inv sort [t] Hs) as [I1 I2]; [constructor; [eexists; exact HI|constructor]|].
  cbn [flat_map] in I1. rewrite app_nil_r in I1. split; [exact I1|]. split; [rewrite I2; apply max_one; [reflexivity|exact HS]|].
  apply (inv_values sort _ _ Hs I1).
Qed.

Lemma items_nil sort t l : sort_contract sort -> Inv t l -> (yields sort t = [] <-> l = []).
Proof.
  intros Hs HI. pose proof (yields_perm sort Hs t l HI) as HP. split; intros E; rewrite E in HP.
  - apply Permutation_nil in HP. destruct l; [reflexivity|discriminate].
  - apply Permutation_sym in HP. apply Permutation_nil in HP. exact HP.
Qed.

Lemma dumped_small sort nd ppq middle_c bpm channel w c s ops bs : sort_contract sort ->
  writer_new nd ppq middle_c bpm channel = Ok w -> tone_of_arg nd middle_c = Ok c ->
  valid_sig s -> Forall op_ok ops -> dumps sort w (run sort (track_empty s) ops) = Ok bs -> 1 <= ppq <= 255.
Proof.
  intros Hs Hnew Hc HS Ho E.
  destruct (dumped_stream sort _ _ _ _ _ _ _ _ _ _ Hs Hnew Hc HS Ho E) as (k & b & E1 & E2 & E3 & E4 & E5 & (E6 & _) & Hw & Hq & _).
  inversion E6 as [|? ? H _]; subst. cbn [snd event_ok] in H. unfold is_byte in H. lia.
Qed.

Lemma trip_loads sort ppq channel w c c' m s ops bs : sort_contract sort -> trip sort ppq channel w c c' m s ops bs ->
  ForallOrdPairs apart (contents sort s ops) -> consistent (contents sort s ops) -> Forall audible (contents sort s ops) ->
  exists t l u k, Inv t l /\ Inv u k /\ t_signature t = s /\ (sval (t_signature u) == sval s)%Q /\ valid_sig (t_signature u) /\
    load sort m bs None = Ok u /\ (contents sort s ops <> [] -> load sort m bs (Some channel) = Ok t) /\
    Permutation (map value_of (yields sort t)) (map (read_back ppq (pitch c' - pitch c)) (contents sort s ops)) /\
    Permutation (map value_of (yields sort u)) (map (read_back ppq (pitch c' - pitch c)) (contents sort s ops)).
Proof.
  intros Hs [(nd & mc & bpm & Hnew & Hc) (nd' & mc' & Hm & Hc') HS Ho E HL] HA HC HV.
  destruct (run_inv sort Hs s ops Ho) as [HI Hsig]. fold (contents sort s ops) in HI.
  destruct (dumped_load sort nd ppq mc bpm channel w c s ops bs m Hs Hnew Hc HS Ho E HL) as (t & l & T1 & T2 & T3 & T4 & _ & T5).
  destruct (writer_new_ok _ _ _ _ _ _ Hnew) as (Hw & Hq & _ & _ & c0 & Hc0 & Hd). rewrite Hc in Hc0. injection Hc0 as <-.
  destruct (merged_one sort t l Hs T1) as (M1 & M2 & M3); [rewrite T2; exact HS|].
  pose proof (trip_values sort w (pitch c) (mr_delta m) _ _ Hs Hw Hd HI HA HC HV) as HP. rewrite Hq in HP.
  rewrite (reader_delta _ _ _ _ Hm Hc') in HP, T3. replace (60 - pitch c - (60 - pitch c')) with (pitch c' - pitch c) in HP by lia.
  exists t, l, (merged sort [t]), (yields sort t). split; [exact T1|]. split; [exact M1|]. split; [exact T2|].
  split; [rewrite M2, T2; reflexivity|]. split.
  { destruct (merged_inv sort [t] Hs) as [_ I2]; [constructor; [eexists; exact T1|constructor]|]. rewrite I2.
    unfold max_signature. cbn [fold_left]. destruct (sig_gt _ _); [rewrite T2; exact HS|apply (valid_pow 0 0); lia]. }
  split; [exact T5|]. split.
  { intros Hne. destruct (yields sort (run sort (track_empty s) ops)) eqn:Ei; [|exact T4].
    apply (items_nil sort _ _ Hs HI) in Ei. contradiction. }
  split; [|eapply perm_trans; [exact M3|]]; (eapply perm_trans; [exact T3|exact HP]).
Qed.

Lemma plain_consistent l : plain l -> consistent l.
Proof. intros H e f He Hf E1 E2. left. apply H; assumption. Qed.

Lemma value_of_eq e f : value_of e = value_of f -> (sval (fst e) == sval (fst f))%Q /\ pitch (n_tone (snd e)) = pitch (n_tone (snd f)) /\
  (sval (n_duration (snd e)) == sval (n_duration (snd f)))%Q /\ (fval (n_velocity (snd e)) == fval (n_velocity (snd f)))%Q.
Proof.
  unfold value_of. intros H. injection H as H1 H2 H3 H4.
  assert (HQ : forall p q, Qred p = Qred q -> (p == q)%Q) by (intros p q Hpq; rewrite <- (Qred_correct p), <- (Qred_correct q), Hpq; reflexivity).
  auto.
Qed.

Lemma value_in l m e : Permutation (map value_of l) (map value_of m) -> In e l -> exists f, In f m /\ value_of f = value_of e.
Proof.
  intros HP He. assert (H : In (value_of e) (map value_of m)) by (eapply Permutation_in; [exact HP|apply in_map, He]).
  apply in_map_iff in H. destruct H as (f & E & Hf). exists f. auto.
Qed.

Lemma plain_values l m : Permutation (map value_of l) (map value_of m) -> plain m -> plain l.
Proof.
  intros HP Hm e f He Hf E1 E2. destruct (value_in l m e HP He) as (e' & He' & Ee). destruct (value_in l m f HP Hf) as (f' & Hf' & Ef).
  destruct (value_of_eq _ _ Ee) as (A1 & A2 & A3 & _). destruct (value_of_eq _ _ Ef) as (B1 & B2 & B3 & _).
  rewrite <- A3, <- B3. apply Hm; try assumption; [rewrite A1, B1; exact E1|congruence].
Qed.

(** Equal contents without ambiguity are equal tracks. *)
Lemma same_values_equal sort t l u k : sort_contract sort -> Inv t l -> Inv u k -> valid_sig (t_signature t) -> valid_sig (t_signature u) ->
  (sval (t_signature t) == sval (t_signature u))%Q -> Permutation (map value_of l) (map value_of k) -> consistent l -> consistent k ->
  eq_result sort t u = true /\ map value_of (yields sort t) = map value_of (yields sort u).
Proof.
  intros Hs It Iu Vt Vu ES HP Cl Ck. destruct (inv_same_order sort t u l k Hs It Iu HP) as [_ E]. specialize (E Cl Ck).
  split; [|exact E]. apply (eq_result_spec sort t u l k Hs It Iu Vt Vu). split; [exact ES|]. rewrite E.
  apply Permutation_length in HP. rewrite !map_length in HP. rewrite HP. reflexivity.
Qed.

(** C40 *)
Lemma c40_round_trip : forall sort, sort_contract sort -> forall ppq channel w c c' m s ops bs,
  trip sort ppq channel w c c' m s ops bs ->
  ForallOrdPairs apart (contents sort s ops) -> consistent (contents sort s ops) ->
  Forall audible (contents sort s ops) -> Forall (whole_note ppq) (contents sort s ops) ->
  exists t, load sort m bs None = Ok t /\ (sval (t_signature t) == sval s)%Q /\
    Permutation (map value_of (yields sort t)) (map (requantised (pitch c' - pitch c)) (contents sort s ops)) /\
    (contents sort s ops <> [] -> exists u, load sort m bs (Some channel) = Ok u /\ t_signature u = s /\
      Permutation (map value_of (yields sort u)) (map (requantised (pitch c' - pitch c)) (contents sort s ops))).
Proof.
  intros sort Hs ppq ch w c c' m s ops bs HT HA HC HV HW.
  destruct (trip_loads sort _ _ _ _ _ _ _ _ _ Hs HT HA HC HV) as (t & l & u & k & T1 & T2 & T3 & T4 & _ & T5 & T6 & T7 & T8).
  destruct HT as [(nd & mc & bpm & Hnew & Hc) _ HS Ho E _].
  pose proof (dumped_small sort _ _ _ _ _ _ _ _ _ _ Hs Hnew Hc HS Ho E) as Hq.
  destruct (run_inv sort Hs s ops Ho) as [HI _]. fold (contents sort s ops) in HI. pose proof (inv_entries _ _ HI) as Hok.
  assert (EM : map (read_back ppq (pitch c' - pitch c)) (contents sort s ops) = map (requantised (pitch c' - pitch c)) (contents sort s ops)).
  { apply map_ext_in. intros e He. rewrite Forall_forall in Hok, HW. apply whole_read_back; auto. }
  rewrite EM in T7, T8. exists u. split; [exact T5|]. split; [exact T4|]. split; [exact T8|].
  intros Hne. exists t. split; [apply T6, Hne|]. split; [exact T3|exact T7].
Qed.

Lemma c40_equal : forall sort, sort_contract sort -> forall ppq channel w c c' m s ops bs,
  trip sort ppq channel w c c' m s ops bs -> pitch c' = pitch c ->
  ForallOrdPairs apart (contents sort s ops) -> plain (contents sort s ops) ->
  Forall audible (contents sort s ops) -> Forall (whole_note ppq) (contents sort s ops) -> Forall byte_velocity (contents sort s ops) ->
  exists t, load sort m bs None = Ok t /\
    eq_result sort t (run sort (track_empty s) ops) = true /\ eq_result sort (run sort (track_empty s) ops) t = true /\
    map value_of (yields sort t) = map value_of (yields sort (run sort (track_empty s) ops)).
Proof.
  intros sort Hs ppq ch w c c' m s ops bs HT Ec HA HP HV HW HB. pose proof (plain_consistent _ HP) as HC.
  destruct (trip_loads sort _ _ _ _ _ _ _ _ _ Hs HT HA HC HV) as (t & l & u & k & T1 & T2 & T3 & T4 & TV & T5 & T6 & T7 & T8).
  destruct HT as [(nd & mc & bpm & Hnew & Hc) _ HS Ho E _].
  pose proof (dumped_small sort _ _ _ _ _ _ _ _ _ _ Hs Hnew Hc HS Ho E) as Hq.
  destruct (run_inv sort Hs s ops Ho) as [HI Hsig]. fold (contents sort s ops) in HI. pose proof (inv_entries _ _ HI) as Hok.
  rewrite Ec, Z.sub_diag in T8.
  assert (EM : map (read_back ppq 0) (contents sort s ops) = map value_of (contents sort s ops)).
  { apply map_ext_in. intros e He. rewrite Forall_forall in Hok, HW, HB. rewrite whole_read_back by auto. apply requantised_same; auto. }
  rewrite EM in T8.
  assert (HPk : Permutation (map value_of k) (map value_of (contents sort s ops))).
  { eapply perm_trans; [apply Permutation_sym, (inv_values sort u k Hs T2)|exact T8]. }
  assert (Ck : consistent k) by (apply plain_consistent; eapply plain_values; eassumption).
  assert (Vr : valid_sig (t_signature (run sort (track_empty s) ops))) by (rewrite Hsig; exact HS).
  assert (ES : (sval (t_signature u) == sval (t_signature (run sort (track_empty s) ops)))%Q) by (rewrite Hsig; exact T4).
  exists u. split; [exact T5|].
  destruct (same_values_equal sort u k _ _ Hs T2 HI TV Vr ES HPk Ck HC) as [R1 R2].
  destruct (same_values_equal sort _ _ u k Hs HI T2 Vr TV (Qeq_sym _ _ ES) (Permutation_sym HPk) HC Ck) as [R3 _].
  auto.
Qed.

(** ** C41 *)
Definition opens (o : Z -> option note_event) (P : list Z) : nat := length (filter (fun p => match o p with Some _ => true | None => false end) P).

Lemma opens_le o o' p : forall P, NoDup P -> (forall q, q <> p -> o' q = o q) -> (opens o' P <= S (opens o P))%nat /\
  (~ In p P -> opens o' P = opens o P).
Proof.
  induction P as [|x P IH]; intros Hn H; [cbn; lia|]. apply NoDup_cons_iff in Hn. destruct Hn as [Hx Hn]. destruct (IH Hn H) as [I1 I2].
  unfold opens in *. cbn [filter In]. split.
  - destruct (Z.eq_dec x p) as [->|Hne].
    + specialize (I2 Hx). destruct (o' p), (o p); cbn [length]; lia.
    + rewrite (H x Hne). destruct (o x); cbn [length]; lia.
  - intros Hni. rewrite (H x) by (intros ->; apply Hni; left; reflexivity). assert (E : ~ In p P) by (intros Hi; apply Hni; right; exact Hi).
    specialize (I2 E). destruct (o x); cbn [length]; lia.
Qed.
Lemma opens_close o p v : forall P, NoDup P -> In p P -> o p = Some v -> S (opens (put o p None) P) = opens o P.
Proof.
  induction P as [|x P IH]; intros Hn Hi Ho; [destruct Hi|]. apply NoDup_cons_iff in Hn. destruct Hn as [Hx Hn].
  destruct (Z.eq_dec x p) as [->|Hne].
  - destruct (opens_le o (put o p None) p P Hn) as [_ H]; [intros q Hq; unfold put; replace (q =? p) with false by lia; reflexivity|].
    specialize (H Hx). unfold opens in *. cbn [filter]. unfold put at 1. rewrite Z.eqb_refl, Ho. cbn [length]. rewrite H. reflexivity.
  - destruct Hi as [Hi|Hi]; [congruence|]. specialize (IH Hn Hi Ho). unfold opens in *. cbn [filter].
    unfold put at 1. replace (x =? p) with false by lia. destruct (o x); cbn [length]; lia.
Qed.

Lemma scan_starts_count P : NoDup P -> forall l o, Forall (fun e => In (ne_pitch e) P) l ->
  (length (scan o l) <= length (filter ne_on l) + opens o P)%nat.
Proof.
  intros HP. induction l as [|e l IH]; intros o Hl; [cbn; lia|]. inversion Hl as [|? ? He Hl']; subst. cbn [scan filter].
  destruct (ne_on e).
  - cbn [length]. destruct (o (ne_pitch e)); [specialize (IH o Hl'); lia|]. specialize (IH (put o (ne_pitch e) (Some e)) Hl').
    destruct (opens_le o (put o (ne_pitch e) (Some e)) (ne_pitch e) P HP) as [H _]; [intros q Hq; unfold put; replace (q =? ne_pitch e) with false by lia; reflexivity|]. lia.
  - destruct (o (ne_pitch e)) as [v|] eqn:Eo; [|apply IH, Hl']. specialize (IH (put o (ne_pitch e) None) Hl').
    pose proof (opens_close o (ne_pitch e) v P HP He Eo). cbn [length]. lia.
Qed.

Lemma scan_silent_count l : (length (scan silent l) <= length (filter ne_on l))%nat.
Proof.
  pose proof (scan_starts_count (nodup Z.eq_dec (map ne_pitch l)) (NoDup_nodup _ _) l silent) as H.
  assert (HF : Forall (fun e => In (ne_pitch e) (nodup Z.eq_dec (map ne_pitch l))) l).
  { apply Forall_forall. intros e He. apply nodup_In, in_map, He. }
  specialize (H HF). replace (opens silent (nodup Z.eq_dec (map ne_pitch l))) with 0%nat in H; [lia|].
  unfold opens. clear. induction (nodup Z.eq_dec (map ne_pitch l)); [reflexivity|assumption].
Qed.

Lemma stream_notes_count w items : (length (stream_notes w items) <= length items)%nat.
Proof.
  unfold stream_notes. eapply Nat.le_trans; [apply scan_silent_count|].
  assert (HP : Permutation (filter ne_on (flat_map note_event_of (note_stream w items))) (filter ne_on (flat_map note_event_of (flat_map (onoff w) items)))).
  { assert (HF : forall a b : list note_event, Permutation a b -> Permutation (filter ne_on a) (filter ne_on b)).
    { intros a b H. induction H as [|x a b H IH|x y a|a b d H1 IH1 H2 IH2]; cbn [filter].
      - constructor.
      - destruct (ne_on x); [apply perm_skip|]; exact IH.
      - destruct (ne_on x), (ne_on y); try apply Permutation_refl. apply perm_swap.
      - eapply perm_trans; eassumption. }
    apply HF, Permutation_flat_map, tsort_perm. }
  rewrite (Permutation_length HP). clear HP. induction items as [|e r IH]; [cbn; lia|].
  cbn [flat_map]. rewrite flat_map_app, filter_app, app_length. cbn [onoff flat_map note_event_of snd fst app filter ne_on length].
  destruct (negb _); cbn [length]; lia.
Qed.

Definition no_note_lost (sort : sort_fn) : Prop :=
  forall ppq channel w c c' m s ops bs t, trip sort ppq channel w c c' m s ops bs ->
    load sort m bs None = Ok t -> track_len t = track_len (run sort (track_empty s) ops).

Lemma yields_length sort t l : sort_contract sort -> Inv t l -> Z.of_nat (@length entry (yields sort t)) = track_len t.
Proof.
  intros Hs HI. rewrite (inv_track_len t l HI). f_equal. eapply eq_trans; [apply (Permutation_length (yields_perm sort Hs _ _ HI))|apply map_length].
Qed.

Lemma trip_len sort ppq channel w c c' m s ops bs : sort_contract sort -> trip sort ppq channel w c c' m s ops bs ->
  exists t, load sort m bs None = Ok t /\
    track_len t = Z.of_nat (length (stream_notes w (yields sort (run sort (track_empty s) ops)))) /\
    track_len (run sort (track_empty s) ops) = Z.of_nat (@length entry (yields sort (run sort (track_empty s) ops))).
Proof.
  intros Hs [(nd & mc & bpm & Hnew & Hc) (nd' & mc' & Hm & Hc') HS Ho E HL].
  destruct (run_inv sort Hs s ops Ho) as [HI Hsig].
  destruct (dumped_load sort nd ppq mc bpm channel w c s ops bs m Hs Hnew Hc HS Ho E HL) as (t & l & T1 & T2 & T3 & T4 & _ & T5).
  destruct (merged_one sort t l Hs T1) as (M1 & M2 & M3); [rewrite T2; exact HS|].
  exists (merged sort [t]). split; [exact T5|]. split; [|symmetry; eapply yields_length; eassumption].
  rewrite <- (yields_length sort _ _ Hs M1). f_equal. apply Permutation_length in M3, T3. rewrite !map_length in M3, T3. congruence.
Qed.

Lemma c41_at_most : forall sort, sort_contract sort -> forall ppq channel w c c' m s ops bs,
  trip sort ppq channel w c c' m s ops bs ->
  exists t, load sort m bs None = Ok t /\ track_len t <= track_len (run sort (track_empty s) ops).
Proof.
  intros sort Hs ppq ch w c c' m s ops bs HT. destruct (trip_len sort _ _ _ _ _ _ _ _ _ Hs HT) as (t & T1 & T2 & T3).
  exists t. split; [exact T1|]. rewrite T2, T3. apply inj_le, stream_notes_count.
Qed.

Lemma c41_quiet : forall sort, sort_contract sort -> forall ppq channel w c c' m s ops bs,
  trip sort ppq channel w c c' m s ops bs -> Forall (fun e => ~ audible e) (contents sort s ops) ->
  exists t, load sort m bs None = Ok t /\ track_len t = 0.
Proof.
  intros sort Hs ppq ch w c c' m s ops bs HT HQ. destruct (trip_len sort _ _ _ _ _ _ _ _ _ Hs HT) as (t & T1 & T2 & _).
  exists t. split; [exact T1|]. rewrite T2. destruct (run_inv sort Hs s ops (trip_ops _ _ _ _ _ _ _ _ _ _ HT)) as [HI _].
  set (items := yields sort (run sort (track_empty s) ops)) in *.
  pose proof (scan_silent_count (flat_map note_event_of (note_stream w items))) as H. fold (stream_notes w items) in H.
  assert (HF : filter ne_on (flat_map note_event_of (note_stream w items)) = []).
  { apply filter_none. apply Forall_flat_map. eapply Permutation_Forall; [apply Permutation_sym, tsort_perm|]. apply Forall_flat_map.
    eapply Permutation_Forall; [apply Permutation_sym, (yields_perm sort Hs _ _ HI)|]. apply Forall_map.
    pose proof (inv_entries _ _ HI) as Hok. unfold contents in HQ. rewrite Forall_forall in *. intros e He.
    assert (Ev : vbyte (n_velocity (snd e)) = 0).
    { rewrite <- note_velocity_eq by (apply Hok, He). destruct (Z.eq_dec (note_velocity (snd e)) 0); [assumption|]. exfalso. apply (HQ e He). assumption. }
    unfold onoff. cbn [rescale fst snd]. rewrite Ev. repeat constructor. }
  rewrite HF in H. cbn [length] in H. lia.
Qed.

Lemma c41_partial : forall sort, sort_contract sort -> forall ppq channel w c c' m s ops bs,
  trip sort ppq channel w c c' m s ops bs ->
  ForallOrdPairs apart (contents sort s ops) -> consistent (contents sort s ops) -> Forall audible (contents sort s ops) ->
  exists t, load sort m bs None = Ok t /\ track_len t = track_len (run sort (track_empty s) ops) /\
    Permutation (map value_of (yields sort t)) (map (read_back ppq (pitch c' - pitch c)) (contents sort s ops)).
Proof.
  intros sort Hs ppq ch w c c' m s ops bs HT HA HC HV.
  destruct (trip_loads sort _ _ _ _ _ _ _ _ _ Hs HT HA HC HV) as (t & l & u & k & T1 & T2 & T3 & T4 & _ & T5 & T6 & T7 & T8).
  exists u. split; [exact T5|]. split; [|exact T8]. destruct (run_inv sort Hs s ops (trip_ops _ _ _ _ _ _ _ _ _ _ HT)) as [HI _].
  rewrite (inv_track_len _ _ HI), <- (yields_length sort u k Hs T2). f_equal. apply Permutation_length in T8. rewrite !map_length in T8. exact T8.
Qed.

(** Two overlapping notes of one tone. *)
Definition overlapping : list op :=
  [OAdd (WNote (mkNote (mkTone 36) (mkSig 1 2) f_half)) (Some (SA_sig (mkSig 0 1)));
   OAdd (WNote (mkNote (mkTone 36) (mkSig 1 2) f_half)) (Some (SA_sig (mkSig 1 4)))].
Definition default_writer : writer := mkWriter 96 384 24 f_120 0.

Lemma simple_ops_ok (ops : list op) : forallb (fun o => match o with
    | OAdd (WNote n) (Some (SA_sig s)) => (0 <=? nominator s) && (0 <? denominator s) && (denominator s =? 2 ^ Z.log2 (denominator s)) &&
       (0 <=? nominator (n_duration n)) && (0 <? denominator (n_duration n)) && (denominator (n_duration n) =? 2 ^ Z.log2 (denominator (n_duration n))) &&
       (is_float (n_velocity n) && (fle f_zero (n_velocity n) && fle (n_velocity n) f_one))
    | _ => false end) ops = true -> Forall op_ok ops.
Proof.
  intros H. rewrite forallb_forall in H. apply Forall_forall. intros o Ho. specialize (H o Ho).
  destruct o as [[n|] [[s| |]|]| | | | |]; try discriminate.
  rewrite !andb_true_iff in H. destruct H as [[[[[[H1 H2] H3] H4] H5] H6] [H7 H8]].
  split.
  - cbn [notes_of]. constructor; [|constructor]. split; [split; [lia|]|apply unit_test; [exact H7|]].
    + exists (Z.log2 (denominator (n_duration n))). split; [apply Z.log2_nonneg|lia].
    + rewrite andb_true_iff. exact H8.
  - intros s' E. injection E as <-. split; [lia|]. exists (Z.log2 (denominator s)). split; [apply Z.log2_nonneg|lia].
Qed.

Lemma default_trip sort ops bs : Forall op_ok ops -> dumps sort default_writer (run sort (track_empty (mkSig 4 4)) ops) = Ok bs ->
  Z.of_nat (length bs) < 22 + 2 ^ 24 -> trip sort 96 0 default_writer (mkTone 36) (mkTone 36) (mkMR 24) (mkSig 4 4) ops bs.
Proof.
  intros Ho E HL. constructor; try assumption.
  - exists ascii_digit, default_middle_c, f_120. split; reflexivity.
  - exists ascii_digit, default_middle_c. split; reflexivity.
  - apply (valid_pow 4 2); lia.
Qed.

Lemma c41_refuted : sort_contract cpython_sort /\ ~ no_note_lost cpython_sort.
Proof.
  split; [exact cpython_sort_contract|]. intros H.
  assert (E : exists bs t, dumps cpython_sort default_writer (run cpython_sort (track_empty (mkSig 4 4)) overlapping) = Ok bs /\
    Z.of_nat (length bs) < 22 + 2 ^ 24 /\ load cpython_sort (mkMR 24) bs None = Ok t /\ track_len t = 1).
  { eexists _, _. split; [vm_compute; reflexivity|]. split; [vm_compute; reflexivity|]. split; [vm_compute; reflexivity|reflexivity]. }
  destruct E as (bs & t & E1 & E2 & E3 & E4).
  assert (Ho : Forall op_ok overlapping) by (apply simple_ops_ok; vm_compute; reflexivity).
  specialize (H _ _ _ _ _ _ _ _ _ t (default_trip cpython_sort overlapping bs Ho E1 E2) E3). rewrite E4 in H. vm_compute in H. discriminate.
Qed.

(** ** C40: not overlapping is not enough *)
Definition round_trip (sort : sort_fn) : Prop :=
  forall ppq channel w c c' m s ops bs, trip sort ppq channel w c c' m s ops bs ->
  ForallOrdPairs apart (contents sort s ops) -> Forall audible (contents sort s ops) -> Forall (whole_note ppq) (contents sort s ops) ->
  exists t, load sort m bs None = Ok t /\ (sval (t_signature t) == sval s)%Q /\
    Permutation (map value_of (yields sort t)) (map (requantised (pitch c' - pitch c)) (contents sort s ops)).

(** A quarter and a note of no duration at its start. *)
Definition touching : list op :=
  [OAdd (WNote (mkNote (mkTone 36) (mkSig 1 4) f_one)) (Some (SA_sig (mkSig 0 1)));
   OAdd (WNote (mkNote (mkTone 36) (mkSig 0 1) f_one)) (Some (SA_sig (mkSig 0 1)))].

Lemma c40_refuted : sort_contract cpython_sort /\ ~ round_trip cpython_sort.
Proof.
  split; [exact cpython_sort_contract|]. intros H.
  assert (E : exists bs t, dumps cpython_sort default_writer (run cpython_sort (track_empty (mkSig 4 4)) touching) = Ok bs /\
    Z.of_nat (length bs) < 22 + 2 ^ 24 /\ load cpython_sort (mkMR 24) bs None = Ok t /\ length (yields cpython_sort t) = 1%nat).
  { eexists _, _. split; [vm_compute; reflexivity|]. split; [vm_compute; reflexivity|]. split; [vm_compute; reflexivity|]. vm_compute. reflexivity. }
  destruct E as (bs & t & E1 & E2 & E3 & E4).
  assert (Ho : Forall op_ok touching) by (apply simple_ops_ok; vm_compute; reflexivity).
  assert (EC : contents cpython_sort (mkSig 4 4) touching =
    [(mkSig 0 1, mkNote (mkTone 36) (mkSig 1 4) f_one); (mkSig 0 1, mkNote (mkTone 36) (mkSig 0 1) f_one)]) by reflexivity.
  specialize (H _ _ _ _ _ _ _ _ _ (default_trip cpython_sort touching bs Ho E1 E2)). rewrite EC in H.
  destruct H as (t' & E5 & _ & HP).
  - constructor; [|constructor; constructor]. constructor; [|constructor]. intros _. right. vm_compute. discriminate.
  - repeat constructor; vm_compute; discriminate.
  - constructor; [|constructor; [|constructor]]; split; [exists 0|exists 96|exists 0|exists 0]; vm_compute; reflexivity.
  - rewrite E3 in E5. injection E5 as <-. apply Permutation_length in HP. rewrite !map_length, E4 in HP. discriminate.
Qed.
