(** What is loaded: channels, signatures, notes (C47-C49). *)
From Coq Require Import ZArith QArith Qround Qreduction List Bool Lia ZifyBool Sorted Permutation.
From Verif Require Import Py PyFloat PySort Signature Tone Note Track MidiWriter MidiReader
  SpecBase TrackSpec MidiSpec ReaderSpec DumpSpec SigFacts SigProps FloatFacts NoteProps SortFacts TrackFacts TrackProps VarLenFacts
  StreamFacts PairFacts TimeFacts VelocityFacts WriterFacts WriterProps ReadFacts LoadFacts FileFacts ReaderProps.
Import ListNotations.
Open Scope Z_scope.

(** ** Channels *)
Definition seen_step (acc : list Z) (c : Z) : list Z := if existsb (Z.eqb c) acc then acc else acc ++ [c].

Lemma fold_seen : forall l d, map fst (fold_left (fun d e => append_event d (ne_channel e) (ev_of e)) l d) =
  fold_left seen_step (map ne_channel l) (map fst d).
Proof.
  induction l as [|e l IH]; intros d; [reflexivity|]. cbn [fold_left map]. rewrite IH. f_equal.
  unfold append_event, seen_step. rewrite dict_set_keys.
  destruct (in_dec Z.eq_dec (ne_channel e) (map fst d)) as [H|H]; destruct (existsb (Z.eqb (ne_channel e)) (map fst d)) eqn:E; try reflexivity.
  - exfalso. assert (existsb (Z.eqb (ne_channel e)) (map fst d) = true) by (apply existsb_exists; exists (ne_channel e); split; [exact H|apply Z.eqb_refl]). congruence.
  - exfalso. apply existsb_exists in E. destruct E as (x & Hx & Ex). apply H. replace (ne_channel e) with x by lia. exact Hx.
Qed.

Lemma keys_channels evs : keys evs = channels_of evs.
Proof. unfold keys, final. rewrite fold_dict, fold_seen. reflexivity. Qed.

Lemma c47_channels_of : forall evs,
  NoDup (channels_of evs) /\
  forall c, In c (channels_of evs) <-> exists e, In e (note_events_of evs) /\ ne_channel e = c.
Proof.
  intros evs. rewrite <- keys_channels. split; [apply keys_nodup|]. intros c. rewrite keys_in. unfold on_channel. split.
  - intros H. destruct (filter (fun e => ne_channel e =? c) (note_events_of evs)) as [|e l] eqn:E; [congruence|].
    assert (HI : In e (filter (fun e => ne_channel e =? c) (note_events_of evs))) by (rewrite E; left; reflexivity).
    apply filter_In in HI. exists e. split; [apply HI|lia].
  - intros (e & He & Ec) H. assert (HI : In e (filter (fun e => ne_channel e =? c) (note_events_of evs))) by (apply filter_In; split; [exact He|lia]).
    rewrite H in HI. exact HI.
Qed.

Definition chans_eq evs : chans evs = match channels_of evs with [] => [0] | l => l end.
Proof. unfold chans. rewrite keys_channels. reflexivity. Qed.

Lemma dict_get_map {A} (f : Z -> A) : forall l c, dict_get (map (fun c => (c, f c)) l) c = if in_dec Z.eq_dec c l then Some (f c) else None.
Proof.
  induction l as [|x l IH]; intros c; [reflexivity|]. cbn [map dict_get]. destruct (Z.eqb_spec c x) as [->|Hn].
  - destruct (in_dec Z.eq_dec x (x :: l)) as [|H]; [reflexivity|]. exfalso. apply H. left. reflexivity.
  - rewrite IH. destruct (in_dec Z.eq_dec c l) as [H|H]; destruct (in_dec Z.eq_dec c (x :: l)) as [H'|H']; try reflexivity.
    + exfalso. apply H'. right. exact H.
    + exfalso. destruct H' as [H'|H']; congruence.
Qed.

(** Everything about a file that is accepted. *)
Definition good_load (sort : sort_fn) (m : midi_reader) (file : bytes) (q : Z) (evs : list (Z * midi_event)) : Prop :=
  (forall c, In c (chans evs) -> load sort m file (Some c) = Ok (chan_track m q evs c) /\
     Inv (chan_track m q evs c) (chan_entries m q (on_channel c (note_events_of evs))) /\
     t_signature (chan_track m q evs c) = chan_sig evs c) /\
  (forall c, ~ In c (chans evs) -> load sort m file (Some c) = Err ValueError) /\
  load sort m file None = Ok (merged sort (map (chan_track m q evs) (chans evs))).

Lemma finish_good sort m file q evs ts : evs_ok evs -> tracks_of m q evs = Ok ts ->
  (forall ch, load sort m file ch = finish sort ch ts) -> good_load sort m file q evs.
Proof.
  intros He Ht HL. pose proof (tracks_of_shape m q evs ts Ht) as Hsh. split; [|split].
  - intros c Hc. split; [|apply (chan_track_inv m q evs ts He Ht c Hc)]. rewrite HL. cbn [finish]. rewrite Hsh.
    rewrite (dict_get_map (chan_track m q evs)). destruct (in_dec Z.eq_dec c (chans evs)); [reflexivity|contradiction].
  - intros c Hc. rewrite HL. cbn [finish]. rewrite Hsh.
    rewrite (dict_get_map (chan_track m q evs)). destruct (in_dec Z.eq_dec c (chans evs)); [contradiction|reflexivity].
  - rewrite HL. cbn [finish]. rewrite Hsh, map_map. reflexivity.
Qed.

Lemma load_cases sort m file : sort_contract sort -> Forall is_byte file ->
  (exists e, forall ch, load sort m file ch = Err e) \/
  (exists q evs, 0 <= q <= 32767 /\ evs_ok evs /\ has_track file evs /\ good_load sort m file q evs).
Proof.
  intros Hs HB. destruct (load_any sort Hs m file HB) as [E|[[E _]|[[E _]|(q & evs & ts & A1 & A2 & A3 & A4 & A5)]]]; try (left; eexists; exact E).
  right. exists q, evs. repeat (split; [assumption|]). eapply finish_good; eassumption.
Qed.

Lemma smf_good sort m q b rest evs dt : sort_contract sort -> 0 < q <= 32767 ->
  stream_bytes None (evs ++ [(dt, MEndOfTrack)]) b -> evs_ok evs -> Z.of_nat (length (b ++ rest)) < 2 ^ 24 ->
  good_load sort m (smf q (b ++ rest)) q evs.
Proof.
  intros Hs Hq Hst He HL. destruct (load_stream sort Hs m q b rest evs dt Hq Hst He HL) as (ts & E1 & E2).
  eapply finish_good; eassumption.
Qed.

(** ** Merging *)
Lemma merged_inv sort ts : sort_contract sort -> Forall (fun t => exists l, Inv t l) ts ->
  Inv (merged sort ts) (flat_map (yields sort) ts) /\ t_signature (merged sort ts) = max_signature ts.
Proof.
  intros Hs H. apply LoadFacts.adds_empty. apply Forall_flat_map. eapply Forall_impl; [|exact H].
  intros t [l Hl]. eapply yields_entries_ok; eassumption.
Qed.

Lemma merged_values sort ts : sort_contract sort -> Forall (fun t => exists l, Inv t l) ts ->
  Permutation (map value_of (yields sort (merged sort ts))) (flat_map (fun t => map value_of (yields sort t)) ts).
Proof.
  intros Hs H. destruct (merged_inv sort ts Hs H) as [HI _].
  eapply perm_trans; [apply (inv_values sort _ _ Hs HI)|].
  clear HI H. induction ts as [|t ts IH]; [constructor|]. cbn [flat_map]. rewrite map_app. apply Permutation_app_head, IH.
Qed.

Definition of_channel (sort : sort_fn) (m : midi_reader) (file : bytes) (c : Z) : list (Q * Z * Q * Q) :=
  match load sort m file (Some c) with Ok u => map value_of (yields sort u) | Err _ => [] end.

Lemma good_invs sort m file q evs : good_load sort m file q evs ->
  Forall (fun t => exists l, Inv t l) (map (chan_track m q evs) (chans evs)).
Proof.
  intros (H & _). apply Forall_map, Forall_forall. intros c Hc. destruct (H c Hc) as (_ & HI & _). eexists. exact HI.
Qed.

Lemma flat_map_ext_in {A B} (f g : A -> list B) l : (forall x, In x l -> f x = g x) -> flat_map f l = flat_map g l.
Proof.
  induction l as [|x l IH]; intros H; [reflexivity|]. cbn. rewrite (H x (or_introl eq_refl)), IH; [reflexivity|].
  intros y Hy. apply H. right. exact Hy.
Qed.

Lemma good_merged sort m file q evs : sort_contract sort -> good_load sort m file q evs ->
  exists t, load sort m file None = Ok t /\ t_signature t = max_signature (map (chan_track m q evs) (chans evs)) /\
    (exists l, Inv t l) /\
    Permutation (map value_of (yields sort t)) (flat_map (of_channel sort m file) (chans evs)).
Proof.
  intros Hs HG. pose proof (good_invs _ _ _ _ _ HG) as HI. destruct HG as (H1 & _ & H3).
  eexists. split; [exact H3|]. destruct (merged_inv sort _ Hs HI) as [I1 I2]. split; [exact I2|].
  split; [eexists; exact I1|].
  eapply perm_trans; [apply (merged_values sort _ Hs HI)|]. rewrite flat_map_concat_map, map_map, <- flat_map_concat_map.
  erewrite flat_map_ext_in; [apply Permutation_refl|]. intros c Hc. unfold of_channel. destruct (H1 c Hc) as [E _]. rewrite E. reflexivity.
Qed.

(** ** C47 *)
Lemma c47_any_file : forall sort, sort_contract sort -> forall m file, Forall is_byte file ->
  (exists e, forall channel, load sort m file channel = Err e) \/
  exists evs, evs_ok evs /\ has_track file evs /\
    let present := match channels_of evs with [] => [0] | l => l end in
    (forall c, In c present -> exists t, load sort m file (Some c) = Ok t) /\
    (forall c, ~ In c present -> load sort m file (Some c) = Err ValueError) /\
    exists t, load sort m file None = Ok t /\
      Permutation (map value_of (yields sort t)) (flat_map (of_channel sort m file) present).
Proof.
  intros sort Hs m file HB. destruct (load_cases sort m file Hs HB) as [E|(q & evs & A1 & A2 & A3 & A4)]; [left; exact E|].
  right. exists evs. split; [exact A2|]. split; [exact A3|]. cbn zeta. rewrite <- chans_eq.
  destruct (good_merged _ _ _ _ _ Hs A4) as (t & T1 & _ & _ & T2). destruct A4 as (B1 & B2 & _). split; [|split].
  - intros c Hc. eexists. apply (B1 c Hc).
  - exact B2.
  - exists t. auto.
Qed.

(** ** C49 *)
Lemma pair_value m q l a b : 0 < q -> Forall ne_ok l -> by_times l -> is_note l a b ->
  value_of (pair_entry m q l (a, b)) = note_read (mr_delta m) q l (a, b).
Proof.
  intros Hq Hl Ht (e & f & Ha & Hb & Hlt & _). unfold pair_entry, note_read. cbn [fst snd]. rewrite Ha, Hb.
  rewrite Forall_forall in Hl. destruct (Hl e (nth_error_In _ _ Ha)) as (H1 & _ & _).
  pose proof (by_times_nth l a b e f Ht ltac:(lia) Ha Hb) as Hle.
  unfold value_of. cbn [fst snd n_tone n_duration n_velocity].
  destruct (time_to_signature_ok (ne_time e) q H1 Hq) as (_ & _ & V1 & _).
  destruct (time_to_signature_ok (ne_time f - ne_time e) q ltac:(lia) Hq) as (_ & _ & V2 & _).
  rewrite (Qred_complete _ _ V1), (Qred_complete _ _ V2). reflexivity.
Qed.

Lemma chan_values sort m q evs ts c : sort_contract sort -> evs_ok evs -> tracks_of m q evs = Ok ts -> In c (chans evs) ->
  let l := on_channel c (note_events_of evs) in
  Permutation (map value_of (yields sort (chan_track m q evs c))) (map (note_read (mr_delta m) q l) (note_pairs l)).
Proof.
  intros Hs He Ht Hc l. destruct (chan_track_inv m q evs ts He Ht c Hc) as [HI _].
  eapply perm_trans; [apply (inv_values sort _ _ Hs HI)|]. fold l. unfold chan_entries. rewrite map_map.
  destruct (channel_events_ok c evs He) as [Hl Hb]. fold l in Hl, Hb.
  destruct (Z.ltb_spec 0 q) as [Hq|Hq].
  - erewrite map_ext_in; [apply Permutation_refl|]. intros [a b] Hab. apply pair_value; try assumption.
    apply note_pairs_listed. exact Hab.
  - unfold tracks_of in Ht. destruct (Z.ltb_spec 0 q); [lia|]. cbn [orb] in Ht.
    destruct (forallb _ (chans evs)) eqn:E; [|discriminate]. rewrite forallb_forall in E. specialize (E c Hc). fold l in E.
    destruct (note_pairs l); [constructor|discriminate].
Qed.

Lemma c49_any_file : forall sort, sort_contract sort -> forall m file c t, Forall is_byte file ->
  load sort m file (Some c) = Ok t ->
  exists q evs pairs, 0 <= q <= 32767 /\ evs_ok evs /\ has_track file evs /\
    let events := on_channel c (note_events_of evs) in
    notes_listed events pairs /\
    Permutation (map value_of (yields sort t)) (map (note_read (mr_delta m) q events) pairs) /\
    t_signature t = chan_sig evs c.
Proof.
  intros sort Hs m file c t HB E. destruct (load_any sort Hs m file HB) as [E'|[[E' _]|[[E' _]|(q & evs & ts & A1 & A2 & A3 & A4 & A5)]]]; try congruence.
  exists q, evs, (note_pairs (on_channel c (note_events_of evs))). repeat (split; [assumption|]). cbn zeta.
  split; [apply note_pairs_listed|]. pose proof (finish_good sort m file q evs ts A2 A4 A5) as (G1 & G2 & _).
  destruct (in_dec Z.eq_dec c (chans evs)) as [Hc|Hc]; [|rewrite (G2 c Hc) in E; discriminate].
  destruct (G1 c Hc) as (E1 & _ & E2). rewrite E1 in E. injection E as <-. split; [|exact E2].
  apply (chan_values sort m q evs ts c Hs A2 A4 Hc).
Qed.

Lemma c49_stream : forall sort, sort_contract sort -> forall m q b rest evs dt, 0 < q <= 32767 ->
  stream_bytes None (evs ++ [(dt, MEndOfTrack)]) b -> evs_ok evs -> Z.of_nat (length (b ++ rest)) < 2 ^ 24 ->
  forall c, let events := on_channel c (note_events_of evs) in
  events <> [] ->
  exists t pairs, load sort m (smf q (b ++ rest)) (Some c) = Ok t /\ notes_listed events pairs /\
    Permutation (map value_of (yields sort t)) (map (note_read (mr_delta m) q events) pairs) /\
    t_signature t = chan_sig evs c.
Proof.
  intros sort Hs m q b rest evs dt Hq Hst He HL c events Hne.
  destruct (load_stream sort Hs m q b rest evs dt Hq Hst He HL) as (ts & E1 & E2).
  pose proof (finish_good sort m _ q evs ts He E1 E2) as (G1 & _ & _).
  assert (Hc : In c (chans evs)) by (apply chans_in; left; exact Hne). destruct (G1 c Hc) as (F1 & _ & F2).
  exists (chan_track m q evs c), (note_pairs events). split; [exact F1|]. split; [apply note_pairs_listed|]. split; [|exact F2].
  apply (chan_values sort m q evs ts c Hs He E1 Hc).
Qed.

(** The list of pairs is determined. *)
Lemma nth_firstn {A} (l : list A) : forall a j, (j < a)%nat -> nth_error (firstn a l) j = nth_error l j.
Proof.
  induction l as [|x l IH]; intros a j H; [rewrite firstn_nil; reflexivity|]. destruct a as [|a]; [lia|].
  destruct j as [|j]; [reflexivity|]. cbn. apply IH. lia.
Qed.

Lemma is_note_start l a a' b : is_note l a b -> is_note l a' b -> (a < a')%nat -> False.
Proof.
  intros (e & f & A1 & A2 & A3 & A4 & A5 & A6 & A7 & A8) (e' & f' & B1 & B2 & B3 & B4 & B5 & B6 & B7 & B8) H.
  assert (f' = f) by congruence. subst f'. apply B7. exists a, e. rewrite nth_firstn by exact H. split; [exact A1|].
  split; [exact A4|]. split; [congruence|]. intros j g Hj Hg Hp.
  assert (Hja : (j < a')%nat). { apply nth_len in Hg. rewrite firstn_length in Hg. lia. }
  rewrite nth_firstn in Hg by exact Hja. apply (A8 j g); [lia|exact Hg|congruence].
Qed.

Lemma c49_unique : forall l pairs pairs', notes_listed l pairs -> notes_listed l pairs' -> pairs = pairs'.
Proof.
  intros l p p' [H1 H2] [H3 H4]. apply ssorted_lt_eq; try assumption.
  - intros a b. rewrite H1, H3. reflexivity.
  - intros a a' b Ha Hb. apply H1 in Ha. apply H1 in Hb. destruct (Nat.lt_trichotomy a a') as [L|[E|L]]; [|exact E|].
    + exfalso. exact (is_note_start l a a' b Ha Hb L).
    + exfalso. exact (is_note_start l a' a b Hb Ha L).
Qed.

(** ** C48 *)
Lemma last_signature_in c l nn dd : last_signature c l = Some (nn, dd) -> In (c, (nn, dd)) l.
Proof.
  unfold last_signature. intros H. destruct (rev (filter (fun x => fst x =? c) l)) as [|[c' v] r] eqn:E; [discriminate|].
  injection H as ->. assert (HI : In (c', (nn, dd)) (filter (fun x => fst x =? c) l)) by (apply in_rev; rewrite E; left; reflexivity).
  apply filter_In in HI. destruct HI as [HI Hc]. cbn [fst] in Hc. replace c with c' by lia. exact HI.
Qed.
Lemma signatures_bytes : forall evs p, Forall (fun te => event_ok (snd te)) evs ->
  forall x, In x (signatures_of p evs) -> is_byte (fst (snd x)) /\ is_byte (snd (snd x)).
Proof.
  induction evs as [|[dt e] r IH]; intros p H x Hx; [destruct Hx|]. inversion H as [|? ? H1 H2]; subst. cbn [snd] in H1.
  destruct e; cbn [signatures_of] in Hx; try (exact (IH _ H2 x Hx)).
  destruct Hx as [<-|Hx]; [|eapply IH; eassumption]. cbn. destruct H1 as (A & B & _). auto.
Qed.
Lemma chan_sig_valid evs c : evs_ok evs -> valid_sig (chan_sig evs c).
Proof.
  intros (He & _). assert (HB : forall p nn dd, last_signature p (signatures_of (-1) evs) = Some (nn, dd) -> valid_sig (mkSig nn (2 ^ dd))).
  { intros p nn dd H. apply last_signature_in in H. destruct (signatures_bytes evs (-1) He _ H) as [H1 H2]. unfold is_byte in *. cbn in *.
    split; cbn; [lia|]. exists dd. split; [lia|reflexivity]. }
  unfold chan_sig. destruct (last_signature c _) as [[nn dd]|] eqn:E; [eapply HB, E|].
  destruct (last_signature (-1) _) as [[nn dd]|] eqn:E2; [eapply HB, E2|]. apply (valid_pow 4 2); lia.
Qed.

Definition take_max (mx : sig) (t : track) : sig := if sig_gt (t_signature t) mx then t_signature t else mx.

Lemma max_fold : forall ts mx, valid_sig mx -> Forall (fun t => valid_sig (t_signature t)) ts ->
  StronglySorted Z.le (denominator mx :: map (fun t => denominator (t_signature t)) ts) ->
  let r := fold_left take_max ts mx in
  valid_sig r /\ (sval mx <= sval r)%Q /\ Forall (fun t => (sval (t_signature t) <= sval r)%Q) ts /\
  (r = mx \/ exists t, In t ts /\ r = t_signature t).
Proof.
  induction ts as [|t ts IH]; intros mx Hm Hts Hd; cbn zeta; cbn [fold_left].
  - split; [exact Hm|]. split; [apply Qle_refl|]. split; [constructor|left; reflexivity].
  - inversion Hts as [|? ? Ht Hr]; subst. inversion Hd as [|? ? Hd1 Hd2]; subst. inversion Hd1 as [|? ? Hd3 Hd4]; subst.
    inversion Hd2 as [|? ? Hd5 Hd6]; subst.
    destruct (c03_partial (t_signature t) mx Ht Hm) as [HC _]. destruct (HC Hd5) as (_ & _ & HG & _).
    assert (HN : (sval mx <= sval (take_max mx t))%Q /\ (sval (t_signature t) <= sval (take_max mx t))%Q).
    { unfold take_max. destruct (sig_gt (t_signature t) mx) eqn:E.
      - split; [apply Qlt_le_weak, HG, eq_refl|apply Qle_refl].
      - split; [apply Qle_refl|]. apply Qnot_lt_le. intros HL. apply HG in HL. congruence. }
    assert (HV : valid_sig (take_max mx t)) by (unfold take_max; destruct (sig_gt _ _); assumption).
    assert (HS : StronglySorted Z.le (denominator (take_max mx t) :: map (fun t => denominator (t_signature t)) ts)).
    { unfold take_max. destruct (sig_gt _ _); constructor; assumption. }
    destruct (IH _ HV Hr HS) as (I1 & I2 & I3 & I4). split; [exact I1|]. split; [eapply Qle_trans; [apply HN|exact I2]|].
    split; [constructor; [eapply Qle_trans; [apply HN|exact I2]|exact I3]|].
    destruct I4 as [->|(u & Hu & Eu)]; [|right; exists u; split; [right; exact Hu|exact Eu]].
    unfold take_max. destruct (sig_gt _ _); [right; exists t; split; [left; reflexivity|reflexivity]|left; reflexivity].
Qed.

Lemma max_some : forall ts mx, exists t, In t (mx :: map t_signature ts) /\ fold_left take_max ts mx = t.
Proof.
  induction ts as [|t ts IH]; intros mx; [exists mx; split; [left|]; reflexivity|]. cbn [fold_left map].
  destruct (IH (take_max mx t)) as (r & Hr & E). exists r. split; [|exact E]. destruct Hr as [<-|Hr]; [|right; right; exact Hr].
  unfold take_max. destruct (sig_gt _ _); [right; left; reflexivity|left; reflexivity].
Qed.

Lemma max_present : forall ts, ts <> [] -> Forall (fun t => valid_sig (t_signature t)) ts ->
  exists t, In t ts /\ (sval (t_signature t) == sval (max_signature ts))%Q.
Proof.
  intros [|t ts] Hne HV; [congruence|]. inversion HV as [|? ? H1 _]; subst.
  change (max_signature (t :: ts)) with (fold_left take_max ts (take_max (mkSig 0 1) t)).
  destruct (max_some ts (take_max (mkSig 0 1) t)) as (r & Hr & ->).
  assert (H0 : forall a, valid_sig a -> ~ (0 < nominator a) -> (sval a == sval (mkSig 0 1))%Q).
  { intros a [Hn _] Ha. unfold Qeq, sval. cbn [Qnum Qden nominator denominator]. assert (nominator a = 0) by lia. rewrite H. reflexivity. }
  assert (HG : sig_gt (t_signature t) (mkSig 0 1) = true \/ (sval (t_signature t) == sval (mkSig 0 1))%Q).
  { destruct (Z.ltb_spec 0 (nominator (t_signature t))) as [L|L]; [left|right; apply H0; [exact H1|lia]].
    destruct H1 as [_ Hp]. apply pow2_pos in Hp. unfold sig_gt, to_common_denominator. cbn [nominator denominator].
    destruct (Z.eqb_spec (denominator (t_signature t)) 1); [lia|]. destruct (denominator (t_signature t) >? 1) eqn:E; lia. }
  destruct Hr as [<-|Hr].
  - exists t. split; [left; reflexivity|]. unfold take_max. destruct (sig_gt _ _) eqn:E; [reflexivity|]. destruct HG as [HG|HG]; [congruence|exact HG].
  - apply in_map_iff in Hr. destruct Hr as (u & <- & Hu). exists u. split; [right; exact Hu|reflexivity].
Qed.

Lemma c48_partial : forall sort, sort_contract sort -> forall m file t, Forall is_byte file ->
  load sort m file None = Ok t ->
  exists evs, evs_ok evs /\ has_track file evs /\
    let present := match channels_of evs with [] => [0] | l => l end in
    (forall c, In c present -> exists u, load sort m file (Some c) = Ok u /\ t_signature u = chan_sig evs c) /\
    (exists c, In c present /\ (sval (chan_sig evs c) == sval (t_signature t))%Q) /\
    (StronglySorted Z.le (map (fun c => denominator (chan_sig evs c)) present) ->
     forall c, In c present -> (sval (chan_sig evs c) <= sval (t_signature t))%Q).
Proof.
  intros sort Hs m file t HB E. destruct (load_cases sort m file Hs HB) as [[e E']|(q & evs & A1 & A2 & A3 & A4)]; [congruence|].
  exists evs. split; [exact A2|]. split; [exact A3|]. cbn zeta. rewrite <- chans_eq.
  destruct (good_merged _ _ _ _ _ Hs A4) as (t' & T1 & T2 & _ & _). rewrite T1 in E. injection E as ->.
  destruct A4 as (B1 & _). split.
  { intros c Hc. eexists. split; apply (B1 c Hc). }
  assert (HSg : forall c, In c (chans evs) -> t_signature (chan_track m q evs c) = chan_sig evs c) by (intros c Hc; apply (B1 c Hc)).
  assert (HVs : Forall (fun t => valid_sig (t_signature t)) (map (chan_track m q evs) (chans evs))).
  { apply Forall_map, Forall_forall. intros c Hc. rewrite (HSg c Hc). apply chan_sig_valid, A2. }
  rewrite T2. split.
  { destruct (max_present (map (chan_track m q evs) (chans evs))) as (u & Hu & Eu); [|exact HVs|].
    - unfold chans. destruct (keys evs); discriminate.
    - apply in_map_iff in Hu. destruct Hu as (c & <- & Hc). exists c. split; [exact Hc|]. rewrite <- (HSg c Hc). exact Eu. }
  intros Hd. assert (H01 : valid_sig (mkSig 0 1)) by (apply (valid_pow 0 0); lia).
  destruct (max_fold (map (chan_track m q evs) (chans evs)) (mkSig 0 1) H01 HVs) as (_ & _ & M3 & _).
  - rewrite map_map. erewrite map_ext_in; [|intros c Hc; rewrite (HSg c Hc); reflexivity].
    constructor; [exact Hd|]. apply Forall_map, Forall_forall. intros c Hc.
    destruct (chan_sig_valid evs c A2) as [_ Hp]. apply pow2_pos in Hp. cbn. lia.
  - change (fold_left take_max (map (chan_track m q evs) (chans evs)) (mkSig 0 1)) with (max_signature (map (chan_track m q evs) (chans evs))) in *.
    intros c Hc. rewrite Forall_map, Forall_forall in M3. rewrite <- (HSg c Hc). apply M3, Hc.
Qed.
