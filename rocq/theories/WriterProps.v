(** Properties of dump (C32-C36). *)
From Coq Require Import ZArith QArith Qround List Bool Lia ZifyBool Permutation Sorted.
From Verif Require Import Py PyFloat PySort Signature Tone Note Track MidiWriter MidiReader
  SpecBase TrackSpec MidiSpec DumpSpec SigFacts SigProps ToneProps NoteProps FloatFacts SortFacts TrackFacts
  VarLenFacts TimeFacts VelocityFacts WriterFacts.
Import ListNotations.
Open Scope Z_scope.

(** ** From what is iterated to what was added *)
Lemma in_range_c w c n : w_delta w = 60 - c -> (in_range w n <-> in_midi_range c n).
Proof. intros H. unfold in_range, in_midi_range, midi_pitch, note_pitch. rewrite H. lia. Qed.

Lemma in_range_log sort w c t l : sort_contract sort -> Inv t l -> w_delta w = 60 - c ->
  (Forall (fun e : entry => in_range w (snd e)) (yields sort t) <-> Forall (fun e : entry => in_midi_range c (snd e)) l).
Proof.
  intros Hs HI Hd. pose proof (yields_perm sort Hs t l HI) as HP.
  assert (E : Forall (fun e : entry => in_range w (snd e)) (map (rescale (maxden l)) l) <-> Forall (fun e : entry => in_midi_range c (snd e)) l).
  { rewrite Forall_map. rewrite !Forall_forall. split; intros H e He; apply (in_range_c w c _ Hd), (H e He). }
  rewrite <- E. split; apply Permutation_Forall; [exact HP|apply Permutation_sym, HP].
Qed.

Lemma start_end_onoff w c e : w_delta w = 60 - c -> entry_ok e -> onoff w e = start_end (w_ppq w) c (w_channel w) e.
Proof.
  intros Hd [_ [_ Hv]]. unfold onoff, start_end, pulses, vbyte, note_velocity, note_pitch, midi_pitch.
  destruct (velocity_byte_eq _ Hv) as [-> _]. rewrite Hd.
  replace (pitch (n_tone (snd e)) + (60 - c)) with (60 + pitch (n_tone (snd e)) - c) by lia. reflexivity.
Qed.

Lemma start_end_log sort w c t l : sort_contract sort -> Inv t l -> w_delta w = 60 - c ->
  Permutation (flat_map (onoff w) (yields sort t)) (flat_map (start_end (w_ppq w) c (w_channel w)) l).
Proof.
  intros Hs HI Hd. eapply perm_trans; [apply Permutation_flat_map, (yields_perm sort Hs t l HI)|].
  rewrite !flat_map_concat_map, map_map. pose proof (inv_entries _ _ HI) as Hok.
  assert (E : map (fun x => onoff w (rescale (maxden l) x)) l = map (start_end (w_ppq w) c (w_channel w)) l).
  { apply map_ext_in. intros e He. rewrite Forall_forall in Hok. rewrite <- (start_end_onoff w c) by (assumption || apply Hok, He).
    unfold onoff. cbn [rescale fst snd].
    rewrite (pulses_comp (w_ppq w) (sval (resc (maxden l) (fst e))) (sval (fst e))); [reflexivity|].
    apply resc_val; [apply Hok, He| |apply maxden_in, He]. apply maxden_pow2. rewrite Forall_forall. exact Hok. }
  rewrite E. apply Permutation_refl.
Qed.

(** ** Note-offs never get ahead of note-ons *)
Definition balanced (l : list (Z * midi_event)) : Prop :=
  forall l1 l2, l = l1 ++ l2 -> forall p, (ends p l1 <= starts p l1)%nat.

Lemma starts_app p a b : starts p (a ++ b) = (starts p a + starts p b)%nat.
Proof. unfold starts. rewrite filter_app, app_length. reflexivity. Qed.
Lemma ends_app p a b : ends p (a ++ b) = (ends p a + ends p b)%nat.
Proof. unfold ends. rewrite filter_app, app_length. reflexivity. Qed.
Lemma starts_cons p x b : starts p (x :: b) = (starts p [x] + starts p b)%nat.
Proof. apply (starts_app p [x] b). Qed.
Lemma ends_cons p x b : ends p (x :: b) = (ends p [x] + ends p b)%nat.
Proof. apply (ends_app p [x] b). Qed.
Lemma starts_perm p a b : Permutation a b -> starts p a = starts p b.
Proof.
  intros H. unfold starts. apply Permutation_length.
  induction H; cbn [filter]; [constructor| | |eapply perm_trans; eassumption].
  - destruct (match snd x with MNoteOn _ q _ => q =? p | _ => false end); [apply perm_skip|]; assumption.
  - destruct (match snd x with MNoteOn _ q _ => q =? p | _ => false end), (match snd y with MNoteOn _ q _ => q =? p | _ => false end);
      try apply perm_swap; apply Permutation_refl.
Qed.
Lemma ends_perm p a b : Permutation a b -> ends p a = ends p b.
Proof.
  intros H. unfold ends. apply Permutation_length.
  induction H; cbn [filter]; [constructor| | |eapply perm_trans; eassumption].
  - destruct (match snd x with MNoteOff _ q _ => q =? p | _ => false end); [apply perm_skip|]; assumption.
  - destruct (match snd x with MNoteOff _ q _ => q =? p | _ => false end), (match snd y with MNoteOff _ q _ => q =? p | _ => false end);
      try apply perm_swap; apply Permutation_refl.
Qed.

Lemma app_split {A} : forall (a b c d : list A), a ++ b = c ++ d ->
  (exists m, a = c ++ m /\ d = m ++ b) \/ (exists m, c = a ++ m /\ b = m ++ d).
Proof.
  induction a as [|x a IH]; intros b c d H; [right; exists c; auto|].
  destruct c as [|y c]; [left; exists (x :: a); auto|].
  cbn in H. injection H as -> H. destruct (IH _ _ _ H) as [(m & -> & ->)|(m & -> & ->)]; [left|right]; exists m; auto.
Qed.

Lemma tinsert_split {X} (x : Z * X) l : exists a b, l = a ++ b /\ tinsert x l = a ++ x :: b /\ Forall (fun y => fst y < fst x) a.
Proof.
  induction l as [|y l (a & b & -> & E & Ha)]; cbn [tinsert]; [exists [], []; auto|].
  destruct (Z.leb_spec (fst x) (fst y)); [exists [], (y :: a ++ b); auto|].
  exists (y :: a), b. rewrite E. split; [reflexivity|]. split; [reflexivity|]. constructor; assumption.
Qed.

Lemma two_inserted {X} (on off : Z * X) l : fst on <= fst off ->
  exists a b c, l = a ++ b ++ c /\ tinsert on (tinsert off l) = a ++ on :: b ++ off :: c.
Proof.
  intros H. destruct (tinsert_split off l) as (a1 & b1 & -> & E1 & H1). rewrite E1.
  destruct (tinsert_split on (a1 ++ off :: b1)) as (a2 & b2 & E2 & E3 & H2). rewrite E3.
  destruct (app_split _ _ _ _ E2) as [(m & -> & Hm)|(m & -> & Hm)].
  - exists a2, m, b1. rewrite Hm, <- app_assoc. auto.
  - destruct m as [|z m].
    + exists a1, [], b1. rewrite app_nil_r in *. cbn in *. subst b2. auto.
    + cbn in Hm. injection Hm as <- Hm. apply Forall_app in H2. destruct H2 as [_ H2]. inversion H2; subst. lia.
Qed.

Lemma balanced_add on off a b c p v ch ch' v' : snd on = MNoteOn ch p v -> snd off = MNoteOff ch' p v' ->
  balanced (a ++ b ++ c) -> balanced (a ++ on :: b ++ off :: c).
Proof.
  intros Hon Hoff HB l1 l2 E q.
  assert (O1 : starts q [on] = if p =? q then 1%nat else 0%nat) by (unfold starts; cbn [filter]; rewrite Hon; destruct (p =? q); reflexivity).
  assert (O2 : ends q [on] = 0%nat) by (unfold ends; cbn [filter]; rewrite Hon; reflexivity).
  assert (O3 : starts q [off] = 0%nat) by (unfold starts; cbn [filter]; rewrite Hoff; reflexivity).
  assert (O4 : ends q [off] = if p =? q then 1%nat else 0%nat) by (unfold ends; cbn [filter]; rewrite Hoff; destruct (p =? q); reflexivity).
  destruct (app_split _ _ _ _ E) as [(m & Ha & _)|(m & -> & Hm)].
  - apply (HB l1 (m ++ b ++ c)). rewrite Ha, <- app_assoc. reflexivity.
  - destruct m as [|x m].
    + rewrite app_nil_r. apply (HB a (b ++ c)). reflexivity.
    + cbn in Hm. injection Hm as <- Hm. destruct (app_split _ _ _ _ Hm) as [(m' & -> & _)|(m' & -> & Hm')].
      * pose proof (HB (a ++ m) (m' ++ c) ltac:(rewrite <- !app_assoc; reflexivity) q) as H.
        rewrite starts_app, ends_app in H. rewrite starts_app, ends_app, starts_cons, ends_cons, O1, O2. lia.
      * destruct m' as [|y m'].
        -- rewrite app_nil_r. pose proof (HB (a ++ b) c ltac:(rewrite <- app_assoc; reflexivity) q) as H.
           rewrite starts_app, ends_app in H. rewrite starts_app, ends_app, starts_cons, ends_cons, O1, O2. lia.
        -- cbn in Hm'. injection Hm' as <- ->. pose proof (HB (a ++ b ++ m') l2 ltac:(rewrite <- !app_assoc; reflexivity) q) as H.
           rewrite !starts_app, !ends_app in H.
           rewrite starts_app, ends_app, (starts_cons q on), (ends_cons q on), starts_app, ends_app, (starts_cons q off), (ends_cons q off), O1, O2, O3, O4.
           destruct (p =? q); lia.
Qed.

Lemma note_stream_balanced w items : writer_ok w -> Forall entry_ok items -> balanced (note_stream w items).
Proof.
  intros Hw Hok. unfold note_stream. induction items as [|e r IH].
  - intros l1 l2 E p. cbn in E. destruct l1; [cbn; lia|discriminate].
  - inversion Hok as [|? ? [He [Hd _]] Hr]; subst. specialize (IH Hr).
    cbn [flat_map]. unfold onoff at 1. cbn [app tsort].
    match goal with |- balanced (tinsert ?on (tinsert ?off ?l)) => destruct (two_inserted on off l) as (a & b & c & E & ->) end.
    + cbn [fst]. destruct Hw as (Hp & _).
      pose proof (pulses_nonneg (w_ppq w) (sval (n_duration (snd e))) ltac:(lia) (sval_nonneg _ Hd)). lia.
    + rewrite E in IH. eapply balanced_add; [reflexivity|reflexivity|exact IH].
Qed.

Lemma onoff_same_count w items p : starts p (flat_map (onoff w) items) = ends p (flat_map (onoff w) items).
Proof.
  induction items as [|e r IH]; [reflexivity|]. cbn [flat_map]. rewrite starts_app, ends_app, IH. f_equal.
  unfold starts, ends, onoff. cbn [filter snd]. destruct (midi_pitch w (snd e) =? p); reflexivity.
Qed.

(** ** C32, C35 *)
Lemma dumps_inv sort w t bs : dumps sort w t = Ok bs <-> d_result (dump sort w t) = Ok tt /\ d_written (dump sort w t) = bs.
Proof.
  unfold dumps. destruct (d_result (dump sort w t)) as [[]|e]; split; intros H.
  - injection H as ->. auto.
  - destruct H as [_ ->]. reflexivity.
  - discriminate.
  - destruct H. discriminate.
Qed.

Lemma representable_dec w s items : representable w s items \/ ~ representable w s items.
Proof.
  assert (D1 : Forall (fun e : entry => in_range w (snd e)) items \/ ~ Forall (fun e : entry => in_range w (snd e)) items).
  { destruct (Forall_dec (fun e : entry => in_range w (snd e))) with (l := items) as [D|D]; [|auto..].
    intros e. unfold in_range. destruct (Z_le_dec 0 (midi_pitch w (snd e))), (Z_le_dec (midi_pitch w (snd e)) 127); [left; lia|right; lia..]. }
  assert (D2 : sig_fits s \/ ~ sig_fits s) by (unfold sig_fits; generalize (2 ^ 255); intros; lia).
  assert (D3 : tempo_fits (w_bpm w) \/ ~ tempo_fits (w_bpm w)).
  { unfold tempo_fits. destruct (tempo_of_bpm (w_bpm w)) as [k|e]; [|right; intros (k & E & _); discriminate].
    assert (D : 0 <= k < 2 ^ 24 \/ ~ (0 <= k < 2 ^ 24)) by lia. destruct D as [D|D]; [left; exists k; auto|].
    right. intros (j & E & Hj). injection E as ->. auto. }
  assert (D4 : w_ppq w <= 255 \/ ~ w_ppq w <= 255) by lia.
  unfold representable. tauto.
Qed.

(** Everything about a successful dump in one place. *)
Lemma dumps_spec sort w t l bs : sort_contract sort -> writer_ok w -> Inv t l -> valid_sig (t_signature t) ->
  dumps sort w t = Ok bs ->
  representable w (t_signature t) (yields sort t) /\
  exists k b, tempo_of_bpm (w_bpm w) = Ok k /\ 0 <= k < 2 ^ 24 /\
    bs = smf (w_ppq w) b /\ Z.of_nat (length b) < 2 ^ 32 /\
    plain (events_of w (t_signature t) k (yields sort t)) b /\
    stream_bytes None (events_of w (t_signature t) k (yields sort t)) b.
Proof.
  intros Hs Hw HI HS H. apply dumps_inv in H. destruct H as [H1 H2].
  destruct (representable_dec w (t_signature t) (yields sort t)) as [HR|HR].
  - split; [exact HR|]. destruct (dump_good sort w t l Hs Hw HI HS HR) as (k & b & Ek & Hk & Hb & Hst & E).
    rewrite E in H1, H2. destruct (Z.ltb_spec (Z.of_nat (length b)) (2 ^ 32)) as [L|L]; cbn in H1, H2; [|discriminate].
    exists k, b. repeat (split; [auto|]). auto.
  - destruct (dump_bad sort w t l Hs Hw HI HS HR) as (e & E & _). rewrite E in H1. discriminate.
Qed.

Lemma with_bit7_byte : forall ds, Forall is_digit ds -> Forall is_byte (with_bit7 ds).
Proof.
  induction ds as [|d [|e r] IH]; intros H; [constructor| |].
  - inversion H; subst. constructor; [unfold is_byte, is_digit in *; lia|constructor].
  - inversion H; subst. rewrite with_bit7_cons. constructor; [unfold is_byte, is_digit in *; lia|auto].
Qed.

Lemma plain_bytes : forall evs b, Forall (fun te => 0 <= fst te /\ event_ok (snd te) /\ small_meta (snd te)) evs ->
  plain evs b -> Forall is_byte b.
Proof.
  unfold plain. induction evs as [|[dt e] r IH]; intros b H E; cbn [map on_wire fst snd format_events] in E.
  - injection E as <-. constructor.
  - inversion H as [|? ? (H1 & H2 & H3) Hr]; subst. cbn [fst snd] in *.
    destruct (format_var_len_digits dt H1) as (ds & Ed & Hd & _). rewrite Ed in E. cbn [bind] in E.
    destruct (format_events (map on_wire r)) as [rest|]; cbn [bind] in E; [|discriminate]. injection E as <-.
    change (Forall is_byte (with_bit7 ds ++ wire e ++ rest)). apply Forall_app. split; [apply with_bit7_byte, Hd|]. apply Forall_app. split; [|apply (IH rest Hr eq_refl)].
    unfold wire. constructor.
    + unfold is_byte. destruct e; cbn [status_of event_ok] in *; try lia.
      destruct H2 as (H2 & _). unfold message_length in H2.
      repeat match type of H2 with (if ?c then _ else _) = _ => destruct c eqn:?; [lia|] end. discriminate.
    + destruct e; cbn [event_ok small_meta] in *; unfold is_byte in *.
      * repeat constructor; lia.
      * repeat constructor; lia.
      * apply H2.
      * repeat constructor; lia.
      * repeat constructor; lia.
      * repeat constructor; lia.
      * constructor; [lia|]. constructor; [lia|]. apply H2.
Qed.

Definition channel_note (channel : Z) (e : midi_event) : Prop :=
  exists p v, (e = MNoteOn channel p v \/ e = MNoteOff channel p v) /\ 0 <= p < 128 /\ 0 <= v < 128.

Lemma note_stream_notes w items : writer_ok w -> Forall entry_ok items -> Forall (fun e : entry => in_range w (snd e)) items ->
  Forall (fun te => channel_note (w_channel w) (snd te)) (note_stream w items).
Proof.
  intros Hw Hok Hr. eapply Permutation_Forall; [apply Permutation_sym, tsort_perm|]. apply Forall_flat_map.
  rewrite Forall_forall in *. intros [p n] Hin. destruct (Hok _ Hin) as [_ [_ Hv]]. specialize (Hr _ Hin). cbn [fst snd] in *.
  unfold in_range in Hr. destruct (velocity_byte_eq _ Hv) as [_ HB]. fold (vbyte (n_velocity n)) in HB.
  unfold onoff. cbn [fst snd]. constructor; [|constructor; [|constructor]].
  - eexists _, _. split; [left; reflexivity|lia].
  - eexists _, _. split; [right; reflexivity|lia].
Qed.

Lemma yields_entry_ok sort t l : sort_contract sort -> Inv t l -> Forall entry_ok (yields sort t).
Proof.
  intros Hs HI. eapply Forall_impl; [|apply (yields_ok sort Hs t l HI)]. intros e (H1 & _ & H2). split; assumption.
Qed.

Lemma chunk_bytes name body : Forall is_byte name -> Forall is_byte body -> Forall is_byte (chunk name body).
Proof.
  intros H1 H2. unfold chunk. apply Forall_app. split; [exact H1|]. apply Forall_app. split; [apply be_bytes_byte|exact H2].
Qed.
Lemma smf_bytes d body : Forall is_byte body -> Forall is_byte (smf d body).
Proof.
  intros H. apply Forall_app. split; apply chunk_bytes; try exact H.
  - unfold is_byte. repeat constructor; lia.
  - apply Forall_app. split; [apply be_bytes_byte|]. apply Forall_app. split; apply be_bytes_byte.
  - unfold is_byte. repeat constructor; lia.
Qed.

Lemma dumped_events : forall sort, sort_contract sort -> forall nd ppq middle_c bpm channel w c,
  writer_new nd ppq middle_c bpm channel = Ok w -> tone_of_arg nd middle_c = Ok c ->
  forall s ops, valid_sig s -> Forall op_ok ops ->
  forall bs, dumps sort w (run sort (track_empty s) ops) = Ok bs ->
  exists tempo notes body,
    (* the file *)
    bs = smf ppq body /\ Z.of_nat (length body) < 2 ^ 32 /\ Forall is_byte bs /\
    stream_bytes None ([(0, MTimeSignature (nominator s) (Z.log2 (denominator s)) ppq 8);
                        (0, MMeta 81 (be_bytes 3 tempo))] ++ notes ++ [(0, MEndOfTrack)]) body /\
    tempo_of_bpm bpm = Ok tempo /\ 0 <= tempo < 2 ^ 24 /\
    Forall (fun te => 0 <= fst te /\ channel_note channel (snd te)) notes /\
    (* the notes *)
    Permutation (timed 0 notes) (flat_map (start_end ppq (pitch c) channel) (log sort (track_empty s) ops)) /\
    StronglySorted (fun x y => fst x <= fst y) (timed 0 notes) /\
    (forall before after, timed 0 notes = before ++ after -> forall p, (ends p before <= starts p before)%nat) /\
    (forall p, ends p (timed 0 notes) = starts p (timed 0 notes)).
Proof.
  intros sort Hs nd ppq mc bpm ch w c Hnew Hc s ops HS Ho bs E.
  destruct (writer_new_ok _ _ _ _ _ _ Hnew) as (Hw & Hp & Hb & Hch & c' & Hc' & Hd).
  rewrite Hc in Hc'. injection Hc' as <-. subst ppq bpm ch.
  destruct (run_inv sort Hs s ops Ho) as [HI Hsig]. set (t := run sort (track_empty s) ops) in *.
  rewrite <- Hsig in HS. destruct (dumps_spec sort w t _ bs Hs Hw HI HS E) as ((Hr & Hf & Hq & _) & k & b & Ek & Hk & -> & HL & Hpl & Hst).
  rewrite Hsig in *. pose proof (yields_entry_ok sort t _ Hs HI) as Hok.
  exists k, (deltas 0 (note_stream w (yields sort t))), b.
  split; [reflexivity|]. split; [exact HL|]. split.
  { apply smf_bytes. eapply plain_bytes; [|exact Hpl]. rewrite events_of_main. apply Forall_app. split.
    - eapply Forall_impl; [|apply main_events_ok; eassumption]. cbv beta. tauto.
    - constructor; [cbn; split; [lia|auto]|constructor]. }
  split; [exact Hst|]. split; [exact Ek|]. split; [exact Hk|].
  split.
  { pose proof (note_deltas_nonneg w _ Hw Hok) as H1.
    pose proof (deltas_forall _ _ 0 (note_stream_notes w _ Hw Hok Hr)) as H2.
    rewrite Forall_forall in *. intros x Hx. split; [apply H1, Hx|apply H2, Hx]. }
  rewrite timed_deltas.
  split. { eapply perm_trans; [apply tsort_perm|]. apply start_end_log; assumption. }
  split; [apply tsort_sorted|].
  split; [apply note_stream_balanced; assumption|].
  intros p. unfold note_stream. rewrite (starts_perm p _ _ (tsort_perm _)), (ends_perm p _ _ (tsort_perm _)). symmetry. apply onoff_same_count.
Qed.

Lemma c32_file : forall sort, sort_contract sort -> forall nd ppq middle_c bpm channel w,
  writer_new nd ppq middle_c bpm channel = Ok w ->
  forall s ops, valid_sig s -> Forall op_ok ops ->
  forall bs, dumps sort w (run sort (track_empty s) ops) = Ok bs ->
  exists tempo notes body,
    bs = smf ppq body /\ Z.of_nat (length body) < 2 ^ 32 /\ Forall is_byte bs /\
    stream_bytes None ([(0, MTimeSignature (nominator s) (Z.log2 (denominator s)) ppq 8);
                        (0, MMeta 81 (be_bytes 3 tempo))] ++ notes ++ [(0, MEndOfTrack)]) body /\
    tempo_of_bpm bpm = Ok tempo /\ 0 <= tempo < 2 ^ 24 /\
    Forall (fun te => 0 <= fst te /\ exists p v, (snd te = MNoteOn channel p v \/ snd te = MNoteOff channel p v) /\
                        0 <= p < 128 /\ 0 <= v < 128) notes.
Proof.
  intros sort Hs nd ppq mc bpm ch w Hnew s ops HS Ho bs E.
  destruct (writer_new_ok _ _ _ _ _ _ Hnew) as (_ & _ & _ & _ & c & Hc & _).
  destruct (dumped_events sort Hs _ _ _ _ _ _ _ Hnew Hc s ops HS Ho bs E) as (k & n & b & H1 & H2 & H3 & H4 & H5 & H6 & H7 & _).
  exists k, n, b. repeat (split; [assumption|]). exact H7.
Qed.

(** The fields of the file, byte by byte. *)
Lemma c32_layout : forall division body, 0 <= division < 65536 -> Z.of_nat (length body) < 2 ^ 32 ->
  exists size, smf division body =
    [77; 84; 104; 100; 0; 0; 0; 6; 0; 0; 0; 1; division / 256; division mod 256] ++ [77; 84; 114; 107] ++ size ++ body /\
  length size = 4%nat /\ fold_left (fun acc b => acc * 256 + b) size 0 = Z.of_nat (length body).
Proof.
  intros d body Hd Hb. exists (be_bytes 4 (Z.of_nat (length body))).
  split.
  - assert (E2 : be_bytes 2 d = [d / 256; d mod 256]).
    { unfold be_bytes. cbn [seq map rev app]. change (256 ^ Z.of_nat 0) with 1. change (256 ^ Z.of_nat 1) with 256.
      rewrite Z.div_1_r, (Z.mod_small (d / 256) 256); [reflexivity|]. split; [apply Z.div_pos; lia|apply Z.div_lt_upper_bound; lia]. }
    unfold smf, smf_header, chunk. rewrite E2. reflexivity.
  - split; [apply be_bytes_length|].
    transitivity (from_bytes_be (be_bytes 4 (Z.of_nat (length body)))).
    + reflexivity.
    + apply from_be_bytes. change (256 ^ Z.of_nat 4) with (2 ^ 32). lia.
Qed.

Lemma c35_notes : forall sort, sort_contract sort -> forall nd ppq middle_c bpm channel w c,
  writer_new nd ppq middle_c bpm channel = Ok w -> tone_of_arg nd middle_c = Ok c ->
  forall s ops, valid_sig s -> Forall op_ok ops ->
  forall bs, dumps sort w (run sort (track_empty s) ops) = Ok bs ->
  exists first notes body,
    bs = smf ppq body /\ length first = 2%nat /\ Forall (fun te => fst te = 0 /\ meta_of (snd te) <> None) first /\
    stream_bytes None (first ++ notes ++ [(0, MEndOfTrack)]) body /\
    Permutation (timed 0 notes) (flat_map (start_end ppq (pitch c) channel) (log sort (track_empty s) ops)) /\
    StronglySorted (fun x y => fst x <= fst y) (timed 0 notes) /\
    (forall before after, timed 0 notes = before ++ after -> forall p, (ends p before <= starts p before)%nat) /\
    (forall p, ends p (timed 0 notes) = starts p (timed 0 notes)).
Proof.
  intros sort Hs nd ppq mc bpm ch w c Hnew Hc s ops HS Ho bs E.
  destruct (dumped_events sort Hs _ _ _ _ _ _ _ Hnew Hc s ops HS Ho bs E) as (k & n & b & H1 & H2 & H3 & H4 & H5 & H6 & H7 & H8).
  eexists _, n, b. split; [exact H1|]. split; [|split; [|split; [exact H4|exact H8]]]; [reflexivity|].
  constructor; [split; [reflexivity|discriminate]|]. constructor; [split; [reflexivity|discriminate]|constructor].
Qed.

(** ** C33, C34 *)
Definition can_write (sort : sort_fn) : Prop :=
  forall nd ppq middle_c bpm channel w c s ops,
    writer_new nd ppq middle_c bpm channel = Ok w -> tone_of_arg nd middle_c = Ok c ->
    valid_sig s -> Forall op_ok ops ->
    Forall (fun e => in_midi_range (pitch c) (snd e)) (log sort (track_empty s) ops) ->
    sig_fits s -> tempo_fits bpm ->
    exists bs, dumps sort w (run sort (track_empty s) ops) = Ok bs.

(** A writer with more than 255 pulses per quarter can be made but never writes anything. *)
Lemma c33_never : forall sort, sort_contract sort -> forall nd ppq middle_c bpm channel w,
  writer_new nd ppq middle_c bpm channel = Ok w -> 255 < ppq ->
  forall s ops, valid_sig s -> Forall op_ok ops ->
  d_written (dump sort w (run sort (track_empty s) ops)) = [] /\
  exists e, dumps sort w (run sort (track_empty s) ops) = Err e.
Proof.
  intros sort Hs nd ppq mc bpm ch w Hnew Hp s ops HS Ho.
  destruct (writer_new_ok _ _ _ _ _ _ Hnew) as (Hw & Hq & _).
  destruct (run_inv sort Hs s ops Ho) as [HI Hsig]. rewrite <- Hsig in HS.
  assert (HR : ~ representable w (t_signature (run sort (track_empty s) ops)) (yields sort (run sort (track_empty s) ops))).
  { intros (_ & _ & H & _). lia. }
  destruct (dump_bad sort w _ _ Hs Hw HI HS HR) as (e & E & _). unfold dumps. rewrite E. cbn. split; [reflexivity|]. exists e. reflexivity.
Qed.

Definition f_120 : float := float_of_Z 120.

Lemma c33_refuted : forall sort, sort_contract sort -> ~ can_write sort.
Proof.
  intros sort Hs H.
  assert (E : exists w, writer_new ascii_digit 480 default_middle_c f_120 0 = Ok w) by (eexists; reflexivity).
  destruct E as [w Hw].
  destruct (H ascii_digit 480 default_middle_c f_120 0 w (mkTone 36) (mkSig 4 4) [] Hw eq_refl (valid_pow 4 2 ltac:(lia) ltac:(lia))) as [bs E].
  - constructor.
  - constructor.
  - split; vm_compute; discriminate.
  - exists 500000. split; [vm_compute; reflexivity|lia].
  - destruct (c33_never sort Hs _ _ _ _ _ _ Hw ltac:(lia) (mkSig 4 4) [] (valid_pow 4 2 ltac:(lia) ltac:(lia)) ltac:(constructor)) as [_ [e E']].
    rewrite E' in E. discriminate.
Qed.

(** Size of the body. *)
Definition wire_sum : list (Z * midi_event) -> nat :=
  fold_right (fun te n => 4 + length (wire (snd te)) + n)%nat 0%nat.
Lemma plain_length : forall evs b, Forall (fun te => 0 <= fst te < 2 ^ 28) evs -> plain evs b ->
  (length b <= wire_sum evs)%nat.
Proof.
  unfold plain. induction evs as [|[dt e] r IH]; intros b H E; cbn [map on_wire fst snd format_events] in E.
  - injection E as <-. cbn. lia.
  - inversion H as [|? ? H1 Hr]; subst. cbn [fst snd] in *.
    destruct (c31_encoding dt ltac:(lia)) as (ds & Ed & _ & _ & _ & HL). rewrite Ed in E. cbn [bind] in E.
    destruct (format_events (map on_wire r)) as [rest|]; cbn [bind] in E; [|discriminate]. injection E as <-.
    change (length (with_bit7 ds ++ wire e ++ rest) <= 4 + length (wire e) + wire_sum r)%nat.
    rewrite !app_length. specialize (IH rest Hr eq_refl).
    assert ((length (with_bit7 ds) <= 4)%nat) by (apply HL; lia). unfold bytes in *. lia.
Qed.

Lemma wire_sum_cons te r : wire_sum (te :: r) = (4 + length (wire (snd te)) + wire_sum r)%nat.
Proof. reflexivity. Qed.
Lemma wire_sum_app a b : wire_sum (a ++ b) =
  (wire_sum a + wire_sum b)%nat.
Proof. induction a as [|x a IH]; [reflexivity|]. cbn [app]. unfold wire_sum in *. cbn [fold_right]. rewrite IH. lia. Qed.

Lemma wire_sum_notes ch l : Forall (fun te : Z * midi_event => channel_note ch (snd te)) l ->
  wire_sum l = (7 * length l)%nat.
Proof.
  induction 1 as [|[dt e] r (p & v & [He|He] & _) Hr IH]; [reflexivity| |]; cbn [snd] in He; subst e; rewrite wire_sum_cons, IH; cbn [snd wire status_of length]; lia.
Qed.

Lemma deltas_small : forall (l : list (Z * midi_event)) last hi, StronglySorted by_time l -> 0 <= last ->
  Forall (fun e => last <= fst e < hi) l -> Forall (fun e => 0 <= fst e < hi) (deltas last l).
Proof.
  induction l as [|[t e] r IH]; intros last hi Hs H0 Hl; cbn [deltas]; [constructor|].
  inversion Hs as [|? ? Hs1 Hs2]; subst. inversion Hl as [|? ? Hl1 Hl2]; subst. cbn [fst] in *.
  constructor; [cbn; lia|]. apply IH; [exact Hs1|lia|]. unfold by_time in Hs2. cbn [fst] in Hs2.
  rewrite Forall_forall in *. intros x Hx. specialize (Hs2 x Hx). specialize (Hl2 x Hx). lia.
Qed.

Lemma onoff_length w items : length (flat_map (onoff w) items) = (2 * length items)%nat.
Proof. induction items as [|e r IH]; [reflexivity|]. cbn [flat_map]. rewrite app_length, IH. cbn. lia. Qed.

(** What holds: with at most 255 pulses per quarter everything representable is written unless the
    body needs 2^32 bytes, and that takes more than 2^28 notes or more than 2^28 pulses. *)
Lemma c33_partial : forall sort, sort_contract sort -> forall nd ppq middle_c bpm channel w c,
  writer_new nd ppq middle_c bpm channel = Ok w -> tone_of_arg nd middle_c = Ok c -> ppq <= 255 ->
  forall s ops, valid_sig s -> Forall op_ok ops ->
  Forall (fun e => in_midi_range (pitch c) (snd e)) (log sort (track_empty s) ops) ->
  sig_fits s -> tempo_fits bpm ->
  (exists bs, dumps sort w (run sort (track_empty s) ops) = Ok bs) \/
  (dumps sort w (run sort (track_empty s) ops) = Err OverflowError /\
   (Z.of_nat (length (log sort (track_empty s) ops)) <= 2 ^ 28 ->
    exists e, In e (log sort (track_empty s) ops) /\
      2 ^ 28 <= Qfloor (inject_Z (4 * ppq) * sval (fst e)) + Qfloor (inject_Z (4 * ppq) * sval (n_duration (snd e))))).
Proof.
  intros sort Hs nd ppq mc bpm ch w c Hnew Hc Hp s ops HS Ho Hr Hf Ht.
  destruct (writer_new_ok _ _ _ _ _ _ Hnew) as (Hw & Hq & Hbpm & _ & c' & Hc' & Hd).
  rewrite Hc in Hc'. injection Hc' as <-. subst ppq bpm.
  destruct (run_inv sort Hs s ops Ho) as [HI Hsig]. set (t := run sort (track_empty s) ops) in *. set (l := log sort (track_empty s) ops) in *.
  rewrite <- Hsig in HS, Hf. pose proof (proj2 (in_range_log sort w _ t l Hs HI Hd) Hr) as Hr'.
  assert (HR : representable w (t_signature t) (yields sort t)) by (repeat split; try assumption; apply Hf).
  destruct (dump_good sort w t l Hs Hw HI HS HR) as (k & b & Ek & Hk & Hb & Hst & E).
  unfold dumps. rewrite E. destruct (Z.ltb_spec (Z.of_nat (length b)) (2 ^ 32)) as [L|L]; cbn [d_result d_written]; [left; eauto|].
  right. split; [reflexivity|]. intros Hn. pose proof (yields_entry_ok sort t _ Hs HI) as Hok.
  set (F := fun e : entry => 2 ^ 28 <=? Qfloor (inject_Z (4 * w_ppq w) * sval (fst e)) + Qfloor (inject_Z (4 * w_ppq w) * sval (n_duration (snd e)))).
  destruct (existsb F l) eqn:EX.
  { apply existsb_exists in EX. destruct EX as (e & He & HF). exists e. split; [exact He|]. unfold F in HF. lia. }
  exfalso.
  assert (Hsmall : Forall (fun te => 0 <= fst te < 2 ^ 28) (note_stream w (yields sort t))).
  { eapply Permutation_Forall; [apply Permutation_sym, tsort_perm|].
    eapply Permutation_Forall; [apply Permutation_sym, (start_end_log sort w _ t l Hs HI Hd)|].
    apply Forall_flat_map. apply Forall_forall. intros e He.
    assert (HF : F e = false).
    { destruct (F e) eqn:Q; [|reflexivity]. assert (existsb F l = true) by (apply existsb_exists; eauto). congruence. }
    unfold F in HF. pose proof (inv_entries _ _ HI) as Hi. rewrite Forall_forall in Hi. destruct (Hi e He) as [V1 [V2 _]].
    destruct Hw as (Hpq & _).
    pose proof (pulses_nonneg (w_ppq w) (sval (fst e)) ltac:(lia) (sval_nonneg _ V1)) as P1.
    pose proof (pulses_nonneg (w_ppq w) (sval (n_duration (snd e))) ltac:(lia) (sval_nonneg _ V2)) as P2.
    unfold pulses in P1, P2. unfold start_end. constructor; [cbn [fst]; lia|]. constructor; [cbn [fst]; lia|constructor]. }
  assert (Hdel : Forall (fun te => 0 <= fst te < 2 ^ 28) (deltas 0 (note_stream w (yields sort t)))).
  { apply deltas_small; [apply tsort_sorted|lia|exact Hsmall]. }
  assert (HL : (length b <= 43 + 14 * length l)%nat).
  { eapply Nat.le_trans; [apply (plain_length (events_of w (t_signature t) k (yields sort t)) b); [|exact Hb]|].
    - unfold events_of. apply Forall_app. split; [constructor; [cbn; lia|]; constructor; [cbn; lia|constructor]|].
      apply Forall_app. split; [exact Hdel|]. constructor; [cbn; lia|constructor].
    - unfold events_of. rewrite !wire_sum_app.
      rewrite (wire_sum_notes (w_channel w) (deltas 0 (note_stream w (yields sort t)))) by (apply (deltas_forall (channel_note (w_channel w))), note_stream_notes; assumption).
      assert (EL : length (deltas 0 (note_stream w (yields sort t))) = (2 * length l)%nat).
      { rewrite <- (map_length snd), deltas_snd, map_length. unfold note_stream.
        rewrite (Permutation_length (tsort_perm _)), onoff_length.
        rewrite (Permutation_length (yields_perm sort Hs t l HI)), map_length. reflexivity. }
      rewrite EL, !wire_sum_cons. change (wire_sum []) with 0%nat. cbn [snd wire app length]. rewrite be_bytes_length. lia. }
  lia.
Qed.

(** When dump fails, and what has been written then. *)
Lemma c34_nothing_written : forall sort, sort_contract sort -> forall nd ppq middle_c bpm channel w c,
  writer_new nd ppq middle_c bpm channel = Ok w -> tone_of_arg nd middle_c = Ok c ->
  forall s ops, valid_sig s -> Forall op_ok ops ->
  let o := dump sort w (run sort (track_empty s) ops) in
  (~ (Forall (fun e => in_midi_range (pitch c) (snd e)) (log sort (track_empty s) ops) /\
      sig_fits s /\ ppq <= 255 /\ tempo_fits bpm) ->
   d_written o = [] /\ exists e, d_result o = Err e /\ (e = ValueError \/ e = OverflowError \/ e = ZeroDivisionError)) /\
  (forall e, d_result o = Err e -> d_written o <> [] ->
     d_written o = smf_header ppq /\ e = OverflowError /\
     exists first notes body, length first = 2%nat /\
       Permutation (timed 0 notes) (flat_map (start_end ppq (pitch c) channel) (log sort (track_empty s) ops)) /\
       stream_bytes None (first ++ notes ++ [(0, MEndOfTrack)]) body /\ 2 ^ 32 <= Z.of_nat (length body)) /\
  (d_result o = Ok tt -> dumps sort w (run sort (track_empty s) ops) = Ok (d_written o)).
Proof.
  intros sort Hs nd ppq mc bpm ch w c Hnew Hc s ops HS Ho o.
  destruct (writer_new_ok _ _ _ _ _ _ Hnew) as (Hw & Hq & Hbpm & Hch & c' & Hc' & Hd).
  rewrite Hc in Hc'. injection Hc' as <-. subst ppq bpm ch.
  destruct (run_inv sort Hs s ops Ho) as [HI Hsig]. subst o. set (t := run sort (track_empty s) ops) in *. set (l := log sort (track_empty s) ops) in *.
  rewrite <- Hsig in HS.
  split; [|split].
  - intros Hn. assert (HR : ~ representable w (t_signature t) (yields sort t)).
    { intros (H1 & H2 & H3 & H4). apply Hn. rewrite Hsig in H2. repeat split; try assumption; try apply H2.
      apply (in_range_log sort w _ t l Hs HI Hd), H1. }
    destruct (dump_bad sort w t l Hs Hw HI HS HR) as (e & E & _ & He). rewrite E. cbn. split; [reflexivity|]. exists e. auto.
  - intros e He Hne. destruct (representable_dec w (t_signature t) (yields sort t)) as [HR|HR].
    + destruct (dump_good sort w t l Hs Hw HI HS HR) as (k & b & Ek & Hk & Hb & Hst & E).
      rewrite E in He, Hne |- *. destruct (Z.ltb_spec (Z.of_nat (length b)) (2 ^ 32)) as [L|L]; cbn [d_result d_written] in *; [discriminate|].
      injection He as <-. repeat split. eexists _, (deltas 0 (note_stream w (yields sort t))), b. split; [|split; [|split; [exact Hst|exact L]]]; [reflexivity|].
      rewrite timed_deltas. eapply perm_trans; [apply tsort_perm|]. apply start_end_log; assumption.
    + destruct (dump_bad sort w t l Hs Hw HI HS HR) as (e' & E & _). rewrite E in Hne. cbn in Hne. congruence.
  - intros H. apply dumps_inv. auto.
Qed.

(** ** C36 *)
Lemma c36_out_of_range : forall sort, sort_contract sort -> forall nd ppq middle_c bpm channel w c,
  writer_new nd ppq middle_c bpm channel = Ok w -> tone_of_arg nd middle_c = Ok c ->
  forall s ops, valid_sig s -> Forall op_ok ops ->
  ~ Forall (fun e => in_midi_range (pitch c) (snd e)) (log sort (track_empty s) ops) ->
  dumps sort w (run sort (track_empty s) ops) = Err ValueError.
Proof.
  intros sort Hs nd ppq mc bpm ch w c Hnew Hc s ops HS Ho Hn.
  destruct (writer_new_ok _ _ _ _ _ _ Hnew) as (Hw & Hq & Hbpm & _ & c' & Hc' & Hd).
  rewrite Hc in Hc'. injection Hc' as <-. subst ppq bpm.
  destruct (run_inv sort Hs s ops Ho) as [HI Hsig]. set (t := run sort (track_empty s) ops) in *. set (l := log sort (track_empty s) ops) in *.
  rewrite <- Hsig in HS.
  assert (Hn' : ~ Forall (fun e : entry => in_range w (snd e)) (yields sort t)).
  { intros H. apply Hn. apply (in_range_log sort w _ t l Hs HI Hd), H. }
  assert (HR : ~ representable w (t_signature t) (yields sort t)) by (intros (H & _); auto).
  destruct (dump_bad sort w t l Hs Hw HI HS HR) as (e & E & He & _). rewrite (He Hn') in E. unfold dumps. rewrite E. reflexivity.
Qed.

Lemma c36_bytes : forall nd ppq middle_c bpm channel w c n,
  writer_new nd ppq middle_c bpm channel = Ok w -> tone_of_arg nd middle_c = Ok c -> valid_note n ->
  (in_midi_range (pitch c) n ->
    format_note_on w n = Ok [144 + channel; 60 + pitch (n_tone n) - pitch c; note_velocity n] /\
    format_note_off w n = Ok [128 + channel; 60 + pitch (n_tone n) - pitch c; 64]) /\
  (~ in_midi_range (pitch c) n -> format_note_on w n = Err ValueError /\ format_note_off w n = Err ValueError).
Proof.
  intros nd ppq mc bpm ch w c n Hnew Hc Hv.
  destruct (writer_new_ok _ _ _ _ _ _ Hnew) as (Hw & Hq & Hbpm & <- & c' & Hc' & Hd).
  rewrite Hc in Hc'. injection Hc' as <-. split; intros H.
  - apply (in_range_c w _ n Hd) in H. rewrite format_note_on_ok, format_note_off_ok by assumption.
    unfold midi_pitch, vbyte, note_velocity. destruct Hv as [_ Hv]. destruct (velocity_byte_eq _ Hv) as [-> _]. rewrite Hd.
    replace (pitch (n_tone n) + (60 - pitch c)) with (60 + pitch (n_tone n) - pitch c) by lia. auto.
  - assert (H' : ~ in_range w n) by (intros H'; apply H, (in_range_c w _ n Hd), H').
    split; [apply format_note_on_err, H'|]. unfold format_note_off. fold (midi_pitch w n). unfold in_range in H'.
    replace ((0 <=? midi_pitch w n) && (midi_pitch w n <=? 127)) with false by lia. reflexivity.
Qed.

Lemma c36_reading : forall nd middle_c m c n c',
  midi_reader_new nd middle_c = Ok m -> tone_of_arg nd middle_c = Ok c' ->
  pitch_to_tone m (60 + pitch (n_tone n) - c) = mkTone (pitch (n_tone n) + (pitch c' - c)).
Proof.
  intros nd mc m c n c' Hm Hc. unfold midi_reader_new in Hm. rewrite Hc in Hm. cbn [bind] in Hm.
  assert (E : m = {| mr_delta := 60 - pitch c' |}) by congruence. subst m.
  unfold pitch_to_tone, tone_new. cbn [mr_delta]. f_equal. lia.
Qed.

Lemma c36_equivalent : forall nd ppq bpm channel p t str,
  from_notation nd str = Ok t ->
  writer_new nd ppq (TA_int p) bpm channel = writer_new nd ppq (TA_tone (mkTone p)) bpm channel /\
  writer_new nd ppq (TA_str str) bpm channel = writer_new nd ppq (TA_tone t) bpm channel /\
  midi_reader_new nd (TA_int p) = midi_reader_new nd (TA_tone (mkTone p)) /\
  midi_reader_new nd (TA_str str) = midi_reader_new nd (TA_tone t).
Proof.
  intros nd ppq bpm ch p t str E. unfold writer_new, midi_reader_new. cbn [tone_of_arg]. rewrite E. repeat split; reflexivity.
Qed.
