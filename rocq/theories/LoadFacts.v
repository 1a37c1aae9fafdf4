(** From the events of a track chunk to tracks (C40-C49). *)
From Coq Require Import ZArith QArith Qreduction List Bool Lia ZifyBool Sorted Permutation.
From Verif Require Import Py PyFloat PySort Signature Tone Note Track MidiWriter MidiReader
  SpecBase TrackSpec MidiSpec ReaderSpec SigFacts SigProps FloatFacts NoteProps SortFacts TrackFacts VarLenFacts
  StreamFacts PairFacts TimeFacts VelocityFacts ReadFacts.
Import ListNotations.
Open Scope Z_scope.

(** ** Adding entries one after another *)
Definition adds (t : track) (es : list entry) : track :=
  fold_left (fun t (e : entry) => fst (add_note t (snd e) (fst e))) es t.

Lemma add_note_ok t l (e : entry) : Inv t l -> entry_ok e ->
  add_note t (snd e) (fst e) = (adds t [e], Ok tt) /\ Inv (adds t [e]) (l ++ [e]) /\
  t_signature (adds t [e]) = t_signature t.
Proof.
  intros H [H1 H2]. destruct (add_note_inv t l (snd e) (fst e) H H1 H2) as (t' & E & S & I).
  unfold adds. cbn [fold_left]. rewrite E. cbn [fst]. destruct e. auto.
Qed.

Lemma adds_app t a b : adds t (a ++ b) = adds (adds t a) b.
Proof. apply fold_left_app. Qed.

Lemma adds_inv : forall es t l, Inv t l -> Forall entry_ok es ->
  Inv (adds t es) (l ++ es) /\ t_signature (adds t es) = t_signature t.
Proof.
  induction es as [|e es IH]; intros t l H He.
  - rewrite app_nil_r. split; [exact H|reflexivity].
  - inversion He as [|? ? H1 H2]; subst. destruct (add_note_ok t l e H H1) as (E & I & S).
    change (e :: es) with ([e] ++ es). rewrite adds_app, app_assoc. destruct (IH _ _ I H2) as [I2 S2].
    split; [exact I2|congruence].
Qed.

Lemma adds_empty s es : Forall entry_ok es -> Inv (adds (track_empty s) es) es /\ t_signature (adds (track_empty s) es) = s.
Proof. intros H. apply (adds_inv es (track_empty s) [] (inv_empty s) H). Qed.

Lemma add_entries_ok : forall es t l, Inv t l -> Forall entry_ok es -> add_entries t es = Ok (adds t es).
Proof.
  induction es as [|[p n] es IH]; intros t l H He; [reflexivity|].
  inversion He as [|? ? H1 H2]; subst. destruct (add_note_ok t l (p, n) H H1) as (E & I & S).
  cbn [add_entries track_add sig_of_arg add_at]. cbn [fst snd] in E. rewrite E. rewrite (IH _ _ I H2).
  change ((p, n) :: es) with ([(p, n)] ++ es). rewrite adds_app. reflexivity.
Qed.

(** ** The notes of one channel *)
Definition ne_ok (e : note_event) : Prop := 0 <= ne_time e /\ is_byte (ne_pitch e) /\ is_byte (ne_velocity e).

Definition pair_entry (m : midi_reader) (q : Z) (l : list note_event) (ab : nat * nat) : entry :=
  match nth_error l (fst ab), nth_error l (snd ab) with
  | Some e, Some f => (tick_sig (ne_time e) q,
      mkNote (pitch_to_tone m (ne_pitch e)) (tick_sig (ne_time f - ne_time e) q) (velocity_of_byte (ne_velocity e)))
  | _, _ => (mkSig 0 1, mkNote (mkTone 0) (mkSig 0 1) f_zero)
  end.

Lemma dict_del_keys {A} (d : dict A) k x : In x (map fst (dict_del d k)) -> In x (map fst d).
Proof.
  induction d as [|[k' v] r IH]; cbn [dict_del map fst]; [auto|]. destruct (k =? k'); [right; assumption|].
  cbn [map fst]. intros [H|H]; [left; exact H|right; apply IH, H].
Qed.
Lemma dict_del_nodup {A} (d : dict A) k : NoDup (map fst d) -> NoDup (map fst (dict_del d k)).
Proof.
  induction d as [|[k' v] r IH]; cbn [dict_del map fst]; [auto|]. intros H. inversion H as [|? ? H1 H2]; subst.
  destruct (k =? k'); [exact H2|]. cbn [map fst]. constructor; [|apply IH, H2]. intros Hin. apply H1. eapply dict_del_keys, Hin.
Qed.
Lemma dict_get_del {A} (d : dict A) k k' : NoDup (map fst d) ->
  dict_get (dict_del d k) k' = if k' =? k then None else dict_get d k'.
Proof.
  induction d as [|[k0 v] r IH]; cbn [dict_del map fst dict_get]; intros H; [destruct (k' =? k); reflexivity|].
  inversion H as [|? ? H1 H2]; subst. destruct (k =? k0) eqn:E.
  - destruct (k' =? k) eqn:E2.
    + apply dict_get_none. replace k' with k0 by lia. exact H1.
    + replace (k' =? k0) with false by lia. reflexivity.
  - cbn [dict_get]. rewrite (IH H2). destruct (k' =? k0) eqn:E3; [|reflexivity]. replace (k' =? k) with false by lia. reflexivity.
Qed.


(** The main loop over the events of a channel follows [pair_state]. *)
Definition follows (D : dict (Z * Z)) (l : list note_event) (run : Z -> option nat) : Prop :=
  NoDup (map fst D) /\
  forall p, dict_get D p = match run p with
                           | Some a => option_map (fun e => (ne_time e, ne_velocity e)) (nth_error l a)
                           | None => None
                           end.

Definition by_times (l : list note_event) : Prop := StronglySorted Z.le (map ne_time l).

Lemma sorted_nth (l : list Z) : StronglySorted Z.le l -> forall a b x y, (a <= b)%nat ->
  nth_error l a = Some x -> nth_error l b = Some y -> x <= y.
Proof.
  induction 1 as [|z l Hs IH Hz]; intros a b x y Hab Ha Hb; [destruct a; discriminate|].
  destruct a as [|a], b as [|b]; cbn [nth_error] in *.
  - assert (x = y) by congruence. lia.
  - injection Ha as <-. rewrite Forall_forall in Hz. apply Hz. eapply nth_error_In, Hb.
  - lia.
  - eapply (IH a b); [lia|eassumption|eassumption].
Qed.

Lemma by_times_nth l a b e f : by_times l -> (a <= b)%nat -> nth_error l a = Some e -> nth_error l b = Some f -> ne_time e <= ne_time f.
Proof.
  intros H Hab Ha Hb. eapply (sorted_nth _ H a b _ _ Hab); apply map_nth_error; assumption.
Qed.

Lemma pair_state_app l1 l2 : pair_state (l1 ++ l2) = fold_left pstep l2 (pair_state l1).
Proof. unfold pair_state. apply fold_left_app. Qed.

Definition open_nth l p a : snd (fst (pair_state l)) p = Some a -> open_at l p a.
Proof.
  intros H. pose proof (pair_state_spec l) as HS. destruct (pair_state l) as [[i run] out]. apply HS. exact H.
Qed.

Lemma pair_entry_ok m q l a b : 0 < q -> Forall ne_ok l -> by_times l -> is_note l a b -> entry_ok (pair_entry m q l (a, b)).
Proof.
  intros Hq Hl Ht (e & f & Ha & Hb & Hlt & _). unfold pair_entry. cbn [fst snd]. rewrite Ha, Hb.
  rewrite Forall_forall in Hl. destruct (Hl e (nth_error_In _ _ Ha)) as (H1 & H2 & H3).
  pose proof (by_times_nth l a b e f Ht ltac:(lia) Ha Hb) as Hle.
  split; [apply time_to_signature_ok; lia|]. split; cbn [n_duration n_velocity snd].
  - apply time_to_signature_ok; lia.
  - apply read_velocity_valid. unfold is_byte in H3. lia.
Qed.

Lemma channel_loop_pairs m q : forall l2 l1 D t c, Forall ne_ok (l1 ++ l2) -> by_times (l1 ++ l2) ->
  follows D l1 (snd (fst (pair_state l1))) -> Inv t c ->
  exists new, note_pairs (l1 ++ l2) = note_pairs l1 ++ new /\
    channel_loop m q (map ev_of l2) D t =
      (match new with
       | [] => Ok t
       | _ => if 0 <? q then Ok (adds t (map (pair_entry m q (l1 ++ l2)) new)) else Err AssertionError
       end).
Proof.
  induction l2 as [|e l2 IH]; intros l1 D t c Hok Ht [HN HD] HI.
  - exists []. rewrite !app_nil_r. split; reflexivity.
  - assert (Eapp : l1 ++ e :: l2 = (l1 ++ [e]) ++ l2) by (rewrite <- app_assoc; reflexivity).
    pose proof (pair_state_spec l1) as HS.
    assert (Hst : pair_state (l1 ++ [e]) = pstep (pair_state l1) e) by (rewrite pair_state_app; reflexivity).
    destruct (pair_state l1) as [[i run] out] eqn:Eps. destruct HS as (Hi & Hrun & Hnone & Hin & _). cbn [fst snd] in HD.
    assert (He : ne_ok e) by (rewrite Forall_forall in Hok; apply Hok, in_elt).
    assert (Hold : forall a, (a < length l1)%nat -> nth_error (l1 ++ [e]) a = nth_error l1 a) by (intros a Ha; apply nth_error_app1; exact Ha).
    assert (Hrun_lt : forall p a, run p = Some a -> (a < length l1)%nat).
    { intros p a Hp. apply Hrun in Hp. destruct Hp as (x & Hx & _). apply nth_len in Hx. exact Hx. }
    assert (Same : forall p, match run p with Some a => option_map (fun e => (ne_time e, ne_velocity e)) (nth_error (l1 ++ [e]) a) | None => None end = dict_get D p).
    { intros p. rewrite HD. destruct (run p) as [a|] eqn:Ep; [|reflexivity]. rewrite Hold by (eapply Hrun_lt, Ep). reflexivity. }
    rewrite Eapp in *. cbn [map]. unfold ev_of at 1.
    destruct (ne_on e) eqn:Eon; cbn [channel_loop].
    + (* start *)
      unfold pstep in Hst. rewrite Eon in Hst. pose proof (HD (ne_pitch e)) as Hd.
      destruct (run (ne_pitch e)) as [a|] eqn:Ea.
      * destruct (nth_error l1 a) as [x|] eqn:Ex; [|apply nth_error_None in Ex; apply Hrun_lt in Ea; lia].
        cbn [option_map] in Hd. rewrite Hd.
        destruct (IH (l1 ++ [e]) D t c Hok Ht) as (new & N1 & N2).
        { rewrite Hst. cbn [fst snd]. split; [exact HN|]. intros p. symmetry. apply Same. }
        { exact HI. }
        exists new. split; [|exact N2]. rewrite N1. unfold note_pairs. rewrite Hst, Eps. reflexivity.
      * rewrite Hd. destruct (IH (l1 ++ [e]) (dict_set D (ne_pitch e) (ne_time e, ne_velocity e)) t c Hok Ht) as (new & N1 & N2).
        { rewrite Hst. cbn [fst snd]. split; [apply dict_set_nodup, HN|]. intros p. rewrite dict_get_set. unfold upd.
          destruct (p =? ne_pitch e) eqn:Ep; [|symmetry; apply Same]. subst i. rewrite nth_error_app2 by lia. rewrite Nat.sub_diag. reflexivity. }
        { exact HI. }
        exists new. split; [|exact N2]. rewrite N1. unfold note_pairs. rewrite Hst, Eps. reflexivity.
    + (* end *)
      unfold pstep in Hst. rewrite Eon in Hst. pose proof (HD (ne_pitch e)) as Hd.
      destruct (run (ne_pitch e)) as [a|] eqn:Ea.
      * destruct (nth_error l1 a) as [x|] eqn:Ex; [|apply nth_error_None in Ex; apply Hrun_lt in Ea; lia].
        cbn [option_map] in Hd. rewrite Hd. cbv beta iota zeta.
        assert (Hlt : (a < length l1)%nat) by (eapply Hrun_lt, Ea).
        assert (Hxp : ne_pitch x = ne_pitch e).
        { apply Hrun in Ea. destruct Ea as (x' & Hx' & _ & Hp & _). congruence. }
        assert (Hnx : nth_error ((l1 ++ [e]) ++ l2) a = Some x).
        { rewrite nth_error_app1 by (rewrite app_length; cbn; lia). rewrite Hold by exact Hlt. exact Ex. }
        assert (Hne : nth_error ((l1 ++ [e]) ++ l2) i = Some e).
        { subst i. rewrite <- app_assoc. rewrite nth_error_app2 by lia. rewrite Nat.sub_diag. reflexivity. }
        assert (HN1 : note_pairs (l1 ++ [e]) = note_pairs l1 ++ [(a, i)]) by (unfold note_pairs; rewrite Hst, Eps; reflexivity).
        assert (HF : follows (dict_del D (ne_pitch e)) (l1 ++ [e]) (snd (fst (pair_state (l1 ++ [e]))))).
        { rewrite Hst. cbn [fst snd]. split; [apply dict_del_nodup, HN|]. intros p. rewrite dict_get_del by exact HN. unfold upd.
          destruct (p =? ne_pitch e) eqn:Ep; [reflexivity|]. symmetry. apply Same. }
        destruct (Z.ltb_spec 0 q) as [Hq|Hq].
        -- assert (Hn : is_note ((l1 ++ [e]) ++ l2) a i).
           { apply note_pairs_listed. destruct (IH (l1 ++ [e]) _ t c Hok Ht HF HI) as (new & N1 & _). rewrite N1, HN1.
             apply in_app_iff. left. apply in_app_iff. right. left. reflexivity. }
           pose proof (pair_entry_ok m q _ a i Hq Hok Ht Hn) as Hent.
           assert (Epe : pair_entry m q ((l1 ++ [e]) ++ l2) (a, i) =
             (tick_sig (ne_time x) q, mkNote (pitch_to_tone m (ne_pitch e)) (tick_sig (ne_time e - ne_time x) q) (velocity_of_byte (ne_velocity x)))).
           { unfold pair_entry. cbn [fst snd]. rewrite Hnx, Hne, Hxp. reflexivity. }
           assert (Hx0 : 0 <= ne_time x /\ is_byte (ne_velocity x)).
           { rewrite Forall_forall in Hok. destruct (Hok x (nth_error_In _ _ Hnx)) as (B1 & _ & B2). auto. }
           assert (Hle : ne_time x <= ne_time e) by (eapply (by_times_nth _ a i x e Ht); [lia|exact Hnx|exact Hne]).
           destruct (time_to_signature_ok (ne_time e - ne_time x) q ltac:(lia) Hq) as (T1 & _).
           destruct (time_to_signature_ok (ne_time x) q ltac:(lia) Hq) as (T2 & _).
           rewrite T1. cbn [bind]. rewrite T2. cbn [bind].
           rewrite note_init_ok by (apply read_velocity_valid; unfold is_byte in Hx0; lia). cbn [bind].
           cbn [track_add sig_of_arg add_at].
           destruct (add_note_ok t c _ HI Hent) as (A1 & A2 & A3). rewrite Epe in A1. cbn [fst snd] in A1. rewrite A1. rewrite <- Epe.
           destruct (IH (l1 ++ [e]) _ _ _ Hok Ht HF A2) as (new & N1 & N2).
           exists ((a, i) :: new). split; [rewrite N1, HN1, <- app_assoc; reflexivity|].
           rewrite N2. cbn [map]. destruct new as [|y new]; [reflexivity|].
           destruct (Z.ltb_spec 0 q); [|lia].
           change (pair_entry m q ((l1 ++ [e]) ++ l2) (a, i) :: map (pair_entry m q ((l1 ++ [e]) ++ l2)) (y :: new))
             with ([pair_entry m q ((l1 ++ [e]) ++ l2) (a, i)] ++ map (pair_entry m q ((l1 ++ [e]) ++ l2)) (y :: new)).
           rewrite adds_app. reflexivity.
        -- rewrite time_to_signature_err by exact Hq. cbn [bind].
           destruct (IH (l1 ++ [e]) _ t c Hok Ht HF HI) as (new & N1 & _).
           exists ((a, i) :: new). split; [rewrite N1, HN1, <- app_assoc; reflexivity|]. reflexivity.
      * rewrite Hd. destruct (IH (l1 ++ [e]) D t c Hok Ht) as (new & N1 & N2).
        { rewrite Hst. cbn [fst snd]. split; [exact HN|]. intros p. symmetry. apply Same. }
        { exact HI. }
        exists new. split; [|exact N2]. rewrite N1. unfold note_pairs. rewrite Hst, Eps. reflexivity.
Qed.

Definition chan_entries (m : midi_reader) (q : Z) (l : list note_event) : list entry := map (pair_entry m q l) (note_pairs l).

Lemma chan_entries_ok m q l : 0 < q -> Forall ne_ok l -> by_times l -> Forall entry_ok (chan_entries m q l).
Proof.
  intros Hq Hl Ht. apply Forall_map. apply Forall_forall. intros [a b] Hab. apply pair_entry_ok; try assumption.
  apply note_pairs_listed. exact Hab.
Qed.

Lemma channel_loop_all m q l s : Forall ne_ok l -> by_times l ->
  channel_loop m q (map ev_of l) [] (track_empty s) =
  match note_pairs l with
  | [] => Ok (track_empty s)
  | _ => if 0 <? q then Ok (adds (track_empty s) (chan_entries m q l)) else Err AssertionError
  end.
Proof.
  intros Hl Ht. destruct (channel_loop_pairs m q l [] [] (track_empty s) [] Hl Ht) as (new & N1 & N2).
  - split; [constructor|]. intros p. reflexivity.
  - apply inv_empty.
  - cbn [app] in N1, N2. rewrite N2. unfold chan_entries. rewrite N1. reflexivity.
Qed.

(** ** The tracks of a chunk *)
Lemma timed_ok : forall evs now, Forall (fun te => event_ok (snd te)) evs -> Forall (fun te => 0 <= fst te) evs -> 0 <= now ->
  Forall (fun te => now <= fst te /\ event_ok (snd te)) (timed now evs) /\ StronglySorted Z.le (map fst (timed now evs)).
Proof.
  induction evs as [|[dt e] r IH]; intros now H1 H2 Hn; cbn [timed map]; [split; constructor|].
  inversion H1; subst. inversion H2; subst. cbn [fst snd] in *.
  destruct (IH (now + dt) ltac:(assumption) ltac:(assumption) ltac:(lia)) as [I1 I2]. split.
  - constructor; [cbn; split; [lia|assumption]|]. eapply Forall_impl; [|exact I1]. cbn. intros a [? ?]. split; [lia|assumption].
  - constructor; [exact I2|]. cbn [fst]. apply Forall_map. eapply Forall_impl; [|exact I1]. cbn. intros a [? ?]. assumption.
Qed.

Lemma note_event_of_time te e : In e (note_event_of te) -> ne_time e = fst te.
Proof. unfold note_event_of. destruct (snd te); cbn; intros H; try tauto; destruct H as [<-|[]]; reflexivity. Qed.

Lemma flat_times : forall l, StronglySorted Z.le (map fst l) -> by_times (flat_map note_event_of l).
Proof.
  unfold by_times. induction l as [|te l IH]; cbn [map flat_map]; intros H; [constructor|].
  inversion H as [|? ? H1 H2]; subst. specialize (IH H1).
  assert (HF : Forall (Z.le (fst te)) (map ne_time (flat_map note_event_of l))).
  { apply Forall_map, Forall_forall. intros e He. apply in_flat_map in He. destruct He as (te' & Hin & He).
    apply note_event_of_time in He. rewrite He. rewrite Forall_forall in H2. apply H2, in_map, Hin. }
  unfold note_event_of at 1. destruct (snd te); cbn [app map]; try exact IH; constructor; assumption.
Qed.

Lemma note_events_of_ok evs : evs_ok evs -> Forall ne_ok (note_events_of evs) /\ by_times (note_events_of evs).
Proof.
  intros (H1 & _ & H2). destruct (timed_ok evs 0 H1 H2 ltac:(lia)) as [I1 I2]. split; [|apply flat_times, I2].
  apply Forall_forall. intros e He. unfold note_events_of in He. apply in_flat_map in He. destruct He as (te & Hin & He).
  rewrite Forall_forall in I1. destruct (I1 te Hin) as [I3 I4]. unfold note_event_of in He.
  destruct (snd te); cbn in He; try tauto; destruct He as [<-|[]]; cbn in I4; unfold ne_ok; cbn; tauto.
Qed.

Lemma ssorted_filter {A} (R : A -> A -> Prop) f l : StronglySorted R l -> StronglySorted R (filter f l).
Proof.
  induction 1 as [|x l H IH Hx]; cbn [filter]; [constructor|]. destruct (f x); [|exact IH]. constructor; [exact IH|].
  apply Forall_forall. intros y Hy. apply filter_In in Hy. rewrite Forall_forall in Hx. apply Hx, Hy.
Qed.
Lemma by_times_filter f l : by_times l -> by_times (filter f l).
Proof.
  unfold by_times. induction l as [|x l IH]; cbn [map filter]; intros H; [constructor|].
  inversion H as [|? ? H1 H2]; subst. destruct (f x); [|apply IH, H1]. cbn [map]. constructor; [apply IH, H1|].
  apply Forall_map, Forall_forall. intros y Hy. apply filter_In in Hy. rewrite Forall_forall in H2. apply H2, in_map, Hy.
Qed.

Lemma channel_events_ok c evs : evs_ok evs -> Forall ne_ok (on_channel c (note_events_of evs)) /\ by_times (on_channel c (note_events_of evs)).
Proof.
  intros H. destruct (note_events_of_ok evs H) as [H1 H2]. split; [|apply by_times_filter, H2].
  apply Forall_forall. intros x Hx. apply filter_In in Hx. rewrite Forall_forall in H1. apply H1, Hx.
Qed.

Definition final (evs : list (Z * midi_event)) : parse_state := fold_left next_state evs start_state.
Definition keys (evs : list (Z * midi_event)) : list Z := map fst (ps_events (final evs)).
Definition chans (evs : list (Z * midi_event)) : list Z := match keys evs with [] => [0] | k => k end.
Definition chan_track (m : midi_reader) (q : Z) (evs : list (Z * midi_event)) (c : Z) : track :=
  adds (track_empty (chan_sig evs c)) (chan_entries m q (on_channel c (note_events_of evs))).

Lemma start_wf : events_wf (ps_events start_state).
Proof. split; [constructor|intros c; discriminate]. Qed.
Lemma final_events evs c : events_wf (ps_events (final evs)) /\
  listed (ps_events (final evs)) c = map ev_of (on_channel c (note_events_of evs)).
Proof. destruct (fold_events evs start_state c start_wf) as [H1 H2]. split; [exact H1|exact H2]. Qed.
Lemma final_signature evs c : channel_signature (ps_signatures (final evs)) c = chan_sig evs c.
Proof.
  unfold channel_signature, chan_sig, final. rewrite !fold_signatures, !fold_sig_get. cbn [start_state ps_signatures dict_get].
  destruct (last_signature c _) as [[nn dd]|]; [reflexivity|]. destruct (last_signature (-1) _) as [[nn dd]|]; reflexivity.
Qed.

Lemma keys_nodup evs : NoDup (keys evs).
Proof. apply (final_events evs 0). Qed.
Lemma keys_in evs c : In c (keys evs) <-> on_channel c (note_events_of evs) <> [].
Proof.
  destruct (final_events evs c) as [[H1 H2] H3]. unfold keys, listed in *. split.
  - intros Hin He. rewrite He in H3. cbn [map] in H3. destruct (dict_get (ps_events (final evs)) c) as [l|] eqn:E.
    + subst l. apply (H2 c), E.
    + apply dict_get_none in E. contradiction.
  - intros Hne. destruct (in_dec Z.eq_dec c (map fst (ps_events (final evs)))) as [H|H]; [exact H|].
    exfalso. apply dict_get_none in H. rewrite H in H3. apply Hne. destruct (on_channel c (note_events_of evs)); [reflexivity|discriminate].
Qed.
Lemma keys_nil evs : keys evs = [] <-> note_events_of evs = [].
Proof.
  split; intros H.
  - destruct (note_events_of evs) as [|e r] eqn:E; [reflexivity|]. exfalso.
    assert (Hin : In (ne_channel e) (keys evs)).
    { apply keys_in. rewrite E. unfold on_channel. cbn [filter]. rewrite Z.eqb_refl. discriminate. }
    rewrite H in Hin. exact Hin.
  - destruct (keys evs) as [|c r] eqn:E; [reflexivity|]. exfalso.
    assert (Hin : In c (keys evs)) by (rewrite E; left; reflexivity). apply keys_in in Hin. rewrite H in Hin. apply Hin. reflexivity.
Qed.
Lemma chans_nodup evs : NoDup (chans evs).
Proof.
  unfold chans. pose proof (keys_nodup evs) as H. destruct (keys evs); [|exact H]. constructor; [intros []|constructor].
Qed.
Lemma chans_in evs c : In c (chans evs) <-> on_channel c (note_events_of evs) <> [] \/ (c = 0 /\ note_events_of evs = []).
Proof.
  unfold chans. rewrite <- keys_in, <- keys_nil. destruct (keys evs) as [|k r]; cbn; split; intros H.
  - destruct H as [H|[]]. right. auto.
  - destruct H as [[]|[H _]]. left. lia.
  - left. exact H.
  - destruct H as [H|[_ H]]; [exact H|discriminate].
Qed.

(** The result for the events of a chunk. *)
Definition tracks_of (m : midi_reader) (q : Z) (evs : list (Z * midi_event)) : res (dict track) :=
  if (0 <? q) || forallb (fun c => match note_pairs (on_channel c (note_events_of evs)) with [] => true | _ => false end) (chans evs)
  then Ok (map (fun c => (c, chan_track m q evs c)) (chans evs))
  else Err AssertionError.

Lemma channels_loop_all m q evs sigs : evs_ok evs -> (forall c, channel_signature sigs c = chan_sig evs c) ->
  forall d, (forall c l, In (c, l) d ->
    (l = map ev_of (on_channel c (note_events_of evs))) \/ (l = [(0, EvUnsupported)] /\ on_channel c (note_events_of evs) = [])) ->
  channels_loop m q sigs d =
  if (0 <? q) || forallb (fun c => match note_pairs (on_channel c (note_events_of evs)) with [] => true | _ => false end) (map fst d)
  then Ok (map (fun c => (c, chan_track m q evs c)) (map fst d))
  else Err AssertionError.
Proof.
  intros He Hs d. induction d as [|[c l] d IH]; intros Hd; [cbn; rewrite orb_true_r; reflexivity|].
  cbn [channels_loop map fst forallb]. rewrite Hs.
  specialize (IH ltac:(intros c' l' Hin; apply Hd; right; exact Hin)). rewrite IH. clear IH.
  destruct (channel_events_ok c evs He) as [H1 H2].
  assert (E : channel_loop m q l [] (track_empty (chan_sig evs c)) =
    match note_pairs (on_channel c (note_events_of evs)) with
    | [] => Ok (track_empty (chan_sig evs c))
    | _ => if 0 <? q then Ok (chan_track m q evs c) else Err AssertionError
    end).
  { destruct (Hd c l (or_introl eq_refl)) as [-> | [-> E0]].
    - apply channel_loop_all; assumption.
    - rewrite E0. reflexivity. }
  rewrite E. clear E.
  destruct (note_pairs (on_channel c (note_events_of evs))) as [|p ps] eqn:En; cbn [bind andb].
  - assert (Et : chan_track m q evs c = track_empty (chan_sig evs c)) by (unfold chan_track, chan_entries; rewrite En; reflexivity).
    rewrite Et. destruct ((0 <? q) || forallb _ (map fst d)); reflexivity.
  - rewrite orb_false_r. destruct (0 <? q); cbn [bind orb]; reflexivity.
Qed.

Lemma tracks_of_eq m q evs : evs_ok evs ->
  channels_loop m q (ps_signatures (final evs))
    (match ps_events (final evs) with [] => append_event [] 0 (0, EvUnsupported) | d => d end) = tracks_of m q evs.
Proof.
  intros He. rewrite (channels_loop_all m q evs _ He (final_signature evs)).
  - unfold tracks_of, chans, keys. destruct (ps_events (final evs)); reflexivity.
  - intros c l Hin. destruct (ps_events (final evs)) as [|x d] eqn:E.
    + cbn in Hin. destruct Hin as [Hin|[]]. injection Hin as <- <-. right. split; [reflexivity|].
      assert (Hk : keys evs = []) by (unfold keys; rewrite E; reflexivity). apply keys_nil in Hk. rewrite Hk. reflexivity.
    + left. destruct (final_events evs c) as [[H1 H2] H3]. rewrite E in H1, H3. rewrite <- H3. unfold listed.
      apply dict_get_in in Hin; [|exact H1]. rewrite Hin. reflexivity.
Qed.

(** Parsing a stream. *)
Lemma parse_track_stream m q evs dt b rest : stream_bytes None (evs ++ [(dt, MEndOfTrack)]) b -> evs_ok evs ->
  parse_track m (b ++ rest) q = tracks_of m q evs.
Proof.
  intros Hs He. unfold parse_track. rewrite reader_new_at.
  destruct (loop_whole evs dt b rest (S (length (b ++ rest))) Hs (proj1 He) (proj1 (proj2 He))) as (s & E & E1 & E2).
  { apply stream_length in Hs. rewrite app_length in Hs. cbn [length] in Hs. rewrite app_length. lia. }
  change (mkPS None [] [] (-1) 0) with start_state. rewrite E. rewrite E1, E2. apply tracks_of_eq, He.
Qed.

(** Parsing anything. *)
Lemma parse_track_any m q data : Forall is_byte data ->
  parse_track m data q = Err MIDIParsingError \/
  (parse_track m data q = Err RecursionError /\ exists d n b r, data = d ++ b :: r /\ vlq_of d n /\ 0 <= b < 128) \/
  (exists evs dt b rest, data = b ++ rest /\ evs_ok evs /\ 0 <= dt /\
     stream_read None (evs ++ [(dt, MEndOfTrack)]) b rest /\ parse_track m data q = tracks_of m q evs).
Proof.
  intros HB. unfold parse_track. rewrite reader_new_at. change (mkPS None [] [] (-1) 0) with start_state.
  pose proof (tracks_loop [] (S (length data)) (S (length data)) start_state [] data HB I (Nat.lt_succ_diag_r _) (le_n _)) as (p & r & H1 & H2 & H3).
  destruct (parse_loop (S (length data)) start_state (at_ [] data)) as [r' [s|e]]; cbn [fst snd] in *.
  - right. right. destruct H3 as [_ (evs & dt & b & B1 & B2 & B3 & B4 & B5 & B6 & B7 & B8)].
    exists evs, dt, b, r. split; [exact B1|]. assert (He : evs_ok evs) by (split; [exact B3|]; split; assumption).
    split; [exact He|]. split; [exact B7|]. split; [exact B6|].
    assert (E1 : ps_events s = ps_events (final evs)) by (rewrite B8; reflexivity).
    assert (E2 : ps_signatures s = ps_signatures (final evs)) by (rewrite B8; reflexivity).
    rewrite E1, E2. apply tracks_of_eq, He.
  - destruct e; match type of H3 with _ /\ loop_err _ _ RecursionError => idtac | _ /\ _ => destruct H3 as [_ (H3 & _)]; discriminate | _ => idtac end.
    + left. reflexivity.
    + right. left. split; [reflexivity|]. apply H3.
Qed.

(** A chunk that was cut is not accepted. *)
Lemma parse_track_cut m q evs dt b1 b2 : stream_bytes None (evs ++ [(dt, MEndOfTrack)]) (b1 ++ b2) -> b2 <> [] ->
  evs_ok evs -> Forall is_byte (b1 ++ b2) -> parse_track m b1 q = Err MIDIParsingError.
Proof.
  intros Hs Hne He HB.
  assert (HB1 : Forall is_byte b1) by (apply Forall_app in HB; apply HB).
  destruct (loop_whole evs dt (b1 ++ b2) [] (S (length (b1 ++ b2))) Hs (proj1 He) (proj1 (proj2 He))) as (s & E & _).
  { apply stream_length in Hs. rewrite app_length in Hs. cbn [length] in Hs. lia. }
  rewrite app_nil_r in E.
  (* the checked run on the whole chunk is the plain run *)
  pose proof (tracks_loop [] (S (length (b1 ++ b2))) (S (length (b1 ++ b2))) start_state [] (b1 ++ b2) HB I (Nat.lt_succ_diag_r _) (le_n _)) as (p & r & G1 & G2 & G3).
  rewrite E in G2, G3. cbn [fst snd] in G2, G3. destruct G3 as [G3 _]. rewrite !app_nil_r in G3.
  pose proof (tracks_loop b2 (S (length b1)) (S (length (b1 ++ b2))) start_state [] b1 HB1 I (Nat.lt_succ_diag_r _) ltac:(rewrite app_length; lia)) as (p1 & r1 & H1 & H2 & H3).
  rewrite G3 in H3. unfold parse_track. rewrite reader_new_at. change (mkPS None [] [] (-1) 0) with start_state.
  destruct (parse_loop (S (length b1)) start_state (at_ [] b1)) as [r' [s1|e]]; cbn [fst snd] in *.
  - exfalso. destruct H3 as [H3 _].
    assert (H4 : at_ (b1 ++ b2) [] = at_ p1 (r1 ++ b2)) by congruence. clear H3.
    unfold at_ in H4. injection H4 as _ H3. assert (HL : length (p1 ++ r1) = length b1) by (rewrite H1; reflexivity).
    rewrite app_length in HL. rewrite app_length in H3. destruct b2; [congruence|]. cbn [length] in H3. lia.
  - destruct e; match type of H3 with _ /\ _ => destruct H3 as [H3 _]; discriminate | _ => idtac end. reflexivity.
Qed.
