(** From a dumped track back to notes (C40, C41, C47, C53). *)
From Coq Require Import ZArith QArith Qround Qreduction List Bool Lia ZifyBool Sorted Permutation.
From Verif Require Import Py PyFloat PySort Signature Tone Note Track MidiWriter MidiReader
  SpecBase TrackSpec MidiSpec ReaderSpec DumpSpec SigFacts SigProps FloatFacts NoteProps SortFacts TrackFacts TrackProps VarLenFacts
  StreamFacts PairFacts TimeFacts VelocityFacts WriterFacts WriterProps ReadFacts LoadFacts FileFacts ReaderProps LoadProps TripSpec.
Import ListNotations.
Open Scope Z_scope.

(** ** Pairing by scanning *)
Definition put (o : Z -> option note_event) (p : Z) (v : option note_event) : Z -> option note_event :=
  fun q => if q =? p then v else o q.
Fixpoint scan (o : Z -> option note_event) (l : list note_event) : list (note_event * note_event) :=
  match l with
  | [] => []
  | e :: r =>
      if ne_on e then
        match o (ne_pitch e) with Some _ => scan o r | None => scan (put o (ne_pitch e) (Some e)) r end
      else
        match o (ne_pitch e) with Some s => (s, e) :: scan (put o (ne_pitch e) None) r | None => scan o r end
  end.

Lemma scan_ext : forall l o o', (forall q, o q = o' q) -> scan o l = scan o' l.
Proof.
  induction l as [|e l IH]; intros o o' H; [reflexivity|]. cbn [scan]. rewrite (H (ne_pitch e)).
  assert (HP : forall v q, put o (ne_pitch e) v q = put o' (ne_pitch e) v q) by (intros v q; unfold put; rewrite H; reflexivity).
  destruct (ne_on e), (o' (ne_pitch e)); try (apply IH; assumption).
  - apply IH. apply HP.
  - f_equal. apply IH. apply HP.
Qed.

(** The events of a pair of indices. *)
Definition dummy : note_event := mkNE 0 0 0 0 false.
Definition events_at (l : list note_event) (ab : nat * nat) : note_event * note_event :=
  (nth (fst ab) l dummy, nth (snd ab) l dummy).

Lemma scan_pairs_gen : forall l2 l1 i run out, pair_state l1 = (i, run, out) ->
  map (events_at (l1 ++ l2)) (note_pairs (l1 ++ l2)) =
  map (events_at (l1 ++ l2)) out ++ scan (fun p => match run p with Some a => Some (nth a l1 dummy) | None => None end) l2.
Proof.
  induction l2 as [|e l2 IH]; intros l1 i run out E.
  - cbn [scan]. rewrite !app_nil_r. unfold note_pairs. rewrite E. reflexivity.
  - assert (Eapp : l1 ++ e :: l2 = (l1 ++ [e]) ++ l2) by (rewrite <- app_assoc; reflexivity).
    assert (Hst : pair_state (l1 ++ [e]) = pstep (i, run, out) e) by (rewrite pair_state_app, E; reflexivity).
    pose proof (pair_state_spec l1) as HS. rewrite E in HS. destruct HS as (Hi & Hrun & _).
    assert (Hlt : forall p a, run p = Some a -> (a < length l1)%nat).
    { intros p a Hp. apply Hrun in Hp. destruct Hp as (x & Hx & _). apply nth_len in Hx. exact Hx. }
    assert (Hsame : forall run' p, run' p = run p -> match run' p with Some a => Some (nth a (l1 ++ [e]) dummy) | None => None end =
      match run p with Some a => Some (nth a l1 dummy) | None => None end).
    { intros run' p ->. destruct (run p) as [a|] eqn:Ep; [|reflexivity]. rewrite app_nth1 by (eapply Hlt, Ep). reflexivity. }
    unfold pstep in Hst. cbn [scan]. destruct (ne_on e) eqn:Eon; destruct (run (ne_pitch e)) as [a|] eqn:Ea; rewrite Eapp, (IH _ _ _ _ Hst); clear IH.
    + f_equal. apply scan_ext. intros q. apply Hsame. reflexivity.
    + f_equal. apply scan_ext. intros q. unfold upd, put. destruct (q =? ne_pitch e) eqn:Eq; [|apply Hsame; reflexivity].
      f_equal. subst i. rewrite app_nth2, Nat.sub_diag by lia. reflexivity.
    + rewrite map_app, <- app_assoc. cbn [map app]. f_equal. f_equal.
      * unfold events_at. cbn [fst snd]. assert (a < length l1)%nat by (eapply Hlt, Ea).
        rewrite <- app_assoc. rewrite (app_nth1 l1 _ dummy) by assumption. rewrite app_nth2 by lia. subst i. rewrite Nat.sub_diag. reflexivity.
      * apply scan_ext. intros q. unfold upd, put. destruct (q =? ne_pitch e) eqn:Eq; [reflexivity|apply Hsame; reflexivity].
    + f_equal. apply scan_ext. intros q. apply Hsame. reflexivity.
Qed.

Definition silent : Z -> option note_event := fun _ => None.

Lemma scan_pairs l : map (events_at l) (note_pairs l) = scan silent l.
Proof.
  exact (scan_pairs_gen l [] 0%nat (fun _ => None) [] eq_refl).
Qed.

(** What is read for a pair of events. *)
Definition pair_read (delta q : Z) (ef : note_event * note_event) : Q * Z * Q * Q :=
  let (e, f) := ef in
  (Qred ((ne_time e * 4096 / q)%Z # 16384)%Q, ne_pitch e - delta,
   Qred (((ne_time f - ne_time e) * 4096 / q)%Z # 16384)%Q, Qred (fval (velocity_of_byte (ne_velocity e)))).

Lemma note_read_scan delta q l : map (note_read delta q l) (note_pairs l) = map (pair_read delta q) (scan silent l).
Proof.
  rewrite <- scan_pairs, map_map. apply map_ext_in. intros [a b] H. apply note_pairs_listed in H.
  destruct H as (e & f & Ha & Hb & _). unfold note_read, events_at. cbn [fst snd pair_read]. rewrite Ha, Hb.
  rewrite (nth_error_nth l a dummy Ha), (nth_error_nth l b dummy Hb). reflexivity.
Qed.

(** A note whose pitch does not occur in between. *)
Lemma scan_close : forall b o p s off c, o p = Some s -> ne_on off = false -> ne_pitch off = p ->
  Forall (fun e => ne_pitch e <> p) b ->
  Permutation (scan o (b ++ off :: c)) ((s, off) :: scan (put o p None) (b ++ c)).
Proof.
  induction b as [|e b IH]; intros o p s off c Ho Hoff Hp Hb; cbn [app].
  - cbn [scan]. rewrite Hoff, Hp, Ho. apply Permutation_refl.
  - inversion Hb as [|? ? He Hb']; subst. cbn [scan].
    assert (Ee : (ne_pitch e =? ne_pitch off) = false) by lia.
    assert (HE : put o (ne_pitch off) None (ne_pitch e) = o (ne_pitch e)) by (unfold put; rewrite Ee; reflexivity). rewrite HE.
    assert (HC : forall v, Permutation (scan (put o (ne_pitch e) v) (b ++ off :: c))
                    ((s, off) :: scan (put (put o (ne_pitch off) None) (ne_pitch e) v) (b ++ c))).
    { intros v. eapply perm_trans; [apply (IH (put o (ne_pitch e) v) (ne_pitch off) s off c)|]; try assumption; try reflexivity.
      - unfold put. replace (ne_pitch off =? ne_pitch e) with false by lia. exact Ho.
      - erewrite scan_ext; [apply Permutation_refl|]. intros q. unfold put.
        destruct (q =? ne_pitch off) eqn:E1, (q =? ne_pitch e) eqn:E2; try reflexivity. lia. }
    destruct (ne_on e).
    + destruct (o (ne_pitch e)); [apply (IH o); try assumption; reflexivity|apply HC].
    + destruct (o (ne_pitch e)); [|apply (IH o); try assumption; reflexivity].
      eapply perm_trans; [apply perm_skip, HC|]. apply perm_swap.
Qed.

(** ** The notes of a dumped track *)
Definition on_event (w : writer) (e : entry) : note_event :=
  mkNE (pulses (w_ppq w) (sval (fst e))) (w_channel w) (midi_pitch w (snd e)) (vbyte (n_velocity (snd e))) true.
Definition off_event (w : writer) (e : entry) : note_event :=
  mkNE (pulses (w_ppq w) (sval (fst e)) + pulses (w_ppq w) (sval (n_duration (snd e)))) (w_channel w) (midi_pitch w (snd e)) 64 false.

Definition heard (e : entry) : Prop := vbyte (n_velocity (snd e)) <> 0.

(** [e] is over when [f] starts, unless they differ in pitch. *)
Definition over (w : writer) (e f : entry) : Prop :=
  pulses (w_ppq w) (sval (fst e)) <= pulses (w_ppq w) (sval (fst f)) /\
  (midi_pitch w (snd e) = midi_pitch w (snd f) ->
   pulses (w_ppq w) (sval (fst e)) + pulses (w_ppq w) (sval (n_duration (snd e))) <= pulses (w_ppq w) (sval (fst f))).

Lemma ForallOrdPairs_inv {A} (R : A -> A -> Prop) x l : ForallOrdPairs R (x :: l) -> Forall (R x) l /\ ForallOrdPairs R l.
Proof. intros H. inversion H; subst. auto. Qed.

Lemma stream_scan w : forall items, writer_ok w -> Forall entry_ok items -> Forall heard items -> ForallOrdPairs (over w) items ->
  Permutation (scan silent (flat_map note_event_of (note_stream w items))) (map (fun e => (on_event w e, off_event w e)) items).
Proof.
  intros items Hw. unfold note_stream. induction items as [|e r IH]; intros Hok Hh Ho; [constructor|].
  inversion Hok as [|? ? [He [Hd _]] Hok']; subst. inversion Hh as [|? ? Hh1 Hh2]; subst.
  destruct (ForallOrdPairs_inv _ _ _ Ho) as [Ho1 Ho2]. specialize (IH Hok' Hh2 Ho2).
  assert (Hp : 1 <= w_ppq w) by (destruct Hw; lia).
  cbn [flat_map]. unfold onoff at 1. cbn [app tsort map].
  set (on := pulses (w_ppq w) (sval (fst e))) in *. set (len := pulses (w_ppq w) (sval (n_duration (snd e)))) in *.
  assert (Hlen : 0 <= len) by (apply pulses_nonneg; [lia|apply sval_nonneg, Hd]).
  set (rest := tsort (flat_map (onoff w) r)) in *.
  assert (HR : Forall (fun te => on <= fst te /\
     forall ne, In ne (note_event_of te) -> ne_pitch ne = midi_pitch w (snd e) -> on + len <= fst te) rest).
  { eapply Permutation_Forall; [apply Permutation_sym, tsort_perm|]. apply Forall_flat_map. rewrite Forall_forall in Hok', Ho1. apply Forall_forall.
    intros f Hf. destruct (Ho1 f Hf) as [A B]. fold on in A, B. fold len in B. destruct (Hok' f Hf) as [_ [Hdf _]].
    pose proof (pulses_nonneg (w_ppq w) (sval (n_duration (snd f))) ltac:(lia) (sval_nonneg _ Hdf)) as Hn.
    unfold onoff. constructor; [|constructor; [|constructor]]; cbn [fst snd note_event_of]; (split; [lia|]);
      intros ne [<-|[]]; cbn [ne_pitch]; intros E; symmetry in E; specialize (B E); lia. }
  set (offx := (on + len, MNoteOff (w_channel w) (midi_pitch w (snd e)) 64)).
  set (onx := (on, MNoteOn (w_channel w) (midi_pitch w (snd e)) (vbyte (n_velocity (snd e))))).
  destruct (tinsert_split offx rest) as (a & b & Er & Et & Ha). rewrite Et, Er in *. clear Et.
  assert (Efront : tinsert onx (a ++ offx :: b) = onx :: a ++ offx :: b).
  { destruct (a ++ offx :: b) as [|y l] eqn:E; [reflexivity|]. cbn [tinsert].
    replace (fst onx <=? fst y) with true; [reflexivity|]. symmetry. apply Z.leb_le. cbn [fst onx].
    assert (Hy : In y (a ++ offx :: b)) by (rewrite E; left; reflexivity). apply in_app_iff in Hy.
    rewrite Forall_forall in HR. destruct Hy as [Hy|[<-|Hy]]; [|change (on <= on + len); lia|]; apply HR; apply in_app_iff; auto. }
  rewrite Efront. cbn [flat_map]. rewrite flat_map_app. cbn [flat_map]. unfold note_event_of at 1. unfold note_event_of at 2. cbn [snd fst onx offx app].
  cbn [scan]. assert (Hv : (vbyte (n_velocity (snd e)) =? 0) = false) by (unfold heard in Hh1; lia). rewrite Hv. cbn [negb ne_on ne_pitch silent].
  rewrite flat_map_app in IH.
  eapply perm_trans; [eapply (scan_close _ _ (midi_pitch w (snd e)))|].
  - unfold put. rewrite Z.eqb_refl. reflexivity.
  - reflexivity.
  - reflexivity.
  - apply Forall_forall. intros ne Hne Hpe. apply in_flat_map in Hne. destruct Hne as (te & Hte & Hne).
    rewrite Forall_forall in HR, Ha. specialize (Ha te Hte). cbn [fst offx] in Ha.
    destruct (HR te ltac:(apply in_app_iff; auto)) as [_ B]. specialize (B ne Hne Hpe). lia.
  - unfold on_event at 1, off_event at 1. fold on len. apply perm_skip. eapply perm_trans; [|exact IH].
    erewrite scan_ext; [apply Permutation_refl|]. intros q. unfold put, silent. destruct (q =? _); reflexivity.
Qed.

(** Every end belongs to at most one note. *)
Lemma scan_length : forall l o, (length (scan o l) <= length (filter (fun e => negb (ne_on e)) l))%nat.
Proof.
  induction l as [|e l IH]; intros o; [cbn; lia|]. cbn [scan filter]. destruct (ne_on e); cbn [negb].
  - destruct (o (ne_pitch e)); apply IH.
  - destruct (o (ne_pitch e)); cbn [length]; [apply le_n_S, IH|]. pose proof (IH o). lia.
Qed.

(** ** The events of a dumped track *)
Lemma main_notes w s k items : note_events_of (main_events w s k items) = flat_map note_event_of (note_stream w items).
Proof.
  unfold note_events_of, main_events. rewrite timed_app. cbn [front timed fold_left fst]. change (0 + 0) with 0.
  rewrite timed_deltas. reflexivity.
Qed.

Lemma no_signatures ch : forall l p, Forall (fun te => channel_note ch (snd te)) l -> signatures_of p l = [].
Proof.
  induction l as [|[dt e] l IH]; intros p H; [reflexivity|]. inversion H as [|? ? H1 H2]; subst. cbn [snd] in H1.
  destruct H1 as (q & v & [-> | ->] & _); cbn [signatures_of]; apply IH, H2.
Qed.

Lemma main_sig w s k items c : writer_ok w -> valid_sig s -> Forall entry_ok items -> Forall (fun e : entry => in_range w (snd e)) items ->
  chan_sig (main_events w s k items) c = s.
Proof.
  intros Hw Hs Hok Hr. unfold chan_sig.
  assert (E : signatures_of (-1) (main_events w s k items) = [(-1, (nominator s, Z.log2 (denominator s)))]).
  { unfold main_events, front. cbn [app signatures_of]. f_equal. apply (no_signatures (w_channel w)).
    apply (deltas_forall (channel_note (w_channel w))), note_stream_notes; assumption. }
  rewrite E. unfold last_signature. cbn [filter fst]. destruct s as [n d]. destruct Hs as [_ (a & Ha & Hd)]. cbn [nominator denominator] in *.
  destruct (-1 =? c); cbn [rev app snd]; rewrite Hd, Z.log2_pow2 by exact Ha; reflexivity.
Qed.

Lemma stream_channel w items : Forall (fun e => ne_channel e = w_channel w) (flat_map note_event_of (note_stream w items)).
Proof.
  apply Forall_flat_map. eapply Permutation_Forall; [apply Permutation_sym, tsort_perm|]. apply Forall_flat_map, Forall_forall.
  intros e _. repeat constructor.
Qed.
Lemma filter_all {A} (f : A -> bool) l : Forall (fun x => f x = true) l -> filter f l = l.
Proof. induction 1 as [|x l H _ IH]; [reflexivity|]. cbn. rewrite H, IH. reflexivity. Qed.
Lemma filter_none {A} (f : A -> bool) l : Forall (fun x => f x = false) l -> filter f l = [].
Proof. induction 1 as [|x l H _ IH]; [reflexivity|]. cbn. rewrite H, IH. reflexivity. Qed.

Lemma main_channel w s k items c : on_channel c (note_events_of (main_events w s k items)) =
  if c =? w_channel w then flat_map note_event_of (note_stream w items) else [].
Proof.
  rewrite main_notes. pose proof (stream_channel w items) as H. unfold on_channel. destruct (Z.eqb_spec c (w_channel w)) as [->|Hn].
  - apply filter_all. eapply Forall_impl; [|exact H]. cbv beta. intros e ->. apply Z.eqb_refl.
  - apply filter_none. eapply Forall_impl; [|exact H]. cbv beta. intros e ->. lia.
Qed.

Lemma stream_empty w items : flat_map note_event_of (note_stream w items) = [] <-> items = [].
Proof.
  split; [|intros ->; reflexivity]. destruct items as [|e r]; [reflexivity|]. intros H. exfalso.
  set (x := (pulses (w_ppq w) (sval (fst e)), MNoteOn (w_channel w) (midi_pitch w (snd e)) (vbyte (n_velocity (snd e))))).
  assert (HI : In x (note_stream w (e :: r))).
  { eapply Permutation_in; [apply Permutation_sym, tsort_perm|]. left. reflexivity. }
  assert (HJ : In (mkNE (fst x) (w_channel w) (midi_pitch w (snd e)) (vbyte (n_velocity (snd e))) (negb (vbyte (n_velocity (snd e)) =? 0)))
     (flat_map note_event_of (note_stream w (e :: r)))).
  { apply in_flat_map. exists x. split; [exact HI|]. left. reflexivity. }
  rewrite H in HJ. exact HJ.
Qed.

Lemma NoDup_all_eq (l : list Z) c : NoDup l -> l <> [] -> (forall x, In x l -> x = c) -> l = [c].
Proof.
  intros H Hn Ha. destruct l as [|x [|y l]]; [congruence|rewrite (Ha x (or_introl eq_refl)); reflexivity|].
  exfalso. inversion H as [|? ? H1 _]; subst. apply H1. left. rewrite (Ha x), (Ha y); [reflexivity|right; left; reflexivity|left; reflexivity].
Qed.

Lemma main_chans w s k items : chans (main_events w s k items) = [match items with [] => 0 | _ => w_channel w end].
Proof.
  apply NoDup_all_eq; [apply chans_nodup|unfold chans; destruct (keys _); discriminate|].
  intros x Hx. apply chans_in in Hx. rewrite main_channel, main_notes in Hx. rewrite stream_empty in Hx.
  destruct Hx as [Hx|[H1 H2]]; [|subst; reflexivity]. destruct (Z.eqb_spec x (w_channel w)) as [E|E]; [|congruence].
  destruct items as [|e r]; [cbn in Hx; congruence|exact E].
Qed.

Lemma max_one t s : t_signature t = s -> valid_sig s -> (sval (max_signature [t]) == sval s)%Q.
Proof.
  intros <- Hs. assert (H01 : valid_sig (mkSig 0 1)) by (apply (valid_pow 0 0); lia).
  destruct (max_fold [t] (mkSig 0 1) H01) as (M1 & M2 & M3 & M4).
  - constructor; [exact Hs|constructor].
  - destruct Hs as [_ Hp]. apply pow2_pos in Hp. repeat constructor. cbn. lia.
  - change (fold_left take_max [t] (mkSig 0 1)) with (max_signature [t]) in *. inversion M3; subst.
    destruct M4 as [E|(u & [<-|[]] & E)]; [|rewrite E; reflexivity]. rewrite E in *.
    apply Qle_antisym; [|assumption]. pose proof (sval_nonneg _ Hs). change (sval (mkSig 0 1)) with 0%Q. assumption.
Qed.

Definition stream_notes (w : writer) (items : list entry) : list (note_event * note_event) :=
  scan silent (flat_map note_event_of (note_stream w items)).

Lemma dumped_load sort nd ppq middle_c bpm channel w c s ops bs m : sort_contract sort ->
  writer_new nd ppq middle_c bpm channel = Ok w -> tone_of_arg nd middle_c = Ok c ->
  valid_sig s -> Forall op_ok ops -> dumps sort w (run sort (track_empty s) ops) = Ok bs -> Z.of_nat (length bs) < 22 + 2 ^ 24 ->
  let items := yields sort (run sort (track_empty s) ops) in
  exists t l, Inv t l /\ t_signature t = s /\
    Permutation (map value_of (yields sort t)) (map (pair_read (mr_delta m) ppq) (stream_notes w items)) /\
    load sort m bs (Some (match items with [] => 0 | _ => channel end)) = Ok t /\
    (forall c', c' <> match items with [] => 0 | _ => channel end -> load sort m bs (Some c') = Err ValueError) /\
    load sort m bs None = Ok (merged sort [t]).
Proof.
  intros Hs Hnew Hc HS Ho E HL items.
  destruct (dumped_stream sort _ _ _ _ _ _ _ _ _ _ Hs Hnew Hc HS Ho E) as (k & b & E1 & E2 & E3 & E4 & E5 & E6 & Hw & Hq & Hch & Hd & Hok & Hr & Hf).
  fold items in E5, E6, Hok, Hr. rewrite E1, smf_length in HL.
  set (evs := main_events w s k items) in *.
  destruct (load_stream sort Hs m ppq b [] evs 0 ltac:(lia) E5 E6 ltac:(rewrite app_nil_r; lia)) as (ts & T1 & T2).
  rewrite app_nil_r in T2. rewrite E1.
  pose proof (finish_good sort m _ ppq evs ts E6 T1 T2) as (G1 & G2 & G3).
  assert (Ech : chans evs = [match items with [] => 0 | _ => channel end]) by (unfold evs; rewrite main_chans, Hch; reflexivity).
  set (c0 := match items with [] => 0 | _ => channel end) in *.
  assert (Hin : In c0 (chans evs)) by (rewrite Ech; left; reflexivity).
  destruct (G1 c0 Hin) as (F1 & F2 & F3).
  exists (chan_track m ppq evs c0), (chan_entries m ppq (on_channel c0 (note_events_of evs))).
  split; [exact F2|]. split; [rewrite F3; unfold evs; apply main_sig; assumption|]. split.
  { pose proof (chan_values sort m ppq evs ts c0 Hs E6 T1 Hin) as HV. cbv zeta in HV. rewrite note_read_scan in HV.
    replace (on_channel c0 (note_events_of evs)) with (flat_map note_event_of (note_stream w items)) in HV; [exact HV|].
    unfold evs. rewrite main_channel. unfold c0. destruct items as [|e r] eqn:Ei.
    - destruct (_ =? _); reflexivity.
    - rewrite Hch, Z.eqb_refl. reflexivity. }
  split; [exact F1|]. split.
  - intros c' Hn. apply G2. rewrite Ech. intros [H|[]]. congruence.
  - rewrite G3, Ech. reflexivity.
Qed.
