(** Reading a well-formed stream of events: what the main loop of the parser ends up with. *)
From Coq Require Import ZArith QArith List Bool Lia ZifyBool.
From Verif Require Import Py PyFloat PySort Signature Tone Note Track MidiWriter MidiReader
  SpecBase MidiSpec SigFacts VarLenFacts.
Import ListNotations.
Open Scope Z_scope.

(** ** One event *)
Definition to_event (e : midi_event) : event :=
  match e with
  | MNoteOff c p v => EvNoteOff c p v
  | MNoteOn c p v => if v =? 0 then EvNoteOff c p v else EvNoteOn c p v
  | MOther _ _ => EvUnsupported
  | MTimeSignature nn dd cc bb => EvTimeSignature nn dd cc bb
  | MChannelPrefix c => EvGlobalChannel c
  | MEndOfTrack => EvEndOfTrack
  | MMeta _ _ => EvUnsupported
  end.

Ltac rstep := cbv beta iota zeta; erewrite rbind_ok; [|apply read_8_ok].

Definition statuses := map Z.of_nat (seq 128 127).
Lemma status_in s : 128 <= s < 255 -> In s statuses.
Proof.
  intros H. unfold statuses. replace s with (Z.of_nat (Z.to_nat s)) by lia. apply in_map, in_seq. lia.
Qed.

(** The table event_lengths is that of the MIDI specification. *)
Lemma event_lengths_spec : forall s, 128 <= s < 255 ->
  nth_error event_lengths (Z.to_nat s) =
  Some (match message_length s with Some n => Z.of_nat n | None => -1 end).
Proof.
  intros s H. apply status_in in H.
  assert (C : forallb (fun s => match nth_error event_lengths (Z.to_nat s) with
                        | Some l => l =? match message_length s with Some n => Z.of_nat n | None => -1 end
                        | None => false end) statuses = true) by (vm_compute; reflexivity).
  rewrite forallb_forall in C. specialize (C s H).
  destruct (nth_error event_lengths (Z.to_nat s)); [|discriminate]. f_equal. lia.
Qed.

Lemma status_split : forall s, 128 <= s < 255 ->
  Z.shiftr s 4 = s / 16 /\ Z.land s 15 = s mod 16.
Proof.
  intros s H. split; [rewrite Z.shiftr_div_pow2 by lia; reflexivity|].
  change 15 with (Z.ones 4). rewrite Z.land_ones by lia. reflexivity.
Qed.

Lemma message_length_range s n : message_length s = Some n -> 128 <= s < 255 /\ s <> 240.
Proof. unfold message_length. intros H. repeat match type of H with context [if ?b then _ else _] => destruct b eqn:? end; try discriminate; lia. Qed.

Lemma status_of_range e : event_ok e -> 128 <= status_of e <= 255.
Proof.
  destruct e; cbn [status_of event_ok]; unfold is_byte; intros H; try lia. destruct H as (H & _). apply message_length_range in H. lia.
Qed.

(** The part of read_event after the status byte is known. *)
Lemma payload_ok depth previous e b pre rest : event_ok e -> payload e b ->
  read_event (S depth) (Some (status_of e)) previous (at_ pre (b ++ rest)) =
  (at_ (pre ++ b) rest, Ok (to_event e, Some (status_of e))).
Proof.
  intros He Hb. cbn [read_event]. erewrite rbind_ok; [|reflexivity]. inversion Hb; subst.
  - (* note off *) cbn [status_of] in *. destruct He as (Hc & _ & _).
    replace (128 + c =? 255) with false by lia. replace (128 + c >=? 128) with true by lia.
    destruct (status_split (128 + c) ltac:(lia)) as [-> ->].
    replace ((128 + c) / 16) with 8 by (apply Z.div_unique with c; lia).
    replace ((128 + c) mod 16) with c by (apply Z.mod_unique with 8; lia).
    cbn [app]. change (8 =? 8) with true. rstep. rstep. rewrite <- app_assoc. reflexivity.
  - (* note on *) cbn [status_of] in *. destruct He as (Hc & _ & _).
    replace (144 + c =? 255) with false by lia. replace (144 + c >=? 128) with true by lia.
    destruct (status_split (144 + c) ltac:(lia)) as [-> ->].
    replace ((144 + c) / 16) with 9 by (apply Z.div_unique with c; lia).
    replace ((144 + c) mod 16) with c by (apply Z.mod_unique with 9; lia).
    cbn [app]. change (9 =? 8) with false. change (9 =? 9) with true. rstep. rstep. rewrite <- app_assoc.
    cbn [to_event]. destruct (v =? 0); reflexivity.
  - (* other messages *) cbn [status_of] in *. destruct He as (Hl & Hn & _). unfold is_note_status in Hn.
    pose proof (message_length_range s _ Hl) as [Hs H240].
    replace (s =? 255) with false by lia. replace (s >=? 128) with true by lia.
    destruct (status_split s ltac:(lia)) as [-> ->].
    assert (10 <= s / 16) by (apply Z.div_le_lower_bound; lia).
    replace (s / 16 =? 8) with false by lia. replace (s / 16 =? 9) with false by lia.
    replace (s =? 240) with false by lia. rewrite event_lengths_spec by lia. rewrite Hl.
    replace (Z.of_nat (length b) =? -1) with false by lia.
    erewrite rbind_ok; [|apply read_ok; reflexivity]. reflexivity.
  - (* meta events *)
    assert (status_of e = 255) as -> by (destruct e; try discriminate; reflexivity).
    change (255 =? 255) with true. cbn [app]. rewrite <- app_assoc.
    rstep. erewrite rbind_ok; [|apply read_var_len_ok; eassumption].
    replace (pre ++ k :: n ++ d) with (((pre ++ [k]) ++ n) ++ d) by (rewrite <- !app_assoc; reflexivity).
    destruct e; try discriminate; cbn [meta_of] in H; injection H as <- <-; cbn [to_event].
    + change (88 =? 47) with false. change (88 =? 32) with false. change (88 =? 88) with true.
      change (negb (Z.of_nat (length [nn; dd; cc; bb]) =? 4)) with false. cbv iota. cbn [app].
      do 4 rstep. rewrite <- !app_assoc. reflexivity.
    + change (32 =? 47) with false. change (32 =? 32) with true.
      change (negb (Z.of_nat (length [channel]) =? 1)) with false. cbv iota. cbn [app].
      rstep. reflexivity.
    + change (47 =? 47) with true. change (negb (Z.of_nat (length (@nil Z)) =? 0)) with false. cbv iota.
      cbn [app]. rewrite app_nil_r. reflexivity.
    + destruct He as (_ & H1 & H2 & H3 & _).
      replace (kind =? 47) with false by lia. replace (kind =? 32) with false by lia. replace (kind =? 88) with false by lia.
      erewrite rbind_ok; [|apply read_ok; reflexivity]. reflexivity.
Qed.

Lemma read_event_explicit depth previous x pre rest : 128 <= x ->
  read_event (S depth) None previous (at_ pre (x :: rest)) =
  read_event (S depth) (Some x) previous (at_ (pre ++ [x]) rest).
Proof.
  intros Hx. cbn [read_event]. rstep. erewrite rbind_ok; [|reflexivity].
  replace (x >=? 128) with true by lia. reflexivity.
Qed.

Lemma read_event_running depth previous x pre rest : x < 128 ->
  read_event (S depth) None previous (at_ pre (x :: rest)) =
  read_event depth previous previous (at_ pre (x :: rest)).
Proof.
  intros Hx. cbn [read_event]. rstep.
  replace (x =? 255) with false by lia. replace (x >=? 128) with false by lia.
  erewrite rbind_ok; [|apply shift_back]. reflexivity.
Qed.

Lemma read_event_ok depth previous e b pre rest : event_ok e -> event_bytes previous e b ->
  read_event (S (S depth)) None previous (at_ pre (b ++ rest)) =
  (at_ (pre ++ b) rest, Ok (to_event e, Some (status_of e))).
Proof.
  intros He [b' Hp|x b' Hp -> Hx].
  - cbn [app]. rewrite read_event_explicit by (apply status_of_range in He; lia).
    rewrite payload_ok by assumption. rewrite <- app_assoc. reflexivity.
  - cbn [app]. rewrite read_event_running by exact Hx.
    change (x :: b' ++ rest) with ((x :: b') ++ rest). apply payload_ok; assumption.
Qed.

(** ** The main loop *)
Definition sig_of_event (nn dd : Z) : sig := mkSig nn (2 ^ dd).

Lemma sig_new_event nn dd : is_byte nn -> is_byte dd -> sig_new nn (Z.shiftl 1 dd) = Ok (sig_of_event nn dd).
Proof.
  intros Hn Hd. unfold is_byte in *. rewrite Z.shiftl_mul_pow2 by lia. rewrite Z.mul_1_l.
  apply sig_new_ok; [lia|]. exists dd. split; [lia|reflexivity].
Qed.

(** The state after an event that is not the end of the track. *)
Definition next_state (s : parse_state) (te : Z * midi_event) : parse_state :=
  let time := ps_time s + fst te in
  let previous := Some (status_of (snd te)) in
  match snd te with
  | MNoteOff c _ _ | MNoteOn c _ _ =>
      mkPS previous (append_event (ps_events s) c (time, to_event (snd te))) (ps_signatures s) (ps_global s) time
  | MChannelPrefix c => mkPS previous (ps_events s) (ps_signatures s) c time
  | MTimeSignature nn dd _ _ =>
      mkPS previous (ps_events s) (dict_set (ps_signatures s) (ps_global s) (sig_of_event nn dd)) (ps_global s) time
  | _ => mkPS previous (ps_events s) (ps_signatures s) (ps_global s) time
  end.

Lemma next_state_previous s te : ps_previous (next_state s te) = Some (status_of (snd te)).
Proof. destruct te as [dt []]; reflexivity. Qed.

Lemma event_bytes_nonempty previous e b : event_bytes previous e b -> (1 <= length b)%nat.
Proof. intros []; cbn; lia. Qed.
Lemma vlq_nonempty d n : vlq_of d n -> (1 <= length d)%nat.
Proof. intros (ds & Hne & _ & -> & _). rewrite with_bit7_length. destruct ds; [congruence|cbn; lia]. Qed.
Lemma stream_length : forall previous evs b, stream_bytes previous evs b -> (2 * length evs <= length b)%nat.
Proof.
  induction 1 as [|? ? ? ? ? ? ? Hd He _ IH]; [cbn; lia|].
  rewrite !app_length. apply vlq_nonempty in Hd. apply event_bytes_nonempty in He. cbn [length]. lia.
Qed.

Definition not_end (te : Z * midi_event) : Prop := snd te <> MEndOfTrack.

Lemma loop_step fuel s dt e d b pre rest : vlq_of d dt -> event_ok e -> e <> MEndOfTrack ->
  event_bytes (ps_previous s) e b ->
  parse_loop (S fuel) s (at_ pre (d ++ b ++ rest)) =
  parse_loop fuel (next_state s (dt, e)) (at_ (pre ++ d ++ b) rest).
Proof.
  intros Hd He Hn Hb. cbn [parse_loop]. erewrite rbind_ok; [|apply read_var_len_ok; exact Hd]. cbn zeta.
  erewrite rbind_ok; [|unfold recursion_limit; apply read_event_ok; eassumption].
  rewrite <- app_assoc. destruct e; cbn [to_event next_state fst snd]; try reflexivity.
  - destruct (velocity =? 0); reflexivity.
  - destruct He as (H1 & H2 & _). rewrite sig_new_event by assumption. reflexivity.
  - congruence.
Qed.

Lemma loop_stream : forall evs previous b, stream_bytes previous evs b -> forall fuel s pre rest,
  previous = ps_previous s -> Forall (fun te => event_ok (snd te)) evs -> Forall not_end evs ->
  parse_loop (length evs + fuel) s (at_ pre (b ++ rest)) =
  parse_loop fuel (fold_left next_state evs s) (at_ (pre ++ b) rest).
Proof.
  induction evs as [|[dt e] r IH]; intros previous b Hs fuel s pre rest Hp Hok Hne.
  - inversion Hs; subst. rewrite app_nil_r. reflexivity.
  - inversion Hs as [|? ? ? ? d b1 s1 Hd Hb Hr]; subst.
    inversion Hok as [|? ? Ho1 Ho2]; subst. inversion Hne as [|? ? Hn1 Hn2]; subst.
    cbn [length plus]. rewrite <- !app_assoc. rewrite (loop_step _ _ dt e) by assumption.
    cbn [fold_left]. erewrite IH; [|exact Hr|rewrite next_state_previous; reflexivity|exact Ho2|exact Hn2].
    rewrite <- !app_assoc. reflexivity.
Qed.

Lemma loop_end fuel s dt d b pre rest : vlq_of d dt -> event_bytes (ps_previous s) MEndOfTrack b ->
  parse_loop (S fuel) s (at_ pre (d ++ b ++ rest)) =
  (at_ (pre ++ d ++ b) rest, Ok (mkPS (Some 255) (ps_events s) (ps_signatures s) (ps_global s) (ps_time s + dt))).
Proof.
  intros Hd Hb. cbn [parse_loop]. erewrite rbind_ok; [|apply read_var_len_ok; exact Hd]. cbn zeta.
  erewrite rbind_ok; [|unfold recursion_limit; apply read_event_ok; [|eassumption]; exact I].
  rewrite <- app_assoc. reflexivity.
Qed.

Definition start_state : parse_state := mkPS None [] [] (-1) 0.

Lemma stream_snoc : forall evs previous te b, stream_bytes previous (evs ++ [te]) b ->
  exists b1 d b2 p, b = b1 ++ d ++ b2 /\ stream_bytes previous evs b1 /\ vlq_of d (fst te) /\
    event_bytes p (snd te) b2 /\
    p = match rev evs with [] => previous | x :: _ => Some (status_of (snd x)) end.
Proof.
  induction evs as [|[dt e] r IH]; intros previous te b H.
  - cbn [app] in H. inversion H as [|? dt e r' d b' s Hd Hb Hr]; subst. inversion Hr; subst.
    exists [], d, b', previous. rewrite app_nil_r. repeat split; try assumption. constructor.
  - cbn [app] in H. inversion H as [|? ? ? ? d b' s Hd Hb Hr]; subst.
    destruct (IH _ _ _ Hr) as (b1 & d1 & b2 & p & -> & H1 & H2 & H3 & H4).
    exists (d ++ b' ++ b1), d1, b2, p. split; [rewrite <- !app_assoc; reflexivity|].
    split; [constructor; assumption|]. split; [assumption|]. split; [assumption|].
    subst p. cbn [rev]. destruct (rev r); reflexivity.
Qed.

Lemma fold_previous : forall evs s, ps_previous (fold_left next_state evs s) =
  match rev evs with [] => ps_previous s | x :: _ => Some (status_of (snd x)) end.
Proof.
  induction evs as [|x l IH] using rev_ind; intros s; [reflexivity|].
  rewrite fold_left_app, rev_app_distr. cbn. apply next_state_previous.
Qed.

(** The whole loop on a stream that ends with the end-of-track event. *)
Lemma loop_whole evs dt b rest fuel : stream_bytes None (evs ++ [(dt, MEndOfTrack)]) b ->
  Forall (fun te => event_ok (snd te)) evs -> Forall not_end evs -> (length evs < fuel)%nat ->
  exists s, parse_loop fuel start_state (at_ [] (b ++ rest)) = (at_ b rest, Ok s) /\
    ps_events s = ps_events (fold_left next_state evs start_state) /\
    ps_signatures s = ps_signatures (fold_left next_state evs start_state).
Proof.
  intros Hs Hok Hne Hf. destruct (stream_snoc _ _ _ _ Hs) as (b1 & d & b2 & p & -> & H1 & H2 & H3 & H4).
  cbn [fst snd] in *. destruct fuel as [|fuel]; [lia|].
  replace (S fuel) with (length evs + S (fuel - length evs))%nat by lia.
  rewrite <- !app_assoc. erewrite loop_stream; [|exact H1|reflexivity|exact Hok|exact Hne].
  rewrite (loop_end _ _ dt); [|assumption|rewrite fold_previous; subst p; exact H3].
  eexists. split; [reflexivity|]. split; reflexivity.
Qed.

(** ** Contents of the state *)
Lemma dict_get_set {A} (d : dict A) k v k' : dict_get (dict_set d k v) k' = if k' =? k then Some v else dict_get d k'.
Proof.
  induction d as [|[k0 v0] r IH]; cbn [dict_set dict_get]; [reflexivity|].
  destruct (k =? k0) eqn:E; cbn [dict_get].
  - destruct (k' =? k) eqn:E2; [reflexivity|]. replace (k' =? k0) with false by lia. reflexivity.
  - rewrite IH. destruct (k' =? k0) eqn:E2; [|reflexivity]. replace (k' =? k) with false by lia. reflexivity.
Qed.
Lemma dict_get_none {A} (d : dict A) k : dict_get d k = None <-> ~ In k (map fst d).
Proof.
  induction d as [|[k0 v0] r IH]; cbn; [tauto|]. destruct (k =? k0) eqn:E; [split; [discriminate|intros H; exfalso; apply H; left; lia]|].
  rewrite IH. split; intros H; [intros [H1|H1]; [lia|tauto]|tauto].
Qed.
Lemma dict_set_keys {A} (d : dict A) k v : map fst (dict_set d k v) =
  if in_dec Z.eq_dec k (map fst d) then map fst d else map fst d ++ [k].
Proof.
  induction d as [|[k0 v0] r IH]; cbn [dict_set map fst]; [reflexivity|].
  destruct (k =? k0) eqn:E; cbn [map fst].
  - destruct (in_dec Z.eq_dec k (k0 :: map fst r)) as [|H]; [f_equal; lia|]. exfalso. apply H. left. lia.
  - rewrite IH. destruct (in_dec Z.eq_dec k (map fst r)) as [H|H];
      destruct (in_dec Z.eq_dec k (k0 :: map fst r)) as [H'|H']; cbn; try reflexivity.
    + exfalso. apply H'. right. exact H.
    + destruct H' as [H'|H']; [lia|tauto].
Qed.
Lemma dict_set_nodup {A} (d : dict A) k v : NoDup (map fst d) -> NoDup (map fst (dict_set d k v)).
Proof.
  intros H. rewrite dict_set_keys. destruct (in_dec Z.eq_dec k (map fst d)) as [|Hn]; [exact H|].
  apply NoDup_rev in H. rewrite <- (rev_involutive (map fst d ++ [k])). apply NoDup_rev.
  rewrite rev_app_distr. cbn. constructor; [|exact H]. rewrite <- in_rev. exact Hn.
Qed.
Lemma dict_get_in {A} (d : dict A) k v : NoDup (map fst d) -> (dict_get d k = Some v <-> In (k, v) d).
Proof.
  induction d as [|[k0 v0] r IH]; cbn; intros Hn; [split; [discriminate|tauto]|].
  inversion Hn as [|? ? Hx Hr]; subst. destruct (k =? k0) eqn:E.
  - assert (k = k0) by lia. subst k0. split; intros H.
    + injection H as ->. left. reflexivity.
    + destruct H as [H|H]; [congruence|]. exfalso. apply Hx. apply in_map_iff. exists (k, v). auto.
  - rewrite (IH Hr). split; intros H; [right; exact H|]. destruct H as [H|H]; [injection H as ->; lia|exact H].
Qed.

(** The model's form of a note event. *)
Definition ev_of (e : note_event) : Z * event :=
  (ne_time e, if ne_on e then EvNoteOn (ne_channel e) (ne_pitch e) (ne_velocity e)
              else EvNoteOff (ne_channel e) (ne_pitch e) (ne_velocity e)).

Definition listed (d : dict (list (Z * event))) (c : Z) : list (Z * event) :=
  match dict_get d c with Some l => l | None => [] end.

Lemma listed_append d c x c' : listed (append_event d c x) c' = listed d c' ++ (if c' =? c then [x] else []).
Proof.
  unfold listed, append_event. rewrite dict_get_set. destruct (c' =? c) eqn:E; [|rewrite app_nil_r; reflexivity].
  assert (c' = c) by lia. subst c'. destruct (dict_get d c); reflexivity.
Qed.

(** Every channel present has an event. *)
Definition events_wf (d : dict (list (Z * event))) : Prop :=
  NoDup (map fst d) /\ forall c, dict_get d c <> Some [].

Lemma append_wf d c x : events_wf d -> events_wf (append_event d c x).
Proof.
  intros [H1 H2]. split; [apply dict_set_nodup, H1|]. intros c'. unfold append_event. rewrite dict_get_set.
  destruct (c' =? c); [|apply H2]. destruct (dict_get d c) as [l|]; [|discriminate]. destruct l; discriminate.
Qed.

Lemma fold_events : forall evs s c, events_wf (ps_events s) ->
  let s' := fold_left next_state evs s in
  events_wf (ps_events s') /\
  listed (ps_events s') c = listed (ps_events s) c ++
    map ev_of (on_channel c (flat_map note_event_of (timed (ps_time s) evs))).
Proof.
  induction evs as [|[dt e] r IH]; intros s c Hw; cbn zeta in *.
  - cbn [fold_left timed flat_map on_channel filter map]. rewrite app_nil_r. auto.
  - cbn [fold_left]. specialize (IH (next_state s (dt, e)) c).
    assert (Hw' : events_wf (ps_events (next_state s (dt, e)))).
    { destruct e; cbn [next_state snd fst ps_events]; try exact Hw; apply append_wf, Hw. }
    destruct (IH Hw') as [I1 I2]. split; [exact I1|]. rewrite I2.
    assert (Ht : ps_time (next_state s (dt, e)) = ps_time s + dt) by (destruct e; reflexivity).
    rewrite Ht. cbn [timed flat_map]. unfold on_channel. rewrite filter_app, map_app. rewrite app_assoc. f_equal.
    destruct e; cbn [next_state snd fst ps_events note_event_of filter map]; rewrite ?app_nil_r; try reflexivity.
    + rewrite listed_append. cbn [ne_channel]. rewrite (Z.eqb_sym c). destruct (channel =? c); reflexivity.
    + rewrite listed_append. cbn [ne_channel]. rewrite (Z.eqb_sym c).
      destruct (channel =? c); [|reflexivity]. cbn [to_event map]. unfold ev_of. cbn.
      destruct (velocity =? 0); reflexivity.
Qed.

Lemma fold_signatures : forall evs s,
  ps_signatures (fold_left next_state evs s) =
  fold_left (fun d x => dict_set d (fst x) (sig_of_event (fst (snd x)) (snd (snd x))))
    (signatures_of (ps_global s) evs) (ps_signatures s).
Proof.
  induction evs as [|[dt e] r IH]; intros s; [reflexivity|].
  cbn [fold_left]. rewrite IH. destruct e; reflexivity.
Qed.

Lemma fold_sig_get : forall l d c,
  dict_get (fold_left (fun d x => dict_set d (fst x) (sig_of_event (fst (snd x)) (snd (snd x)))) l d) c =
  match last_signature c l with Some (nn, dd) => Some (sig_of_event nn dd) | None => dict_get d c end.
Proof.
  induction l as [|[p [nn dd]] l IH] using rev_ind; intros d c; [reflexivity|].
  rewrite fold_left_app. cbn [fold_left fst snd]. rewrite dict_get_set. unfold last_signature in *.
  rewrite filter_app, rev_app_distr. cbn [filter fst]. rewrite (Z.eqb_sym c). destruct (p =? c) eqn:E; [reflexivity|].
  cbn [rev app]. apply IH.
Qed.

(** What the main loop leaves behind, in terms of the stream. *)
Lemma parse_stream evs dt b rest fuel : stream_bytes None (evs ++ [(dt, MEndOfTrack)]) b ->
  Forall (fun te => event_ok (snd te)) evs -> Forall not_end evs -> (length evs < fuel)%nat ->
  exists s, parse_loop fuel start_state (at_ [] (b ++ rest)) = (at_ b rest, Ok s) /\
    events_wf (ps_events s) /\
    (forall c, listed (ps_events s) c = map ev_of (on_channel c (note_events_of evs))) /\
    (forall c, dict_get (ps_signatures s) c =
       match last_signature c (signatures_of (-1) evs) with
       | Some (nn, dd) => Some (sig_of_event nn dd) | None => None end).
Proof.
  intros Hs Hok Hne Hf. destruct (loop_whole evs dt b rest fuel Hs Hok Hne Hf) as (s & E & He & Hg).
  exists s. split; [exact E|]. rewrite He, Hg.
  assert (Hw : events_wf (ps_events start_state)) by (split; [constructor|intros c; discriminate]).
  split; [apply (fold_events evs start_state 0 Hw)|]. split; intros c.
  - destruct (fold_events evs start_state c Hw) as [_ ->]. reflexivity.
  - rewrite fold_signatures, fold_sig_get. reflexivity.
Qed.
