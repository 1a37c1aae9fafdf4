(** What dump writes (C32-C36). *)
From Coq Require Import ZArith QArith Qround List Bool Lia ZifyBool Permutation Sorted.
From Verif Require Import Py PyFloat PySort Signature Tone Note Track MidiWriter MidiReader
  SpecBase TrackSpec MidiSpec DumpSpec SigFacts SigProps SortFacts TrackFacts VarLenFacts TimeFacts VelocityFacts.
Import ListNotations.
Open Scope Z_scope.

(** ** A stable sort by time that commutes with maps *)
Fixpoint tinsert {X} (x : Z * X) (l : list (Z * X)) : list (Z * X) :=
  match l with
  | [] => [x]
  | y :: r => if fst x <=? fst y then x :: l else y :: tinsert x r
  end.
Fixpoint tsort {X} (l : list (Z * X)) : list (Z * X) :=
  match l with [] => [] | x :: r => tinsert x (tsort r) end.

Definition by_time {X} (a b : Z * X) : Prop := fst a <= fst b.

Lemma tinsert_in {X} (x y : Z * X) l : In y (tinsert x l) <-> y = x \/ In y l.
Proof.
  induction l as [|z l IH]; cbn [tinsert]; [cbn; intuition congruence|].
  destruct (fst x <=? fst z); cbn [In]; [intuition congruence|]. rewrite IH. intuition congruence.
Qed.
Lemma tinsert_perm {X} (x : Z * X) l : Permutation (tinsert x l) (x :: l).
Proof.
  induction l as [|z l IH]; cbn [tinsert]; [apply Permutation_refl|].
  destruct (fst x <=? fst z); [apply Permutation_refl|].
  eapply perm_trans; [apply perm_skip, IH|apply perm_swap].
Qed.
Lemma tsort_perm {X} (l : list (Z * X)) : Permutation (tsort l) l.
Proof.
  induction l as [|x l IH]; cbn [tsort]; [constructor|].
  eapply perm_trans; [apply tinsert_perm|apply perm_skip, IH].
Qed.
Lemma tinsert_sorted {X} (x : Z * X) l : StronglySorted by_time l -> StronglySorted by_time (tinsert x l).
Proof.
  induction 1 as [|z l Hs IH Hz]; cbn [tinsert]; [repeat constructor|].
  destruct (Z.leb_spec (fst x) (fst z)) as [L|L].
  - constructor; [constructor; assumption|]. constructor; [exact L|].
    eapply Forall_impl; [|exact Hz]. intros a Ha. unfold by_time in *. lia.
  - constructor; [exact IH|]. apply Forall_forall. intros y Hy. apply tinsert_in in Hy.
    destruct Hy as [->|Hy]; [unfold by_time; lia|]. rewrite Forall_forall in Hz. apply Hz, Hy.
Qed.
Lemma tsort_sorted {X} (l : list (Z * X)) : StronglySorted by_time (tsort l).
Proof. induction l as [|x l IH]; cbn [tsort]; [constructor|]. apply tinsert_sorted, IH. Qed.

Lemma tinsert_filter {X} t (x : Z * X) l :
  filter (fun y => fst y =? t) (tinsert x l) = filter (fun y => fst y =? t) (x :: l).
Proof.
  induction l as [|z l IH]; cbn [tinsert]; [reflexivity|].
  destruct (Z.leb_spec (fst x) (fst z)) as [L|L]; [reflexivity|].
  cbn [filter] in *. rewrite IH. destruct (fst x =? t) eqn:E1, (fst z =? t) eqn:E2; try reflexivity. lia.
Qed.
Lemma tsort_filter {X} t (l : list (Z * X)) : filter (fun y => fst y =? t) (tsort l) = filter (fun y => fst y =? t) l.
Proof.
  induction l as [|x l IH]; cbn [tsort]; [reflexivity|]. rewrite tinsert_filter. cbn [filter]. rewrite IH. reflexivity.
Qed.

Lemma stable_unique {X} : forall l m : list (Z * X), StronglySorted by_time l -> StronglySorted by_time m ->
  (forall t, filter (fun y => fst y =? t) l = filter (fun y => fst y =? t) m) -> l = m.
Proof.
  induction l as [|x l IH]; intros m Hl Hm H.
  - destruct m as [|y m]; [reflexivity|]. specialize (H (fst y)). cbn in H. rewrite Z.eqb_refl in H. discriminate.
  - destruct m as [|y m]; [specialize (H (fst x)); cbn in H; rewrite Z.eqb_refl in H; discriminate|].
    inversion Hl as [|? ? Hl1 Hl2]; subst. inversion Hm as [|? ? Hm1 Hm2]; subst.
    assert (Hin : forall z (a b : list (Z * X)), filter (fun y => fst y =? fst z) a = filter (fun y => fst y =? fst z) b -> In z a -> In z b).
    { intros z a b E Hz. assert (In z (filter (fun y => fst y =? fst z) a)) by (apply filter_In; split; [exact Hz|apply Z.eqb_refl]).
      rewrite E in H0. apply filter_In in H0. apply H0. }
    assert (Hf : fst x = fst y).
    { assert (H1 : In x (y :: m)) by (eapply Hin; [apply H|left; reflexivity]).
      assert (H2 : In y (x :: l)) by (eapply Hin; [symmetry; apply H|left; reflexivity]).
      rewrite Forall_forall in Hl2, Hm2. unfold by_time in *.
      destruct H1 as [H1|H1]; [congruence|]. destruct H2 as [H2|H2]; [congruence|].
      apply Hm2 in H1. apply Hl2 in H2. lia. }
    pose proof (H (fst x)) as Hx. cbn [filter] in Hx. rewrite <- Hf, Z.eqb_refl in Hx. injection Hx as -> Hx.
    f_equal. apply IH; [assumption..|]. intros t. specialize (H t). cbn [filter] in H. destruct (fst y =? t); [injection H; auto|exact H].
Qed.

Lemma tinsert_map {X Y} (f : X -> Y) x l :
  tinsert (fst x, f (snd x)) (map (fun e => (fst e, f (snd e))) l) = map (fun e => (fst e, f (snd e))) (tinsert x l).
Proof.
  induction l as [|z l IH]; [reflexivity|]. cbn [map tinsert fst]. destruct (fst x <=? fst z); [reflexivity|].
  cbn [map]. rewrite IH. reflexivity.
Qed.
Lemma tsort_map {X Y} (f : X -> Y) l :
  tsort (map (fun e => (fst e, f (snd e))) l) = map (fun e => (fst e, f (snd e))) (tsort l).
Proof. induction l as [|x l IH]; [reflexivity|]. cbn [map tsort]. rewrite IH. apply tinsert_map. Qed.

Lemma sort_events_tsort sort l : sort_contract sort -> sort_events sort l = tsort l.
Proof.
  intros Hs. unfold sort_events. set (lt := fun a b : Z * bytes => fst a <? fst b).
  apply stable_unique.
  - apply (sort_sorted_gen sort Hs lt (fun _ => True)); unfold by_time, lt.
    + apply Forall_forall. auto.
    + intros x y z. lia.
    + intros x y _ _. lia.
    + intros x y _ _. lia.
  - apply tsort_sorted.
  - intros t. rewrite tsort_filter. apply (sort_filter_stable sort Hs lt (fun _ => True)); unfold lt.
    + intros x y _ _. lia.
    + intros x y z _ _ _. lia.
    + intros x y z _ _ _. lia.
    + apply Forall_forall. auto.
    + assert (Hall : Forall (fun y : Z * bytes => fst y = t) (filter (fun y => fst y =? t) l)).
      { apply Forall_forall. intros y Hy. apply filter_In in Hy. lia. }
      revert Hall. generalize (filter (fun y : Z * bytes => fst y =? t) l). induction l0 as [|y r IH]; intros Hall; [constructor|].
      inversion Hall as [|? ? Hy Hr]; subst. constructor; [apply IH, Hr|].
      eapply Forall_impl; [|exact Hr]. intros a Ha. cbn in Ha. lia.
Qed.

(** ** One note *)
Lemma lor_status base c : (base = 128 \/ base = 144) -> 0 <= c <= 15 -> Z.lor base c = base + c.
Proof.
  intros Hb Hc.
  assert (T : forallb (fun k => (Z.lor 128 (Z.of_nat k) =? 128 + Z.of_nat k) && (Z.lor 144 (Z.of_nat k) =? 144 + Z.of_nat k)) (seq 0 16) = true)
    by (vm_compute; reflexivity).
  rewrite forallb_forall in T. specialize (T (Z.to_nat c) ltac:(apply in_seq; lia)).
  rewrite Z2Nat.id in T by lia. destruct Hb as [->| ->]; lia.
Qed.

Definition midi_pitch (w : writer) (n : note) : Z := pitch (n_tone n) + w_delta w.
Definition in_range (w : writer) (n : note) : Prop := 0 <= midi_pitch w n <= 127.
Definition vbyte (v : float) : Z := Qfloor (product v).

Lemma format_note_on_ok w n : writer_ok w -> valid_note n -> in_range w n ->
  format_note_on w n = Ok [144 + w_channel w; midi_pitch w n; vbyte (n_velocity n)].
Proof.
  intros (_ & _ & Hc) [_ Hv] Hr. unfold format_note_on. fold (midi_pitch w n). unfold in_range in Hr.
  replace ((0 <=? midi_pitch w n) && (midi_pitch w n <=? 127)) with true by lia. cbn [negb].
  destruct (velocity_byte_eq _ Hv) as [E HB]. rewrite E. cbn [bind]. fold (vbyte (n_velocity n)) in *.
  rewrite lor_status by (auto || lia). rewrite !to_bytes_1 by lia. reflexivity.
Qed.
Lemma format_note_off_ok w n : writer_ok w -> in_range w n ->
  format_note_off w n = Ok [128 + w_channel w; midi_pitch w n; 64].
Proof.
  intros (_ & _ & Hc) Hr. unfold format_note_off. fold (midi_pitch w n). unfold in_range in Hr.
  replace ((0 <=? midi_pitch w n) && (midi_pitch w n <=? 127)) with true by lia. cbn [negb].
  rewrite lor_status by (auto || lia). rewrite !to_bytes_1 by lia. reflexivity.
Qed.
Lemma format_note_on_err w n : ~ in_range w n -> format_note_on w n = Err ValueError.
Proof.
  intros Hr. unfold format_note_on. fold (midi_pitch w n). unfold in_range in Hr.
  replace ((0 <=? midi_pitch w n) && (midi_pitch w n <=? 127)) with false by lia. reflexivity.
Qed.

(** ** The note events *)
Definition onoff (w : writer) (e : entry) : list (Z * midi_event) :=
  let on := pulses (w_ppq w) (sval (fst e)) in
  let len := pulses (w_ppq w) (sval (n_duration (snd e))) in
  [(on, MNoteOn (w_channel w) (midi_pitch w (snd e)) (vbyte (n_velocity (snd e))));
   (on + len, MNoteOff (w_channel w) (midi_pitch w (snd e)) 64)].

(** The bytes of the events the writer produces (status byte always present). *)
Definition wire (e : midi_event) : bytes :=
  status_of e ::
  match e with
  | MNoteOff _ p v | MNoteOn _ p v => [p; v]
  | MOther _ d => d
  | MTimeSignature nn dd cc bb => [88; 4; nn; dd; cc; bb]
  | MChannelPrefix c => [32; 1; c]
  | MEndOfTrack => [47; 0]
  | MMeta k d => k :: Z.of_nat (length d) :: d
  end.
Definition on_wire (te : Z * midi_event) : Z * bytes := (fst te, wire (snd te)).

Lemma note_events_ok w items : writer_ok w -> Forall entry_ok items -> Forall (fun e => in_range w (snd e)) items ->
  note_events w items = Ok (map on_wire (flat_map (onoff w) items)).
Proof.
  intros Hw. induction items as [|[p n] r IH]; intros Hok Hr; [reflexivity|].
  inversion Hok as [|? ? [Hp Hn] Hok']; subst. inversion Hr as [|? ? Hr1 Hr2]; subst. cbn [fst snd] in *.
  cbn [note_events]. rewrite signature_to_pulses_ok by assumption. cbn [bind].
  rewrite format_note_on_ok by assumption. cbn [bind].
  rewrite signature_to_pulses_ok by (assumption || apply Hn). cbn [bind].
  rewrite format_note_off_ok by assumption. cbn [bind]. rewrite IH by assumption. reflexivity.
Qed.

Lemma note_events_err w items : writer_ok w -> Forall entry_ok items -> ~ Forall (fun e => in_range w (snd e)) items ->
  note_events w items = Err ValueError.
Proof.
  intros Hw. induction items as [|[p n] r IH]; intros Hok Hr; [exfalso; apply Hr; constructor|].
  inversion Hok as [|? ? [Hp Hn] Hok']; subst. cbn [fst snd] in *.
  cbn [note_events]. rewrite signature_to_pulses_ok by assumption. cbn [bind].
  assert (D : {in_range w n} + {~ in_range w n}).
  { unfold in_range. destruct (Z_le_dec 0 (midi_pitch w n)), (Z_le_dec (midi_pitch w n) 127); [left; lia|right; lia..]. }
  destruct D as [D|D]; [|rewrite format_note_on_err by exact D; reflexivity].
  rewrite format_note_on_ok by assumption. cbn [bind].
  rewrite signature_to_pulses_ok by (assumption || apply Hn). cbn [bind].
  rewrite format_note_off_ok by assumption. cbn [bind]. rewrite IH; [reflexivity|assumption|].
  intros H. apply Hr. constructor; assumption.
Qed.

(** ** Time signature and tempo *)
Lemma bit_length_pow2 k : 0 <= k -> bit_length (2 ^ k) - 1 = k.
Proof.
  intros Hk. unfold bit_length. assert (0 < 2 ^ k) by (apply Z.pow_pos_nonneg; lia).
  replace (2 ^ k =? 0) with false by lia. rewrite Z.abs_eq by lia. rewrite Z.log2_pow2 by lia. lia.
Qed.

Lemma format_signature_ok s cc : valid_sig s -> sig_fits s -> 0 <= cc <= 255 ->
  format_signature s cc 8 = Ok (wire (MTimeSignature (nominator s) (Z.log2 (denominator s)) cc 8)) /\
  event_ok (MTimeSignature (nominator s) (Z.log2 (denominator s)) cc 8).
Proof.
  intros [Hn (k & Hk & Hd)] [Hf1 Hf2] Hc. unfold format_signature. rewrite Hd in *. rewrite bit_length_pow2 by lia.
  rewrite Z.log2_pow2 by lia. apply Z.pow_le_mono_r_iff in Hf2; [|lia|lia].
  rewrite !to_bytes_1 by lia. cbn [bind event_ok]. unfold is_byte. split; [reflexivity|lia].
Qed.
Lemma format_signature_err s cc : valid_sig s -> ~ (sig_fits s /\ 0 <= cc <= 255) ->
  format_signature s cc 8 = Err OverflowError.
Proof.
  intros [Hn (k & Hk & Hd)] H. unfold format_signature. rewrite Hd in *. rewrite bit_length_pow2 by lia.
  assert (P : forall a, 256 ^ Z.of_nat 1 = a -> a = 256) by (intros; subst; reflexivity).
  destruct (Z_le_dec (nominator s) 255) as [H1|H1]; [|rewrite to_bytes_be_err by (rewrite (P _ eq_refl); lia); reflexivity].
  rewrite to_bytes_1 by lia. cbn [bind].
  destruct (Z_le_dec k 255) as [H2|H2]; [|rewrite to_bytes_be_err by (rewrite (P _ eq_refl); lia); reflexivity].
  rewrite to_bytes_1 by lia. cbn [bind]. rewrite to_bytes_be_err; [reflexivity|].
  rewrite (P _ eq_refl). intros Hc. apply H. split; [|lia]. split; [exact H1|]. rewrite Hd. apply Z.pow_le_mono_r; lia.
Qed.

Lemma format_tempo_ok k : 0 <= k < 2 ^ 24 ->
  format_tempo k = Ok (wire (MMeta 81 (be_bytes 3 k))) /\ event_ok (MMeta 81 (be_bytes 3 k)).
Proof.
  intros Hk. unfold format_tempo. rewrite to_bytes_be_ok by (change (256 ^ Z.of_nat 3) with (2 ^ 24); exact Hk). cbn [bind].
  assert (E : rev (le_digits 3 k) = be_bytes 3 k).
  { unfold be_bytes. cbn [le_digits seq map]. change (256 ^ Z.of_nat 0) with 1. change (256 ^ Z.of_nat 1) with 256.
    change (256 ^ Z.of_nat 2) with (256 * 256). rewrite Z.div_1_r, Z.div_div by lia. reflexivity. }
  split; [rewrite E; reflexivity|]. cbn [event_ok]. unfold is_byte at 1. repeat split; try lia.
  rewrite <- E. apply Forall_rev, le_digits_byte.
Qed.

(** ** The body *)
Definition plain (evs : list (Z * midi_event)) (b : bytes) : Prop :=
  format_events (map on_wire evs) = Ok b.

(** Events the writer uses: its own encoding is one of the encodings of the specification. *)
Definition small_meta (e : midi_event) : Prop := match e with MMeta _ d => (length d < 128)%nat | _ => True end.

Lemma vlq_small k : 0 <= k < 128 -> vlq_of [k] k.
Proof. intros H. exists [k]. repeat split; [discriminate|repeat constructor; assumption || (unfold is_digit; lia)]. Qed.

Lemma wire_bytes previous e : small_meta e -> event_bytes previous e (wire e).
Proof.
  intros Hs. unfold wire. apply B_explicit. destruct e; try constructor.
  - apply (P_meta (MTimeSignature nn dd cc bb) 88 [nn; dd; cc; bb] [4]); [reflexivity|]. apply vlq_small. cbn. lia.
  - apply (P_meta (MChannelPrefix channel) 32 [channel] [1]); [reflexivity|]. apply vlq_small. cbn. lia.
  - apply (P_meta MEndOfTrack 47 [] [0]); [reflexivity|]. apply vlq_small. cbn. lia.
  - apply (P_meta (MMeta kind data) kind data [Z.of_nat (length data)]); [reflexivity|]. apply vlq_small. cbn in Hs. lia.
Qed.

Lemma format_events_ok : forall evs previous, Forall (fun te => 0 <= fst te /\ small_meta (snd te)) evs ->
  exists b, plain evs b /\ stream_bytes previous evs b.
Proof.
  induction evs as [|[dt e] r IH]; intros previous H.
  - exists []. split; [reflexivity|constructor].
  - inversion H as [|? ? [H1 H2] H3]; subst. cbn [fst snd] in *.
    destruct (IH (Some (status_of e)) H3) as (b & Hb & Hs). destruct (format_var_len_vlq dt H1) as (d & Ed & Hd).
    exists (d ++ wire e ++ b). split.
    + unfold plain in *. cbn [map on_wire fst snd format_events]. rewrite Ed. cbn [bind]. rewrite Hb. reflexivity.
    + constructor; [exact Hd|apply wire_bytes, H2|exact Hs].
Qed.

(** ** Delta times *)
Fixpoint deltas {X} (last : Z) (l : list (Z * X)) : list (Z * X) :=
  match l with [] => [] | (t, e) :: r => (t - last, e) :: deltas t r end.

Lemma delta_events_map last evs : delta_events last (map on_wire evs) = map on_wire (deltas last evs).
Proof. revert last. induction evs as [|[t e] r IH]; intros last; [reflexivity|]. cbn. rewrite IH. reflexivity. Qed.

Lemma timed_deltas : forall evs last, timed last (deltas last evs) = evs.
Proof.
  induction evs as [|[t e] r IH]; intros last; [reflexivity|]. cbn [deltas timed].
  replace (last + (t - last)) with t by lia. rewrite IH. reflexivity.
Qed.

Lemma deltas_nonneg {X} : forall (l : list (Z * X)) last, StronglySorted by_time l -> Forall (fun e => last <= fst e) l ->
  Forall (fun e => 0 <= fst e) (deltas last l).
Proof.
  induction l as [|[t e] r IH]; intros last Hs Hl; cbn [deltas]; [constructor|].
  inversion Hs as [|? ? Hs1 Hs2]; subst. inversion Hl as [|? ? Hl1 Hl2]; subst. cbn [fst] in *.
  constructor; [cbn; lia|]. apply IH; [exact Hs1|exact Hs2].
Qed.

Lemma deltas_snd {X} : forall (l : list (Z * X)) last, map snd (deltas last l) = map snd l.
Proof. induction l as [|[t e] r IH]; intros last; [reflexivity|]. cbn. rewrite IH. reflexivity. Qed.

Lemma timed_app : forall a b now, timed now (a ++ b) = timed now a ++ timed (fold_left (fun t te => t + fst te) a now) b.
Proof. induction a as [|[dt e] r IH]; intros b now; [reflexivity|]. cbn. rewrite IH. reflexivity. Qed.

(** ** All events of dump *)
Definition note_stream (w : writer) (items : list entry) : list (Z * midi_event) := tsort (flat_map (onoff w) items).

Definition events_of (w : writer) (s : sig) (k : Z) (items : list entry) : list (Z * midi_event) :=
  [(0, MTimeSignature (nominator s) (Z.log2 (denominator s)) (w_ppq w) 8); (0, MMeta 81 (be_bytes 3 k))] ++
  deltas 0 (note_stream w items) ++ [(0, MEndOfTrack)].

Lemma onoff_nonneg w items : writer_ok w -> Forall entry_ok items -> Forall (fun te => 0 <= fst te) (flat_map (onoff w) items).
Proof.
  intros Hw Hok. apply Forall_flat_map. eapply Forall_impl; [|exact Hok]. intros [p n] [Hp [Hd _]]. cbn [fst snd] in *.
  destruct Hw as (Hppq & _). unfold onoff. cbn [fst snd].
  pose proof (pulses_nonneg (w_ppq w) (sval p) ltac:(lia) (sval_nonneg _ Hp)).
  pose proof (pulses_nonneg (w_ppq w) (sval (n_duration n)) ltac:(lia) (sval_nonneg _ Hd)).
  constructor; [cbn [fst]; lia|]. constructor; [cbn [fst]; lia|constructor].
Qed.

Lemma all_events_ok sort w s items k : sort_contract sort -> writer_ok w -> valid_sig s -> Forall entry_ok items ->
  Forall (fun e => in_range w (snd e)) items -> sig_fits s -> w_ppq w <= 255 -> tempo_of_bpm (w_bpm w) = Ok k -> 0 <= k < 2 ^ 24 ->
  all_events sort w s items = Ok (map on_wire (events_of w s k items)).
Proof.
  intros Hsort Hw Hs Hok Hr Hf Hp Ek Hk. unfold all_events. rewrite note_events_ok by assumption. cbn [bind].
  rewrite sort_events_tsort by exact Hsort.
  unfold on_wire. rewrite (tsort_map wire). fold (note_stream w items). fold on_wire.
  destruct (format_signature_ok s (w_ppq w) Hs Hf ltac:(destruct Hw; lia)) as [-> _]. cbn [bind].
  rewrite Ek. cbn [bind]. destruct (format_tempo_ok k Hk) as [-> _]. cbn [bind].
  change (map (fun e => (fst e, wire (snd e))) (note_stream w items)) with (map on_wire (note_stream w items)).
  rewrite delta_events_map. unfold events_of. rewrite !map_app. reflexivity.
Qed.

(** Events of dump are well-formed. *)
Lemma onoff_ok w items : writer_ok w -> Forall entry_ok items -> Forall (fun e => in_range w (snd e)) items ->
  Forall (fun te => event_ok (snd te) /\ small_meta (snd te) /\ snd te <> MEndOfTrack) (flat_map (onoff w) items).
Proof.
  intros (_ & _ & Hc) Hok Hr. apply Forall_flat_map. rewrite Forall_forall in *. intros [p n] Hin.
  destruct (Hok _ Hin) as [_ [_ Hv]]. specialize (Hr _ Hin). cbn [fst snd] in *. unfold in_range in Hr.
  destruct (velocity_byte_eq _ Hv) as [_ HB]. fold (vbyte (n_velocity n)) in HB.
  unfold onoff. cbn [fst snd]. unfold is_byte.
  constructor; [cbn [snd event_ok small_meta]; unfold is_byte; repeat split; try lia; discriminate|].
  constructor; [cbn [snd event_ok small_meta]; unfold is_byte; repeat split; try lia; discriminate|constructor].
Qed.

Lemma deltas_forall (P : midi_event -> Prop) l last : Forall (fun te => P (snd te)) l -> Forall (fun te => P (snd te)) (deltas last l).
Proof.
  intros H. rewrite <- (Forall_map snd P). rewrite deltas_snd. rewrite (Forall_map snd P). exact H.
Qed.

Lemma note_stream_ok w items : writer_ok w -> Forall entry_ok items -> Forall (fun e => in_range w (snd e)) items ->
  Forall (fun te => event_ok (snd te) /\ small_meta (snd te) /\ snd te <> MEndOfTrack) (note_stream w items).
Proof.
  intros Hw Hok Hr. eapply Permutation_Forall; [apply Permutation_sym, tsort_perm|]. apply onoff_ok; assumption.
Qed.

Lemma note_deltas_nonneg w items : writer_ok w -> Forall entry_ok items ->
  Forall (fun te => 0 <= fst te) (deltas 0 (note_stream w items)).
Proof.
  intros Hw Hok. apply deltas_nonneg; [apply tsort_sorted|].
  eapply Permutation_Forall; [apply Permutation_sym, tsort_perm|]. apply onoff_nonneg; assumption.
Qed.

Definition front (w : writer) (s : sig) (k : Z) : list (Z * midi_event) :=
  [(0, MTimeSignature (nominator s) (Z.log2 (denominator s)) (w_ppq w) 8); (0, MMeta 81 (be_bytes 3 k))].

Lemma front_ok w s k : writer_ok w -> valid_sig s -> sig_fits s -> w_ppq w <= 255 -> 0 <= k < 2 ^ 24 ->
  Forall (fun te => 0 <= fst te /\ event_ok (snd te) /\ small_meta (snd te) /\ snd te <> MEndOfTrack) (front w s k).
Proof.
  intros Hw Hs Hf Hp Hk. unfold front.
  destruct (format_signature_ok s (w_ppq w) Hs Hf ltac:(destruct Hw; lia)) as [_ H1].
  destruct (format_tempo_ok k Hk) as [_ H2].
  constructor; [cbn [fst snd small_meta]; repeat split; try lia; try exact H1; discriminate || apply H1|].
  constructor; [|constructor]. cbn [fst snd small_meta]. split; [lia|]. split; [exact H2|]. split; [cbn; lia|discriminate].
Qed.

(** Everything about the events of dump but the end-of-track event. *)
Definition main_events (w : writer) (s : sig) (k : Z) (items : list entry) : list (Z * midi_event) :=
  front w s k ++ deltas 0 (note_stream w items).

Lemma events_of_main w s k items : events_of w s k items = main_events w s k items ++ [(0, MEndOfTrack)].
Proof. unfold events_of, main_events. rewrite <- app_assoc. reflexivity. Qed.

Lemma main_events_ok w s k items : writer_ok w -> valid_sig s -> sig_fits s -> w_ppq w <= 255 -> 0 <= k < 2 ^ 24 ->
  Forall entry_ok items -> Forall (fun e => in_range w (snd e)) items ->
  Forall (fun te => 0 <= fst te /\ event_ok (snd te) /\ small_meta (snd te) /\ snd te <> MEndOfTrack) (main_events w s k items).
Proof.
  intros Hw Hs Hf Hp Hk Hok Hr. apply Forall_app. split; [apply front_ok; assumption|].
  pose proof (note_deltas_nonneg w items Hw Hok) as H1.
  pose proof (deltas_forall (fun e => event_ok e /\ small_meta e /\ e <> MEndOfTrack) _ 0 (note_stream_ok w items Hw Hok Hr)) as H2.
  rewrite Forall_forall in *. intros x Hx. split; [apply H1, Hx|apply H2, Hx].
Qed.

Lemma body_exists w s k items : writer_ok w -> valid_sig s -> sig_fits s -> w_ppq w <= 255 -> 0 <= k < 2 ^ 24 ->
  Forall entry_ok items -> Forall (fun e => in_range w (snd e)) items ->
  exists b, plain (events_of w s k items) b /\ stream_bytes None (events_of w s k items) b.
Proof.
  intros Hw Hs Hf Hp Hk Hok Hr. apply format_events_ok. rewrite events_of_main. apply Forall_app. split.
  - eapply Forall_impl; [|apply main_events_ok; eassumption]. intros te (H1 & _ & H2 & _). auto.
  - constructor; [cbn; split; [lia|exact I]|constructor].
Qed.

(** ** Chunks *)
Lemma be_bytes_le k n : be_bytes k n = rev (le_digits k n).
Proof.
  unfold be_bytes. f_equal. transitivity (map (fun i => n / 256 ^ Z.of_nat (0 + i) mod 256) (seq 0 k)); [reflexivity|].
  assert (G : forall k n s, 0 <= n \/ True -> map (fun i => n / 256 ^ Z.of_nat i mod 256) (seq s k) =
    le_digits k (n / 256 ^ Z.of_nat s)).
  { clear. induction k as [|k IH]; intros n s _; [reflexivity|]. cbn [seq map le_digits]. f_equal.
    rewrite IH by auto. rewrite Nat2Z.inj_succ, Z.pow_succ_r by lia.
    rewrite Z.div_div; [|apply Z.pow_nonzero; lia|lia]. f_equal. f_equal. ring. }
  cbn [plus]. rewrite G by auto. change (256 ^ Z.of_nat 0) with 1. rewrite Z.div_1_r. reflexivity.
Qed.
Lemma be_bytes_length k n : length (be_bytes k n) = k.
Proof. rewrite be_bytes_le, rev_length. apply le_digits_length. Qed.
Lemma to_bytes_be_bytes n len : 0 <= n < 256 ^ Z.of_nat len -> to_bytes_be n len = Ok (be_bytes len n).
Proof. intros H. rewrite be_bytes_le. apply to_bytes_be_ok, H. Qed.
Lemma from_be_bytes k n : 0 <= n < 256 ^ Z.of_nat k -> from_bytes_be (be_bytes k n) = n.
Proof. intros H. rewrite be_bytes_le. apply from_bytes_rev_le, H. Qed.
Lemma be_bytes_byte k n : Forall is_byte (be_bytes k n).
Proof. rewrite be_bytes_le. apply Forall_rev, le_digits_byte. Qed.

Lemma format_chunk_ok name body : length name = 4%nat -> Z.of_nat (length body) < 2 ^ 32 ->
  format_chunk name body = Ok (chunk name body).
Proof.
  intros Hn Hb. unfold format_chunk. rewrite Hn. change (Z.of_nat 4 =? 4) with true. cbn [negb].
  rewrite to_bytes_be_bytes; [reflexivity|]. change (256 ^ Z.of_nat 4) with (2 ^ 32). lia.
Qed.
Lemma format_chunk_err name body : length name = 4%nat -> 2 ^ 32 <= Z.of_nat (length body) ->
  format_chunk name body = Err OverflowError.
Proof.
  intros Hn Hb. unfold format_chunk. rewrite Hn. change (Z.of_nat 4 =? 4) with true. cbn [negb].
  rewrite to_bytes_be_err; [reflexivity|]. change (256 ^ Z.of_nat 4) with (2 ^ 32). lia.
Qed.

Lemma format_header_ok w : writer_ok w -> format_header_chunk w 0 1 = Ok (smf_header (w_ppq w)).
Proof.
  intros (H & _). unfold format_header_chunk. change (negb ((0 =? 0) || (0 =? 1) || (0 =? 2))) with false. cbv iota.
  rewrite !to_bytes_be_bytes; try (change (256 ^ Z.of_nat 2) with 65536; lia). cbn [bind].
  apply format_chunk_ok; [reflexivity|]. rewrite !app_length, !be_bytes_length. reflexivity.
Qed.

(** ** dump *)
Definition representable (w : writer) (s : sig) (items : list entry) : Prop :=
  Forall (fun e => in_range w (snd e)) items /\ sig_fits s /\ w_ppq w <= 255 /\ tempo_fits (w_bpm w).

(** The exception of an unrepresentable tempo. *)
Lemma tempo_err bpm : ~ tempo_fits bpm ->
  exists e, (e = ZeroDivisionError \/ e = ValueError \/ e = OverflowError) /\
    (tempo_of_bpm bpm = Err e \/ exists k, tempo_of_bpm bpm = Ok k /\ format_tempo k = Err e).
Proof.
  intros H. unfold tempo_fits in H. destruct (tempo_of_bpm bpm) as [k|e] eqn:E.
  - exists OverflowError. split; [auto|]. right. exists k. split; [reflexivity|].
    unfold format_tempo. rewrite to_bytes_be_err; [reflexivity|]. change (256 ^ Z.of_nat 3) with (2 ^ 24).
    intros Hk. apply H. exists k. auto.
  - exists e. split; [|auto]. unfold tempo_of_bpm in E. destruct (feq bpm f_zero); [injection E as <-; auto|].
    destruct (fdiv (float_of_Z 60000000) bpm) as [s|s| |s m x]; cbn in E; try discriminate; injection E as <-; auto.
Qed.

Lemma all_events_err sort w s items : sort_contract sort -> writer_ok w -> valid_sig s -> Forall entry_ok items ->
  ~ representable w s items ->
  exists e, all_events sort w s items = Err e /\
    (~ Forall (fun x : entry => in_range w (snd x)) items -> e = ValueError) /\
    (e = ValueError \/ e = OverflowError \/ e = ZeroDivisionError).
Proof.
  intros Hsort Hw Hs Hok Hn. unfold all_events.
  assert (D : Forall (fun e : entry => in_range w (snd e)) items \/ ~ Forall (fun e : entry => in_range w (snd e)) items).
  { destruct (Forall_dec (fun e : entry => in_range w (snd e))) with (l := items) as [D|D]; [|auto..].
    intros e. unfold in_range. destruct (Z_le_dec 0 (midi_pitch w (snd e))), (Z_le_dec (midi_pitch w (snd e)) 127); [left; lia|right; lia..]. }
  destruct D as [D|D]; [|rewrite note_events_err by assumption; cbn [bind]; exists ValueError; auto].
  rewrite note_events_ok by assumption. cbn [bind].
  assert (D2 : (sig_fits s /\ 0 <= w_ppq w <= 255) \/ ~ (sig_fits s /\ 0 <= w_ppq w <= 255)).
  { unfold sig_fits. generalize (2 ^ 255). intros x. lia. }
  destruct D2 as [[D2 D3]|D2].
  - destruct (format_signature_ok s (w_ppq w) Hs D2 D3) as [-> _]. cbn [bind].
    assert (D4 : ~ tempo_fits (w_bpm w)).
    { intros H. apply Hn. repeat split; try assumption; [apply D2|apply D2|lia]. }
    destruct (tempo_err _ D4) as (e & He & [E|(k & E & E')]).
    + rewrite E. cbn [bind]. exists e. split; [reflexivity|]. split; [contradiction|tauto].
    + rewrite E. cbn [bind]. rewrite E'. cbn [bind]. exists e. split; [reflexivity|]. split; [contradiction|tauto].
  - rewrite format_signature_err by assumption. cbn [bind]. exists OverflowError. split; [reflexivity|]. split; [contradiction|tauto].
Qed.

(** ** The outcome of dump *)
Lemma track_iter_sig sort t : t_signature (fst (track_iter sort t)) = t_signature t.
Proof. unfold track_iter. destruct (t_sorted t); reflexivity. Qed.

Lemma dump_good sort w t l : sort_contract sort -> writer_ok w -> Inv t l -> valid_sig (t_signature t) ->
  representable w (t_signature t) (yields sort t) ->
  exists k b, tempo_of_bpm (w_bpm w) = Ok k /\ 0 <= k < 2 ^ 24 /\
    plain (events_of w (t_signature t) k (yields sort t)) b /\
    stream_bytes None (events_of w (t_signature t) k (yields sort t)) b /\
    dump sort w t = if Z.of_nat (length b) <? 2 ^ 32
      then mkDump (smf (w_ppq w) b) (fst (track_iter sort t)) (Ok tt)
      else mkDump (smf_header (w_ppq w)) (fst (track_iter sort t)) (Err OverflowError).
Proof.
  intros Hsort Hw HI Hs (Hr & Hf & Hp & k & Ek & Hk).
  assert (Hok : Forall entry_ok (yields sort t)).
  { eapply Forall_impl; [|apply (yields_ok sort Hsort t l HI)]. intros e (H1 & _ & H2). split; assumption. }
  destruct (body_exists w _ k _ Hw Hs Hf Hp Hk Hok Hr) as (b & Hb & Hst).
  exists k, b. split; [exact Ek|]. split; [exact Hk|]. split; [exact Hb|]. split; [exact Hst|].
  unfold dump. pose proof (track_iter_sig sort t) as Esig.
  unfold yields in *. destruct (track_iter sort t) as [t' items]. cbn [fst snd] in *. rewrite Esig.
  rewrite (all_events_ok sort w _ _ k) by assumption. rewrite format_header_ok by exact Hw.
  unfold plain in Hb. rewrite Hb. cbn [bind].
  destruct (Z.ltb_spec (Z.of_nat (length b)) (2 ^ 32)) as [L|L].
  - rewrite format_chunk_ok by (reflexivity || exact L). reflexivity.
  - rewrite format_chunk_err by (reflexivity || exact L). reflexivity.
Qed.

Lemma dump_bad sort w t l : sort_contract sort -> writer_ok w -> Inv t l -> valid_sig (t_signature t) ->
  ~ representable w (t_signature t) (yields sort t) ->
  exists e, dump sort w t = mkDump [] (fst (track_iter sort t)) (Err e) /\
    (~ Forall (fun x : entry => in_range w (snd x)) (yields sort t) -> e = ValueError) /\
    (e = ValueError \/ e = OverflowError \/ e = ZeroDivisionError).
Proof.
  intros Hsort Hw HI Hs Hn.
  assert (Hok : Forall entry_ok (yields sort t)).
  { eapply Forall_impl; [|apply (yields_ok sort Hsort t l HI)]. intros e (H1 & _ & H2). split; assumption. }
  destruct (all_events_err sort w _ _ Hsort Hw Hs Hok Hn) as (e & E & H1 & H2). exists e. split; [|auto].
  unfold dump. pose proof (track_iter_sig sort t) as Esig.
  unfold yields in *. destruct (track_iter sort t) as [t' items]. cbn [fst snd] in *. rewrite Esig, E. reflexivity.
Qed.
