(** Reading MIDI files: final forms (C42-C46, C55). *)
From Coq Require Import ZArith QArith Qround Qreduction List Bool Lia ZifyBool Sorted Permutation.
From Verif Require Import Py PyFloat PySort Signature Tone Note Track MidiWriter MidiReader
  SpecBase TrackSpec MidiSpec ReaderSpec DumpSpec SigFacts SigProps FloatFacts NoteProps SortFacts TrackFacts VarLenFacts
  StreamFacts PairFacts TimeFacts VelocityFacts WriterFacts WriterProps ReadFacts LoadFacts FileFacts.
Import ListNotations.
Open Scope Z_scope.

(** ** C55 *)
Lemma c55_read : forall data i n, 0 <= n -> 0 <= i <= Z.of_nat (length data) ->
  (i + n <= Z.of_nat (length data) ->
     read n (mkReader data i) = (mkReader data (i + n), Ok (slice data i n))) /\
  (Z.of_nat (length data) < i + n -> snd (read n (mkReader data i)) = Err MIDIParsingError).
Proof.
  intros data i n Hn Hi.
  assert (HE : mkReader data i = at_ (firstn (Z.to_nat i) data) (skipn (Z.to_nat i) data)).
  { unfold at_. rewrite firstn_skipn, firstn_length. f_equal. lia. }
  pose proof (read_at n (firstn (Z.to_nat i) data) (skipn (Z.to_nat i) data) Hn) as HR. rewrite <- HE in HR.
  rewrite skipn_length in HR. split; intros H; rewrite HR.
  - replace (n <=? Z.of_nat (length data - Z.to_nat i)) with true by lia.
    f_equal.
    + unfold at_. rewrite <- app_assoc, !firstn_skipn, app_length, !firstn_length, skipn_length. f_equal. lia.
    + f_equal. pose proof (slice_at (firstn (Z.to_nat i) data) (skipn (Z.to_nat i) data) (Z.to_nat n)) as HS.
      rewrite firstn_skipn, skipn_length, firstn_length in HS. rewrite <- HS by lia. f_equal; lia.
  - replace (n <=? Z.of_nat (length data - Z.to_nat i)) with false by lia. reflexivity.
Qed.

Lemma c55_parser : forall data, Forall is_byte data ->
  parse_loop_with read shift = parse_loop /\
  let run_ := parse_loop (S (length data)) (mkPS None [] [] (-1) 0) (reader_new data) in
  parse_loop_with checked_read checked_shift (S (length data)) (mkPS None [] [] (-1) 0) (reader_new data) = run_ /\
  snd run_ <> Err KeyError /\ rd_data (fst run_) = data /\ 0 <= rd_idx (fst run_) <= Z.of_nat (length data).
Proof.
  intros data HB. split; [reflexivity|]. cbn zeta. rewrite reader_new_at. change (mkPS None [] [] (-1) 0) with start_state.
  pose proof (tracks_loop [] (S (length data)) (S (length data)) start_state [] data HB I (Nat.lt_succ_diag_r _) (le_n _)) as (p & r & H1 & H2 & H3).
  rewrite !app_nil_r in H3.
  assert (HI : rd_data (fst (parse_loop (S (length data)) start_state (at_ [] data))) = data /\
               0 <= rd_idx (fst (parse_loop (S (length data)) start_state (at_ [] data))) <= Z.of_nat (length data)).
  { rewrite H2. unfold at_. cbn [rd_data rd_idx]. cbn [app] in H1. split; [exact H1|]. rewrite <- H1, app_length. lia. }
  destruct (parse_loop (S (length data)) start_state (at_ [] data)) as [r' [s|e]]; cbn [fst snd] in *.
  - destruct H3 as [H3 _]. split; [congruence|]. split; [discriminate|exact HI].
  - destruct e; match type of H3 with _ /\ loop_err _ _ RecursionError => idtac | _ /\ _ => destruct H3 as [_ (H3 & _)]; discriminate | _ => idtac end.
    + specialize (H3 eq_refl). split; [congruence|]. split; [discriminate|exact HI].
    + destruct H3 as [H3 _]. split; [congruence|]. split; [discriminate|exact HI].
Qed.

Lemma c55_header : forall data,
  parse_header_with read = parse_header /\
  parse_header_with checked_read (reader_new data) = parse_header (reader_new data) /\
  snd (parse_header (reader_new data)) <> Err KeyError.
Proof.
  intros data. split; [reflexivity|]. rewrite reader_new_at. unfold parse_header_with, parse_header.
  unfold rbind. rewrite checked_read_at, !read_at by lia.
  destruct (2 <=? Z.of_nat (length data)); [|split; [reflexivity|discriminate]].
  rewrite checked_read_at, !read_at by lia. destruct (2 <=? Z.of_nat (length _)); [|split; [reflexivity|discriminate]].
  rewrite checked_read_at, !read_at by lia. destruct (2 <=? Z.of_nat (length _)); split; try reflexivity; discriminate.
Qed.

(** ** C42 *)
Definition only_parsing_errors (sort : sort_fn) : Prop :=
  forall m file channel, Forall is_byte file ->
  match load sort m file channel with
  | Ok _ | Err MIDIParsingError => True
  | Err ValueError => channel <> None
  | Err _ => False
  end.

Lemma c42_refuted : forall sort,
  ~ only_parsing_errors sort /\
  (exists file, Forall is_byte file /\ forall m channel, load sort m file channel = Err RecursionError) /\
  (exists file, Forall is_byte file /\ forall m channel, load sort m file channel = Err AssertionError).
Proof.
  intros sort.
  assert (H1 : exists file, Forall is_byte file /\ forall m channel, load sort m file channel = Err RecursionError).
  { exists (smf 96 [0; 60; 64; 0; 255; 47; 0]). split; [|intros m ch; vm_compute; reflexivity].
    apply Forall_forall. intros x Hx. unfold is_byte.
    assert (T : forallb (fun x => (0 <=? x) && (x <? 256)) (smf 96 [0; 60; 64; 0; 255; 47; 0]) = true) by (vm_compute; reflexivity).
    rewrite forallb_forall in T. specialize (T x Hx). lia. }
  assert (H2 : exists file, Forall is_byte file /\ forall m channel, load sort m file channel = Err AssertionError).
  { exists (smf 0 [0; 144; 60; 64; 96; 128; 60; 64; 0; 255; 47; 0]). split; [|intros m ch; vm_compute; reflexivity].
    apply Forall_forall. intros x Hx. unfold is_byte.
    assert (T : forallb (fun x => (0 <=? x) && (x <? 256)) (smf 0 [0; 144; 60; 64; 96; 128; 60; 64; 0; 255; 47; 0]) = true) by (vm_compute; reflexivity).
    rewrite forallb_forall in T. specialize (T x Hx). lia. }
  split; [|split; assumption]. intros H. destruct H1 as (file & HB & E). specialize (H (mkMR 24) file None HB).
  rewrite E in H. exact H.
Qed.

Lemma c42_partial : forall sort, sort_contract sort -> forall m file channel, Forall is_byte file ->
  match load sort m file channel with
  | Ok _ | Err MIDIParsingError => True
  | Err ValueError => channel <> None
  | Err RecursionError => no_status file
  | Err AssertionError => zero_division file
  | Err _ => False
  end.
Proof.
  intros sort Hs m file ch HB. destruct (load_any sort Hs m file HB) as [E|[[E H]|[[E H]|(q & evs & ts & _ & _ & _ & _ & E)]]]; rewrite E; [exact I|exact H|exact H|].
  destruct ch as [c|]; cbn [finish]; [|exact I]. destruct (dict_get ts c); [exact I|discriminate].
Qed.

(** ** One-track files in general *)
Lemma load_smf sort m q b rest evs dt : sort_contract sort -> 0 <= q <= 32767 ->
  stream_bytes None (evs ++ [(dt, MEndOfTrack)]) b -> evs_ok evs ->
  Z.of_nat (length (b ++ rest)) < 2 ^ 24 ->
  forall channel, load sort m (smf q (b ++ rest)) channel =
    match tracks_of m q evs with Ok ts => finish sort channel ts | Err e => Err e end.
Proof.
  intros Hs Hq Hst He HL ch. destruct (tracks_of m q evs) as [ts|e] eqn:Et.
  - eapply (load_finish sort Hs m _ ch (mkLS (Some q) (Some ts)) ts evs q); try assumption; try reflexivity; try discriminate.
    rewrite smf_split. set (n := length _). assert (Hn : exists k, n = S (S k)) by (unfold n; eexists; cbn [MThd app length]; reflexivity).
    destruct Hn as [k ->].
    rewrite load_loop_chunk; [|reflexivity|reflexivity|apply be_bytes_bytes|reflexivity].
    rewrite header_ok by lia. cbn [bind ls_tracks].
    rewrite load_loop_chunk; [|reflexivity|reflexivity|apply be_bytes_bytes|rewrite be_bytes_size by lia; apply Z.mod_small; lia].
    rewrite load_chunk_track. cbn [ls_tpq]. rewrite (parse_track_stream m q evs dt b rest Hst He), Et. reflexivity.
  - unfold load. rewrite smf_split. set (n := length _). assert (Hn : exists k, n = S (S k)) by (unfold n; eexists; cbn [MThd app length]; reflexivity).
    destruct Hn as [k ->].
    rewrite load_loop_chunk; [|reflexivity|reflexivity|apply be_bytes_bytes|reflexivity].
    rewrite header_ok by lia. cbn [bind ls_tracks].
    rewrite load_loop_chunk; [|reflexivity|reflexivity|apply be_bytes_bytes|rewrite be_bytes_size by lia; apply Z.mod_small; lia].
    rewrite load_chunk_track. cbn [ls_tpq]. rewrite (parse_track_stream m q evs dt b rest Hst He), Et. reflexivity.
Qed.

(** ** C43 *)
Definition cut_rejected (sort : sort_fn) (m : midi_reader) (p : bytes) : Prop :=
  forall channel, load sort m p channel = Err MIDIParsingError.

Lemma load_err sort m p : load_loop (S (length p)) m (mkLS None None) p = Err MIDIParsingError -> cut_rejected sort m p.
Proof. intros E ch. unfold load. rewrite E. reflexivity. Qed.

(** Second chunk: [p] is the part of it that is there. *)
Lemma track_chunk_cut k m q evs dt b p x : stream_bytes None (evs ++ [(dt, MEndOfTrack)]) b -> evs_ok evs ->
  Forall is_byte b -> MTrk ++ be_bytes 4 (Z.of_nat (length b)) ++ b = p ++ x -> p <> [] ->
  (x <> [] \/ 2 ^ 24 <= Z.of_nat (length b)) ->
  load_loop (S k) m (mkLS (Some q) None) p = Err MIDIParsingError.
Proof.
  intros Hst He HB HE Hp Hx. rewrite app_assoc in HE.
  destruct (app_split _ _ _ _ HE) as [[y [E1 E2]]|[y [E1 E2]]].
  - (* p is inside the chunk header *)
    assert (HL : length (MTrk ++ be_bytes 4 (Z.of_nat (length b))) = length (p ++ y)) by congruence.
    rewrite app_length in HL. cbn [length MTrk be_bytes_4_length] in HL. rewrite (app_length p y) in HL.
    destruct p as [|p0 p']; [congruence|].
    destruct (Nat.eq_dec (length y) 0) as [Ey|Ey].
    + destruct y; [|discriminate]. rewrite app_nil_r in E1. rewrite <- E1. rewrite <- (app_nil_r (MTrk ++ _)), <- app_assoc.
      assert (Hb : (2 <= length b)%nat) by (apply stream_length in Hst; rewrite app_length in Hst; cbn in Hst; lia).
      set (n := Z.of_nat (length b)) in *. destruct (Z.eq_dec (n mod 2 ^ 24) 0) as [Em|Em].
      * change (MTrk ++ be_bytes 4 n ++ []) with (MTrk ++ be_bytes 4 n ++ [] ++ []).
        rewrite load_loop_chunk; [|reflexivity|reflexivity|apply be_bytes_bytes|rewrite be_bytes_size by lia; rewrite Em; reflexivity].
        rewrite load_chunk_track. cbn [ls_tpq].
        rewrite (parse_track_cut m q evs dt [] b Hst); [reflexivity| |exact He|exact HB]. intros ->. cbn in Hb. lia.
      * apply load_loop_short; [reflexivity|reflexivity|]. rewrite be_bytes_size by lia. cbn [length].
        pose proof (Z.mod_pos_bound n (2 ^ 24) ltac:(lia)). lia.
    + apply load_loop_tiny. change (length (be_bytes 4 (Z.of_nat (length b)))) with 4%nat in HL. cbn [length] in *. lia.
  - (* p = header ++ y *)
    subst p. rewrite <- app_assoc. set (n := Z.of_nat (length b)) in *.
    pose proof (Z.mod_pos_bound n (2 ^ 24) ltac:(lia)) as Hm.
    assert (Hsz : size_read (be_bytes 4 n) = n mod 2 ^ 24) by (apply be_bytes_size; lia).
    destruct (Z.ltb_spec (Z.of_nat (length y)) (n mod 2 ^ 24)) as [L|L].
    { apply load_loop_short; [reflexivity|reflexivity|]. rewrite Hsz. exact L. }
    set (j := Z.to_nat (n mod 2 ^ 24)).
    rewrite <- (firstn_skipn j y).
    rewrite load_loop_chunk; [|reflexivity|reflexivity|apply be_bytes_bytes|rewrite Hsz, firstn_length; lia].
    rewrite load_chunk_track. cbn [ls_tpq].
    assert (HEb : b = firstn j y ++ (skipn j y ++ x)) by (rewrite app_assoc, firstn_skipn; exact E2).
    rewrite (parse_track_cut m q evs dt (firstn j y) (skipn j y ++ x)); [reflexivity|rewrite <- HEb; exact Hst| |exact He|rewrite <- HEb; exact HB].
    intros Hn. assert (Hj : length b = length (firstn j y)) by (rewrite HEb, Hn, app_nil_r; reflexivity).
    assert (Hx0 : x = []) by (destruct (skipn j y); [exact Hn|discriminate]).
    rewrite firstn_length in Hj. destruct Hx as [Hx|Hx]; [congruence|]. fold n in Hx. subst j. lia.
Qed.

Lemma load_cut sort m q evs dt b p x : 0 <= q <= 32767 ->
  stream_bytes None (evs ++ [(dt, MEndOfTrack)]) b -> evs_ok evs -> Forall is_byte b ->
  smf q b = p ++ x -> (x <> [] \/ 2 ^ 24 <= Z.of_nat (length b)) -> cut_rejected sort m p.
Proof.
  intros Hq Hst He HB HE Hx.
  destruct (Nat.eq_dec (length p) 0) as [L0|L0].
  { destruct p; [|discriminate]. intros ch. reflexivity. }
  rewrite smf_split in HE. rewrite app_nil_r in HE.
  set (H := be_bytes 2 0 ++ be_bytes 2 1 ++ be_bytes 2 q) in *.
  assert (HE' : (MThd ++ be_bytes 4 6) ++ (H ++ MTrk ++ be_bytes 4 (Z.of_nat (length b)) ++ b) = p ++ x)
    by (rewrite <- app_assoc; exact HE).
  destruct (app_split _ _ _ _ HE') as [[y [E1 E2]]|[y [E1 E2]]].
  - apply load_err. assert (HL : length (MThd ++ be_bytes 4 6) = length (p ++ y)) by congruence.
    rewrite app_length in HL. change (length MThd + length (be_bytes 4 6))%nat with 8%nat in HL. rewrite app_length in HL.
    destruct (Nat.eq_dec (length y) 0) as [Ey|Ey].
    + destruct y; [|discriminate]. rewrite app_nil_r in E1. rewrite <- E1. rewrite <- (app_nil_r (MThd ++ _)), <- app_assoc.
      apply load_loop_short; reflexivity.
    + apply load_loop_tiny. lia.
  - subst p. rewrite <- app_assoc. destruct (app_split _ _ _ _ E2) as [[z [E3 E4]]|[z [E3 E4]]].
    + destruct (Nat.eq_dec (length z) 0) as [Ez|Ez].
      * (* the header alone *)
        destruct z; [|discriminate]. rewrite app_nil_r in E3. rewrite <- E3. intros ch. unfold load. rewrite <- (app_nil_r H).
        set (n := length _). assert (Hn : exists k, n = S k) by (unfold n; eexists; cbn [MThd app length]; reflexivity).
        destruct Hn as [k ->].
        rewrite load_loop_chunk; [|reflexivity|reflexivity|apply be_bytes_bytes|reflexivity].
        unfold H. rewrite header_ok by lia. cbn [bind ls_tracks]. destruct k; reflexivity.
      * apply load_err. apply load_loop_short; [reflexivity|reflexivity|]. change (size_read (be_bytes 4 6)) with 6.
        assert (HL : length H = length (y ++ z)) by congruence. change (length H) with 6%nat in HL. rewrite app_length in HL. lia.
    + subst y. destruct (Nat.eq_dec (length z) 0) as [Ez|Ez].
      { destruct z; [|discriminate]. intros ch. unfold load.
        set (n := length _). assert (Hn : exists k, n = S k) by (unfold n; eexists; cbn [MThd app length]; reflexivity).
        destruct Hn as [k ->].
        rewrite load_loop_chunk; [|reflexivity|reflexivity|apply be_bytes_bytes|reflexivity].
        unfold H. rewrite header_ok by lia. cbn [bind ls_tracks]. destruct k; reflexivity. }
      apply load_err. set (n := length _). assert (Hn : exists k, n = S k) by (unfold n; eexists; cbn [MThd app length]; reflexivity).
      destruct Hn as [k ->].
      rewrite load_loop_chunk; [|reflexivity|reflexivity|apply be_bytes_bytes|reflexivity].
      unfold H. rewrite header_ok by lia. cbn [bind ls_tracks].
      apply (track_chunk_cut _ m q evs dt b z x Hst He HB E4); [|exact Hx]. intros ->. apply Ez. reflexivity.
Qed.

(** What a dumped file is made of. *)
Lemma dumped_stream sort nd ppq middle_c bpm channel w c s ops bs : sort_contract sort ->
  writer_new nd ppq middle_c bpm channel = Ok w -> tone_of_arg nd middle_c = Ok c ->
  valid_sig s -> Forall op_ok ops -> dumps sort w (run sort (track_empty s) ops) = Ok bs ->
  exists k b, let items := yields sort (run sort (track_empty s) ops) in
    bs = smf ppq b /\ 1 <= ppq <= 32767 /\ Z.of_nat (length b) < 2 ^ 32 /\ Forall is_byte b /\
    stream_bytes None (main_events w s k items ++ [(0, MEndOfTrack)]) b /\ evs_ok (main_events w s k items) /\
    writer_ok w /\ w_ppq w = ppq /\ w_channel w = channel /\ w_delta w = 60 - pitch c /\ Forall entry_ok items /\
    Forall (fun e : entry => in_range w (snd e)) items /\ sig_fits s.
Proof.
  intros Hs Hnew Hc HS Ho E.
  destruct (writer_new_ok _ _ _ _ _ _ Hnew) as (Hw & Hp & Hb & Hch & c' & Hc' & Hd).
  rewrite Hc in Hc'. injection Hc' as <-.
  destruct (run_inv sort Hs s ops Ho) as [HI Hsig]. set (t := run sort (track_empty s) ops) in *.
  rewrite <- Hsig in HS. destruct (dumps_spec sort w t _ bs Hs Hw HI HS E) as ((Hr & Hf & Hq & _) & k & b & Ek & Hk & Eb & HL & Hpl & Hst).
  rewrite Hsig in *. pose proof (yields_entry_ok sort t _ Hs HI) as Hok.
  pose proof (main_events_ok w s k (yields sort t) Hw HS Hf Hq Hk Hok Hr) as HM.
  exists k, b. cbn zeta. rewrite <- Hp. split; [exact Eb|]. split; [apply Hw|]. split; [exact HL|]. split.
  { eapply plain_bytes; [|exact Hpl]. rewrite events_of_main. apply Forall_app. split.
    - eapply Forall_impl; [|exact HM]. cbv beta. tauto.
    - constructor; [cbn; split; [lia|auto]|constructor]. }
  split; [rewrite <- events_of_main; exact Hst|]. split.
  { split; [|split]; (eapply Forall_impl; [|exact HM]); cbv beta; tauto. }
  auto 10.
Qed.

Lemma c43_truncated : forall sort, sort_contract sort -> forall nd ppq middle_c bpm channel w,
  writer_new nd ppq middle_c bpm channel = Ok w ->
  forall s ops, valid_sig s -> Forall op_ok ops ->
  forall bs, dumps sort w (run sort (track_empty s) ops) = Ok bs ->
  forall before after, bs = before ++ after -> after <> [] ->
  forall m chan, load sort m before chan = Err MIDIParsingError.
Proof.
  intros sort Hs nd ppq mc bpm ch w Hnew s ops HS Ho bs E p x Ep Hx m chan.
  destruct (writer_new_ok _ _ _ _ _ _ Hnew) as (_ & _ & _ & _ & c & Hc & _).
  destruct (dumped_stream sort _ _ _ _ _ _ _ _ _ _ Hs Hnew Hc HS Ho E) as (k & b & E1 & E2 & E3 & E4 & E5 & E6 & _).
  apply (load_cut sort m ppq _ 0 b p x ltac:(lia) E5 E6 E4); [congruence|left; exact Hx].
Qed.

(** ** C44 *)
Definition loads_what_was_dumped (sort : sort_fn) : Prop :=
  forall nd ppq middle_c bpm channel w s ops bs,
    writer_new nd ppq middle_c bpm channel = Ok w -> valid_sig s -> Forall op_ok ops ->
    dumps sort w (run sort (track_empty s) ops) = Ok bs ->
    forall m, exists t, load sort m bs None = Ok t.

(** The number of bytes before the body of the track. *)
Lemma smf_length q b : length (smf q b) = (22 + length b)%nat.
Proof. unfold smf, smf_header, chunk. rewrite !app_length. reflexivity. Qed.

Lemma c44_rejected : forall sort, sort_contract sort -> forall nd ppq middle_c bpm channel w,
  writer_new nd ppq middle_c bpm channel = Ok w ->
  forall s ops, valid_sig s -> Forall op_ok ops ->
  forall bs, dumps sort w (run sort (track_empty s) ops) = Ok bs ->
  22 + 2 ^ 24 <= Z.of_nat (length bs) ->
  forall m chan, load sort m bs chan = Err MIDIParsingError.
Proof.
  intros sort Hs nd ppq mc bpm ch w Hnew s ops HS Ho bs E HL m chan.
  destruct (writer_new_ok _ _ _ _ _ _ Hnew) as (_ & _ & _ & _ & c & Hc & _).
  destruct (dumped_stream sort _ _ _ _ _ _ _ _ _ _ Hs Hnew Hc HS Ho E) as (k & b & E1 & E2 & E3 & E4 & E5 & E6 & _).
  apply (load_cut sort m ppq _ 0 b bs [] ltac:(lia) E5 E6 E4); [rewrite app_nil_r; congruence|right].
  rewrite E1, smf_length in HL. lia.
Qed.

Lemma c44_partial : forall sort, sort_contract sort -> forall nd ppq middle_c bpm channel w,
  writer_new nd ppq middle_c bpm channel = Ok w ->
  forall s ops, valid_sig s -> Forall op_ok ops ->
  forall bs, dumps sort w (run sort (track_empty s) ops) = Ok bs ->
  Z.of_nat (length bs) < 22 + 2 ^ 24 ->
  forall m, exists t, load sort m bs None = Ok t.
Proof.
  intros sort Hs nd ppq mc bpm ch w Hnew s ops HS Ho bs E HL m.
  destruct (writer_new_ok _ _ _ _ _ _ Hnew) as (_ & _ & _ & _ & c & Hc & _).
  destruct (dumped_stream sort _ _ _ _ _ _ _ _ _ _ Hs Hnew Hc HS Ho E) as (k & b & E1 & E2 & E3 & E4 & E5 & E6 & _).
  rewrite E1, smf_length in HL.
  destruct (load_stream sort Hs m ppq b [] _ 0 ltac:(lia) E5 E6 ltac:(rewrite app_nil_r; lia)) as (ts & _ & EL).
  rewrite app_nil_r in EL. rewrite E1, EL. eexists. reflexivity.
Qed.

(** A chunk of [n] bytes is taken for one of [n mod 2^24] bytes. *)
Lemma c44_chunk : forall fuel m s name body rest, length name = 4%nat -> Z.of_nat (length body) < 2 ^ 32 ->
  let n := Z.to_nat (Z.of_nat (length body) mod 2 ^ 24) in
  load_loop (S fuel) m s (chunk name body ++ rest) =
  (let! s' := load_chunk m s name (firstn n body) in load_loop fuel m s' (skipn n body ++ rest)).
Proof.
  intros fuel m s name body rest Hn HL n. unfold chunk. rewrite <- !app_assoc.
  pose proof (Z.mod_le (Z.of_nat (length body)) (2 ^ 24) ltac:(lia) ltac:(lia)) as H1.
  pose proof (Z.mod_pos_bound (Z.of_nat (length body)) (2 ^ 24) ltac:(lia)) as H2.
  rewrite <- (firstn_skipn n body) at 2. rewrite <- (app_assoc (firstn n body)).
  apply load_loop_chunk; [exact Hn|reflexivity|apply be_bytes_bytes|]. rewrite be_bytes_size by lia.
  rewrite firstn_length. lia.
Qed.

(** Many notes. *)
Definition silent_note : note := mkNote (mkTone 36) (mkSig 0 1) f_one.
Definition add_silent : op := OAdd (WNote silent_note) (Some (SA_sig (mkSig 0 1))).

Lemma log_repeat sort n : forall t, log sort t (repeat add_silent n) = repeat (mkSig 0 1, silent_note) n.
Proof. induction n as [|n IH]; intros t; [reflexivity|]. cbn [repeat log]. rewrite IH. reflexivity. Qed.

Lemma silent_ok n : Forall op_ok (repeat add_silent n).
Proof.
  apply Forall_forall. intros o Ho. apply repeat_spec in Ho. subst o. split.
  - constructor; [|constructor]. split; [apply (valid_pow 0 0); lia|]. split; [reflexivity|]. split; [exact I|]. split; vm_compute; discriminate.
  - intros p Hp. injection Hp as <-. apply (valid_pow 0 0); lia.
Qed.

Lemma timed_length : forall evs now, length (timed now evs) = length evs.
Proof. induction evs as [|[dt e] r IH]; intros now; [reflexivity|]. cbn. rewrite IH. reflexivity. Qed.

Lemma many_notes sort n : sort_contract sort -> Z.of_nat n <= 2 ^ 28 ->
  exists w bs, writer_new ascii_digit 96 default_middle_c f_120 0 = Ok w /\
    dumps sort w (run sort (track_empty (mkSig 4 4)) (repeat add_silent n)) = Ok bs /\
    22 + 4 * Z.of_nat n <= Z.of_nat (length bs).
Proof.
  intros Hs Hn. assert (E : exists w, writer_new ascii_digit 96 default_middle_c f_120 0 = Ok w) by (eexists; reflexivity).
  destruct E as [w Hw]. exists w.
  pose proof (valid_pow 4 2 ltac:(lia) ltac:(lia)) as HS. change (mkSig 4 (2 ^ 2)) with (mkSig 4 4) in HS.
  pose proof (silent_ok n) as Ho.
  assert (HR : Forall (fun e : entry => in_midi_range (pitch (mkTone 36)) (snd e)) (log sort (track_empty (mkSig 4 4)) (repeat add_silent n))).
  { rewrite log_repeat. apply Forall_forall. intros e He. apply repeat_spec in He. subst e. vm_compute. split; discriminate. }
  destruct (c33_partial sort Hs ascii_digit 96 default_middle_c f_120 0 w (mkTone 36) Hw eq_refl ltac:(lia) (mkSig 4 4) _ HS Ho HR) as [[bs E]|[_ E]].
  - split; vm_compute; discriminate.
  - exists 500000. split; [vm_compute; reflexivity|lia].
  - exists bs. split; [exact Hw|]. split; [exact E|].
    destruct (dumped_events sort Hs _ _ _ _ _ _ _ Hw eq_refl (mkSig 4 4) _ HS Ho bs E) as (k & notes & b & E1 & _ & _ & E2 & _ & _ & _ & E3 & _).
    rewrite E1, smf_length. apply stream_length in E2. rewrite !app_length in E2. cbn [length] in E2.
    apply Permutation_length in E3. rewrite timed_length, log_repeat in E3.
    assert (HF : length (flat_map (start_end 96 (pitch (mkTone 36)) 0) (repeat (mkSig 0 1, silent_note) n)) = (2 * n)%nat).
    { clear. induction n as [|n IH]; [reflexivity|]. cbn [repeat flat_map]. rewrite app_length, IH. cbn [start_end length]. lia. }
    rewrite HF in E3. lia.
  - exfalso. rewrite log_repeat in E. rewrite repeat_length in E. destruct (E Hn) as (e & He & H).
    apply repeat_spec in He. subst e. vm_compute in H. apply H. reflexivity.
Qed.

Lemma c44_refuted : forall sort, sort_contract sort -> ~ loads_what_was_dumped sort.
Proof.
  intros sort Hs H.
  assert (HN : exists n, Z.of_nat n = 2 ^ 22) by (exists (Z.to_nat (2 ^ 22)); apply Z2Nat.id; lia).
  destruct HN as [n Hn]. destruct (many_notes sort n Hs ltac:(lia)) as (w & bs & Hw & E & HL).
  pose proof (valid_pow 4 2 ltac:(lia) ltac:(lia)) as HS. change (mkSig 4 (2 ^ 2)) with (mkSig 4 4) in HS.
  destruct (H _ _ _ _ _ w (mkSig 4 4) _ bs Hw HS (silent_ok n) E (mkMR 24)) as [t Et].
  rewrite (c44_rejected sort Hs _ _ _ _ _ _ Hw (mkSig 4 4) _ HS (silent_ok n) bs E ltac:(lia)) in Et. discriminate.
Qed.

(** ** C45, C46: only notes, time signatures and channel prefixes matter *)
Lemma fold_dict : forall evs s, ps_events (fold_left next_state evs s) =
  fold_left (fun d e => append_event d (ne_channel e) (ev_of e)) (flat_map note_event_of (timed (ps_time s) evs)) (ps_events s).
Proof.
  induction evs as [|[dt e] r IH]; intros s; [reflexivity|].
  cbn [fold_left timed flat_map]. rewrite IH, fold_left_app.
  assert (Ht : ps_time (next_state s (dt, e)) = ps_time s + dt) by (destruct e; reflexivity). rewrite Ht. f_equal.
  destruct e; cbn [next_state snd fst ps_events note_event_of fold_left ne_channel]; try reflexivity.
  unfold ev_of. cbn. destruct (velocity =? 0); reflexivity.
Qed.

Lemma tracks_of_same m q evs evs' : note_events_of evs = note_events_of evs' ->
  signatures_of (-1) evs = signatures_of (-1) evs' -> tracks_of m q evs = tracks_of m q evs'.
Proof.
  intros H1 H2.
  assert (HC : chans evs = chans evs').
  { unfold chans, keys, final. rewrite !fold_dict. cbn [start_state ps_events ps_time].
    unfold note_events_of in H1. rewrite H1. reflexivity. }
  unfold tracks_of. rewrite H1, HC. destruct (_ || _); [|reflexivity]. f_equal. apply map_ext. intros c.
  unfold chan_track, chan_sig. rewrite H1, H2. reflexivity.
Qed.

Lemma c46_same_events : forall sort, sort_contract sort -> forall m q b b' evs evs' dt dt', 0 <= q <= 32767 ->
  stream_bytes None (evs ++ [(dt, MEndOfTrack)]) b -> stream_bytes None (evs' ++ [(dt', MEndOfTrack)]) b' ->
  evs_ok evs -> evs_ok evs' -> Z.of_nat (length b) < 2 ^ 24 -> Z.of_nat (length b') < 2 ^ 24 ->
  note_events_of evs = note_events_of evs' -> signatures_of (-1) evs = signatures_of (-1) evs' ->
  forall channel, load sort m (smf q b) channel = load sort m (smf q b') channel.
Proof.
  intros sort Hs m q b b' evs evs' dt dt' Hq S1 S2 O1 O2 L1 L2 H1 H2 ch.
  rewrite <- (app_nil_r b), <- (app_nil_r b').
  rewrite (load_smf sort m q b [] evs dt Hs Hq S1 O1), (load_smf sort m q b' [] evs' dt' Hs Hq S2 O2) by (rewrite app_nil_r; assumption).
  rewrite (tracks_of_same m q evs evs' H1 H2). reflexivity.
Qed.

Lemma c46_running : forall sort, sort_contract sort -> forall m q b b' evs dt, 0 <= q <= 32767 ->
  stream_bytes None (evs ++ [(dt, MEndOfTrack)]) b -> stream_bytes None (evs ++ [(dt, MEndOfTrack)]) b' ->
  evs_ok evs -> Z.of_nat (length b) < 2 ^ 24 -> Z.of_nat (length b') < 2 ^ 24 ->
  forall channel, load sort m (smf q b) channel = load sort m (smf q b') channel.
Proof.
  intros sort Hs m q b b' evs dt Hq S1 S2 O L1 L2 ch. eapply c46_same_events; eauto.
Qed.

(** Inserting an event. *)
Lemma timed_insert : forall evs1 now d e evs2, unsupported e ->
  flat_map note_event_of (timed now (evs1 ++ (d, e) :: evs2)) = flat_map note_event_of (timed now (evs1 ++ later d evs2)).
Proof.
  induction evs1 as [|[dt x] r IH]; intros now d e evs2 He.
  - cbn [app timed flat_map]. destruct e; try destruct He; cbn [note_event_of snd app];
      (destruct evs2 as [|[d2 e2] r2]; [reflexivity|]; cbn [later timed]; rewrite Z.add_assoc; reflexivity).
  - cbn [app timed flat_map]. rewrite IH by exact He. reflexivity.
Qed.
Lemma signatures_insert : forall evs1 p d e evs2, unsupported e ->
  signatures_of p (evs1 ++ (d, e) :: evs2) = signatures_of p (evs1 ++ later d evs2).
Proof.
  induction evs1 as [|[dt x] r IH]; intros p d e evs2 He.
  - cbn [app]. destruct e; try destruct He; destruct evs2 as [|[d2 []] r2]; reflexivity.
  - cbn [app signatures_of]. destruct x; rewrite ?IH by exact He; reflexivity.
Qed.

Lemma c45_partial : forall sort, sort_contract sort -> forall m q b b' evs1 evs2 d e dt dt', 0 <= q <= 32767 ->
  unsupported e -> evs_ok (evs1 ++ (d, e) :: evs2) ->
  stream_bytes None (evs1 ++ later d evs2 ++ [(dt, MEndOfTrack)]) b ->
  stream_bytes None (evs1 ++ (d, e) :: evs2 ++ [(dt', MEndOfTrack)]) b' ->
  Z.of_nat (length b) < 2 ^ 24 -> Z.of_nat (length b') < 2 ^ 24 ->
  forall channel, load sort m (smf q b') channel = load sort m (smf q b) channel.
Proof.
  intros sort Hs m q b b' evs1 evs2 d e dt dt' Hq Hu Ho S1 S2 L1 L2 ch.
  eapply (c46_same_events sort Hs m q b' b (evs1 ++ (d, e) :: evs2) (evs1 ++ later d evs2)); try eassumption.
  - rewrite <- app_assoc. exact S2.
  - rewrite <- app_assoc. exact S1.
  - destruct Ho as (O1 & O2 & O3). apply Forall_app in O1, O2, O3. destruct O1 as [A1 B1], O2 as [A2 B2], O3 as [A3 B3].
    inversion B1 as [|? ? _ C1]; subst. inversion B2 as [|? ? _ C2]; subst. inversion B3 as [|? ? D3 C3]; subst. cbn [fst] in D3.
    destruct evs2 as [|[d2 e2] r]; cbn [later].
    + rewrite app_nil_r. repeat split; assumption.
    + inversion C1; subst. inversion C2; subst. inversion C3; subst. cbn [fst snd] in *.
      split; [|split]; apply Forall_app; (split; [assumption|]); constructor; cbn [fst snd]; try assumption. lia.
  - apply timed_insert, Hu.
  - apply signatures_insert, Hu.
Qed.

(** Every system exclusive message, and every undefined status byte, makes the file unreadable. *)
Lemma sysex_fails : forall fuel v pre rest, sysex_continues v = true -> (length rest < fuel)%nat ->
  snd (sysex_loop fuel v (at_ pre rest)) = Err MIDIParsingError.
Proof.
  induction fuel as [|fuel IH]; intros v pre rest Hv Hf; [lia|].
  cbn [sysex_loop]. rewrite Hv. unfold rbind. rewrite read_at by lia.
  destruct (Z.leb_spec 1 (Z.of_nat (length rest))); [|reflexivity].
  apply IH; [reflexivity|]. rewrite skipn_length. lia.
Qed.

Lemma bad_status depth previous s pre rest : 128 <= s < 255 -> (message_length s = None) ->
  snd (read_event (S depth) None previous (at_ pre (s :: rest))) = Err MIDIParsingError.
Proof.
  intros Hr Hs. rewrite read_event_explicit by lia. cbn [read_event]. erewrite rbind_ok; [|reflexivity].
  replace (s =? 255) with false by lia. replace (s >=? 128) with true by lia. cbn zeta.
  assert (H8 : 240 <= s). { unfold message_length in Hs. destruct (Z.leb_spec 240 s) as [|L]; [assumption|].
    repeat match type of Hs with (if ?b then _ else _) = None => destruct b eqn:?; [discriminate|] end. lia. }
  assert (Hk : Z.shiftr s 4 = 15) by (rewrite Z.shiftr_div_pow2 by lia; change (2 ^ 4) with 16; lia).
  rewrite Hk. change (15 =? 8) with false. change (15 =? 9) with false. cbv iota.
  destruct (s =? 240) eqn:E.
  - unfold rbind. pose proof (sysex_fails (S (length (rd_data (at_ (pre ++ [s]) rest)))) (SVInt 0) (pre ++ [s]) rest eq_refl) as H.
    destruct (sysex_loop _ _ _) as [r o]. cbn [snd] in H. rewrite H; [reflexivity|]. unfold at_. cbn [rd_data]. rewrite app_length. lia.
  - rewrite event_lengths_spec by lia. rewrite Hs. reflexivity.
Qed.

Lemma c45_exclusive : forall sort, forall m q evs b d dt s rest, 0 <= q <= 32767 ->
  stream_bytes None evs b -> evs_ok evs -> vlq_of d dt -> 128 <= s < 255 -> message_length s = None ->
  Z.of_nat (length (b ++ d ++ s :: rest)) < 2 ^ 24 ->
  forall channel, load sort m (smf q (b ++ d ++ s :: rest)) channel = Err MIDIParsingError.
Proof.
  intros sort m q evs b d dt s rest Hq Hst He Hd Hs Hm HL. 
  assert (HP : parse_track m (b ++ d ++ s :: rest) q = Err MIDIParsingError).
  { unfold parse_track. rewrite reader_new_at.
    set (n := length _). assert (Hn : exists k, S n = (length evs + S k)%nat).
    { exists (n - length evs)%nat. unfold n. apply stream_length in Hst. rewrite app_length. lia. }
    destruct Hn as [k ->]. change (mkPS None [] [] (-1) 0) with start_state.
    erewrite loop_stream; [|exact Hst|reflexivity|apply He|apply He].
    cbn [parse_loop]. erewrite rbind_ok; [|apply read_var_len_ok; exact Hd]. cbn zeta. unfold rbind.
    pose proof (bad_status 999 (ps_previous (fold_left next_state evs start_state)) s ((([] ++ b) ++ d)) rest Hs Hm) as H.
    fold recursion_limit in H. destruct (read_event recursion_limit _ _ _) as [r o]. cbn [snd] in H. rewrite H. reflexivity. }
  apply load_err. rewrite smf_split.
  set (n := length _). assert (Hn : exists k, n = S (S k)) by (unfold n; eexists; cbn [MThd app length]; reflexivity).
  destruct Hn as [k ->].
  rewrite load_loop_chunk; [|reflexivity|reflexivity|apply be_bytes_bytes|reflexivity].
  rewrite header_ok by lia. cbn [bind ls_tracks].
  rewrite load_loop_chunk; [|reflexivity|reflexivity|apply be_bytes_bytes|rewrite be_bytes_size by lia; apply Z.mod_small; lia].
  rewrite load_chunk_track. cbn [ls_tpq]. rewrite HP. reflexivity.
Qed.

Definition everything_skipped (sort : sort_fn) : Prop :=
  forall m q evs1 evs2 b1 b2 x dt, 0 < q <= 32767 ->
  stream_bytes None evs1 b1 -> stream_bytes None (evs2 ++ [(dt, MEndOfTrack)]) b2 -> evs_ok (evs1 ++ evs2) ->
  unsupported_bytes x -> Z.of_nat (length (b1 ++ [0] ++ x ++ b2)) < 2 ^ 24 ->
  forall channel, load sort m (smf q (b1 ++ [0] ++ x ++ b2)) channel = load sort m (smf q (b1 ++ b2)) channel.

Lemma c45_refuted : forall sort, ~ everything_skipped sort.
Proof.
  intros sort H.
  assert (HV : vlq_of [1] 1) by (apply vlq_small; lia). assert (HV0 : vlq_of [0] 0) by (apply vlq_small; lia).
  specialize (H (mkMR 24) 96 [] [] [] [0; 255; 47; 0] [240; 1; 247] 0 ltac:(lia) (S_nil _)).
  assert (HS : stream_bytes None ([] ++ [(0, MEndOfTrack)]) [0; 255; 47; 0]).
  { change [0; 255; 47; 0] with ([0] ++ (255 :: [47; 0]) ++ []). constructor; [exact HV0| |constructor].
    change 255 with (status_of MEndOfTrack). apply B_explicit. change [47; 0] with (47 :: [0] ++ []). apply (P_meta MEndOfTrack 47 []); [reflexivity|exact HV0]. }
  specialize (H HS ltac:(repeat split; constructor)
    (U_exclusive 240 [1] [247] (or_introl eq_refl) HV ltac:(constructor; [unfold is_byte; lia|constructor])) ltac:(cbn; lia) (Some 0)).
  vm_compute in H. discriminate.
Qed.
