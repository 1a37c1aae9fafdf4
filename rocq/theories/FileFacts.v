(** Whole files: chunks, any byte string, merging (C40-C48). *)
From Coq Require Import ZArith QArith Qreduction List Bool Lia ZifyBool Sorted Permutation.
From Verif Require Import Py PyFloat PySort Signature Tone Note Track MidiWriter MidiReader
  SpecBase TrackSpec MidiSpec ReaderSpec SigFacts SigProps FloatFacts NoteProps SortFacts TrackFacts VarLenFacts
  StreamFacts PairFacts TimeFacts VelocityFacts DumpSpec WriterFacts ReadFacts LoadFacts.
Import ListNotations.
Open Scope Z_scope.

(** ** One chunk *)
Lemma four (l : bytes) : length l = 4%nat -> exists a b c d, l = [a; b; c; d].
Proof. destruct l as [|a [|b [|c [|d [|]]]]]; cbn; intros H; try discriminate. exists a, b, c, d. reflexivity. Qed.

Lemma load_loop_chunk k m s name sz body rest : length name = 4%nat -> length sz = 4%nat -> Forall is_byte sz ->
  size_read sz = Z.of_nat (length body) ->
  load_loop (S k) m s (name ++ sz ++ body ++ rest) = (let! s := load_chunk m s name body in load_loop k m s rest).
Proof.
  intros Hn Hs _ Hsz. destruct (four name Hn) as (n1 & n2 & n3 & n4 & ->). destruct (four sz Hs) as (z1 & z2 & z3 & z4 & ->).
  cbn [load_loop app firstn skipn length Nat.eqb Nat.ltb Nat.leb]. unfold size_read in Hsz. cbn [skipn] in Hsz. rewrite Hsz.
  rewrite !Nat2Z.id. rewrite firstn_app, Nat.sub_diag, firstn_all, firstn_O, app_nil_r.
  rewrite skipn_app, Nat.sub_diag, skipn_all, skipn_O. cbn [app].
  replace (Z.of_nat (length body) <? Z.of_nat (length body)) with false by lia. reflexivity.
Qed.

Lemma load_loop_short k m s name sz rest : length name = 4%nat -> length sz = 4%nat ->
  Z.of_nat (length rest) < size_read sz -> load_loop (S k) m s (name ++ sz ++ rest) = Err MIDIParsingError.
Proof.
  intros Hn Hs Hsz. destruct (four name Hn) as (n1 & n2 & n3 & n4 & ->). destruct (four sz Hs) as (z1 & z2 & z3 & z4 & ->).
  cbn [load_loop app firstn skipn length Nat.eqb Nat.ltb Nat.leb]. unfold size_read in Hsz. cbn [skipn] in Hsz.
  rewrite firstn_all2 by lia. replace (Z.of_nat (length rest) <? from_bytes_be [z2; z3; z4]) with true by lia. reflexivity.
Qed.

Lemma load_loop_nil k m s : load_loop (S k) m s [] = Ok s.
Proof. reflexivity. Qed.

Lemma load_loop_tiny k m s file : (0 < length file < 8)%nat -> load_loop (S k) m s file = Err MIDIParsingError.
Proof.
  intros H. cbn [load_loop]. cbv zeta. rewrite firstn_all2 by lia. destruct (Nat.eqb_spec (length file) 0); [lia|].
  destruct (Nat.ltb_spec (length file) 8); [|lia]. reflexivity.
Qed.

(** Every file splits. *)
Lemma split_file (file : bytes) : (8 <= length file)%nat -> exists name sz rest, file = name ++ sz ++ rest /\ length name = 4%nat /\ length sz = 4%nat.
Proof.
  intros H. destruct file as [|a1 [|a2 [|a3 [|a4 [|a5 [|a6 [|a7 [|a8 r]]]]]]]]; cbn in H; try lia.
  exists [a1; a2; a3; a4], [a5; a6; a7; a8], r. auto.
Qed.

Lemma size_read_bound sz : Forall is_byte sz -> length sz = 4%nat -> 0 <= size_read sz < 2 ^ 24.
Proof.
  intros HB HL. destruct (four sz HL) as (a & b & c & d & ->). unfold size_read. cbn [skipn].
  inversion HB; subst. pose proof (from_bytes_bound [b; c; d] ltac:(assumption)) as H. cbn [length] in H. exact H.
Qed.

(** ** The header *)
Lemma parse_header_six a b c d e f r :
  parse_header (at_ [] (a :: b :: c :: d :: e :: f :: r)) =
  (at_ [a; b; c; d; e; f] r, Ok (a * 256 + b, c * 256 + d, e * 256 + f)).
Proof.
  unfold parse_header. change (a :: b :: c :: d :: e :: f :: r) with ([a; b] ++ c :: d :: e :: f :: r).
  erewrite rbind_ok; [|apply read_ok; reflexivity].
  change (c :: d :: e :: f :: r) with ([c; d] ++ e :: f :: r). erewrite rbind_ok; [|apply read_ok; reflexivity].
  change (e :: f :: r) with ([e; f] ++ r). erewrite rbind_ok; [|apply read_ok; reflexivity]. reflexivity.
Qed.

Lemma parse_header_short body : (length body < 6)%nat -> snd (parse_header (reader_new body)) = Err MIDIParsingError.
Proof.
  intros H. rewrite reader_new_at.
  destruct body as [|a [|b [|c [|d [|e [|f r]]]]]]; cbn in H; try lia; reflexivity.
Qed.

Lemma MThd_eq name : bytes_eqb name MThd = true <-> name = [77; 84; 104; 100].
Proof. apply bytes_eqb_eq. Qed.
Lemma MTrk_eq name : bytes_eqb name MTrk = true <-> name = [77; 84; 114; 107].
Proof. apply bytes_eqb_eq. Qed.

Lemma load_chunk_header m s body : load_chunk m s MThd body =
  match parse_header (reader_new body) with
  | (_, Err e) => Err e
  | (_, Ok (k, n_tracks, division)) =>
      if negb (k =? 0) then Err MIDIParsingError
      else if negb (n_tracks =? 1) then Err MIDIParsingError
      else if division >? 32767 then Err MIDIParsingError
      else Ok (mkLS (Some division) (ls_tracks s))
  end.
Proof.
  unfold load_chunk. rewrite bytes_eqb_refl. change (bytes_eqb MThd MTrk) with false. cbv iota.
  destruct (parse_header (reader_new body)) as [r [[[k n] dv]|e]]; [|reflexivity].
  destruct (negb (k =? 0)); [reflexivity|]. destruct (negb (n =? 1)); [reflexivity|]. destruct (dv >? 32767); reflexivity.
Qed.
Lemma load_chunk_track m s body : load_chunk m s MTrk body =
  match ls_tpq s with
  | None => Err MIDIParsingError
  | Some tpq => let! ts := parse_track m body tpq in Ok (mkLS (ls_tpq s) (Some ts))
  end.
Proof. unfold load_chunk. change (bytes_eqb MTrk MThd) with false. rewrite bytes_eqb_refl. reflexivity. Qed.
Lemma load_chunk_other m s name body : name <> MThd -> name <> MTrk -> load_chunk m s name body = Ok s.
Proof.
  intros H1 H2. unfold load_chunk. destruct (bytes_eqb name MThd) eqn:E; [apply bytes_eqb_eq in E; contradiction|].
  cbn [bind]. destruct (bytes_eqb name MTrk) eqn:E2; [apply bytes_eqb_eq in E2; contradiction|reflexivity].
Qed.

Definition state_ok (m : midi_reader) (file : bytes) (s : load_state) : Prop :=
  (forall q, ls_tpq s = Some q -> 0 <= q <= 32767 /\ (q = 0 -> zero_division file)) /\
  (forall ts, ls_tracks s = Some ts -> ls_tpq s <> None /\
     exists q evs, 0 <= q <= 32767 /\ evs_ok evs /\ has_track file evs /\ tracks_of m q evs = Ok ts).

Definition loop_result (m : midi_reader) (file : bytes) (o : res load_state) : Prop :=
  match o with
  | Ok s => state_ok m file s
  | Err MIDIParsingError => True
  | Err RecursionError => no_status file
  | Err AssertionError => zero_division file
  | Err _ => False
  end.

Lemma chunk_any m s pre name sz body post : length name = 4%nat -> length sz = 4%nat ->
  size_read sz = Z.of_nat (length body) -> Forall is_byte body ->
  let file := pre ++ name ++ sz ++ body ++ post in
  state_ok m file s -> loop_result m file (load_chunk m s name body).
Proof.
  intros Hn Hs Hsz HB file [S1 S2].
  destruct (list_eq_dec Z.eq_dec name MThd) as [->|H1].
  - rewrite load_chunk_header. destruct (Nat.ltb_spec (length body) 6) as [L|L].
    + pose proof (parse_header_short body L) as E. destruct (parse_header (reader_new body)) as [r o]. cbn in E. subst o. exact I.
    + destruct body as [|a [|b [|c [|d [|e [|f r]]]]]]; cbn in L; try lia. rewrite reader_new_at, parse_header_six.
      inversion HB as [|? ? Ha HB1]; subst. inversion HB1 as [|? ? Hb HB2]; subst. inversion HB2 as [|? ? Hc HB3]; subst.
      inversion HB3 as [|? ? Hd HB4]; subst. inversion HB4 as [|? ? He HB5]; subst. inversion HB5 as [|? ? Hf HB6]; subst.
      unfold is_byte in *.
      destruct (a * 256 + b =? 0) eqn:E1; cbn [negb]; [|exact I].
      destruct (c * 256 + d =? 1) eqn:E2; cbn [negb]; [|exact I].
      destruct (e * 256 + f >? 32767) eqn:E3; [exact I|].
      split; cbn [ls_tpq ls_tracks].
      * intros q Eq. injection Eq as <-. split; [lia|]. intros E0. exists pre, sz, (r ++ post). split; [|exact Hs].
        assert (a = 0) by lia. assert (b = 0) by lia. assert (c = 0) by lia. assert (d = 1) by lia. assert (e = 0) by lia. assert (f = 0) by lia.
        subst. reflexivity.
      * intros ts Ets. split; [discriminate|]. apply S2, Ets.
  - destruct (list_eq_dec Z.eq_dec name MTrk) as [->|H2]; [|rewrite load_chunk_other by assumption; split; assumption].
    rewrite load_chunk_track. destruct (ls_tpq s) as [q|] eqn:Eq; [|exact I].
    destruct (S1 q eq_refl) as [Hq Hz].
    destruct (parse_track_any m q body HB) as [E|[[E (d & n & b & r & E1 & E2 & E3)]|(evs & dt & b & rest & E1 & E2 & E3 & E4 & E5)]].
    + rewrite E. exact I.
    + rewrite E. exists pre, sz, d, n, b, (r ++ post). split; [|auto]. subst body. unfold file. rewrite <- !app_assoc. reflexivity.
    + rewrite E5. destruct (tracks_of m q evs) as [ts|e] eqn:Et; cbn [bind].
      * split; cbn [ls_tpq ls_tracks]; [exact S1|]. intros ts' Ets. injection Ets as <-. split; [discriminate|].
        exists q, evs. split; [exact Hq|]. split; [exact E2|]. split; [|exact Et].
        exists pre, sz, dt, b, rest, post. subst body. auto.
      * unfold tracks_of in Et. destruct (0 <? q) eqn:E0; [discriminate|]. cbn [orb] in Et.
        destruct (forallb _ _); [discriminate|]. injection Et as <-. apply Hz. lia.
Qed.

Lemma load_loop_any m : forall fuel pre file s, (length file < fuel)%nat -> Forall is_byte file ->
  state_ok m (pre ++ file) s -> loop_result m (pre ++ file) (load_loop fuel m s file).
Proof.
  induction fuel as [|fuel IH]; intros pre file s Hf HB HS; [lia|].
  destruct (Nat.ltb_spec (length file) 8) as [L|L].
  - destruct (Nat.eq_dec (length file) 0) as [E|E].
    + destruct file; [|discriminate]. rewrite load_loop_nil. exact HS.
    + rewrite load_loop_tiny by lia. exact I.
  - destruct (split_file file L) as (name & sz & rest & -> & Hn & Hs).
    assert (HB' := HB). apply Forall_app in HB'. destruct HB' as [_ HB']. apply Forall_app in HB'. destruct HB' as [HBs HBr].
    pose proof (size_read_bound sz HBs Hs) as Hsz.
    destruct (Z.ltb_spec (Z.of_nat (length rest)) (size_read sz)) as [Lt|Ge].
    + rewrite load_loop_short by assumption. exact I.
    + set (k := Z.to_nat (size_read sz)) in *.
      assert (HE : rest = firstn k rest ++ skipn k rest) by (rewrite firstn_skipn; reflexivity).
      assert (Hlen : size_read sz = Z.of_nat (length (firstn k rest))) by (rewrite firstn_length; lia).
      rewrite HE. rewrite load_loop_chunk by assumption.
      assert (HBb : Forall is_byte (firstn k rest)) by (rewrite HE in HBr; apply Forall_app in HBr; apply HBr).
      assert (HBt : Forall is_byte (skipn k rest)) by (rewrite HE in HBr; apply Forall_app in HBr; apply HBr).
      pose proof (chunk_any m s pre name sz (firstn k rest) (skipn k rest) Hn Hs Hlen HBb) as HC. cbn zeta in HC.
      rewrite HE in HS. specialize (HC HS).
      destruct (load_chunk m s name (firstn k rest)) as [s'|e]; cbn [bind]; [|exact HC].
      specialize (IH (pre ++ name ++ sz ++ firstn k rest) (skipn k rest) s').
      rewrite <- !app_assoc in IH. rewrite <- HE in IH |- *. rewrite <- HE in HC. apply IH; [|exact HBt|exact HC].
      rewrite !app_length in Hf. rewrite skipn_length. lia.
Qed.

(** ** Merging *)
Section Sort.
Variable sort : sort_fn.
Hypothesis Hsort : sort_contract sort.

Lemma yields_entries_ok t l : Inv t l -> Forall entry_ok (yields sort t).
Proof.
  intros H. eapply Forall_impl; [|apply (yields_ok sort Hsort t l H)]. intros e (H1 & _ & H2). split; assumption.
Qed.

Lemma merge_ok : forall ts common l, Inv common l -> Forall (fun t => exists l, Inv t l) ts ->
  merge_tracks sort common ts = Ok (adds common (flat_map (yields sort) ts)).
Proof.
  induction ts as [|t ts IH]; intros common l H Hts; [reflexivity|].
  inversion Hts as [|? ? [lt Ht] Hr]; subst. cbn [merge_tracks flat_map].
  pose proof (yields_entries_ok t lt Ht) as He. fold (yields sort t).
  rewrite (add_entries_ok _ common l H He). cbn [bind].
  rewrite (IH _ (l ++ yields sort t)); [rewrite adds_app; reflexivity| |exact Hr].
  apply (adds_inv _ common l H He).
Qed.

Definition merged (ts : list track) : track := adds (track_empty (max_signature ts)) (flat_map (yields sort) ts).

Definition finish (channel : option Z) (tracks : dict track) : res track :=
  match channel with
  | None => Ok (merged (map snd tracks))
  | Some c => match dict_get tracks c with None => Err ValueError | Some t => Ok t end
  end.

Lemma chan_track_inv m q evs ts : evs_ok evs -> tracks_of m q evs = Ok ts -> forall c, In c (chans evs) ->
  Inv (chan_track m q evs c) (chan_entries m q (on_channel c (note_events_of evs))) /\
  t_signature (chan_track m q evs c) = chan_sig evs c.
Proof.
  intros He Ht c Hc. apply adds_empty. destruct (Z.ltb_spec 0 q) as [Hq|Hq].
  - destruct (channel_events_ok c evs He). apply chan_entries_ok; assumption.
  - unfold tracks_of in Ht. destruct (Z.ltb_spec 0 q); [lia|]. cbn [orb] in Ht.
    destruct (forallb _ (chans evs)) eqn:E; [|discriminate]. rewrite forallb_forall in E. specialize (E c Hc).
    unfold chan_entries. destruct (note_pairs _); [constructor|discriminate].
Qed.

Lemma tracks_of_shape m q evs ts : tracks_of m q evs = Ok ts -> ts = map (fun c => (c, chan_track m q evs c)) (chans evs).
Proof. unfold tracks_of. destruct (_ || _); [|discriminate]. intros H. injection H as <-. reflexivity. Qed.

Lemma load_finish m file channel s ts evs q : load_loop (S (length file)) m (mkLS None None) file = Ok s ->
  ls_tpq s <> None -> ls_tracks s = Some ts -> evs_ok evs -> tracks_of m q evs = Ok ts ->
  load sort m file channel = finish channel ts.
Proof.
  intros E Hq Hts He Ht. unfold load. rewrite E. cbn [bind]. destruct (ls_tpq s) as [q'|]; [|congruence]. rewrite Hts.
  pose proof (tracks_of_shape m q evs ts Ht) as Hsh. destruct ts as [|[c0 t0] ts0].
  { exfalso. unfold chans in Hsh. destruct (keys evs); discriminate. }
  destruct channel as [c|]; [reflexivity|]. unfold finish. rewrite (merge_ok _ _ []); [reflexivity|apply inv_empty|].
  rewrite Hsh. rewrite map_map. apply Forall_map. apply Forall_forall. intros c Hc.
  eexists. apply (chan_track_inv m q evs _ He Ht c Hc).
Qed.

(** What load does with any byte string. *)
Lemma load_any m file : Forall is_byte file ->
  (forall channel, load sort m file channel = Err MIDIParsingError) \/
  ((forall channel, load sort m file channel = Err RecursionError) /\ no_status file) \/
  ((forall channel, load sort m file channel = Err AssertionError) /\ zero_division file) \/
  (exists q evs ts, 0 <= q <= 32767 /\ evs_ok evs /\ has_track file evs /\ tracks_of m q evs = Ok ts /\
     forall channel, load sort m file channel = finish channel ts).
Proof.
  intros HB. pose proof (load_loop_any m (S (length file)) [] file (mkLS None None) (Nat.lt_succ_diag_r _) HB) as H.
  cbn [app] in H. assert (H0 : state_ok m file (mkLS None None)) by (split; cbn; intros ? ?; discriminate). specialize (H H0).
  unfold loop_result in H. destruct (load_loop (S (length file)) m (mkLS None None) file) as [s|e] eqn:E.
  - destruct H as [S1 S2]. destruct (ls_tpq s) as [q|] eqn:Eq.
    2:{ left. intros ch. unfold load. rewrite E. cbn [bind]. rewrite Eq. reflexivity. }
    destruct (ls_tracks s) as [ts|] eqn:Et.
    2:{ left. intros ch. unfold load. rewrite E. cbn [bind]. rewrite Eq, Et. reflexivity. }
    destruct (S2 ts eq_refl) as (_ & q' & evs & A1 & A2 & A3 & A4).
    right. right. right. exists q', evs, ts. repeat (split; [assumption|]). intros ch.
    eapply load_finish; try eassumption. congruence.
  - destruct e; try contradiction.
    + right. right. left. split; [|exact H]. intros ch. unfold load. rewrite E. reflexivity.
    + left. intros ch. unfold load. rewrite E. reflexivity.
    + right. left. split; [|exact H]. intros ch. unfold load. rewrite E. reflexivity.
Qed.

(** ** Files with one track *)
Lemma be_bytes_size n : 0 <= n -> size_read (be_bytes 4 n) = n mod 2 ^ 24.
Proof.
  intros Hn. unfold be_bytes, size_read. cbn [seq map rev app skipn]. unfold from_bytes_be. cbn [fold_left].
  change (Z.of_nat 0) with 0. change (Z.of_nat 1) with 1. change (Z.of_nat 2) with 2.
  rewrite Z.pow_0_r, Z.div_1_r. change (256 ^ 1) with 256. change (256 ^ 2) with (256 * 256). rewrite <- Z.div_div by lia.
  change (2 ^ 24) with (256 * (256 * 256)). rewrite Z.rem_mul_r by lia. rewrite Z.rem_mul_r by lia. lia.
Qed.
Lemma be_bytes_4_length n : length (be_bytes 4 n) = 4%nat.
Proof. reflexivity. Qed.

Lemma smf_split q b : smf q b = MThd ++ be_bytes 4 6 ++ (be_bytes 2 0 ++ be_bytes 2 1 ++ be_bytes 2 q) ++
  (MTrk ++ be_bytes 4 (Z.of_nat (length b)) ++ b ++ []).
Proof. unfold smf, smf_header, chunk. rewrite app_nil_r, <- !app_assoc. reflexivity. Qed.

Lemma header_ok m s q : 0 <= q <= 32767 ->
  load_chunk m s MThd (be_bytes 2 0 ++ be_bytes 2 1 ++ be_bytes 2 q) = Ok (mkLS (Some q) (ls_tracks s)).
Proof.
  intros Hq. rewrite load_chunk_header. unfold be_bytes. cbn [seq map rev app]. rewrite reader_new_at, parse_header_six.
  change (Z.of_nat 1) with 1. change (Z.of_nat 0) with 0. change (256 ^ 1) with 256. change (256 ^ 0) with 1.
  change (0 / 256 mod 256 * 256 + 0 / 1 mod 256) with 0. change (1 / 256 mod 256 * 256 + 1 / 1 mod 256) with 1.
  rewrite Z.div_1_r. change (0 =? 0) with true. change (1 =? 1) with true. cbn [negb].
  pose proof (Z.div_mod q 256 ltac:(lia)) as H. assert (0 <= q / 256 < 256) by (split; [apply Z.div_pos; lia|apply Z.div_lt_upper_bound; lia]).
  rewrite (Z.mod_small (q / 256)) by lia. replace (q / 256 * 256 + q mod 256) with q by lia.
  replace (q >? 32767) with false by lia. reflexivity.
Qed.

Lemma be_bytes_bytes k n : Forall is_byte (be_bytes k n).
Proof.
  unfold be_bytes. apply Forall_rev, Forall_map, Forall_forall. intros i _. unfold is_byte. apply Z.mod_pos_bound. lia.
Qed.

Lemma load_stream m q b rest evs dt : 0 < q <= 32767 -> stream_bytes None (evs ++ [(dt, MEndOfTrack)]) b -> evs_ok evs ->
  Z.of_nat (length (b ++ rest)) < 2 ^ 24 ->
  exists ts, tracks_of m q evs = Ok ts /\ forall channel, load sort m (smf q (b ++ rest)) channel = finish channel ts.
Proof.
  intros Hq Hs He HL. 
  assert (Et : exists ts, tracks_of m q evs = Ok ts).
  { unfold tracks_of. destruct (Z.ltb_spec 0 q); [|lia]. cbn [orb]. eexists. reflexivity. }
  destruct Et as [ts Et]. exists ts. split; [exact Et|]. intros ch.
  eapply (load_finish m _ ch (mkLS (Some q) (Some ts)) ts evs q); try assumption; try reflexivity; try discriminate.
  rewrite smf_split. set (n := length _).
  assert (Hn : exists k, n = S (S k)).
  { unfold n. eexists. cbn [MThd app length]. reflexivity. }
  destruct Hn as [k ->].
  rewrite load_loop_chunk; [|reflexivity|reflexivity|apply be_bytes_bytes|reflexivity].
  rewrite header_ok by lia. cbn [bind ls_tracks].
  rewrite load_loop_chunk; [|reflexivity|reflexivity|apply be_bytes_bytes|rewrite be_bytes_size by lia; apply Z.mod_small; lia].
  rewrite load_chunk_track. cbn [ls_tpq]. rewrite (parse_track_stream m q evs dt b rest Hs He), Et. reflexivity.
Qed.
End Sort.
