(** Which byte strings are accepted as files, and what they say (C57). *)
From Coq Require Import ZArith QArith Qreduction List Bool Lia ZifyBool Sorted Permutation.
From Verif Require Import Py PyFloat PySort Signature Tone Note Track MidiWriter MidiReader
  SpecBase TrackSpec MidiSpec ReaderSpec AcceptSpec SigFacts SigProps FloatFacts NoteProps SortFacts TrackFacts TrackProps VarLenFacts
  StreamFacts PairFacts TimeFacts VelocityFacts DumpSpec WriterFacts ReadFacts LoadFacts FileFacts ReaderProps LoadProps.
Import ListNotations.
Open Scope Z_scope.

(** ** Completeness of the parser for [stream_read] *)
Lemma read_event_any depth previous e b pre rest : event_ok e -> event_read previous e b rest ->
  read_event (S (S depth)) None previous (at_ pre (b ++ rest)) =
  (at_ (pre ++ b) rest, Ok (to_event e, Some (status_of e))).
Proof.
  intros He [H|(-> & Hp & -> & y & r & -> & Hy)]; [apply read_event_ok; assumption|].
  cbn [app]. rewrite read_event_running by exact Hy. exact (payload_ok depth _ e [] pre (y :: r) He Hp).
Qed.

Lemma loop_step_any fuel s dt e d b pre rest : vlq_of d dt -> event_ok e -> e <> MEndOfTrack ->
  event_read (ps_previous s) e b rest ->
  parse_loop (S fuel) s (at_ pre (d ++ b ++ rest)) =
  parse_loop fuel (next_state s (dt, e)) (at_ (pre ++ d ++ b) rest).
Proof.
  intros Hd He Hn Hb. cbn [parse_loop]. erewrite rbind_ok; [|apply read_var_len_ok; exact Hd]. cbn zeta.
  erewrite rbind_ok; [|unfold recursion_limit; apply read_event_any; eassumption].
  rewrite <- app_assoc. destruct e; cbn [to_event next_state fst snd]; try reflexivity.
  - destruct (velocity =? 0); reflexivity.
  - destruct He as (H1 & H2 & _). rewrite sig_new_event by assumption. reflexivity.
  - congruence.
Qed.

Lemma loop_end_any fuel s dt d b pre rest : vlq_of d dt -> event_read (ps_previous s) MEndOfTrack b rest ->
  parse_loop (S fuel) s (at_ pre (d ++ b ++ rest)) =
  (at_ (pre ++ d ++ b) rest, Ok (next_state s (dt, MEndOfTrack))).
Proof.
  intros Hd Hb. cbn [parse_loop]. erewrite rbind_ok; [|apply read_var_len_ok; exact Hd]. cbn zeta.
  erewrite rbind_ok; [|unfold recursion_limit; apply read_event_any; [|eassumption]; exact I].
  rewrite <- app_assoc. reflexivity.
Qed.

Lemma loop_any : forall evs dt previous b rest, stream_read previous (evs ++ [(dt, MEndOfTrack)]) b rest -> forall fuel s pre,
  previous = ps_previous s -> Forall (fun te => event_ok (snd te)) evs -> Forall not_end evs -> (length evs < fuel)%nat ->
  parse_loop fuel s (at_ pre (b ++ rest)) =
  (at_ (pre ++ b) rest, Ok (next_state (fold_left next_state evs s) (dt, MEndOfTrack))).
Proof.
  induction evs as [|[dt e] r IH]; intros dtE previous b rest Hs fuel s pre Hp Hok Hne Hf; (destruct fuel as [|fuel]; [cbn in Hf; lia|]).
  - cbn [app] in Hs. inversion Hs as [|? ? ? ? d b1 s1 ? Hd Hb Hr]; subst. inversion Hr; subst. cbn [app] in Hb.
    rewrite app_nil_r. rewrite <- !app_assoc. apply loop_end_any; assumption.
  - cbn [app] in Hs. inversion Hs as [|? ? ? ? d b1 s1 ? Hd Hb Hr]; subst.
    inversion Hok as [|? ? Ho1 Ho2]; subst. inversion Hne as [|? ? Hn1 Hn2]; subst. cbn [length] in Hf.
    rewrite <- !app_assoc. rewrite (loop_step_any _ _ dt e) by assumption.
    cbn [fold_left]. erewrite IH; [|exact Hr|rewrite next_state_previous; reflexivity|exact Ho2|exact Hn2|lia].
    rewrite <- !app_assoc. reflexivity.
Qed.

Lemma stream_read_length : forall previous evs b rest, stream_read previous evs b rest -> (length evs <= length b)%nat.
Proof.
  induction 1 as [|? ? ? ? ? ? ? ? Hd He _ IH]; [cbn; lia|].
  rewrite !app_length. apply vlq_nonempty in Hd. cbn [length]. lia.
Qed.

Lemma parse_track_read m q evs dt b rest : stream_read None (evs ++ [(dt, MEndOfTrack)]) b rest -> evs_ok evs ->
  parse_track m (b ++ rest) q = tracks_of m q evs.
Proof.
  intros Hs He. unfold parse_track. rewrite reader_new_at. change (mkPS None [] [] (-1) 0) with start_state.
  rewrite (loop_any evs dt None b rest Hs (S (length (b ++ rest))) start_state [] eq_refl (proj1 He) (proj1 (proj2 He))).
  - assert (E1 : ps_events (next_state (fold_left next_state evs start_state) (dt, MEndOfTrack)) = ps_events (final evs)) by reflexivity.
    assert (E2 : ps_signatures (next_state (fold_left next_state evs start_state) (dt, MEndOfTrack)) = ps_signatures (final evs)) by reflexivity.
    rewrite E1, E2. apply tracks_of_eq, He.
  - apply stream_read_length in Hs. rewrite app_length in Hs. cbn [length] in Hs. rewrite app_length. lia.
Qed.

Lemma parse_track_no_status m q d n b r : vlq_of d n -> 0 <= b < 128 ->
  parse_track m (d ++ b :: r) q = Err RecursionError.
Proof.
  intros Hd Hb. unfold parse_track. rewrite reader_new_at. cbn [parse_loop ps_previous].
  unfold rbind at 1. rewrite (read_var_len_ok [] d n (b :: r) Hd). cbn zeta. cbn [app].
  assert (E : forall k, snd (read_event k None None (at_ d (b :: r))) = Err RecursionError).
  { induction k as [|k IH]; [reflexivity|]. rewrite read_event_running by lia. exact IH. }
  unfold rbind. specialize (E recursion_limit).
  destruct (read_event recursion_limit None None (at_ d (b :: r))) as [r' o]. cbn [snd] in E. subst o. reflexivity.
Qed.

(** ** Notes and the division *)
Lemma no_pairs_iff l : note_pairs l = [] <-> ~ exists a b, is_note l a b.
Proof.
  destruct (note_pairs_listed l) as [H _]. split.
  - intros E (a & b & Hn). apply H in Hn. rewrite E in Hn. exact Hn.
  - intros Hn. destruct (note_pairs l) as [|[a b] ps] eqn:E; [reflexivity|]. exfalso. apply Hn. exists a, b. apply H. left. reflexivity.
Qed.

Lemma forallb_false {A} (f : A -> bool) l : forallb f l = false -> exists x, In x l /\ f x = false.
Proof.
  induction l as [|x l IH]; [discriminate|]. cbn [forallb]. destruct (f x) eqn:E; cbn [andb]; intros H.
  - destruct (IH H) as (y & Hy & Ey). exists y. split; [right; exact Hy|exact Ey].
  - exists x. split; [left; reflexivity|exact E].
Qed.

Lemma tracks_of_ok m q evs : 0 <= q -> ((q = 0 -> ~ some_note evs) -> exists ts, tracks_of m q evs = Ok ts) /\
  (q = 0 -> some_note evs -> tracks_of m q evs = Err AssertionError) /\
  (forall ts, tracks_of m q evs = Ok ts -> q = 0 -> ~ some_note evs) /\
  (forall e, tracks_of m q evs = Err e -> e = AssertionError /\ q = 0 /\ some_note evs).
Proof.
  intros Hq.
  assert (H1 : (forallb (fun c => match note_pairs (on_channel c (note_events_of evs)) with [] => true | _ => false end) (chans evs) = true) <-> ~ some_note evs).
  { rewrite forallb_forall. split.
    - intros H (c & a & b & Hn). assert (Hc : In c (chans evs)).
      { apply chans_in. left. intros E. rewrite E in Hn. destruct Hn as (e & f & Hn & _). destruct a; discriminate. }
      specialize (H c Hc). destruct (note_pairs (on_channel c (note_events_of evs))) eqn:E; [|discriminate].
      apply no_pairs_iff in E. apply E. exists a, b. exact Hn.
    - intros H c Hc. destruct (note_pairs (on_channel c (note_events_of evs))) as [|[a b] ps] eqn:E; [reflexivity|].
      exfalso. apply H. exists c, a, b. destruct (note_pairs_listed (on_channel c (note_events_of evs))) as [HL _].
      apply HL. rewrite E. left. reflexivity. }
  unfold tracks_of. destruct (forallb _ (chans evs)) eqn:E.
  - rewrite orb_true_r. assert (Hn : ~ some_note evs) by (apply H1; reflexivity).
    split; [intros _; eexists; reflexivity|]. split; [tauto|]. split; [intros; assumption|intros e; discriminate].
  - assert (Hn : some_note evs).
    { apply forallb_false in E. destruct E as (c & Hc & E).
      destruct (note_pairs (on_channel c (note_events_of evs))) as [|[a b] ps] eqn:En; [discriminate|].
      exists c, a, b. destruct (note_pairs_listed (on_channel c (note_events_of evs))) as [HL _]. apply HL. rewrite En. left. reflexivity. }
    rewrite orb_false_r. destruct (Z.ltb_spec 0 q) as [Lq|Lq].
    + split; [intros _; eexists; reflexivity|]. split; [lia|]. split; [lia|intros e; discriminate].
    + split; [intros H; exfalso; apply H; [lia|exact Hn]|]. split; [reflexivity|]. split; [intros ts; discriminate|].
      intros e He. injection He as <-. split; [reflexivity|]. split; [lia|exact Hn].
Qed.

(** ** Chunks *)
Definition matches (m : midi_reader) (s : load_state) (h : option Z) (tr : option (Z * list (Z * midi_event))) : Prop :=
  ls_tpq s = h /\ (forall q, h = Some q -> 0 <= q <= 32767) /\
  match tr with
  | None => ls_tracks s = None
  | Some (q, evs) => 0 <= q <= 32767 /\ evs_ok evs /\ h <> None /\ (q = 0 -> ~ some_note evs) /\
      exists ts, tracks_of m q evs = Ok ts /\ ls_tracks s = Some ts
  end.

Lemma says_division_ok m s body q : Forall is_byte body -> says_division body q ->
  load_chunk m s name_header body = Ok (mkLS (Some q) (ls_tracks s)) /\ 0 <= q <= 32767.
Proof.
  intros HB (e & f & extra & -> & -> & Hq).
  change name_header with MThd. rewrite load_chunk_header. rewrite reader_new_at, parse_header_six.
  change (0 * 256 + 0 =? 0) with true. change (0 * 256 + 1 =? 1) with true. cbn [negb].
  replace (e * 256 + f >? 32767) with false by lia. split; [reflexivity|].
  do 4 apply Forall_inv_tail in HB. pose proof (Forall_inv HB) as He. pose proof (Forall_inv (Forall_inv_tail HB)) as Hf.
  unfold is_byte in *. lia.
Qed.

Lemma says_division_inv m s body : Forall is_byte body ->
  load_chunk m s name_header body = Err MIDIParsingError \/ exists q, says_division body q.
Proof.
  intros HB. change name_header with MThd. rewrite load_chunk_header. destruct (Nat.ltb_spec (length body) 6) as [L|L].
  - left. pose proof (parse_header_short body L) as E. destruct (parse_header (reader_new body)) as [r o]. cbn in E. subst o. reflexivity.
  - destruct body as [|a [|b [|c [|d [|e [|f r]]]]]]; cbn in L; try lia. rewrite reader_new_at, parse_header_six.
    inversion HB as [|? ? Ha HB1]; subst. inversion HB1 as [|? ? Hb HB2]; subst. inversion HB2 as [|? ? Hc HB3]; subst.
    inversion HB3 as [|? ? Hd HB4]; subst. inversion HB4 as [|? ? He HB5]; subst. inversion HB5 as [|? ? Hf HB6]; subst.
    unfold is_byte in *.
    destruct (a * 256 + b =? 0) eqn:E1; cbn [negb]; [|left; reflexivity].
    destruct (c * 256 + d =? 1) eqn:E2; cbn [negb]; [|left; reflexivity].
    destruct (e * 256 + f >? 32767) eqn:E3; [left; reflexivity|].
    right. exists (e * 256 + f), e, f, r.
    assert (a = 0) by lia. assert (b = 0) by lia. assert (c = 0) by lia. assert (d = 1) by lia. subst. split; [reflexivity|]. lia.
Qed.

(** One more chunk. *)
Lemma chunk_cases m s cs h tr name body : says cs h tr -> matches m s h tr -> Forall is_byte body ->
  (exists s' h' tr', load_chunk m s name body = Ok s' /\ says (cs ++ [(name, body)]) h' tr' /\ matches m s' h' tr') \/
  load_chunk m s name body = Err MIDIParsingError \/
  (load_chunk m s name body = Err RecursionError /\ name = name_track /\
     exists q d n b r, h = Some q /\ body = d ++ b :: r /\ vlq_of d n /\ 0 <= b < 128) \/
  (load_chunk m s name body = Err AssertionError /\ name = name_track /\ h = Some 0 /\
     exists evs, says_events body evs /\ some_note evs).
Proof.
  intros HY (M1 & M2 & M3) HB. destruct (list_eq_dec Z.eq_dec name name_header) as [->|H1].
  - destruct (says_division_inv m s body HB) as [E|[q E]]; [right; left; exact E|]. left.
    destruct (says_division_ok m s body q HB E) as [E1 E2]. exists (mkLS (Some q) (ls_tracks s)), (Some q), tr.
    split; [exact E1|]. split; [econstructor; eassumption|]. split; [reflexivity|].
    split; [intros q' Eq; injection Eq as <-; exact E2|]. destruct tr as [[q0 evs]|]; [|exact M3].
    destruct M3 as (A1 & A2 & A3 & A4 & A5). repeat (split; [assumption|]). split; [discriminate|]. split; assumption.
  - destruct (list_eq_dec Z.eq_dec name name_track) as [->|H2].
    2:{ left. exists s, h, tr. split; [apply load_chunk_other; assumption|]. split; [constructor; assumption|].
        split; [exact M1|]. split; [exact M2|exact M3]. }
    pose proof (load_chunk_track m s body) as EL. change MTrk with name_track in EL. rewrite EL. clear EL. rewrite M1. destruct h as [q|]; [|right; left; reflexivity].
    specialize (M2 q eq_refl).
    destruct (parse_track_any m q body HB) as [E|[[E (d & n & b & r & E1 & E2 & E3)]|(evs & dt & b & rest & E1 & E2 & E3 & E4 & E5)]].
    + right. left. rewrite E. reflexivity.
    + right. right. left. rewrite E. split; [reflexivity|]. split; [reflexivity|]. exists q, d, n, b, r. auto.
    + assert (Hev : says_events body evs) by (exists dt, b, rest; auto).
      destruct (tracks_of_ok m q evs (proj1 M2)) as (T1 & T2 & T3 & T4). rewrite E5.
      destruct (tracks_of m q evs) as [ts|e] eqn:Et; cbn [bind].
      * left. specialize (T3 ts eq_refl). exists (mkLS (Some q) (Some ts)), (Some q), (Some (q, evs)).
        split; [reflexivity|]. split; [econstructor; eassumption|]. split; [reflexivity|].
        split; [intros q' Eq; injection Eq as <-; exact M2|]. split; [exact M2|]. split; [exact E2|]. split; [discriminate|].
        split; [exact T3|]. exists ts. split; [exact Et|reflexivity].
      * right. right. right. destruct (T4 e eq_refl) as (-> & -> & Hs). split; [reflexivity|]. split; [reflexivity|].
        split; [reflexivity|]. exists evs. split; assumption.
Qed.

Lemma chunks_app : forall f1 cs1, chunks f1 cs1 -> forall f2 cs2, chunks f2 cs2 -> chunks (f1 ++ f2) (cs1 ++ cs2).
Proof.
  induction 1 as [|name sz body file cs H1 H2 H3 H IH]; intros f2 cs2 Hf; [exact Hf|].
  rewrite <- !app_assoc. cbn [app]. constructor; try assumption. apply IH, Hf.
Qed.
Lemma chunks_snoc : forall cs file name body, chunks file (cs ++ [(name, body)]) ->
  exists f1 sz, file = f1 ++ name ++ sz ++ body /\ chunks f1 cs /\ length name = 4%nat /\ length sz = 4%nat /\
    size_read sz = Z.of_nat (length body).
Proof.
  induction cs as [|[n b] cs IH]; intros file name body H; cbn [app] in H; inversion H as [|? sz ? f' ? H1 H2 H3 Hr]; subst.
  - inversion Hr; subst. exists [], sz. rewrite app_nil_r. repeat split; assumption.
  - destruct (IH _ _ _ Hr) as (f1 & sz' & -> & A1 & A2 & A3 & A4). exists (n ++ sz ++ b ++ f1), sz'.
    rewrite <- !app_assoc. repeat split; try assumption. constructor; assumption.
Qed.

Lemma load_prefix m cs h tr : says cs h tr -> forall file, chunks file cs -> Forall is_byte file -> forall rest fuel,
  (length file + length rest < fuel)%nat -> exists s k, (length rest < k)%nat /\ matches m s h tr /\
    load_loop fuel m (mkLS None None) (file ++ rest) = load_loop k m s rest.
Proof.
  induction 1 as [|cs h tr body q HY IH HD|cs q tr body evs HY IH HE HZ|cs h tr name body HY IH N1 N2]; intros file HC HB rest fuel Hf.
  - inversion HC; subst. exists (mkLS None None), fuel. cbn [length] in Hf. split; [lia|]. split; [|reflexivity].
    split; [reflexivity|]. split; [discriminate|reflexivity].
  - destruct (chunks_snoc _ _ _ _ HC) as (f1 & sz & -> & A1 & A2 & A3 & A4).
    apply Forall_app in HB. destruct HB as [HB1 HB2]. assert (HBb : Forall is_byte body) by (rewrite !Forall_app in HB2; tauto).
    assert (HBs : Forall is_byte sz) by (rewrite !Forall_app in HB2; tauto).
    rewrite <- !app_assoc. rewrite !app_length in Hf.
    destruct (IH f1 A1 HB1 (name_header ++ sz ++ body ++ rest) fuel) as (s & k & Hk & (M1 & M2 & M3) & E); [rewrite !app_length; lia|].
    rewrite E. rewrite !app_length in Hk. destruct k as [|k]; [lia|].
    rewrite load_loop_chunk by assumption. destruct (says_division_ok m s body q HBb HD) as [-> Hq]. cbn [bind].
    exists (mkLS (Some q) (ls_tracks s)), k. split; [lia|]. split; [|reflexivity]. split; [reflexivity|].
    split; [intros q' Eq; injection Eq as <-; exact Hq|]. destruct tr as [[q0 evs]|]; [|exact M3].
    destruct M3 as (B1 & B2 & B3 & B4 & B5). repeat (split; [assumption|]). split; [discriminate|]. split; assumption.
  - destruct (chunks_snoc _ _ _ _ HC) as (f1 & sz & -> & A1 & A2 & A3 & A4).
    apply Forall_app in HB. destruct HB as [HB1 HB2]. assert (HBb : Forall is_byte body) by (rewrite !Forall_app in HB2; tauto).
    assert (HBs : Forall is_byte sz) by (rewrite !Forall_app in HB2; tauto).
    rewrite <- !app_assoc. rewrite !app_length in Hf.
    destruct (IH f1 A1 HB1 (name_track ++ sz ++ body ++ rest) fuel) as (s & k & Hk & (M1 & M2 & M3) & E); [rewrite !app_length; lia|].
    rewrite E. rewrite !app_length in Hk. destruct k as [|k]; [lia|].
    rewrite load_loop_chunk by assumption. pose proof (load_chunk_track m s body) as EL. change MTrk with name_track in EL. rewrite EL, M1.
    specialize (M2 q eq_refl). destruct HE as (dt & b & extra & -> & He & Hdt & Hst).
    rewrite (parse_track_read m q evs dt b extra Hst He).
    destruct (tracks_of_ok m q evs (proj1 M2)) as (T1 & _). destruct (T1 HZ) as [ts Et]. rewrite Et. cbn [bind].
    exists (mkLS (Some q) (Some ts)), k. split; [lia|]. split; [|reflexivity]. split; [reflexivity|].
    split; [intros q' Eq; injection Eq as <-; exact M2|]. split; [exact M2|]. split; [exact He|]. split; [discriminate|].
    split; [exact HZ|]. exists ts. split; [exact Et|reflexivity].
  - destruct (chunks_snoc _ _ _ _ HC) as (f1 & sz & -> & A1 & A2 & A3 & A4).
    apply Forall_app in HB. destruct HB as [HB1 HB2].
    assert (HBs : Forall is_byte sz) by (rewrite !Forall_app in HB2; tauto).
    rewrite <- !app_assoc. rewrite !app_length in Hf.
    destruct (IH f1 A1 HB1 (name ++ sz ++ body ++ rest) fuel) as (s & k & Hk & HM & E); [rewrite !app_length; lia|].
    rewrite E. rewrite !app_length in Hk. destruct k as [|k]; [lia|].
    rewrite load_loop_chunk by assumption. rewrite load_chunk_other by assumption. cbn [bind].
    exists s, k. split; [lia|]. split; [exact HM|reflexivity].
Qed.

(** What the loop does with a whole file. *)
Lemma loop_says m file cs h tr : Forall is_byte file -> chunks file cs -> says cs h tr ->
  exists s, matches m s h tr /\ load_loop (S (length file)) m (mkLS None None) file = Ok s.
Proof.
  intros HB HC HY. destruct (load_prefix m cs h tr HY file HC HB [] (S (length file))) as (s & k & Hk & HM & E); [cbn [length]; lia|].
  rewrite app_nil_r in E. exists s. split; [exact HM|]. rewrite E. destruct k; [cbn in Hk; lia|reflexivity].
Qed.

Lemma loop_stops m file q body : Forall is_byte file -> gets_to_track file q body ->
  forall e, parse_track m body q = Err e -> load_loop (S (length file)) m (mkLS None None) file = Err e.
Proof.
  intros HB (f1 & cs & tr & sz & f2 & -> & HC & HY & Hs & Hsz) e He.
  apply Forall_app in HB. destruct HB as [HB1 HB2]. assert (HBs : Forall is_byte sz) by (rewrite !Forall_app in HB2; tauto).
  destruct (load_prefix m cs (Some q) tr HY f1 HC HB1 (name_track ++ sz ++ body ++ f2) (S (length (f1 ++ name_track ++ sz ++ body ++ f2)))) as (s & k & Hk & (M1 & _) & E).
  { rewrite (app_length f1). lia. }
  rewrite E. destruct k as [|k]; [lia|]. rewrite load_loop_chunk by (try reflexivity; assumption).
  pose proof (load_chunk_track m s body) as EL. change MTrk with name_track in EL. rewrite EL, M1, He. reflexivity.
Qed.

Definition outcome (m : midi_reader) (file : bytes) (o : res load_state) : Prop :=
  match o with
  | Ok s => exists cs h tr, chunks file cs /\ says cs h tr /\ matches m s h tr
  | Err MIDIParsingError => True
  | Err RecursionError => status_missing file
  | Err AssertionError => division_missing file
  | Err _ => False
  end.

Lemma loop_forward m : forall fuel f1 cs h tr file s, (length file < fuel)%nat -> Forall is_byte file ->
  chunks f1 cs -> says cs h tr -> matches m s h tr -> outcome m (f1 ++ file) (load_loop fuel m s file).
Proof.
  induction fuel as [|fuel IH]; intros f1 cs h tr file s Hf HB HC HY HM; [lia|].
  destruct (Nat.ltb_spec (length file) 8) as [L|L].
  - destruct (Nat.eq_dec (length file) 0) as [E|E].
    + destruct file; [|discriminate]. rewrite load_loop_nil, app_nil_r. exists cs, h, tr. auto.
    + rewrite load_loop_tiny by lia. exact I.
  - destruct (split_file file L) as (name & sz & rest & -> & Hn & Hs).
    assert (HB' := HB). apply Forall_app in HB'. destruct HB' as [_ HB']. apply Forall_app in HB'. destruct HB' as [HBs HBr].
    pose proof (size_read_bound sz HBs Hs) as Hsz.
    destruct (Z.ltb_spec (Z.of_nat (length rest)) (size_read sz)) as [Lt|Ge]; [rewrite load_loop_short by assumption; exact I|].
    set (k := Z.to_nat (size_read sz)) in *.
    assert (Hlen : size_read sz = Z.of_nat (length (firstn k rest))) by (rewrite firstn_length; lia).
    rewrite <- (firstn_skipn k rest) in HBr |- *. rewrite !app_length in Hf. rewrite <- (firstn_skipn k rest), app_length in Hf.
    set (body := firstn k rest) in *. set (rest' := skipn k rest) in *. clearbody body rest'. clear Ge.
    apply Forall_app in HBr. destruct HBr as [HBb HBt].
    rewrite load_loop_chunk by assumption.
    destruct (chunk_cases m s cs h tr name body HY HM HBb) as [(s' & h' & tr' & E & HY' & HM')|[E|[(E & En & q & d & n & b & r & Eh & Eb & Hd & Hb)|(E & En & Eh & evs & He & Hsn)]]];
      rewrite E; cbn [bind].
    + replace (f1 ++ name ++ sz ++ body ++ rest') with ((f1 ++ name ++ sz ++ body) ++ rest') by (rewrite <- !app_assoc; reflexivity).
      eapply IH; [lia|exact HBt| |exact HY'|exact HM']. apply chunks_app; [exact HC|].
      rewrite <- (app_nil_r body) at 1. constructor; try assumption. constructor.
    + exact I.
    + subst. exists q, d, n, b, r. split; [|auto]. exists f1, cs, tr, sz, rest'. auto.
    + subst. exists body, evs. split; [|auto]. exists f1, cs, tr, sz, rest'. auto.
Qed.

Lemma loop_outcome m file : Forall is_byte file -> outcome m file (load_loop (S (length file)) m (mkLS None None) file).
Proof.
  intros HB. apply (loop_forward m (S (length file)) [] [] None None file); [lia|exact HB|constructor|constructor|].
  split; [reflexivity|]. split; [discriminate|reflexivity].
Qed.

(** ** The theorems *)
Lemma accepted_finish sort m file q evs : sort_contract sort -> Forall is_byte file -> file_says file q evs ->
  good_load sort m file q evs /\ evs_ok evs /\ exists ts, tracks_of m q evs = Ok ts.
Proof.
  intros Hs HB (cs & h & HC & HY). destruct (loop_says m file cs h _ HB HC HY) as (s & (M1 & M2 & M3) & E).
  destruct M3 as (A1 & A2 & A3 & A4 & ts & A5 & A6). split; [|split; [exact A2|exists ts; exact A5]].
  eapply finish_good; [exact A2|exact A5|]. intros ch. eapply (load_finish sort Hs); try eassumption. congruence.
Qed.

Lemma c57_outcome : forall sort, sort_contract sort -> forall m file, Forall is_byte file ->
  ((exists t, load sort m file None = Ok t) <-> exists q evs, file_says file q evs) /\
  (load sort m file None = Err RecursionError <-> status_missing file) /\
  (load sort m file None = Err AssertionError <-> division_missing file) /\
  ((forall channel, load sort m file channel = Err MIDIParsingError) <->
     (forall q evs, ~ file_says file q evs) /\ ~ status_missing file /\ ~ division_missing file) /\
  (forall e channel, load sort m file channel = Err e ->
     e = MIDIParsingError \/ e = RecursionError \/ e = AssertionError \/ (e = ValueError /\ channel <> None)).
Proof.
  intros sort Hs m file HB.
  assert (F1 : forall q evs, file_says file q evs -> exists t, load sort m file None = Ok t).
  { intros q evs H. destruct (accepted_finish sort m file q evs Hs HB H) as ((_ & _ & E) & _). eexists. exact E. }
  assert (F2 : status_missing file -> forall channel, load sort m file channel = Err RecursionError).
  { intros (q & d & n & b & r & HG & Hd & Hb) ch. unfold load.
    rewrite (loop_stops m file q _ HB HG RecursionError (parse_track_no_status m q d n b r Hd Hb)). reflexivity. }
  assert (F3 : division_missing file -> forall channel, load sort m file channel = Err AssertionError).
  { intros (body & evs & HG & He & Hn) ch. unfold load. rewrite (loop_stops m file 0 body HB HG AssertionError); [reflexivity|].
    destruct He as (dt & b & extra & -> & He & Hdt & Hst). rewrite (parse_track_read m 0 evs dt b extra Hst He).
    destruct (tracks_of_ok m 0 evs (Z.le_refl 0)) as (_ & T & _). apply T; [reflexivity|exact Hn]. }
  pose proof (loop_outcome m file HB) as HO.
  assert (C : (exists q evs, file_says file q evs) \/ status_missing file \/ division_missing file \/
              forall channel, load sort m file channel = Err MIDIParsingError).
  { destruct (load_loop (S (length file)) m (mkLS None None) file) as [s|e] eqn:E; cbn [outcome] in HO.
    - destruct HO as (cs & h & tr & HC & HY & (M1 & M2 & M3)). destruct tr as [[q evs]|].
      + left. exists q, evs, cs, h. auto.
      + right. right. right. intros ch. unfold load. rewrite E. cbn [bind]. rewrite M3. destruct (ls_tpq s); reflexivity.
    - destruct e; try contradiction; [tauto| |tauto]. right. right. right. intros ch. unfold load. rewrite E. reflexivity. }
  assert (K : forall {A} (a : A) e, Ok a <> Err e) by discriminate.
  split; [|split; [|split; [|split]]].
  - split; [|intros (q & evs & H); eapply F1; exact H]. intros [t Et]. destruct C as [C|[C|[C|C]]]; [exact C| | |].
    + rewrite (F2 C) in Et. discriminate.
    + rewrite (F3 C) in Et. discriminate.
    + rewrite C in Et. discriminate.
  - split; [|intros H; apply F2, H]. intros Et. destruct C as [(q & evs & C)|[C|[C|C]]]; [|exact C| |].
    + destruct (F1 q evs C) as [t Eq]. congruence.
    + rewrite (F3 C) in Et. discriminate.
    + rewrite C in Et. discriminate.
  - split; [|intros H; apply F3, H]. intros Et. destruct C as [(q & evs & C)|[C|[C|C]]]; [| |exact C|].
    + destruct (F1 q evs C) as [t Eq]. congruence.
    + rewrite (F2 C) in Et. discriminate.
    + rewrite C in Et. discriminate.
  - split.
    + intros H. specialize (H None). split; [|split].
      * intros q evs Hq. destruct (F1 q evs Hq) as [t Eq]. congruence.
      * intros H'. rewrite (F2 H') in H. discriminate.
      * intros H'. rewrite (F3 H') in H. discriminate.
    + intros (H1 & H2 & H3). destruct C as [(q & evs & C)|[C|[C|C]]]; [exfalso; eapply H1; exact C|tauto|tauto|exact C].
  - intros e ch Ee. destruct C as [(q & evs & C)|[C|[C|C]]].
    + destruct (accepted_finish sort m file q evs Hs HB C) as ((G1 & G2 & G3) & _). destruct ch as [c|]; [|congruence].
      destruct (in_dec Z.eq_dec c (chans evs)) as [Hc|Hc]; [rewrite (proj1 (G1 c Hc)) in Ee; discriminate|].
      rewrite (G2 c Hc) in Ee. injection Ee as <-. right. right. right. split; [reflexivity|discriminate].
    + rewrite (F2 C) in Ee. injection Ee as <-. auto.
    + rewrite (F3 C) in Ee. injection Ee as <-. auto.
    + rewrite C in Ee. injection Ee as <-. auto.
Qed.

Lemma c57_meaning : forall sort, sort_contract sort -> forall m file q evs, Forall is_byte file -> file_says file q evs ->
  let present := match channels_of evs with [] => [0] | l => l end in
  (forall c, In c present -> exists t pairs, load sort m file (Some c) = Ok t /\
     let events := on_channel c (note_events_of evs) in
     notes_listed events pairs /\
     Permutation (map value_of (yields sort t)) (map (note_read (mr_delta m) q events) pairs) /\
     t_signature t = chan_sig evs c) /\
  (forall c, ~ In c present -> load sort m file (Some c) = Err ValueError) /\
  exists t, load sort m file None = Ok t /\
    Permutation (map value_of (yields sort t)) (flat_map (of_channel sort m file) present).
Proof.
  intros sort Hs m file q evs HB HF present. destruct (accepted_finish sort m file q evs Hs HB HF) as (HG & He & ts & Et).
  unfold present. rewrite <- chans_eq. split; [|split].
  - intros c Hc. destruct HG as (HG & _). destruct (HG c Hc) as (E1 & E2 & E3).
    exists (chan_track m q evs c), (note_pairs (on_channel c (note_events_of evs))). split; [exact E1|]. cbn zeta.
    split; [apply note_pairs_listed|]. split; [|exact E3]. apply (chan_values sort m q evs ts c Hs He Et Hc).
  - apply HG.
  - destruct (good_merged sort m file q evs Hs HG) as (t & E1 & _ & _ & E2). exists t. auto.
Qed.

(** ** A file says one thing *)
Lemma at_inv pre1 rest1 pre2 rest2 : at_ pre1 rest1 = at_ pre2 rest2 -> pre1 = pre2 /\ rest1 = rest2.
Proof.
  unfold at_. intros H. injection H as H1 H2. assert (HL : length pre1 = length pre2) by lia. clear H2.
  revert pre2 HL H1. induction pre1 as [|x p IH]; intros [|y p2] HL H1; try discriminate; [auto|].
  injection H1 as -> H1. injection HL as HL. destruct (IH p2 HL H1) as [-> ->]. auto.
Qed.

Lemma vlq_unique d1 n1 r1 d2 n2 r2 : vlq_of d1 n1 -> vlq_of d2 n2 -> d1 ++ r1 = d2 ++ r2 -> d1 = d2 /\ n1 = n2 /\ r1 = r2.
Proof.
  intros H1 H2 E. pose proof (read_var_len_ok [] d1 n1 r1 H1) as A. pose proof (read_var_len_ok [] d2 n2 r2 H2) as B.
  rewrite E in A. rewrite A in B. injection B as B1 B2. cbn [app] in *.
  assert (HA : at_ d1 r1 = at_ d2 r2) by (unfold at_; congruence). apply at_inv in HA. tauto.
Qed.

Lemma meta_unique e1 e2 k d : event_ok e1 -> event_ok e2 -> meta_of e1 = Some (k, d) -> meta_of e2 = Some (k, d) -> e1 = e2.
Proof.
  intros O1 O2 H1 H2.
  destruct e1; cbn [meta_of] in H1; try discriminate; destruct e2; cbn [meta_of] in H2; try discriminate;
    injection H1 as <- <-; first [injection H2 as <- <-|injection H2 as H2a H2b|idtac]; subst; try reflexivity;
    cbn [event_ok] in *; try lia; try congruence.
Qed.

Lemma payload_unique e1 e2 b1 b2 r1 r2 : event_ok e1 -> event_ok e2 -> status_of e1 = status_of e2 ->
  payload e1 b1 -> payload e2 b2 -> b1 ++ r1 = b2 ++ r2 -> e1 = e2 /\ b1 = b2 /\ r1 = r2.
Proof.
  intros O1 O2 ES P1 P2 E.
  assert (NM : forall e b s d, e = MOther s d -> payload e b -> b = d).
  { intros e b s d -> HP. inversion HP; subst; [reflexivity|discriminate]. }
  destruct (meta_of e1) as [[k1 d1]|] eqn:M1.
  - assert (S1 : status_of e1 = 255) by (destruct e1; try discriminate; reflexivity).
    assert (S2 : exists k2 d2, meta_of e2 = Some (k2, d2)).
    { destruct e2; cbn [status_of meta_of] in *; try (eexists; eexists; reflexivity); exfalso; rewrite S1 in ES.
      - destruct O2 as (O2 & _). lia.
      - destruct O2 as (O2 & _). lia.
      - destruct O2 as (O2 & _). apply message_length_range in O2. lia. }
    destruct S2 as (k2 & d2 & M2).
    assert (Q1 : exists n1, b1 = k1 :: n1 ++ d1 /\ vlq_of n1 (Z.of_nat (length d1))).
    { inversion P1; subst; try discriminate. replace k with k1 in * by congruence. replace d with d1 in * by congruence. eauto. }
    assert (Q2 : exists n2, b2 = k2 :: n2 ++ d2 /\ vlq_of n2 (Z.of_nat (length d2))).
    { inversion P2; subst; try discriminate. replace k with k2 in * by congruence. replace d with d2 in * by congruence. eauto. }
    destruct Q1 as (n1 & -> & V1). destruct Q2 as (n2 & -> & V2). cbn [app] in E. injection E as -> E. rewrite <- !app_assoc in E.
    destruct (vlq_unique _ _ _ _ _ _ V1 V2 E) as (-> & EL & E').
    assert (ED : d1 = d2 /\ r1 = r2).
    { apply at_inv. unfold at_. rewrite E', EL. reflexivity. }
    destruct ED as [-> ->]. rewrite (meta_unique e1 e2 k2 d2 O1 O2 M1 M2). auto.
  - assert (S1 : status_of e1 <> 255).
    { destruct e1; try discriminate; cbn [status_of]; destruct O1 as (O1 & _); try lia. apply message_length_range in O1. lia. }
    assert (M2 : meta_of e2 = None) by (destruct e2; try reflexivity; cbn [status_of] in ES; congruence).
    destruct e1 as [c1 p1 v1|c1 p1 v1|s1 d1| | | |]; try discriminate; destruct e2 as [c2 p2 v2|c2 p2 v2|s2 d2| | | |]; try discriminate; cbn [status_of event_ok] in *;
      inversion P1; subst; try discriminate; inversion P2; subst; try discriminate; unfold is_note_status in *.
    + cbn [app] in E. injection E as -> -> ->. replace c2 with c1 by lia. auto.
    + lia.
    + lia.
    + lia.
    + cbn [app] in E. injection E as -> -> ->. replace c2 with c1 by lia. auto.
    + lia.
    + lia.
    + lia.
    + assert (EL : length b1 = length b2) by (destruct O1 as (O1 & _); destruct O2 as (O2 & _); congruence).
      assert (ED : b1 = b2 /\ r1 = r2) by (apply at_inv; unfold at_; rewrite E, EL; reflexivity).
      destruct ED as [-> ->]. auto.
Qed.

(** The status of the event and the bytes of its payload. *)
Lemma event_read_status previous e b next : event_ok e -> event_read previous e b next ->
  exists p, payload e p /\ ((b = status_of e :: p /\ 128 <= status_of e) \/
    (b = p /\ previous = Some (status_of e) /\ exists y r, p ++ next = y :: r /\ y < 128)).
Proof.
  intros Ho [[p Hp|x p Hp Hpr Hx]|(-> & Hp & Hpr & y & r & -> & Hy)].
  - exists p. split; [exact Hp|]. left. split; [reflexivity|]. apply status_of_range in Ho. lia.
  - exists (x :: p). split; [exact Hp|]. right. split; [reflexivity|]. split; [exact Hpr|]. exists x, (p ++ next). auto.
  - exists []. split; [exact Hp|]. right. split; [reflexivity|]. split; [exact Hpr|]. exists y, r. auto.
Qed.

Lemma event_unique previous e1 b1 r1 e2 b2 r2 : event_ok e1 -> event_ok e2 ->
  event_read previous e1 b1 r1 -> event_read previous e2 b2 r2 -> b1 ++ r1 = b2 ++ r2 -> e1 = e2 /\ b1 = b2 /\ r1 = r2.
Proof.
  intros O1 O2 H1 H2 E.
  destruct (event_read_status previous e1 b1 r1 O1 H1) as (p1 & P1 & C1).
  destruct (event_read_status previous e2 b2 r2 O2 H2) as (p2 & P2 & C2).
  destruct C1 as [(-> & S1)|(-> & V1 & y1 & x1 & E1 & L1)]; destruct C2 as [(-> & S2)|(-> & V2 & y2 & x2 & E2 & L2)].
  - cbn [app] in E. injection E as ES E. destruct (payload_unique e1 e2 p1 p2 r1 r2 O1 O2 ES P1 P2 E) as (-> & -> & ->). auto.
  - exfalso. rewrite E2 in E. injection E as ES _. lia.
  - exfalso. rewrite E1 in E. injection E as ES _. lia.
  - apply (payload_unique e1 e2 p1 p2 r1 r2 O1 O2); try assumption. congruence.
Qed.

Lemma stream_unique : forall evs1 evs2 previous dt1 dt2 b1 b2 r1 r2, evs_ok evs1 -> evs_ok evs2 ->
  stream_read previous (evs1 ++ [(dt1, MEndOfTrack)]) b1 r1 -> stream_read previous (evs2 ++ [(dt2, MEndOfTrack)]) b2 r2 ->
  b1 ++ r1 = b2 ++ r2 -> evs1 = evs2 /\ dt1 = dt2 /\ b1 = b2 /\ r1 = r2.
Proof.
  assert (Head : forall previous dt1 e1 l1 b1 r1 dt2 e2 l2 b2 r2, event_ok e1 -> event_ok e2 ->
    stream_read previous ((dt1, e1) :: l1) b1 r1 -> stream_read previous ((dt2, e2) :: l2) b2 r2 -> b1 ++ r1 = b2 ++ r2 ->
    dt1 = dt2 /\ e1 = e2 /\ exists h t1 t2, b1 = h ++ t1 /\ b2 = h ++ t2 /\ t1 ++ r1 = t2 ++ r2 /\
      stream_read (Some (status_of e1)) l1 t1 r1 /\ stream_read (Some (status_of e1)) l2 t2 r2).
  { intros previous dt1 e1 l1 b1 r1 dt2 e2 l2 b2 r2 O1 O2 H1 H2 E.
    inversion H1 as [|? ? ? ? d1 p1 s1 ? V1 P1 R1]; subst. inversion H2 as [|? ? ? ? d2 p2 s2 ? V2 P2 R2]; subst.
    rewrite <- !app_assoc in E. destruct (vlq_unique _ _ _ _ _ _ V1 V2 E) as (-> & -> & E').
    destruct (event_unique previous e1 p1 (s1 ++ r1) e2 p2 (s2 ++ r2) O1 O2 P1 P2 E') as (-> & -> & E'').
    split; [reflexivity|]. split; [reflexivity|]. exists (d2 ++ p2), s1, s2. rewrite <- !app_assoc. auto. }
  assert (Tail : forall x evs, evs_ok (x :: evs) -> evs_ok evs /\ event_ok (snd x) /\ snd x <> MEndOfTrack).
  { intros x evs (A & B & C). inversion A; inversion B; inversion C; subst. split; [split; [assumption|split; assumption]|auto]. }
  assert (OE : event_ok MEndOfTrack) by exact I.
  induction evs1 as [|[t1 e1] evs1 IH]; intros [|[t2 e2] evs2] previous dt1 dt2 b1 b2 r1 r2 K1 K2 H1 H2 E; cbn [app] in H1, H2.
  - destruct (Head _ _ _ _ _ _ _ _ _ _ _ OE OE H1 H2 E) as (-> & _ & h & x1 & x2 & -> & -> & Ex & R1 & R2).
    inversion R1; subst. inversion R2; subst. auto.
  - exfalso. destruct (Tail _ _ K2) as (_ & O2 & N2). cbn [snd] in *.
    destruct (Head _ _ _ _ _ _ _ _ _ _ _ OE O2 H1 H2 E) as (_ & Ee & _). congruence.
  - exfalso. destruct (Tail _ _ K1) as (_ & O1 & N1). cbn [snd] in *.
    destruct (Head _ _ _ _ _ _ _ _ _ _ _ O1 OE H1 H2 E) as (_ & Ee & _). congruence.
  - destruct (Tail _ _ K1) as (K1' & O1 & N1). destruct (Tail _ _ K2) as (K2' & O2 & N2). cbn [snd] in *.
    destruct (Head _ _ _ _ _ _ _ _ _ _ _ O1 O2 H1 H2 E) as (-> & -> & h & x1 & x2 & -> & -> & Ex & R1 & R2).
    destruct (IH _ _ _ _ _ _ _ _ K1' K2' R1 R2 Ex) as (-> & -> & -> & ->). auto.
Qed.

Lemma says_events_unique body evs evs' : says_events body evs -> says_events body evs' -> evs = evs'.
Proof.
  intros (dt & b & x & E & H1 & _ & H2) (dt' & b' & x' & E' & H1' & _ & H2').
  eapply stream_unique; [exact H1|exact H1'|exact H2|exact H2'|congruence].
Qed.

Lemma chunks_unique : forall file cs, chunks file cs -> forall cs', chunks file cs' -> cs = cs'.
Proof.
  induction 1 as [|name sz body file cs H1 H2 H3 H IH]; intros cs' H'.
  - inversion H' as [|name sz body file cs Hn Hs Hz Hf HE]; [reflexivity|]. exfalso. destruct name; discriminate.
  - inversion H' as [HE|name' sz' body' file' cs2 Hn Hs Hz Hf HE]; subst; [destruct name; discriminate|].
    assert (E1 : name' = name /\ sz' ++ body' ++ file' = sz ++ body ++ file) by (apply at_inv; unfold at_; rewrite HE; f_equal; lia).
    destruct E1 as [-> E1].
    assert (E2 : sz' = sz /\ body' ++ file' = body ++ file) by (apply at_inv; unfold at_; rewrite E1; f_equal; lia).
    destruct E2 as [-> E2].
    assert (E3 : body' = body /\ file' = file) by (apply at_inv; unfold at_; rewrite E2; f_equal; lia).
    destruct E3 as [-> ->]. f_equal. apply IH, Hf.
Qed.

Lemma says_unique : forall cs h tr, says cs h tr -> forall h' tr', says cs h' tr' -> h = h' /\ tr = tr'.
Proof.
  assert (Snoc : forall {A} (l1 l2 : list A) x y, l1 ++ [x] = l2 ++ [y] -> l1 = l2 /\ x = y) by (intros; apply app_inj_tail; assumption).
  induction 1 as [|cs h tr body q HY IH HD|cs q tr body evs HY IH HE HZ|cs h tr name body HY IH N1 N2]; intros h' tr' H';
    inversion H' as [E1|cs' q' tr0 body' q1 HY' HD' E1|cs' q' tr0 body' evs' HY' HE' HZ' E1|cs' q' tr0 name' body' HY' N1' N2' E1]; subst;
    try (exfalso; destruct cs; discriminate); try (exfalso; destruct cs'; discriminate);
    try (symmetry in E1; apply Snoc in E1; destruct E1 as [-> E2]; try discriminate; try (exfalso; congruence); injection E2 as <-).
  - auto.
  - destruct (IH _ _ HY') as [_ ->]. destruct HD as (e & f & x & E & -> & _). destruct HD' as (e' & f' & x' & E' & -> & _).
    rewrite E in E'. injection E' as -> -> _. auto.
  - destruct (IH _ _ HY') as [E3 _]. injection E3 as <-. rewrite (says_events_unique _ _ _ HE HE'). auto.
  - apply IH. congruence.
Qed.

Lemma c57_unique : forall file q evs q' evs', file_says file q evs -> file_says file q' evs' -> q = q' /\ evs = evs'.
Proof.
  intros file q evs q' evs' (cs & h & HC & HY) (cs' & h' & HC' & HY'). rewrite <- (chunks_unique file cs HC cs' HC') in HY'.
  destruct (says_unique cs _ _ HY _ _ HY') as [_ E]. injection E as -> ->. auto.
Qed.

(** The bytes of events according to the MIDI specification are read as these events. *)
Lemma stream_bytes_read : forall previous evs b, stream_bytes previous evs b -> forall next, stream_read previous evs b next.
Proof.
  intros previous evs b H. induction H as [|previous dt e r d b s H1 H2 H3 IH]; intros next; [constructor|].
  constructor; [exact H1|left; exact H2|apply IH].
Qed.
