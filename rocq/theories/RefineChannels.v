(** Running the source of the loop of MIDIReader._parse_track over the channels (io/midi.py 560-602) gives what the
    model in MidiReader.v says. *)
From Coq Require Import ZArith List Bool String Lia SpecFloat.
From Verif Require Import Py PyFloat PySort Signature Tone Note Track Show MidiWriter MidiReader PyAst PySem PySource PyProgram SpecBase MidiSpec SigFacts ReadFacts
  RefineBase RefineSignature RefineTone RefineNote RefineWriter RefineTrack RefineAdd RefineTrackProps RefineReader RefineNumbers RefineEvent RefineParse RefineParseLoop RefineChannel.
Import ListNotations.
Open Scope string_scope.
Open Scope list_scope.
Open Scope Z_scope.

(** ** A dictionary of tracks: the place of the object and the place of its list *)
Definition tracks_at (h : heap) (ts : dict track) (rs : dict (nat * nat)) : Prop :=
  Forall2 (fun x y => fst x = fst y /\ track_at h (fst (snd y)) (snd (snd y)) (snd x) /\ good_track (snd x)) ts rs /\
  NoDup (map (fun y => fst (snd y)) rs) /\ NoDup (map (fun y => snd (snd y)) rs).
Definition track_ref (y : nat * nat) : value := VRef (fst y).
Definition fresh_tracks (h : heap) (rs : dict (nat * nat)) : Prop := Forall (fun y => get h (fst (snd y)) = None /\ get h (snd (snd y)) = None) rs.

Lemma tracks_kept h h' L ts rs : tracks_at h ts rs -> keeps L h h' ->
  (forall q, In q L -> ~ In q (map (fun y => fst (snd y)) rs) /\ ~ In q (map (fun y => snd (snd y)) rs)) -> tracks_at h' ts rs.
Proof.
  intros (F & N) K NL. split; [|exact N]. clear N. induction F as [|x y ts rs (E & (T1 & T2) & G) F IH]; constructor.
  - split; [exact E|]. split; [|exact G]. split; apply (keeps_get _ _ _ _ _ K); try assumption; intros X; destruct (NL _ X) as [A B]; cbn in *; tauto.
  - apply IH. intros q X. destruct (NL q X) as [A B]. cbn in *. tauto.
Qed.
Lemma tracks_bound h ts rs a : tracks_at h ts rs ->
  (In a (map (fun y => fst (snd y)) rs) -> exists o, get h a = Some (HInst "Track" o)) /\ (In a (map (fun y => snd (snd y)) rs) -> exists l, get h a = Some (HList l)).
Proof.
  intros (F & _). induction F as [|x y ts rs (E & (T1 & T2) & G) F [IH1 IH2]]; split; cbn; try tauto.
  - intros [<-|X]; [unfold enc_track in T1; eauto|auto].
  - intros [<-|X]; [eauto|auto].
Qed.
Lemma nodup_snoc {A} (l : list A) x : NoDup l -> ~ In x l -> NoDup (l ++ [x]).
Proof.
  intros N I. induction N as [|y l Y N IH]; cbn; [repeat constructor; intros []|]. constructor; [|apply IH; intros X; apply I; right; exact X].
  rewrite in_app_iff. cbn. intros [X|[X|[]]]; [contradiction|]. apply I. left. auto.
Qed.
Lemma tracks_more h ts rs c a d t : tracks_at h ts rs -> track_at h a d t -> good_track t ->
  ~ In a (map (fun y => fst (snd y)) rs) -> ~ In d (map (fun y => snd (snd y)) rs) -> tracks_at h (ts ++ [(c, t)]) (rs ++ [(c, (a, d))]).
Proof.
  intros (F & N1 & N2) T G A D. split; [|split; rewrite map_app; apply nodup_snoc; assumption].
  apply Forall2_app; [exact F|]. constructor; [|constructor]. cbn. auto.
Qed.
Lemma set_absent {A} (d : dict A) c v : ~ In c (map fst d) -> dict_set d c v = d ++ [(c, v)].
Proof.
  induction d as [|[k w] d IH]; cbn; [reflexivity|]. intros I. destruct (c =? k) eqn:E; [exfalso; apply I; left; lia|]. rewrite IH; [reflexivity|tauto].
Qed.
Lemma tracks_keys h ts rs : tracks_at h ts rs -> map fst rs = map fst ts.
Proof. intros (F & _). induction F as [|x y ts rs (E & _) F IH]; cbn; [reflexivity|]. rewrite E, IH. reflexivity. Qed.

Lemma good_sigs_get d k s : good_sigs d -> dict_get d k = Some s -> good_sig s.
Proof. induction 1 as [|[k' s'] d A B IH]; cbn; [discriminate|]. destruct (k =? k'); [intros X; injection X as <-; exact A|exact IH]. Qed.
Lemma fresh_before h1 h p a o : keeps [p] h1 h -> get h p = Some o -> get h a = None -> get h1 a = None.
Proof.
  intros K G N. destruct (get h1 a) as [v|] eqn:E; [|reflexivity]. assert (a <> p) by congruence.
  assert (NI : ~ In a [p]) by (intros [X|[]]; congruence). rewrite (keeps_get _ _ _ _ _ K NI E) in N. discriminate.
Qed.

Section Channels.
Variable Y : python.
Notation steps := (steps melodia Y).
Notation reaches := (reaches melodia Y).
Variables cd cp cr ce cs pr : nat.
Variable cv : value.
Variable delta : Z.
Notation m := (mkMR delta).
Variables q g t0 dt : Z.
(** The heap when the loop begins. *)
Variable h1 : heap.
Variable sigs : dict sig.
Hypothesis SG : get h1 cs = Some (HDict false (enc_dict enc_sig sigs)).
Hypothesis GS : good_sigs sigs.
Hypothesis CP : get h1 pr = Some (HDict false []).
Hypothesis CN : cs <> pr.

Definition channels_for : target * list stmt :=
  Eval calc in match f_body src_MIDIReader__parse_track with
               | [_; _; _; _; _; _; _; _; _; SFor t _ b; _] => (t, b)
               | _ => (TName "", [])
               end.
Definition channels_target := Eval cbv in fst channels_for.
Definition channels_body := Eval cbv in snd channels_for.
Definition channels_tail := Eval cbv in match channels_body with [_; a; b; c; d] => [a; b; c; d] | _ => [] end.
Definition channels_last := Eval cbv in match channels_body with [_; _; _; _; a] => [a] | _ => [] end.
Definition channels_env (at_ : Z) (ev : value) (x : option (Z * nat * sig * nat * nat * note_vars)) : env :=
  match x with
  | None => [("self", enc_midi_reader cv m); ("data", VCell cd); ("ticks_per_quarter", VInt q); ("previous_status", VCell cp); ("read_event", VCell cr);
             ("channel_events", VRef ce); ("channel_signatures", VRef cs); ("global_channel", VInt g); ("last_time", VInt t0);
             ("delta_time", VInt dt); ("absolute_time", VInt at_); ("event", ev); ("result", VRef pr)]
  | Some (c, b, s, a, rn, x) => channel_env cd cp cr ce cs pr cv delta q g t0 dt c b s a rn at_ ev x
  end.
Lemma signature_good c : good_sig (channel_signature sigs c).
Proof.
  unfold channel_signature.
  destruct (dict_get sigs c) eqn:E; [exact (good_sigs_get _ _ _ GS E)|]. destruct (dict_get sigs (-1)) eqn:E'; [exact (good_sigs_get _ _ _ GS E')|]. discriminate.
Qed.
Variable K : list frame.
Variable Q : state -> Prop.

Lemma channels_loop_runs : forall ds es h ts rs at_ ev x,
  keeps [pr] h1 h -> Forall2 (fun x y => fst x = fst y /\ get h1 (snd y) = Some (HList (map enc_timed (snd x)))) ds es -> good_events ds ->
  NoDup (map fst ts ++ map fst ds) -> get h pr = Some (HDict false (enc_dict track_ref rs)) -> tracks_at h ts rs -> fresh_tracks h1 rs -> plain_value ev = true ->
  (forall rest h' rs' at' ev' x', channels_loop m q sigs ds = Ok rest -> keeps [pr] h1 h' -> get h' pr = Some (HDict false (enc_dict track_ref rs')) ->
     tracks_at h' (ts ++ rest) rs' -> fresh_tracks h1 rs' -> reaches (Ex [] (channels_env at' ev' x') h' K) Q) ->
  (forall e h', channels_loop m q sigs ds = Err e -> keeps [pr] h1 h' -> Q (Thr e h')) ->
  reaches (Lp channels_target channels_body (ISeq (map (fun y => VTuple [VInt (fst y); VRef (snd y)]) es)) (channels_env at_ ev x) h K) Q.
Proof.
  induction ds as [|[c l] ds IH]; intros es h ts rs at_ ev x KE FE GE ND GP TS FT PV OK ER.
  - inversion FE; subst. eapply reaches_more; [reflexivity|]. eapply (OK [] h rs); [reflexivity|exact KE|exact GP|rewrite app_nil_r; exact TS|exact FT].
  - inversion FE as [|? [c' b] ? es' [C1 C2] FE']; subst. cbn [fst snd] in *. subst c'. inversion GE as [|? ? GL GE']; subst. cbn [snd] in GL.
    eapply (reaches_more _ _ _ (As [(channels_target, VTuple [VInt c; VRef b])] channels_body (channels_env at_ ev x) h
      (KLoopF channels_target channels_body (ISeq (map (fun y => VTuple [VInt (fst y); VRef (snd y)]) es')) :: K))); [reflexivity|].
    pose proof (signature_good c) as GC.
    assert (G1 : get h cs = Some (HDict false (enc_dict enc_sig sigs))) by heap_get.
    cbn [channels_loop] in OK, ER.
    assert (BH : get h b = Some (HList (map enc_timed l))).
    { apply (keeps_get _ _ _ _ _ KE); [|exact C2]. intros [X|[]]. congruence. }
    (* the track and the notes *)
    assert (REST : forall y, reaches (Ex channels_tail (match y with
        | None => channels_env at_ ev None ++ [("channel", VInt c); ("events", VRef b); ("signature", enc_sig (channel_signature sigs c))]
        | Some (a, rn, z) => channels_env at_ ev (Some (c, b, channel_signature sigs c, a, rn, z)) end) h
        (KLoopF channels_target channels_body (ISeq (map (fun y => VTuple [VInt (fst y); VRef (snd y)]) es')) :: K)) Q).
    { assert (NEXT : forall h2 a d t h3 rn at' ev' x', keeps [] h h2 -> channel_loop m q l [] (track_empty (channel_signature sigs c)) = Ok t ->
         track_at h3 a d t -> good_track t -> get h a = None -> get h d = None -> keeps [] h h3 -> plain_value ev' = true ->
         reaches (Lp channels_target channels_body (ISeq (map (fun y => VTuple [VInt (fst y); VRef (snd y)]) es')) 
           (channels_env at' ev' (Some (c, b, channel_signature sigs c, a, rn, x'))) (put h3 pr (HDict false (enc_dict track_ref (rs ++ [(c, (a, d))])))) K) Q).
      { intros h2 a d t h3 rn at' ev' x' K2 E1 T3 G3 FA FD K3 PV'. rewrite E1 in OK, ER. cbn [bind] in OK, ER.
        assert (P3 : get h3 pr = Some (HDict false (enc_dict track_ref rs))) by heap_get.
        eapply (IH es' _ (ts ++ [(c, t)]) (rs ++ [(c, (a, d))])); [keep|exact FE'|exact GE'| |heap_get| | |exact PV'| |].
        - rewrite map_app. cbn [map fst] in ND |- *. rewrite <- app_assoc. exact ND.
        - apply tracks_more.
          + apply (tracks_kept h _ [pr]); [exact TS|keep|]. intros p [<-|[]]. split; intros X; apply (tracks_bound _ _ _ _ TS) in X; destruct X; congruence.
          + destruct T3 as [T3 T4]. assert (a <> pr) by congruence. assert (d <> pr) by congruence. split; heap_get.
          + exact G3.
          + intros X. apply (tracks_bound _ _ _ _ TS) in X. destruct X. congruence.
          + intros X. apply (tracks_bound _ _ _ _ TS) in X. destruct X. congruence.
        - apply Forall_app. split; [exact FT|]. constructor; [|constructor]. cbn [fst snd]. split; eapply fresh_before; eassumption.
        - intros rest h' rs' at2 ev2 x2 R. rewrite R in OK. cbn [bind] in OK. rewrite <- app_assoc. cbn [app]. exact (OK _ h' rs' at2 ev2 x2 eq_refl).
        - intros e h' R. rewrite R in ER. cbn [bind] in ER. exact (ER e h' eq_refl). }
      assert (BAD : forall e h3, channel_loop m q l [] (track_empty (channel_signature sigs c)) = Err e -> keeps [] h h3 -> Q (Thr e h3)).
      { intros e h3 E1 K3. rewrite E1 in ER. cbn [bind] in ER. apply ER; [reflexivity|keep]. }
      clear OK ER IH. set (s := channel_signature sigs c) in *. clearbody s.
      assert (NEW : forall K' Q', (forall h2 a d, keeps [] h h2 -> track_at h2 a d (track_empty s) -> get h a = None -> get h d = None -> reaches (Rt (VRef a) h2 K') Q') ->
         reaches (Ca (VClass "Track") [] [("signature", enc_sig s)] h K') Q').
      { intros K' Q' R. eapply reaches_trans.
        { eapply (reaches_same Y _ (Ca (VClass "Track") [enc_sig s; VNone] [] h _)); [reflexivity|discriminate| |eapply track_new_runs; [constructor|exact GC|constructor]].
          cbn. intros (? & ? & ? & X & _). discriminate X. }
        intros ? (h2 & a & d & -> & T2 & A1 & A2 & K2). exact (R h2 a d K2 T2 A1 A2). }
      assert (LOOP : forall h2 a d x, keeps [] h h2 -> track_at h2 a d (track_empty s) -> get h a = None -> get h d = None ->
        reaches (Lp channel_target channel_body (IRef b 0) (channel_env cd cp cr ce cs pr cv delta q g t0 dt c b s a (next_place h2) at_ ev x) (new h2 (HDict false []))
          (KSeq channels_last :: KLoopF channels_target channels_body (ISeq (map (fun y => VTuple [VInt (fst y); VRef (snd y)]) es')) :: K)) Q).
      { intros h2 a d x0 K2 [T2 T3] A1 A2. assert (N2 : get h2 (next_place h2) = None) by apply fresh_none.
        eapply (channel_loop_runs Y cd cp cr ce cs pr cv delta q g t0 dt c b s a (next_place h2) h l GL BH _ Q A1) with (d := d) (t := track_empty s) (M := []).
        - exact (fresh_after _ _ _ _ K2 A1 (or_intror N2)).
        - keep.
        - reflexivity.
        - split; heap_get.
        - apply empty_good. exact GC.
        - exact A2.
        - heap_get.
        - constructor.
        - exact PV.
        - intros t' h' d' at' ev' x' E1 T' G' FD' K' PV'. 
          assert (P3 : get h' pr = Some (HDict false (enc_dict track_ref rs))) by heap_get.
          pose proof (insert_dict track_ref c (a, d') rs) as ID. rewrite set_absent in ID by (rewrite (tracks_keys _ _ _ TS); intros X; apply NoDup_remove_2 in ND; apply ND; apply in_app_iff; left; exact X).
          unfold track_ref at 1 in ID. cbn [fst] in ID. specialize (NEXT h2 a d' t' h' (next_place h2) at' ev' x' K2 E1 T' G' A1 FD' K' PV').
          remember (enc_dict track_ref rs) as D eqn:HD. remember (enc_dict track_ref (rs ++ _)) as D' eqn:HD'.
          change (insert (VInt c) ?v D = ?x) with (fact (insert (VInt c) v D = x)) in ID. clear HD HD'.
          unfold channels_env, channel_env, channels_last in *.
          repeat (lazymatch goal with |- RefineBase.reaches _ _ (Lp _ _ _ _ _ _) _ => fail | _ => adv end). exact NEXT.
        - exact BAD. }
      clear NEXT BAD. intros y. destruct y as [[[ya yr] yx]|]; [destruct yx as [[[[[[? [[? ?] ?]] ?] ?] ?] ?]|]|]; unfold channels_env, channel_env, note_env, channels_tail; cbn [app].
      all: repeat (lazymatch goal with |- RefineBase.reaches _ _ (Ca (VClass "Track") _ _ _ _) _ => fail | _ => adv end).
      all: apply NEW; intros h2 a d K2 T2 A1 A2.
      all: repeat (lazymatch goal with |- RefineBase.reaches _ _ (Lp _ _ _ _ _ _) _ => fail | _ => adv end).
      - exact (LOOP h2 a d (Some (_, (_, _, _), _, _, _, _)) K2 T2 A1 A2).
      - exact (LOOP h2 a d None K2 T2 A1 A2).
      - exact (LOOP h2 a d None K2 T2 A1 A2). }
    clear OK ER IH TS FT. unfold channel_signature in REST.
    pose proof (lookup_dict enc_sig c sigs) as L1. pose proof (lookup_dict enc_sig (Z.opp 1) sigs) as L2. change (dict_get sigs (-1)) with (dict_get sigs (Z.opp 1)) in REST.
    remember (enc_dict enc_sig sigs) as D eqn:HD. 
    destruct (dict_get sigs c) as [s|] eqn:E1; [|destruct (dict_get sigs (Z.opp 1)) as [s|] eqn:E2]; cbn [option_map] in L1, L2; unfold enc_sig, v_signature in L1, L2;
      change (lookup (VInt c) D = ?x) with (fact (lookup (VInt c) D = x)) in L1; change (lookup (VInt (Z.opp 1)) D = ?x) with (fact (lookup (VInt (Z.opp 1)) D = x)) in L2.
    all: destruct x as [[[[[[xc xb] xs] xa] xr] [[[[[[? [[? ?] ?]] ?] ?] ?] ?]|]]|]; unfold channels_env, channel_env, note_env; unfold channels_target at 1, channels_body at 1; cbn [app].
    all: repeat (lazymatch goal with |- RefineBase.reaches _ _ (Ex (SAssign (TName "track") _ :: _) _ _ _) _ => fail | |- RefineBase.reaches _ _ (Ca (VClass "Signature") _ _ _ _) _ => fail | _ => adv end).
    all: try (eapply reaches_steps; [eapply new_runs|]; change (sig_new 4 4) with (Ok (mkSig 4 4)); cbn [outcome_of ends];
      repeat (lazymatch goal with |- RefineBase.reaches _ _ (Ex (SAssign (TName "track") _ :: _) _ _ _) _ => fail | _ => adv end)).
    all: first [exact (REST (Some (_, _, Some (_, (_, _, _), _, _, _, _))))|exact (REST (Some (_, _, None)))|exact (REST None)].
Qed.
End Channels.
