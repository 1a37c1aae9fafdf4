(** Running the source of MIDIReader.load, MIDIReader.loads and the module functions load and loads (io/midi.py 604-674, 702-725)
    gives what the model in MidiReader.v says. *)
From Coq Require Import ZArith List Bool String Lia SpecFloat.
From Verif Require Import Py PyFloat PySort Signature Tone Note Track Show MidiWriter MidiReader PyAst PySem PySource PyProgram SpecBase MidiSpec SigFacts SortFacts ReadFacts
  RefineBase RefineSignature RefineTone RefineNote RefineWriter RefineTrack RefineAdd RefineEqual RefineTrackProps RefineReader RefineNumbers RefineEvent RefineDeep RefineParse RefineParseLoop RefineChannel
  RefineChannels RefineParseTrack RefineChunks.
Import ListNotations.
Open Scope string_scope.
Open Scope list_scope.
Open Scope Z_scope.

Definition load_rest : list stmt := Eval calc in match f_body src_MIDIReader_load with _ :: _ :: _ :: _ :: l => l | _ => [] end.
Definition merge_code : list stmt := Eval calc in match load_rest with [_; _; _; SIf _ l _; _; _] => l | _ => [] end.
Definition max_for : target * list stmt := Eval calc in match merge_code with _ :: SFor t _ b :: _ => (t, b) | _ => (TName "", []) end.
Definition max_target := Eval cbv in fst max_for.
Definition max_body := Eval cbv in snd max_for.
Definition merge_for : target * list stmt := Eval calc in match merge_code with [_; _; _; SFor t _ b; _] => (t, b) | _ => (TName "", []) end.
Definition merge_target := Eval cbv in fst merge_for.
Definition merge_body := Eval cbv in snd merge_for.
Definition inner_for : target * list stmt := Eval calc in match merge_body with [SFor t _ b] => (t, b) | _ => (TName "", []) end.
Definition inner_target := Eval cbv in fst inner_for.
Definition inner_body := Eval cbv in snd inner_for.
Definition track_refs (rs : dict (nat * nat)) : list value := map (fun y => VRef (fst (snd y))) rs.

Section Merge.
Variable Y : python.
Notation reaches := (reaches melodia Y).
Variable cv : value.
Variable delta : Z.
Variable f : nat.
(** The values of the names when the loop over the chunks has ended. *)
Variables q : Z.
Variable trv : value.
Variable kd : bytes.
Variable rp : nat.
Definition max_env (mx : sig) (x : option nat) : env :=
  [("self", VObj "MIDIReader" [("_middle_c", cv); ("_middle_c_delta", VInt delta)]); ("file", VRef f); ("channel", VNone);
   ("kind", VInt 0); ("ticks_per_quarter", VInt q); ("tracks", trv);
   ("chunk_kind", VBytes kd); ("chunk_data", VRef rp); ("n_tracks", VInt 1); ("division", VInt q); ("max_signature", enc_sig mx)] ++
  match x with None => [] | Some a => [("track", VRef a)] end.
Definition merge_env (mx : sig) (a c : nat) (x : option entry) : env :=
  [("self", VObj "MIDIReader" [("_middle_c", cv); ("_middle_c_delta", VInt delta)]); ("file", VRef f); ("channel", VNone);
   ("kind", VInt 0); ("ticks_per_quarter", VInt q); ("tracks", trv);
   ("chunk_kind", VBytes kd); ("chunk_data", VRef rp); ("n_tracks", VInt 1); ("division", VInt q); ("max_signature", enc_sig mx); ("track", VRef a); ("common_track", VRef c)] ++
  match x with None => [] | Some e => [("position", enc_sig (fst e)); ("note", enc_note (snd e))] end.

Lemma max_loop_runs K Q h : forall ts rs mx x,
  Forall2 (fun x y => fst x = fst y /\ track_at h (fst (snd y)) (snd (snd y)) (snd x) /\ good_track (snd x)) ts rs -> good_sig mx ->
  (forall mx' x', mx' = fold_left (fun mx t => if sig_gt (t_signature t) mx then t_signature t else mx) (map snd ts) mx -> good_sig mx' -> (x = None -> rs <> [] -> x' <> None) ->
     (x <> None -> x' <> None) -> reaches (Ex [] (max_env mx' x') h K) Q) ->
  reaches (Lp max_target max_body (ISeq (track_refs rs)) (max_env mx x) h K) Q.
Proof.
  intros ts rs mx x F. revert mx x. induction F as [|[k t] [k' [a d]] ts rs (E & (T1 & T2) & G) F IH]; intros mx x GM OK.
  - eapply (reaches_more _ _ _ (Ex [] (max_env mx x) h K)); [reflexivity|]. apply OK; [reflexivity|exact GM| |]; congruence.
  - cbn [fst snd track_refs map fold_left] in *. clear E T2.
    eapply (reaches_more _ _ _ (As [(max_target, VRef a)] max_body (max_env mx x) h (KLoopF max_target max_body (ISeq (track_refs rs)) :: K))); [reflexivity|].
    destruct G as (_ & _ & GS).
    assert (NEXT : reaches (Lp max_target max_body (ISeq (track_refs rs)) (max_env (if sig_gt (t_signature t) mx then t_signature t else mx) (Some a)) h K) Q).
    { apply IH; [destruct (sig_gt _ _); assumption|]. intros mx' x' E1 G1 _ X2. apply OK; [exact E1|exact G1| |]; intros; apply X2; discriminate. }
    clear IH OK F. unfold enc_track in T1.
    destruct t as [[sn sd] mp md l so]. destruct mx as [mn md']. unfold max_env, enc_sig in *. cbn [t_signature nominator denominator app] in *.
    pose proof (gt_runs Y sn sd mn md' h) as GT. specialize (fun K => GT K GS GM).
    unfold max_target at 1, max_body at 1.
    destruct x as [x|]; cbn [app].
    all: repeat (lazymatch goal with |- RefineBase.reaches _ _ (Ca (VFun "Signature.__gt__") _ _ _ _) _ => fail | _ => adv end).
    all: eapply reaches_steps; [exact (GT _)|]; destruct (sig_gt (mkSig sn sd) (mkSig mn md')); cbn [nominator denominator] in NEXT.
    all: repeat (lazymatch goal with |- RefineBase.reaches _ _ (Lp _ _ _ _ _ _) _ => fail | _ => adv end).
    all: exact NEXT.
Qed.

Lemma inner_loop_runs a b c L mx K Q : Forall good_entry L -> forall l h i d t x,
  get h b = Some (HList (map enc_entry L)) -> skipn i L = l -> track_at h c d t -> good_track t -> b <> c -> b <> d ->
  (forall t' h' d' x', add_entries t l = Ok t' -> track_at h' c d' t' -> good_track t' -> d' = d \/ get h d' = None -> keeps [c; d] h h' ->
     reaches (Ex [] (merge_env mx a c x') h' K) Q) ->
  (forall e h', add_entries t l = Err e -> keeps [c; d] h h' -> Q (Thr e h')) ->
  reaches (Lp inner_target inner_body (IRef b i) (merge_env mx a c x) h K) Q.
Proof.
  intros GL. induction l as [|[[p p'] n] l IH]; intros h i d t x G E T GT BC BD OK ER.
  - eapply (reaches_more _ _ _ (Ex [] (merge_env mx a c x) h K)).
    { cbn [step]; unfold loop_step; cbn [next]. rewrite G, nth_error_map, (skipn_nil_nth _ _ E). reflexivity. }
    apply (OK t h d x); [reflexivity|exact T|exact GT|left; reflexivity|keep].
  - destruct (skipn_cons _ _ _ _ E) as [A B].
    assert (VE : good_entry (mkSig p p', n)) by (rewrite Forall_forall in GL; apply GL; eapply nth_error_In; exact A).
    eapply (reaches_more _ _ _ (As [(inner_target, enc_entry (mkSig p p', n))] inner_body (merge_env mx a c x) h (KLoopF inner_target inner_body (IRef b (S i)) :: K))).
    { cbn [step]; unfold loop_step; cbn [next]. rewrite G, nth_error_map, A. reflexivity. }
    destruct VE as [VP VD]. cbn [fst snd] in VP, VD. cbn [add_entries] in OK, ER.
    assert (T0 := proj1 T). unfold enc_track in T0.
    assert (W1 : what_value h [c; d] (WNote n) (enc_note n)) by (constructor; exact VD).
    assert (W2 : where_value h [c; d] (Some (SA_sig (mkSig p p'))) (enc_sig (mkSig p p'))) by (constructor; [constructor|discriminate|discriminate|exact VP]).
    pose proof (track_add_good t _ _ _ _ _ _ GT W1 W2) as GN.
    pose proof (fun K => add_call_runs Y h c d t _ _ _ _ K T GT W1 W2) as AD.
    destruct (track_add t (WNote n) (Some (SA_sig (mkSig p p')))) as [t' r] eqn:TA. cbn [fst snd] in AD, GN.
    assert (NEXT : forall h2, r = Ok tt -> changed h c d t' h2 -> reaches (Lp inner_target inner_body (IRef b (S i)) (merge_env mx a c (Some (mkSig p p', n))) h2 K) Q).
    { intros h2 -> (d1 & T1 & D1 & K1).
      assert (G2 : get h2 b = Some (HList (map enc_entry L))) by heap_get.
      assert (BD1 : b <> d1) by (intros ->; destruct D1; congruence).
      assert (K12 : forall h3, keeps [c; d1] h2 h3 -> keeps [c; d] h h3).
      { intros h3 K3. split; [|rewrite (keeps_calls _ _ _ K3); exact (keeps_calls _ _ _ K1)]. intros z o NZ GZ. apply (keeps_get _ _ _ _ _ K3); [|exact (keeps_get _ _ _ _ _ K1 NZ GZ)].
        intros [X|[X|[]]]; [apply NZ; left; exact X|]. subst z. destruct D1 as [->|D1]; [apply NZ; right; left; reflexivity|congruence]. }
      apply (IH h2 (S i) d1 t' (Some (mkSig p p', n))); [exact G2|exact B|exact T1|exact GN|exact BC|exact BD1| |].
      - intros t2 h3 d3 x' R2 T3 G3 D3 A3. apply (OK t2 h3 d3 x' R2 T3 G3); [|exact (K12 _ A3)].
        destruct D3 as [->|D3]; [exact D1|]. 
        destruct (get h d3) as [o|] eqn:GD; [|right; reflexivity]. destruct (Nat.eq_dec d3 d) as [->|ND]; [left; reflexivity|]. exfalso.
        destruct (Nat.eq_dec d3 c) as [->|NC]; [destruct T1; congruence|].
        rewrite (keeps_get _ _ _ d3 o K1) in D3; [discriminate| |exact GD]. intros [X|[X|[]]]; congruence.
      - intros e h3 R2 A3. apply (ER e h3 R2). exact (K12 _ A3). }
    assert (BAD : forall h2 e, r = Err e -> keeps [c; d] h h2 -> Q (Thr e h2)).
    { intros h2 e -> K1. apply ER; [reflexivity|exact K1]. }
    clear OK ER IH E A B W1 W2 TA GN.
    unfold merge_env at 1. unfold inner_target at 1, inner_body at 1. unfold enc_entry at 1. cbn [fst snd].
    unfold merge_env in NEXT. cbn [fst snd] in NEXT.
    destruct n as [[np] [da db] vel]; destruct mx as [mn md]. unfold enc_note, enc_tone, enc_sig in *. cbn [n_tone n_duration n_velocity pitch nominator denominator app] in *.
    destruct x as [[[x1 x2] [[x3] [x4 x5] x6]]|]; cbn [app fst snd n_tone n_duration n_velocity pitch nominator denominator].
    all: repeat (lazymatch goal with |- RefineBase.reaches _ _ (Ca (VFun "Track.add") _ _ _ _) _ => fail | _ => adv end).
    all: eapply reaches_more; [reflexivity|]; eapply reaches_trans; [exact (AD _)|]; intros ? (h2 & -> & CH); destruct r as [[]|e]; cbn [no_value outcome_of ends].
    all: try (apply reaches_here; eapply BAD; [reflexivity|destruct CH as (? & _ & _ & CH); exact CH]).
    all: do 2 (eapply reaches_more; [reflexivity|]); apply (NEXT h2 eq_refl CH).
Qed.
End Merge.
(** A track made by load, or its exception. *)
Definition after_load (dp : nat) (h0 : heap) (L : list nat) (o : res track) (K : list frame) (s : state) : Prop :=
  match o with
  | Ok t => exists h' c d, s = Rt (VRef c) h' K /\ track_at h' c d t /\ good_track t /\ get h0 c = None /\ get h0 d = None /\ keeps L h0 h'
  | Err e => raised dp e L h0 s
  end.
Lemma back_none h0 h f x : keeps [f] h0 h -> get h f <> None -> get h x = None -> get h0 x = None.
Proof.
  intros K G N. destruct (get h0 x) as [v|] eqn:E; [|reflexivity]. exfalso. destruct (Nat.eq_dec x f) as [->|NE]; [congruence|].
  rewrite (keeps_get _ _ _ x v K) in N; [discriminate| |exact E]. intros [X|[]]; congruence.
Qed.

Section Load.
Variable Y : python.
Notation reaches := (reaches melodia Y).
Hypothesis N : natural (py_sort Y).
Hypothesis C : sort_contract (py_sort Y).
Variable cv : value.
Variable delta : Z.
Notation m := (mkMR delta).
Variable h0 : heap.
Variable f : nat.
Variable dp : nat.

Section Outer.
Variables q : Z.
Variable trv : value.
Variable kd : bytes.
Variable rp : nat.
Variables c : nat.
Hypothesis FC : get h0 c = None.
Hypothesis F0 : get h0 f <> None.
Lemma merge_loop_runs mx K Q : forall ts rs h d t a x,
  tracks_at h ts rs -> track_at h c d t -> good_track t -> get h f <> None ->
  ~ In c (map (fun y => fst (snd y)) rs) -> ~ In d (map (fun y => snd (snd y)) rs) -> 
  fresh_tracks h0 rs -> get h0 d = None -> keeps [f] h0 h -> 
  (forall t' h' d' a' x', merge_tracks (py_sort Y) t (map snd ts) = Ok t' -> track_at h' c d' t' -> good_track t' -> get h0 d' = None -> keeps [f] h0 h' ->
     reaches (Ex [] (merge_env cv delta f q trv kd rp mx a' c x') h' K) Q) ->
  (forall e h', merge_tracks (py_sort Y) t (map snd ts) = Err e -> keeps [f] h0 h' -> Q (Thr e h')) ->
  reaches (Lp merge_target merge_body (ISeq (track_refs rs)) (merge_env cv delta f q trv kd rp mx a c x) h K) Q.
Proof.
  induction ts as [|[k u] ts IH]; intros rs h d t a x TA T GT GF IC ID FR FD KE OK ER; destruct TA as (F & N1 & N2); inversion F as [|x0 [k' [a0 b0]] ts0 rs0 (E & U & GU) F']; subst.
  - eapply reaches_more; [reflexivity|]. apply (OK t h d a x); [reflexivity|exact T|exact GT|exact FD|exact KE].
  - cbn [fst snd track_refs map In] in *. clear E.
    eapply (reaches_more _ _ _ (As [(merge_target, VRef a0)] merge_body (merge_env cv delta f q trv kd rp mx a c x) h (KLoopF merge_target merge_body (ISeq (track_refs rs0)) :: K))); [reflexivity|].
    assert (TL : tracks_at h ts rs0) by (split; [exact F'|split; [inversion N1|inversion N2]; assumption]).
    assert (NA : ~ In a0 (map (fun y => fst (snd y)) rs0)) by (inversion N1; assumption).
    assert (NB : ~ In b0 (map (fun y => snd (snd y)) rs0)) by (inversion N2; assumption).
    assert (AC : a0 <> c) by tauto. assert (BD : b0 <> d) by tauto.
    assert (AD : a0 <> d) by (intros ->; destruct T, U; unfold enc_track in *; congruence).
    assert (BC : b0 <> c) by (intros ->; destruct T, U; unfold enc_track in *; congruence).
    pose proof (Forall_inv FR) as [FA FB]. apply Forall_inv_tail in FR. cbn [fst snd] in FA, FB.
    cbn [merge_tracks] in OK, ER. rewrite iter_list in OK, ER.
    pose proof (fun K => track_iter_runs Y h a0 b0 u K N U GU) as IT.
    pose proof (iter_good Y u GU C) as GI. remember (fst (track_iter (py_sort Y) u)) as u' eqn:EU. clear EU.
    assert (NEXT : forall h2 x', track_at h2 a0 b0 u' -> keeps [a0; b0] h h2 ->
       reaches (Lp inner_target inner_body (IRef b0 0) (merge_env cv delta f q trv kd rp mx a0 c x') h2 (KSeq [] :: KLoopF merge_target merge_body (ISeq (track_refs rs0)) :: K)) Q).
    { intros h2 x' U2 K2. assert (T2 : track_at h2 c d t) by (destruct T; split; heap_get).
      assert (KF : forall h3, keeps [c; d] h2 h3 -> keeps [f] h0 h3).
      { intros h3 K3. assert (KA : keeps [f; a0; b0] h0 h2) by keep. split; [|rewrite (keeps_calls _ _ _ K3), (keeps_calls _ _ _ K2); exact (keeps_calls _ _ _ KE)].
        intros z o NZ GZ. apply (keeps_get _ _ _ _ _ K3); [intros [X|[X|[]]]; congruence|].
        apply (keeps_get _ _ _ _ _ K2); [intros [X|[X|[]]]; congruence|]. exact (keeps_get _ _ _ _ _ KE NZ GZ). }
      apply (inner_loop_runs Y cv delta f q trv kd rp a0 b0 c (t_heap u') mx _ Q (proj1 GI) (t_heap u') h2 0 d t x'); [exact (proj2 U2)|reflexivity|exact T2|exact GT|exact BC|exact BD| |].
      - intros t' h' d' x2 R T' G' D' K'. rewrite R in OK, ER. cbn [bind] in OK, ER.
        do 2 (eapply reaches_more; [reflexivity|]).
        assert (GF' : get h' f <> None).
        { destruct (get h f) as [o|] eqn:E; [|congruence]. assert (f <> a0) by (intros ->; congruence). 
          assert (X : get h2 f = Some o).
          { apply (keeps_get _ _ _ _ _ K2); [|exact E]. intros [X|[X|[]]]; congruence. }
          rewrite (keeps_get _ _ _ f o K'); [discriminate| |exact X]. intros [Z|[Z|[]]]; congruence. }
        assert (FD' : get h0 d' = None).
        { destruct D' as [->|D']; [exact FD|]. apply (back_none h0 h f d' KE GF). destruct (get h d') as [v|] eqn:GD; [exfalso|reflexivity].
          destruct (Nat.eq_dec d' a0) as [->|Z1]; [destruct U2; congruence|]. destruct (Nat.eq_dec d' b0) as [->|Z2]; [destruct U2; congruence|].
          rewrite (keeps_get _ _ _ d' v K2) in D'; [discriminate| |exact GD]. intros [X|[X|[]]]; congruence. }
        assert (TR : tracks_at h' ts rs0).
        { apply (tracks_kept h2 _ [c; d]); [|exact K'|].
          - apply (tracks_kept h _ [a0; b0]); [exact TL|exact K2|]. intros z [<-|[<-|[]]]; (split; [|]); try assumption; intros X; apply (tracks_bound _ _ _ _ TL) in X; destruct X as (o & X); destruct U; unfold enc_track in *; congruence.
          - intros z [<-|[<-|[]]]; (split; [|]); try tauto; intros X; apply (tracks_bound _ _ _ _ TL) in X; destruct X as (o & X); destruct T; unfold enc_track in *; congruence. }
        apply (IH rs0 h' d' t' a0 x2); [exact TR|exact T'|exact G'|exact GF'|tauto| |exact FR|exact FD'|exact (KF _ K')|exact OK|exact ER].
        destruct D' as [->|D']; [tauto|]. intros X. destruct (proj2 (tracks_bound _ _ _ d' TL) X) as (o & Z).
        rewrite (keeps_get _ _ _ d' (HList o) K2) in D'; [discriminate| |exact Z]. intros [V|[V|[]]]; [rewrite <- V in Z; destruct U as [U1 _]; unfold enc_track in U1; congruence|rewrite <- V in X; contradiction].
      - intros e h' R K'. rewrite R in ER. cbn [bind] in ER. apply ER; [reflexivity|]. exact (KF _ K'). }
    clear OK ER IH.
    unfold merge_env in *. destruct mx as [mn md]. unfold enc_sig in *. cbn [nominator denominator] in *. pose proof (proj1 U) as U1. unfold enc_track in U1.
    unfold merge_target at 1, merge_body at 1.
    destruct x as [[[x1 x2] [[x3] [x4 x5] x6]]|]; [specialize (fun h2 => NEXT h2 (Some ((mkSig x1 x2), (mkNote (mkTone x3) (mkSig x4 x5) x6))))|specialize (fun h2 => NEXT h2 None)];
      cbn [app fst snd n_tone n_duration n_velocity pitch nominator denominator] in *.
    all: repeat (lazymatch goal with |- RefineBase.reaches _ _ (Ca (VFun "Track.__iter__") _ _ _ _) _ => fail | _ => adv end).
    all: eapply reaches_trans; [exact (IT _)|]; intros ? (h2 & -> & U2 & K2); cbn [ends].
    all: repeat (lazymatch goal with |- RefineBase.reaches _ _ (Lp _ _ _ _ _ _) _ => fail | _ => adv end).
    all: exact (NEXT h2 U2 K2).
Qed.
End Outer.

(** After the loop over the chunks. *)
Definition load_result (s : load_state) (channel : option Z) : res track :=
  match ls_tpq s with
  | None => Err MIDIParsingError
  | Some _ =>
      match ls_tracks s with
      | None => Err MIDIParsingError
      | Some [] => Ok (track_empty (mkSig 4 4))
      | Some tracks =>
          match channel with
          | None => merge_tracks (py_sort Y) (track_empty (max_signature (map snd tracks))) (map snd tracks)
          | Some c => match dict_get tracks c with None => Err ValueError | Some t => Ok t end
          end
      end
  end.
Lemma load_parts data channel : load (py_sort Y) m data channel = let! s := load_loop (S (List.length data)) m (mkLS None None) data in load_result s channel.
Proof. reflexivity. Qed.
Lemma tracks_get h ts rs c : tracks_at h ts rs ->
  match dict_get ts c with
  | None => dict_get rs c = None
  | Some t => exists a b, dict_get rs c = Some (a, b) /\ In (c, (a, b)) rs /\ track_at h a b t /\ good_track t
  end.
Proof.
  intros (F & _). induction F as [|[k t] [k' [a b]] ts rs (E & T & G) F IH]; [reflexivity|]. cbn [fst snd] in *. subst k'. cbn [dict_get].
  destruct (c =? k) eqn:E.
  - exists a, b. split; [reflexivity|]. split; [left; f_equal; lia|]. split; assumption.
  - destruct (dict_get ts c); [|exact IH]. destruct IH as (a' & b' & X1 & X2 & X3). exists a', b'. split; [exact X1|]. split; [right; exact X2|exact X3].
Qed.
Lemma rest_runs h s trv y ch K : get h0 f <> None -> get h f <> None -> keeps [f] h0 h -> tracks_in h0 h (ls_tracks s) trv -> (y = None -> ls_tpq s = None) ->
  reaches (Ex load_rest (load_env cv delta f (enc_opt ch) (ls_tpq s) trv y) h (KFun :: K)) (after_load dp h0 [f] (load_result s ch) K).
Proof.
  intros F0 GF KE TI YT. destruct s as [[q|] trs]; cbn [ls_tpq ls_tracks] in *.
  2:{ unfold load_env, load_rest. destruct y as [[kd rp]|]; repeat adv; apply reaches_here; (apply raised_thr; [discriminate|exact KE]). }
  destruct y as [[kd rp]|]; [clear YT|discriminate (YT eq_refl)].
  destruct trs as [ts|]; cbn [tracks_in] in TI.
  2:{ subst trv. unfold load_env, load_rest. cbn [enc_opt]. repeat adv. apply reaches_here. apply raised_thr; [discriminate|exact KE]. }
  destruct TI as (pr & rs & -> & FP & GP & TA & FR).
  destruct ts as [|[k t] ts].
  { destruct TA as (F & _). inversion F; subst rs. cbn [enc_dict map] in GP. unfold load_env, load_rest. cbn [enc_opt].
    repeat (lazymatch goal with |- RefineBase.reaches _ _ (Ca (VClass "Track") _ _ _ _) _ => fail | _ => adv end).
    eapply reaches_trans.
    { eapply (reaches_same Y _ (Ca (VClass "Track") [enc_sig (mkSig 4 4); VNone] [] h _)); [reflexivity|discriminate| |eapply track_new_runs; [constructor|discriminate|constructor]].
      cbn. intros (? & ? & ? & X & _). discriminate X. }
    intros ? (h1 & c & d & -> & T1 & NC & ND & K1). repeat adv. apply reaches_here. exists h1, c, d.
    refine (conj eq_refl (conj T1 (conj _ (conj _ (conj _ _))))); [apply empty_good; discriminate|exact (back_none _ _ _ _ KE GF NC)|exact (back_none _ _ _ _ KE GF ND)|keep]. }
  change (load_result (mkLS (Some q) (Some ((k, t) :: ts))) ch) with 
    (match ch with None => merge_tracks (py_sort Y) (track_empty (max_signature (map snd ((k, t) :: ts)))) (map snd ((k, t) :: ts))
     | Some c => match dict_get ((k, t) :: ts) c with None => Err ValueError | Some t => Ok t end end).
  assert (NE : rs <> []) by (destruct TA as (F & _); inversion F; discriminate).
  remember ((k, t) :: ts) as ts' eqn:ET. clear ET ts k t. rename ts' into ts.
  assert (TR : fact (negb (Nat.eqb (List.length (enc_dict track_ref rs)) 0) = true)) by (destruct rs; [congruence|reflexivity]).
  destruct ch as [c|]; cbn [enc_opt].
  - pose proof (tracks_get h ts rs c TA) as DG. pose proof (lookup_dict track_ref c rs) as LD.
    destruct (dict_get ts c) as [t|]; [destruct DG as (a & b & DG & IN & T & G)|]; rewrite DG in LD; cbn [option_map] in LD; clear DG.
    all: destruct (enc_dict track_ref rs) as [|x0 D'] eqn:HD; [destruct rs; [congruence|discriminate]|].
    all: change (lookup (VInt c) ?D = ?x) with (fact (lookup (VInt c) D = x)) in LD.
    all: unfold load_env, load_rest; cbn [enc_opt].
    all: repeat adv; apply reaches_here.
    + unfold fresh_tracks in FR. rewrite Forall_forall in FR. destruct (FR _ IN) as [FA FB]. exists h, a, b. refine (conj eq_refl (conj T (conj G (conj FA (conj FB KE))))).
    + apply raised_thr; [discriminate|exact KE].
  - assert (VS : forall h1 K', get h1 pr = Some (HDict false (enc_dict track_ref rs)) -> step melodia Y (Ca (VMethod (VRef pr) "values") [] [] h1 K') = Some (Rt (VList (track_refs rs)) h1 K')).
    { intros h1 K' G1. change (Some (method_of_object pr "values" [] [] h1 K') = Some (Rt (VList (track_refs rs)) h1 K')). unfold method_of_object. rewrite G1. unfold enc_dict, track_refs. rewrite map_map. reflexivity. }
    assert (MAX : reaches (Lp max_target max_body (ISeq (track_refs rs)) (max_env cv delta f q (VRef pr) kd rp (mkSig 0 1) None) h
       (KSeq (tl (tl merge_code)) :: KSeq (tl (tl (tl (tl load_rest)))) :: KFun :: K)) (after_load dp h0 [f] (merge_tracks (py_sort Y) (track_empty (max_signature (map snd ts))) (map snd ts)) K)).
    { apply (max_loop_runs Y cv delta f q (VRef pr) kd rp _ _ h ts rs (mkSig 0 1) None (proj1 TA)); [discriminate|].
      intros mx [x|] EM GM X _; [|destruct (X eq_refl NE eq_refl)]. fold (max_signature (map snd ts)) in EM. rewrite <- EM. clear X EM.
      set (o := merge_tracks _ _ _). 
      assert (MERGE : forall h1 c d, track_at h1 c d (track_empty mx) -> get h c = None -> get h d = None -> keeps [] h h1 ->
         reaches (Lp merge_target merge_body (ISeq (track_refs rs)) (merge_env cv delta f q (VRef pr) kd rp mx x c None) h1
           (KSeq [SReturn (EName "common_track")] :: KSeq (tl (tl (tl (tl load_rest)))) :: KFun :: K)) (after_load dp h0 [f] o K)).
      { intros h1 c d T1 NC ND K1.
        apply (merge_loop_runs q (VRef pr) kd rp c (back_none _ _ _ _ KE GF NC) F0 mx _ _ ts rs h1 d (track_empty mx) x None).
        - apply (tracks_kept h _ []); [exact TA|exact K1|intros ? []].
        - exact T1.
        - apply empty_good. exact GM.
        - destruct (get h f) as [v|] eqn:E; [|congruence]. rewrite (keeps_get _ _ _ _ _ K1 (fun x => x) E). discriminate.
        - intros X. apply (tracks_bound _ _ _ _ TA) in X. destruct X; congruence.
        - intros X. apply (tracks_bound _ _ _ _ TA) in X. destruct X; congruence.
        - exact FR.
        - exact (back_none _ _ _ _ KE GF ND).
        - keep.
        - intros t' h' d' a' x' R T' G' FD K'. unfold o. rewrite R. unfold merge_env.
          destruct x' as [[x1 x2]|]; cbn [app fst snd]; repeat adv; apply reaches_here; exists h', c, d'; refine (conj eq_refl (conj T' (conj G' (conj (back_none _ _ _ _ KE GF NC) (conj FD K'))))).
        - intros e h' R K'. unfold o. rewrite R. apply raised_thr; [intros ->; exact (calm_merge _ _ _ R)|exact K']. }
      clearbody o. clear TR. 
      assert (TN : forall K', reaches (Ca (VClass "Track") [] [("signature", enc_sig mx)] h K') (made h (Ok (track_empty mx)) K')).
      { intros K'. eapply (reaches_same Y _ (Ca (VClass "Track") [enc_sig mx; VNone] [] h _)); [reflexivity|discriminate| |apply (track_new_runs Y h (SA_sig mx) (enc_sig mx) [] VNone); [constructor|exact GM|constructor]].
        cbn. intros (? & ? & ? & X & _). discriminate X. }
      unfold merge_env, max_env, tl, merge_code in *. destruct mx as [mn md]. unfold enc_sig in *. cbn [nominator denominator app] in *.
      repeat (lazymatch goal with |- RefineBase.reaches _ _ (Ca (VClass "Track") _ _ _ _) _ => fail | _ => adv end).
      eapply reaches_trans; [exact (TN _)|]. intros ? (h1 & c & d & -> & T1 & NC & ND & K1).
      assert (G1 : get h1 pr = Some (HDict false (enc_dict track_ref rs))) by heap_get.
      repeat (lazymatch goal with |- RefineBase.reaches _ _ (Ca (VMethod _ "values") _ _ _ _) _ => fail | _ => adv end).
      eapply reaches_more; [apply VS; exact G1|].
      repeat (lazymatch goal with |- RefineBase.reaches _ _ (Lp _ _ _ _ _ _) _ => fail | _ => adv end).
      exact (MERGE h1 c d T1 NC ND K1). }
    destruct (enc_dict track_ref rs) as [|x0 D'] eqn:HD; [destruct rs; [congruence|discriminate]|].
    unfold load_env, load_rest; cbn [enc_opt].
    repeat (lazymatch goal with |- RefineBase.reaches _ _ (Ca (VMethod _ "values") _ _ _ _) _ => fail | _ => adv end).
    eapply reaches_more; [apply VS; exact GP|].
    repeat (lazymatch goal with |- RefineBase.reaches _ _ (Lp _ _ _ _ _ _) _ => fail | _ => adv end).
    exact MAX.
Qed.

(** load(file, channel) with the file at the place [f]. *)
Lemma load_runs data pos ch K : get h0 f = Some (HFile data pos) -> Forall is_byte data ->
  let o := load (py_sort Y) m (skipn pos data) ch in o <> Err OutOfFuel ->
  reaches (Ca (VFun "MIDIReader.load") [enc_midi_reader cv m; VRef f; enc_opt ch] [] h0 K) (after_load dp h0 [f] o K).
Proof.
  intros GF GD o NF. unfold o in *. clear o. rewrite load_parts in *.
  set (a := next_place h0). set (h1 := new h0 (HGen (Some (f_body src_MIDIReader__read_chunks, [("file", VRef f)], [])))).
  assert (FA : get h0 a = None) by apply fresh_none. assert (NFA : f <> a) by congruence.
  assert (START : reaches (Lp load_target load_body (IGen a) (load_env cv delta f (enc_opt ch) None VNone None) h1 (KSeq load_rest :: KFun :: K))
     (after_load dp h0 [f] (let! s := load_loop (S (List.length (skipn pos data))) m (mkLS None None) (skipn pos data) in load_result s ch) K)).
  { assert (G1 : get h1 a = Some (HGen (Some (f_body src_MIDIReader__read_chunks, [("file", VRef f)], [])))) by apply get_new.
    assert (G2 : get h1 f = Some (HFile data pos)) by (unfold h1; heap_get).
    assert (K1 : keeps [f] h0 h1) by (unfold h1; keep).
    clearbody h1 a.
    eapply (reaches_more _ _ _ (Ex (f_body src_MIDIReader__read_chunks) [("file", VRef f)] (put h1 a (HGen None)) (KGen a :: KGenFor load_target load_body (IGen a) (load_env cv delta f (enc_opt ch) None VNone None) :: KSeq load_rest :: KFun :: K))).
    { change (Some (loop_step load_target load_body (IGen a) (load_env cv delta f (enc_opt ch) None VNone None) h1 (KSeq load_rest :: KFun :: K)) =
        Some (Ex (f_body src_MIDIReader__read_chunks) [("file", VRef f)] (put h1 a (HGen None)) (KGen a :: KGenFor load_target load_body (IGen a) (load_env cv delta f (enc_opt ch) None VNone None) :: KSeq load_rest :: KFun :: K))).
      unfold loop_step. rewrite G1. reflexivity. }
    eapply reaches_more; [reflexivity|].
    apply (chunks_run Y cv delta h0 f a (enc_opt ch) (KSeq load_rest :: KFun :: K) _ dp data GD FA (S (List.length (skipn pos data))) (mkLS None None) (skipn pos data) (put h1 a (HGen None)) pos VNone None None).
    - keep.
    - heap_get.
    - reflexivity.
    - heap_get.
    - reflexivity.
    - reflexivity.
    - intros X. apply NF. rewrite X. reflexivity.
    - intros X u D. rewrite X. exact D.
    - intros h' s' trv' y' R K' GF' TI YT. rewrite R. cbn [bind]. eapply reaches_more; [reflexivity|]. apply rest_runs; [rewrite GF; discriminate|exact GF'|exact K'|exact TI|exact YT].
    - intros e h' R NE K'. rewrite R. apply raised_thr; assumption. }
  unfold enc_midi_reader. 
  repeat (lazymatch goal with |- RefineBase.reaches _ _ (Lp _ _ _ _ _ _) _ => fail | _ => adv end).
  exact START.
Qed.
End Load.

(** ** loads and the module functions *)
Section Loads.
Variable Y : python.
Notation reaches := (reaches melodia Y).
Hypothesis N : natural (py_sort Y).
Hypothesis C : sort_contract (py_sort Y).
Variable dp : nat.
Lemma reaches_like s s' (Q : state -> Prop) : step melodia Y s = step melodia Y s' -> step melodia Y s' <> None -> (Q s' -> Q s) -> reaches s' Q -> reaches s Q.
Proof.
  intros E S T (t & R & H). inversion R as [|x y z A B]; subst; [apply reaches_here; exact (T H)|].
  inversion A; subst; try (cbn in S; congruence).
  exists t. split; [|exact H]. econstructor; [|exact B]. constructor. congruence.
Qed.
Lemma after_like h L o K f args kws f' args' kws' h1 K1 : after_load dp h L o K (Ca f args kws h1 K1) -> after_load dp h L o K (Ca f' args' kws' h1 K1).
Proof.
  destruct o as [t|e]; [intros (? & ? & ? & X & _); discriminate X|]. intros R. destruct (raised_inv _ _ _ _ _ R) as [(_ & ? & X & _)|[-> D]]; [discriminate X|].
  destruct D as (? & ? & ? & ? & ? & X & D). injection X as <- <- <- <- <-. do 5 eexists. split; [reflexivity|exact D].
Qed.
Lemma after_deep h L o K u h' L' K' : after_load dp h' L' o K' u -> (exists e, o = Err e) -> (forall h2, keeps L' h' h2 -> keeps L h h2) -> after_load dp h L o K u.
Proof.
  intros A [e ->] KK. destruct (raised_inv _ _ _ _ _ A) as [(NE & h2 & -> & X)|[-> D]]; [apply raised_thr; [exact NE|exact (KK _ X)]|exact D].
Qed.
Lemma loads_runs cv delta data ch h K : Forall is_byte data ->
  let o := load (py_sort Y) (mkMR delta) data ch in o <> Err OutOfFuel ->
  reaches (Ca (VFun "MIDIReader.loads") [enc_midi_reader cv (mkMR delta); VBytes data; enc_opt ch] [] h K) (after_load dp h [] o K).
Proof.
  intros GD o NF.
  pose proof (fun h0 f K GF => load_runs Y N C cv delta h0 f dp data 0 ch K GF GD NF) as LR. cbn [skipn] in LR. fold o in LR. clearbody o.
  unfold enc_midi_reader, enc_opt in *. destruct ch as [chn|].
  all: repeat (lazymatch goal with |- RefineBase.reaches _ _ (Ca (VFun "MIDIReader.load") _ _ _ _) _ => fail | _ => adv end).
  all: match goal with |- RefineBase.reaches _ _ (Ca _ _ _ ?h1 ?K1) _ => 
    assert (G1 : get h1 (next_place h) = Some (HFile data 0)) by apply get_new;
    eapply reaches_trans; [eapply reaches_like; [| | |exact (LR h1 (next_place h) K1 G1)]; [reflexivity|discriminate|apply after_like]|] end.
  all: pose proof (fresh_none h) as F0; set (h1 := new h _) in *; assert (K1 : keeps [] h h1) by (unfold h1; keep).
  all: assert (KK : forall h', keeps [next_place h] h1 h' -> keeps [] h h') by (intros h' K'; split;
     [intros z v _ GZ; apply (keeps_get _ _ _ _ _ K'); [intros [X|[]]; congruence|exact (keeps_get _ _ _ _ _ K1 (fun x => x) GZ)]|rewrite (keeps_calls _ _ _ K'); exact (keeps_calls _ _ _ K1)]).
  all: assert (FF : forall z, get h1 z = None -> get h z = None) by (intros z Z; destruct (get h z) as [v|] eqn:E; [|reflexivity]; pose proof (keeps_get _ _ _ _ _ K1 (fun x => x) E); congruence).
  all: clearbody h1; destruct o as [t|e]; [intros ? (h' & c & d & -> & T & G & FC & FD & K')|intros u A]; [repeat adv|]; apply reaches_here;
    [exists h', c, d; exact (conj eq_refl (conj T (conj G (conj (FF _ FC) (conj (FF _ FD) (KK _ K'))))))|exact (after_deep _ _ _ _ _ _ _ _ A (ex_intro _ e eq_refl) KK)].
Qed.

(** The functions of the module: MIDIReader() and its method. *)
Lemma reader_default_runs h K : steps melodia Y (Ca (VClass "MIDIReader") [] [] h K) (Rt (enc_midi_reader (v_tone 36) (mkMR 24)) h K).
Proof. change (Rt ?x h K) with (ends (Ok x) h K). eapply (same_call Y _ _ _ (VClass "MIDIReader") [v_tone 36] []); [reflexivity|]. unfold enc_midi_reader, v_tone. go; apply steps_refl. Qed.
Lemma module_load_runs data pos ch h f K : get h f = Some (HFile data pos) -> Forall is_byte data ->
  let o := midi_loads (py_sort Y) (skipn pos data) ch in o <> Err OutOfFuel ->
  reaches (Ca (VFun "midi.load") [VRef f; enc_opt ch] [] h K) (after_load dp h [f] o K).
Proof.
  intros GF GD o. unfold midi_loads in o. change (midi_reader_new ascii_digit default_middle_c) with (Ok (mkMR 24)) in o. cbn [bind] in o. intros NF.
  pose proof (fun K => load_runs Y N C (v_tone 36) 24 h f dp data pos ch K GF GD NF) as LR. fold o in LR. clearbody o.
  pose proof (reader_default_runs h) as RD. unfold enc_midi_reader, v_tone in *. cbn [mr_delta] in *. 
  destruct ch as [chn|]; cbn [enc_opt] in *.
  all: repeat (lazymatch goal with |- RefineBase.reaches _ _ (Ca (VClass "MIDIReader") _ _ _ _) _ => fail | _ => adv end).
  all: eapply reaches_steps; [exact (RD _)|].
  all: repeat (lazymatch goal with |- RefineBase.reaches _ _ (Ca (VFun "MIDIReader.load") _ _ _ _) _ => fail | _ => adv end).
  all: eapply reaches_trans; [eapply reaches_like; [| |apply after_like|exact (LR _)]; [reflexivity|discriminate]|].
  all: destruct o as [t|e]; [intros ? (h' & c & d & -> & R)|intros u A]; [repeat adv|]; apply reaches_here; [exists h', c, d; exact (conj eq_refl R)|exact (after_deep _ _ _ _ _ _ _ _ A (ex_intro _ e eq_refl) (fun _ X => X))].
Qed.
Lemma module_loads_runs data ch h K : Forall is_byte data ->
  let o := midi_loads (py_sort Y) data ch in o <> Err OutOfFuel ->
  reaches (Ca (VFun "midi.loads") [VBytes data; enc_opt ch] [] h K) (after_load dp h [] o K).
Proof.
  intros GD o. unfold midi_loads in o. change (midi_reader_new ascii_digit default_middle_c) with (Ok (mkMR 24)) in o. cbn [bind] in o. intros NF.
  pose proof (fun K => loads_runs (v_tone 36) 24 data ch h K GD NF) as LR. fold o in LR. clearbody o.
  pose proof (reader_default_runs h) as RD. unfold enc_midi_reader, v_tone in *. cbn [mr_delta] in *. 
  destruct ch as [chn|]; cbn [enc_opt] in *.
  all: repeat (lazymatch goal with |- RefineBase.reaches _ _ (Ca (VClass "MIDIReader") _ _ _ _) _ => fail | _ => adv end).
  all: eapply reaches_steps; [exact (RD _)|].
  all: repeat (lazymatch goal with |- RefineBase.reaches _ _ (Ca (VFun "MIDIReader.loads") _ _ _ _) _ => fail | _ => adv end).
  all: eapply reaches_trans; [eapply reaches_like; [| |apply after_like|exact (LR _)]; [reflexivity|discriminate]|].
  all: destruct o as [t|e]; [intros ? (h' & c & d & -> & R)|intros u A]; [repeat adv|]; apply reaches_here; [exists h', c, d; exact (conj eq_refl R)|exact (after_deep _ _ _ _ _ _ _ _ A (ex_intro _ e eq_refl) (fun _ X => X))].
Qed.
End Loads.
