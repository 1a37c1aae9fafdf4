(** Running the source of the loop of MIDIReader._parse_track over the events of one channel (io/midi.py 571-598)
    gives what the model in MidiReader.v says. *)
From Coq Require Import ZArith List Bool String Lia SpecFloat.
From Verif Require Import Py PyFloat PySort Signature Tone Note Track Show MidiWriter MidiReader PyAst PySem PySource PyProgram SpecBase MidiSpec SigFacts ReadFacts
  RefineBase RefineSignature RefineTone RefineNote RefineWriter RefineTrack RefineAdd RefineReader RefineNumbers RefineEvent RefineParse RefineParseLoop.
Import ListNotations.
Open Scope string_scope.
Open Scope list_scope.
Open Scope Z_scope.

(** ** The notes that are sounding: the source keeps the event, the model its velocity *)
Definition dict_map {A B} (f : A -> B) (d : dict A) : dict B := map (fun x => (fst x, f (snd x))) d.
Lemma get_map {A B} (f : A -> B) d c : dict_get (dict_map f d) c = option_map f (dict_get d c).
Proof. induction d as [|[k v] d IH]; [reflexivity|]. cbn. destruct (c =? k); [reflexivity|exact IH]. Qed.
Lemma set_map {A B} (f : A -> B) d c v : dict_set (dict_map f d) c (f v) = dict_map f (dict_set d c v).
Proof. induction d as [|[k w] d IH]; [reflexivity|]. cbn. destruct (c =? k); [reflexivity|]. cbn. unfold dict_map in IH. rewrite IH. reflexivity. Qed.
Lemma del_map {A B} (f : A -> B) d c : dict_del (dict_map f d) c = dict_map f (dict_del d c).
Proof. induction d as [|[k w] d IH]; [reflexivity|]. cbn. destruct (c =? k); [reflexivity|]. cbn. unfold dict_map in IH. rewrite IH. reflexivity. Qed.

Definition begun (x : Z * event) : Z * Z := (fst x, match snd x with EvNoteOn _ _ v => v | _ => 0 end).
Definition sounding (x : Z * (Z * event)) : Prop := exists c p v, snd (snd x) = EvNoteOn c p v /\ 0 <= v < 256.
Lemma sounding_get M c x : Forall sounding M -> dict_get M c = Some x -> exists t ch p v, x = (t, EvNoteOn ch p v) /\ 0 <= v < 256.
Proof.
  induction 1 as [|[k [t e]] M (ch & p & v & E & V) F IH]; cbn; [discriminate|]. cbn in E. destruct (c =? k); [|exact IH].
  intros X. injection X as <-. subst e. exists t, ch, p, v. auto.
Qed.
Lemma sounding_set M c x : Forall sounding M -> sounding (c, x) -> Forall sounding (dict_set M c x).
Proof.
  intros F S1. induction F as [|[k w] M A B IH]; cbn; [constructor; [exact S1|constructor]|]. destruct (c =? k); constructor; try assumption.
Qed.
Lemma sounding_del M c : Forall sounding M -> Forall sounding (dict_del M c).
Proof. intros F. induction F as [|[k w] M A B IH]; cbn; [constructor|]. destruct (c =? k); [assumption|constructor; assumption]. Qed.

Lemma float_of_byte v : 0 <= v < 256 -> to_float v = Ok (float_of_Z v).
Proof.
  intros V. assert (H : forallb (fun n => match float_of_Z (Z.of_nat n) with S754_infinity _ => false | _ => true end) (seq 0 256) = true) by (vm_compute; reflexivity).
  rewrite forallb_forall in H. specialize (H (Z.to_nat v)). rewrite Z2Nat.id in H by lia. unfold to_float.
  assert (I : In (Z.to_nat v) (seq 0 256)) by (apply in_seq; lia). specialize (H I). destruct (float_of_Z v); [reflexivity|discriminate|reflexivity|reflexivity].
Qed.

Lemma valid_good s : valid_sig s -> good_sig s.
Proof. intros [_ (k & K0 & E)]. unfold good_sig. rewrite E. pose proof (Z.pow_pos_nonneg 2 k). lia. Qed.
Lemma note_init_duration t d v n : note_init t d v = Ok n -> n_duration n = d.
Proof. unfold note_init. destruct (fle f_zero v && fle v f_one); intros E; inversion E; reflexivity. Qed.

Definition velocity_value (v : Z) : float :=
  fmax (S754_zero false) (fmin (S754_finite false 4503599627370496 (-52)) (fdiv (float_of_Z v) (S754_finite false 8936830510563328 (-46)))).
Lemma velocity_literal v : velocity_of_byte v = velocity_value v.
Proof. reflexivity. Qed.

Section Channel.
Variable Y : python.
Notation steps := (steps melodia Y).
Notation reaches := (reaches melodia Y).
Variables cd cp cr ce cs pr : nat.
Variable cv : value.
Variable delta : Z.
Notation m := (mkMR delta).
Variables q g t0 dt c : Z.
Variable b : nat.
Variable s : sig.
Variables a rn : nat.
(** The heap before the track of the channel is made. *)
Variable hc : heap.

Definition channel_for : target * list stmt :=
  Eval calc in match f_body src_MIDIReader__parse_track with
               | [_; _; _; _; _; _; _; _; _; SFor _ _ [_; _; _; SFor t _ b; _]; _] => (t, b)
               | _ => (TName "", [])
               end.
Definition channel_target := Eval cbv in fst channel_for.
Definition channel_body := Eval cbv in snd channel_for.
Definition note_vars : Type := option (Z * (Z * Z * Z) * tone * sig * float * sig).
Definition note_env (x : note_vars) : env :=
  match x with
  | None => []
  | Some (nb, (nc, np, nv), tn, du, ve, po) =>
      [("note_beginning", VInt nb); ("note_on", enc_ev (EvNoteOn nc np nv)); ("tone", enc_tone tn); ("duration", enc_sig du); ("velocity", VFloat ve); ("position", enc_sig po)]
  end.
Definition channel_env (at_ : Z) (ev : value) (x : note_vars) : env :=
  ("self", enc_midi_reader cv m) :: ("data", VCell cd) :: ("ticks_per_quarter", VInt q) :: ("previous_status", VCell cp) :: ("read_event", VCell cr) ::
  ("channel_events", VRef ce) :: ("channel_signatures", VRef cs) :: ("global_channel", VInt g) :: ("last_time", VInt t0) ::
  ("delta_time", VInt dt) :: ("absolute_time", VInt at_) :: ("event", ev) :: ("result", VRef pr) :: ("channel", VInt c) :: ("events", VRef b) ::
  ("signature", enc_sig s) :: ("track", VRef a) :: ("running_notes", VRef rn) :: note_env x.

Lemma enc_ev_plain e : plain_value (enc_ev e) = true.
Proof. destruct e; reflexivity. Qed.
Variable L : list (Z * event).
Hypothesis GL : Forall (fun x => good_event (snd x)) L.
Hypothesis BL : get hc b = Some (HList (map enc_timed L)).
Variable K : list frame.
Variable Q : state -> Prop.
Hypothesis FA : get hc a = None.
Hypothesis FR : get hc rn = None.

Ltac next_loop := repeat (lazymatch goal with |- RefineBase.reaches _ _ (Lp _ _ _ _ _ _) _ => fail | _ => adv end).
Lemma channel_loop_runs : forall l h i d t M at_ ev x,
  keeps [] hc h -> skipn i L = l -> track_at h a d t -> good_track t -> get hc d = None ->
  get h rn = Some (HDict false (enc_dict enc_timed M)) -> Forall sounding M -> plain_value ev = true ->
  (forall t' h' d' at' ev' x', channel_loop m q l (dict_map begun M) t = Ok t' -> track_at h' a d' t' -> good_track t' -> get hc d' = None -> keeps [] hc h' ->
     plain_value ev' = true -> reaches (Ex [] (channel_env at' ev' x') h' K) Q) ->
  (forall e h', channel_loop m q l (dict_map begun M) t = Err e -> keeps [] hc h' -> Q (Thr e h')) ->
  reaches (Lp channel_target channel_body (IRef b i) (channel_env at_ ev x) h K) Q.
Proof.
  induction l as [|[tm e] l IH]; intros h i d t M at_ ev x KE E T GT FD GR SM PV OK ER.
  - assert (G : get h b = Some (HList (map enc_timed L))) by heap_get.
    eapply (reaches_more _ _ _ (Ex [] (channel_env at_ ev x) h K)).
    { cbn [step]; unfold loop_step; cbn [next]. rewrite G, nth_error_map, (skipn_nil_nth _ _ E). reflexivity. }
    eapply OK; [reflexivity|eassumption..].
  - assert (G : get h b = Some (HList (map enc_timed L))) by heap_get.
    destruct (skipn_cons _ _ _ _ E) as [A B].
    assert (VE : good_event e) by (rewrite Forall_forall in GL; apply (GL (tm, e)); eapply nth_error_In; exact A).
    eapply (reaches_more _ _ _ (As [(channel_target, enc_timed (tm, e))] channel_body (channel_env at_ ev x) h (KLoopF channel_target channel_body (IRef b (S i)) :: K))).
    { cbn [step]; unfold loop_step; cbn [next]. rewrite G, nth_error_map, A. reflexivity. }
    repeat (lazymatch goal with |- RefineBase.reaches _ _ (As ((TName "event", _) :: _) _ _ _ _) _ => fail | _ => adv end).
    lazymatch goal with |- RefineBase.reaches _ _ (As _ _ ?r _ _) _ =>
      eapply reaches_more; [exact (assign_known melodia Y "event" (enc_ev e) ev _ _ r _ _ eq_refl PV)|] end.
    assert (H0 : reaches (As [] channel_body (channel_env tm (enc_ev e) x) h (KLoopF channel_target channel_body (IRef b (S i)) :: K)) Q);
      [|exact H0].
    pose proof (proj1 T) as GA. unfold enc_track in GA. destruct T as [TA TB].
    assert (AR : a <> rn) by congruence. assert (DR : d <> rn) by congruence.
    assert (SKIP : (channel_loop m q ((tm, e) :: l) (dict_map begun M) t = channel_loop m q l (dict_map begun M) t) ->
      reaches (Lp channel_target channel_body (IRef b (S i)) (channel_env tm (enc_ev e) x) h K) Q).
    { intros X. eapply (IH h (S i) d t M); [exact KE|exact B|split; assumption|exact GT|exact FD|exact GR|exact SM|apply enc_ev_plain| |].
      - intros t' h' d' at' ev' x' R. rewrite <- X in R. exact (OK t' h' d' at' ev' x' R).
      - intros e' h' R. rewrite <- X in R. exact (ER e' h' R). }
    destruct e as [|ch pi ve|ch pi ve| | |]; cbn [enc_ev channel_loop] in *; try rewrite get_map in *.
    4-6: destruct x as [[[[[[? [[? ?] ?]] ?] ?] ?] ?]|]; unfold channel_env, note_env; unfold channel_body at 1; next_loop; exact (SKIP eq_refl).
    + destruct x as [[[[[[? [[? ?] ?]] ?] ?] ?] ?]|]; unfold channel_env, note_env; unfold channel_body at 1; next_loop; exact (SKIP eq_refl).
    + (* note off *)
      pose proof (lookup_dict enc_timed pi M) as LD. pose proof (sounding_get M pi) as SG. pose proof (remove_dict enc_timed pi) as RD.
      destruct (dict_get M pi) as [old|] eqn:EM; cbn [option_map] in *.
      2:{ remember (enc_dict enc_timed M) as D eqn:HD. change (lookup (VInt pi) D = ?x) with (fact (lookup (VInt pi) D = x)) in LD.
          destruct x as [[[[[[? [[? ?] ?]] ?] ?] ?] ?]|]; unfold channel_env, note_env; unfold channel_body at 1; next_loop; exact (SKIP eq_refl). }
      destruct (SG _ SM eq_refl) as (nb & nc & np & nv & -> & VN). specialize (RD _ M EM). clear SG.
      remember (enc_dict enc_timed M) as D eqn:HD. change (lookup (VInt pi) D = ?x) with (fact (lookup (VInt pi) D = x)) in LD.
      remember (enc_dict enc_timed (dict_del M _)) as D' eqn:HD'. change (remove (VInt pi) D = ?x) with (fact (remove (VInt pi) D = x)) in RD.
      unfold enc_timed at 1 in LD. cbn [enc_ev fst snd begun] in *. rewrite del_map in OK, ER. rewrite velocity_literal in OK, ER.
      pose proof (float_of_byte nv VN) as TF. change (to_float nv = ?x) with (fact (to_float nv = x)) in TF.
      pose proof (time_to_signature_valid (tm - nb) q) as VD. pose proof (time_to_signature_valid nb q) as VP.
      assert (KR : keeps [] hc (put h rn (HDict false D'))) by keep.
      assert (TR : track_at (put h rn (HDict false D')) a d t) by (split; heap_get).
      assert (GR' : get (put h rn (HDict false D')) rn = Some (HDict false D')) by heap_get.
      assert (NEXT : forall du po n t1 h2, time_to_signature (tm - nb) q = Ok du -> time_to_signature nb q = Ok po -> note_init (pitch_to_tone m pi) du (velocity_value nv) = Ok n ->
        track_add t (WNote n) (Some (SA_sig po)) = (t1, Ok tt) -> good_track t1 -> changed (put h rn (HDict false D')) a d t1 h2 ->
        reaches (Lp channel_target channel_body (IRef b (S i)) (channel_env tm (enc_ev (EvNoteOff ch pi ve)) (Some (nb, (nc, np, nv), pitch_to_tone m pi, du, velocity_value nv, po))) h2 K) Q).
      { intros du po n t1 h2 E1 E2 E3 E4 G1 (d1 & T1 & D1 & K1). rewrite E1, E2 in OK, ER. cbn [bind] in OK, ER. rewrite E3 in OK, ER. cbn [bind] in OK, ER. rewrite E4 in OK, ER.
        eapply (IH h2 (S i) d1 t1 (dict_del M pi)); [keep|exact B|exact T1|exact G1| |subst D'; heap_get|apply sounding_del; exact SM|reflexivity|exact OK|exact ER].
        destruct D1 as [->|D1]; [exact FD|]. destruct (get hc d1) as [o|] eqn:GD; [|reflexivity].
        rewrite (keeps_get _ _ _ _ _ KR (fun x => x) GD) in D1. discriminate. }
      assert (BAD1 : forall e, time_to_signature (tm - nb) q = Err e -> Q (Thr e (put h rn (HDict false D')))).
      { intros e E1. rewrite E1 in ER. apply ER; [reflexivity|exact KR]. }
      assert (BAD2 : forall e du, time_to_signature (tm - nb) q = Ok du -> time_to_signature nb q = Err e -> Q (Thr e (put h rn (HDict false D')))).
      { intros e du E1 E2. rewrite E1, E2 in ER. apply ER; [reflexivity|exact KR]. }
      assert (BAD3 : forall e du po, time_to_signature (tm - nb) q = Ok du -> time_to_signature nb q = Ok po -> note_init (pitch_to_tone m pi) du (velocity_value nv) = Err e ->
         Q (Thr e (put h rn (HDict false D')))).
      { intros e du po E1 E2 E3. rewrite E1, E2 in ER. cbn [bind] in ER. rewrite E3 in ER. apply ER; [reflexivity|exact KR]. }
      assert (BAD4 : forall e du po n h2, time_to_signature (tm - nb) q = Ok du -> time_to_signature nb q = Ok po -> note_init (pitch_to_tone m pi) du (velocity_value nv) = Ok n ->
         snd (track_add t (WNote n) (Some (SA_sig po))) = Err e -> keeps [a; d] (put h rn (HDict false D')) h2 -> Q (Thr e h2)).
      { intros e du po n h2 E1 E2 E3 E4 K1. rewrite E1, E2 in ER. cbn [bind] in ER. rewrite E3 in ER. cbn [bind] in ER.
        destruct (track_add t _ _) as [t1 o]; cbn [snd] in E4; subst o. apply ER; [reflexivity|keep]. }
      clear OK ER IH E A B SKIP.
      pose proof (pitch_to_tone_runs Y cv m pi) as PT. pose proof (time_to_signature_runs Y (tm - nb) q) as TD. pose proof (time_to_signature_runs Y nb q) as TP.
      unfold enc_midi_reader in PT. cbn [mr_delta] in PT.
      destruct x as [[[[[[? [[? ?] ?]] ?] ?] ?] ?]|]; unfold channel_env, note_env, enc_midi_reader in *; cbn [mr_delta] in *; unfold channel_body at 1.
      all: unfold velocity_value in *; until_call "MIDIReader._pitch_to_tone".
      all: eapply reaches_steps; [exact (PT _ _)|]; until_call "MIDIReader._time_to_signature".
      all: eapply reaches_steps; [exact (TD _ _)|]; destruct (time_to_signature (tm - nb) q) as [du|e] eqn:E1; cbn [outcome_of ends]; [|apply reaches_here; apply BAD1; reflexivity].
      all: until_call "MIDIReader._time_to_signature".
      all: eapply reaches_steps; [exact (TP _ _)|]; destruct (time_to_signature nb q) as [po|e] eqn:E2; cbn [outcome_of ends]; [|apply reaches_here; eapply BAD2; reflexivity].
      all: repeat (lazymatch goal with |- RefineBase.reaches _ _ (Ca (VClass "Note") _ _ _ _) _ => fail | _ => adv end).
      all: eapply reaches_steps; [exact (note_init_runs Y (pitch_to_tone m pi) du _ _ _)|].
      all: match goal with |- context [note_init ?x ?y ?z] => destruct (note_init x y z) as [n|e] eqn:E3 end; cbn [outcome_of ends]; [|apply reaches_here; eapply BAD3; [reflexivity|reflexivity|exact E3]].
      all: pose proof (valid_good _ (VD _ eq_refl)) as VD'; pose proof (valid_good _ (VP _ eq_refl)) as VP'.
      all: pose proof (note_init_duration _ _ _ _ E3) as DN.
      all: assert (W1 : what_value (put h rn (HDict false D')) [a; d] (WNote n) (enc_note n)) by (constructor; rewrite DN; exact VD').
      all: assert (W2 : where_value (put h rn (HDict false D')) [a; d] (Some (SA_sig po)) (enc_sig po)) by (constructor; [constructor|discriminate|discriminate|exact VP']).
      all: pose proof (fun K => add_call_runs Y _ a d t _ _ _ _ K TR GT W1 W2) as AD.
      all: pose proof (track_add_good t (WNote n) (Some (SA_sig po)) _ [a; d] _ _ GT W1 W2) as GN.
      all: specialize (NEXT du po n); pose proof (fun e => BAD4 e du po n) as BAD5; clear BAD1 BAD2 BAD3 BAD4 TD TP PT W1 W2.
      all: unfold pitch_to_tone, tone_new in NEXT; destruct n as [[np'] [da' db'] vel'], du as [dn dd'], po as [pn pd];
        unfold enc_note, enc_tone, enc_sig in AD, NEXT |- *; cbn [n_tone n_duration n_velocity pitch nominator denominator] in AD, NEXT |- *.
      all: match type of AD with context [track_add ?x ?y ?z] => destruct (track_add x y z) as [t' r] eqn:TAD end; cbn [fst snd] in *.
      all: repeat (lazymatch goal with |- RefineBase.reaches _ _ (Ca (VFun "Track.add") _ _ _ _) _ => fail | _ => adv end).
      all: eapply reaches_more; [reflexivity|]; eapply reaches_trans; [exact (AD _)|]; intros ? (h2 & -> & CH); destruct r as [[]|e]; cbn [no_value outcome_of ends].
      all: try (apply reaches_here; eapply BAD5; [reflexivity|reflexivity|exact E3|reflexivity|destruct CH as (? & _ & _ & CH); exact CH]).
      all: next_loop; eapply NEXT; [reflexivity|reflexivity|exact E3|reflexivity|exact GN|exact CH].
    + (* note on *)
      pose proof (lookup_dict enc_timed pi M) as LD. pose proof (insert_dict enc_timed pi (tm, EvNoteOn ch pi ve) M) as ID.
      remember (enc_dict enc_timed M) as D eqn:HD. remember (enc_dict enc_timed (dict_set M _ _)) as D' eqn:HD'.
      unfold enc_timed at 1 in ID. cbn [enc_ev fst snd] in ID. change (insert (VInt pi) ?v D = ?x) with (fact (insert (VInt pi) v D = x)) in ID.
      destruct (dict_get M pi) as [old|] eqn:EM; cbn [option_map] in *;
        change (lookup (VInt pi) D = ?x) with (fact (lookup (VInt pi) D = x)) in LD.
      * destruct x as [[[[[[? [[? ?] ?]] ?] ?] ?] ?]|]; unfold channel_env, note_env; unfold channel_body at 1; next_loop; exact (SKIP eq_refl).
      * assert (NEXT : reaches (Lp channel_target channel_body (IRef b (S i)) (channel_env tm (enc_ev (EvNoteOn ch pi ve)) x) (put h rn (HDict false D')) K) Q).
        { change (tm, ve) with (begun (tm, EvNoteOn ch pi ve)) in OK, ER. rewrite set_map in OK, ER.
          eapply (IH _ (S i) d t (dict_set M pi (tm, EvNoteOn ch pi ve))); [keep|exact B|split; heap_get|exact GT|exact FD|subst D'; heap_get|apply sounding_set; [exact SM|]|reflexivity|exact OK|exact ER].
          exists ch, pi, ve. cbn in *. auto. }
        destruct x as [[[[[[? [[? ?] ?]] ?] ?] ?] ?]|]; unfold channel_env, note_env; unfold channel_body at 1; next_loop; exact NEXT.
Qed.
End Channel.
