(** Running the source of randomize_velocities (processing/track.py 7-45) gives what the model in Processing.v says. *)
From Coq Require Import ZArith List Bool String Lia Permutation SpecFloat.
From Verif Require Import Py PyFloat PySort Signature Tone Note Track Show Processing PyAst PySem PySource PyProgram SpecBase SigFacts SortFacts
  RefineBase RefineSignature RefineTone RefineNote RefineTrack RefineAdd RefineEqual RefineSpec RefineTrackProps.
Import ListNotations.
Open Scope string_scope.
Open Scope list_scope.
Open Scope Z_scope.

(** Everything but the objects at the places [l] is as before, and random.gauss has been called [n] times. *)
Definition after_draws (l : list nat) (n : nat) (h h' : heap) : Prop :=
  (forall b o, ~ In b l -> get h b = Some o -> get h' b = Some o) /\ h_calls h' = (h_calls h + n)%nat.

Section Process.
Variable Y : python.
Notation steps := (steps melodia Y).
Notation reaches := (reaches melodia Y).

Lemma gauss_reaches m s h K Q :
  (forall h', (forall a, get h' a = get h a) -> h_calls h' = S (h_calls h) -> reaches (Rt (VFloat (py_gauss Y (h_calls h) m s)) h' K) Q) ->
  reaches (Ca (VBuiltin "random.gauss") [VFloat m; VFloat s] [] h K) Q.
Proof. intros R. eapply reaches_more; [reflexivity|]. apply R; reflexivity. Qed.

Definition draw_loop : target * list stmt :=
  Eval calc in match f_body src_processing_randomize_velocities with _ :: _ :: _ :: _ :: _ :: _ :: SFor t _ b :: _ => (t, b) | _ => (TName "", []) end.
Definition draw_target := Eval cbv in fst draw_loop.
Definition draw_body := Eval cbv in snd draw_loop.
Definition draw_env (a : nat) (mn mx me va : float) (c : nat) (sd : float) (x : option (entry * float)) : env :=
  match x with
  | None => [("track", VRef a); ("minimum", VFloat mn); ("maximum", VFloat mx); ("mean", VFloat me); ("variance", VFloat va); ("result", VRef c); ("std", VFloat sd)]
  | Some ((p, n), v) => [("track", VRef a); ("minimum", VFloat mn); ("maximum", VFloat mx); ("mean", VFloat me); ("variance", VFloat va); ("result", VRef c); ("std", VFloat sd);
       ("position", enc_sig p); ("note", enc_note n); ("new_velocity", VFloat v)]
  end.

Lemma velocity_good n v n' : with_velocity n v = Ok n' -> n_duration n' = n_duration n.
Proof. unfold with_velocity, note_init. intros E. destruct (fle f_zero v && fle v f_one); inversion E; reflexivity. Qed.

Lemma draw_loop_runs a b L mn mx me va base K : Forall good_entry L ->
  let sd := py_sqrt Y va in let draws i := py_gauss Y (base + i) me sd in
  forall l h i k c d t x (Q : state -> Prop),
  get h b = Some (HList (map enc_entry L)) -> skipn i L = l -> track_at h c d t -> good_track t -> b <> c -> b <> d -> h_calls h = (base + k)%nat ->
  (forall t' h' d' x', randomize_loop mn mx draws k l t = Ok t' -> track_at h' c d' t' -> d' = d \/ get h d' = None -> after_draws [c; d] (List.length l) h h' ->
     reaches (Ex [] (draw_env a mn mx me va c sd x') h' K) Q) ->
  (forall e h' n, randomize_loop mn mx draws k l t = Err e -> (n <= List.length l)%nat -> after_draws [c; d] n h h' -> Q (Thr e h')) ->
  reaches (Lp draw_target draw_body (IRef b i) (draw_env a mn mx me va c sd x) h K) Q.
Proof.
  intros GL sd draws. induction l as [|[[p p'] n] l IH]; intros h i k c d t x Q G E T GT BC BD HC OK ER.
  - eapply (reaches_more _ _ _ (Ex [] (draw_env a mn mx me va c sd x) h K)).
    { cbn [step]; unfold loop_step; cbn [next]. rewrite G, nth_error_map, (skipn_nil_nth _ _ E). reflexivity. }
    apply (OK t h d x); [reflexivity|exact T|left; reflexivity|]. split; [intros; assumption|cbn; lia].
  - destruct (skipn_cons _ _ _ _ E) as [A B].
    assert (VE : good_entry (mkSig p p', n)) by (rewrite Forall_forall in GL; apply GL; eapply nth_error_In; exact A).
    eapply (reaches_more _ _ _ (As [(draw_target, enc_entry (mkSig p p', n))] draw_body (draw_env a mn mx me va c sd x) h (KLoopF draw_target draw_body (IRef b (S i)) :: K))).
    { cbn [step]; unfold loop_step; cbn [next]. rewrite G, nth_error_map, A. reflexivity. }
    destruct VE as [VP VD]. cbn [fst snd] in VP, VD. cbn [randomize_loop] in OK, ER.
    remember (draws k) as g eqn:DG in OK, ER.
    set (v := fmax mn (fmin mx g)) in *.
    assert (T0 := proj1 T). unfold enc_track in T0.
    assert (WIDE : forall h1 h2 h3 d1 t' m, (forall q, get h1 q = get h q) -> h_calls h1 = S (h_calls h) -> track_at h2 c d1 t' -> d1 = d \/ get h1 d1 = None -> keeps [c; d] h1 h2 ->
      after_draws [c; d1] m h2 h3 -> after_draws [c; d] (S m) h h3).
    { intros h1 h2 h3 d1 t' m H1 C1 T1 D1 K1 [A2 A3]. split.
      - intros q o NQ GQ. assert (GQ1 : get h1 q = Some o) by (rewrite H1; exact GQ). apply A2.
        + intros [X|[X|[]]]; [apply NQ; left; exact X|]. subst q. destruct D1 as [->|D1]; [apply NQ; right; left; reflexivity|congruence].
        + exact (keeps_get _ _ _ _ _ K1 NQ GQ1).
      - rewrite A3, (keeps_calls _ _ _ K1), C1. lia. }
    assert (NEXT : forall h1 h2 n' t' K', with_velocity n v = Ok n' -> track_add t (WNote n') (Some (SA_sig (mkSig p p'))) = (t', Ok tt) ->
      K' = K -> (forall q, get h1 q = get h q) -> h_calls h1 = S (h_calls h) -> changed h1 c d t' h2 ->
      reaches (Lp draw_target draw_body (IRef b (S i)) (draw_env a mn mx me va c sd (Some ((mkSig p p', n), v))) h2 K') Q).
    { intros h1 h2 n' t' K' WV AD -> H1 C1 (d1 & T1 & D1 & K1). rewrite WV in OK, ER. cbn [bind] in OK, ER. rewrite AD in OK, ER.
      assert (GN : good_track t').
      { change t' with (fst (t', Ok tt)). rewrite <- AD. apply (track_add_good t (WNote n') (Some (SA_sig (mkSig p p'))) h1 [c; d] (enc_note n') (enc_sig (mkSig p p'))); [exact GT|constructor; rewrite (velocity_good _ _ _ WV); exact VD|].
        constructor; [constructor|discriminate|discriminate|exact VP]. }
      assert (G1 : get h1 b = Some (HList (map enc_entry L))) by (rewrite H1; exact G).
      assert (G2 : get h2 b = Some (HList (map enc_entry L))) by heap_get.
      eapply (IH h2 (S i) (S k) c d1 t'); [exact G2|exact B|exact T1|exact GN|exact BC| | | |].
      - intros ->. destruct D1 as [->|D1]; [exact (BD eq_refl)|congruence].
      - rewrite (keeps_calls _ _ _ K1), C1, HC. lia.
      - intros t2 h3 d3 x' R2 T3 D3 A3. apply (OK t2 h3 d3 x' R2 T3).
        + destruct D3 as [->|D3]; [destruct D1 as [->|D1]; [left; reflexivity|right; rewrite <- H1; exact D1]|].
          destruct (get h d3) as [o|] eqn:GD; [|right; reflexivity]. destruct (Nat.eq_dec d3 d) as [->|ND]; [left; reflexivity|]. exfalso.
          destruct (Nat.eq_dec d3 c) as [->|NC]; [destruct T1; congruence|]. rewrite <- H1 in GD.
          rewrite (keeps_get _ _ _ d3 o K1) in D3; [discriminate| |exact GD]. intros [X|[X|[]]]; congruence.
        + apply (WIDE h1 h2 h3 d1 t' (List.length l)); assumption.
      - intros e h3 m R2 LM A3. apply (ER e h3 (S m) R2); [cbn; lia|]. apply (WIDE h1 h2 h3 d1 t' m); assumption. }
    assert (BAD : forall h1 h2 e n', with_velocity n v = Ok n' -> snd (track_add t (WNote n') (Some (SA_sig (mkSig p p')))) = Err e ->
      (forall q, get h1 q = get h q) -> h_calls h1 = S (h_calls h) -> keeps [c; d] h1 h2 -> Q (Thr e h2)).
    { intros h1 h2 e n' WV AD H1 C1 K1. rewrite WV in ER. cbn [bind] in ER. destruct (track_add t _ _) as [t' [[]|e']]; [discriminate|]. injection AD as ->.
      apply (ER e h2 1%nat); [reflexivity|cbn; lia|]. split; [|rewrite (keeps_calls _ _ _ K1), C1; lia].
      intros q o NQ GQ. apply (keeps_get _ _ _ _ _ K1 NQ). rewrite H1. exact GQ. }
    assert (WORSE : forall h1 e, with_velocity n v = Err e -> (forall q, get h1 q = get h q) -> h_calls h1 = S (h_calls h) -> Q (Thr e h1)).
    { intros h1 e WV H1 C1. rewrite WV in ER. apply (ER e h1 1%nat); [reflexivity|cbn; lia|]. split; [intros; rewrite H1; assumption|lia]. }
    clear OK ER IH E A B.
    pose proof (with_velocity_runs Y n v) as WR.
    unfold draw_env at 1. unfold draw_target at 1, draw_body at 1. unfold enc_entry at 1. cbn [fst snd].
    unfold enc_sig at 1. cbn [nominator denominator].
    destruct n as [[np] [da db] vel]. unfold enc_note at 1, enc_sig at 1, enc_tone at 1. cbn [n_tone n_duration n_velocity pitch nominator denominator] in *.
    destruct x as [[[? ?] ?]|].
    all: repeat (lazymatch goal with |- RefineBase.reaches _ _ (Ca (VBuiltin "random.gauss") _ _ _ _) _ => fail | _ => adv end).
    all: apply gauss_reaches; intros h1 H1 C1; rewrite HC; change (py_gauss Y (base + k) me (py_sqrt Y va)) with (draws k); rewrite <- DG; clear DG.
    all: assert (T1 : get h1 c = get h c) by apply H1; rewrite T0 in T1.
    all: assert (T2 : track_at h1 c d t) by (destruct T; split; rewrite H1; assumption).
    all: unfold draw_env, enc_note at 1, enc_sig at 1 2, enc_tone at 1 in NEXT; cbn [n_tone n_duration n_velocity pitch nominator denominator] in NEXT.
    all: unfold draw_target, draw_body in NEXT.
    all: repeat (lazymatch goal with |- RefineBase.reaches _ _ (Ca (VFun "Note.with_velocity") _ _ _ _) _ => fail | _ => adv end).
    all: eapply reaches_steps; [exact (WR h1 _)|]; match type of WR with context [with_velocity ?n ?w] => destruct (with_velocity n w) as [n'|e] eqn:WV end; cbn [outcome_of ends];
      [|apply reaches_here; eapply WORSE; [reflexivity|exact H1|exact C1]].
    all: pose proof (velocity_good _ _ _ WV) as DN; cbn [n_duration] in DN.
    all: assert (W1 : what_value h1 [c; d] (WNote n') (enc_note n')) by (constructor; rewrite DN; exact VD).
    all: assert (W2 : where_value h1 [c; d] (Some (SA_sig (mkSig p p'))) (enc_sig (mkSig p p'))) by (constructor; [constructor|discriminate|discriminate|exact VP]).
    all: pose proof (fun K => add_call_runs Y h1 c d t _ _ _ _ K T2 GT W1 W2) as AD.
    all: specialize (NEXT h1); specialize (BAD h1).
    all: match type of AD with context [track_add ?x ?y ?z] => destruct (track_add x y z) as [t' r] eqn:TA end; cbn [fst snd] in AD.
    all: destruct n' as [[np'] [da' db'] vel']; unfold enc_note, enc_tone, enc_sig in AD |- *; cbn [n_tone n_duration n_velocity pitch nominator denominator] in AD |- *.
    all: repeat (lazymatch goal with |- RefineBase.reaches _ _ (Ca (VFun "Track.add") _ _ _ _) _ => fail | _ => adv end).
    all: eapply reaches_more; [reflexivity|]; eapply reaches_trans; [exact (AD _)|]; intros ? (h2 & -> & CH); destruct r as [[]|e]; cbn [no_value outcome_of ends].
    all: try (apply reaches_here; eapply BAD; [reflexivity|rewrite TA; reflexivity|exact H1|exact C1|destruct CH as (? & _ & _ & CH); exact CH]).
    all: do 2 (eapply reaches_more; [reflexivity|]); eapply NEXT; [reflexivity|exact TA|reflexivity|exact H1|exact C1|exact CH].
Qed.

(** ** randomize_velocities *)
Lemma cmp_zero : fact (float_of_Z 0 = f_zero).
Proof. reflexivity. Qed.

Definition draw_rest : list stmt :=
  Eval calc in match f_body src_processing_randomize_velocities with _ :: _ :: _ :: _ :: _ :: l => l | _ => [] end.
Lemma randomize_runs h a b t mn mx me va K : natural (py_sort Y) -> sort_contract (py_sort Y) -> track_at h a b t -> good_track t ->
  let o := randomize_velocities (py_sort Y) t mn mx me va (fun i => py_gauss Y (h_calls h + i) me (py_sqrt Y va)) in
  reaches (Ca (VFun "processing.randomize_velocities") [VRef a; VFloat mn; VFloat mx; VFloat me; VFloat va] [] h K)
    (fun s => exists h', track_at h' a b (fst o) /\
       match snd o with
       | Ok t' => exists c d, s = Rt (VRef c) h' K /\ track_at h' c d t' /\ get h c = None /\ get h d = None /\ after_draws [a; b] (List.length (t_heap t)) h h'
       | Err e => s = Thr e h' /\ exists n, (n <= List.length (t_heap t))%nat /\ after_draws [a; b] n h h'
       end).
Proof.
  intros N C T GT o. set (Q := fun s => exists h', _).
  assert (STOP : o = (t, Err ValueError) -> Q (Thr ValueError h)).
  { intros E. exists h. rewrite E. cbn. split; [exact T|]. split; [reflexivity|]. exists 0%nat. split; [lia|]. split; [intros; assumption|lia]. }
  pose proof (proj1 T) as G1. unfold enc_track in G1.
  assert (MAIN : o = (let (t', items) := track_iter (py_sort Y) t in (t', randomize_loop mn mx (fun i => py_gauss Y (h_calls h + i) me (py_sqrt Y va)) 0 items (track_empty (t_signature t)))) ->
     reaches (Ca (VClass "Track") [] [("signature", enc_sig (t_signature t))] h 
        (KAssign (TName "result") draw_rest
           [("track", VRef a); ("minimum", VFloat mn); ("maximum", VFloat mx); ("mean", VFloat me); ("variance", VFloat va)] :: KFun :: K)) Q).
  { intros E. eapply reaches_trans.
    { eapply (reaches_same Y _ (Ca (VClass "Track") [enc_sig (t_signature t); VNone] [] h _)); [reflexivity|discriminate| |eapply track_new_runs; [constructor|exact (proj2 (proj2 GT))|constructor]].
      cbn. intros (? & ? & ? & X & _). discriminate X. }
    intros ? (h1 & c & d & -> & T1 & NC & ND & K1).
    assert (CA : c <> a) by (intros ->; congruence). assert (DA : d <> a) by (intros ->; congruence).
    assert (CB : c <> b) by (intros ->; destruct T; congruence). assert (DB : d <> b) by (intros ->; destruct T; congruence).
    assert (T2 : track_at h1 a b t) by (destruct T; split; heap_get).
    pose proof (proj1 T2) as G2. unfold enc_track in G2. pose proof (iter_good Y t GT C) as GI. pose proof (iter_list Y t) as IL.
    pose proof (fun K => track_iter_runs Y h1 a b t K N T2 GT) as IT. 
    rewrite (surjective_pairing (track_iter (py_sort Y) t)) in E. cbv zeta in E. rewrite IL in E.
    assert (LEN : List.length (t_heap (fst (track_iter (py_sort Y) t))) = List.length (t_heap t)).
    { unfold track_iter. destruct (t_sorted t); [reflexivity|]. cbn. apply Permutation_length. apply sort_permutation. exact C. }
    set (t' := fst (track_iter (py_sort Y) t)) in *. clearbody t' o. clear IL STOP. unfold draw_rest.
    repeat (lazymatch goal with |- RefineBase.reaches _ _ (Ca (VFun "Track.__iter__") _ _ _ _) _ => fail | _ => adv end).
    eapply reaches_trans; [exact (IT _)|]. intros ? (h2 & -> & T3 & K2). cbn [ends].
    repeat (lazymatch goal with |- RefineBase.reaches _ _ (Lp _ _ _ _ _ _) _ => fail | _ => adv end).
    assert (T4 : track_at h2 c d (track_empty (t_signature t))) by (destruct T1; split; heap_get).
    assert (ALL : forall n h3, after_draws [c; d] n h2 h3 -> track_at h3 a b t' /\ after_draws [a; b] n h h3).
    { intros n h3 [A1 A2]. split.
      - destruct T3; split; apply A1; try assumption; intros [X|[X|[]]]; congruence.
      - split; [|rewrite A2, (keeps_calls _ _ _ K2), (keeps_calls _ _ _ K1); reflexivity].
        intros q v NQ GQ. apply A1; [intros [X|[X|[]]]; congruence|]. apply (keeps_get _ _ _ _ _ K2 NQ). exact (keeps_get _ _ _ _ _ K1 (fun x => x) GQ). }
    eapply (draw_loop_runs a b (t_heap t') mn mx me va (h_calls h) (KSeq [SReturn (EName "result")] :: KFun :: K) (proj1 GI) (t_heap t') h2 0 0 c d (track_empty (t_signature t)) None);
      [exact (proj2 T3)|reflexivity|exact T4|apply empty_good; exact (proj2 (proj2 GT))|congruence|congruence|rewrite (keeps_calls _ _ _ K2), (keeps_calls _ _ _ K1); lia| |].
    - intros t2 h3 d' x' R2 T5 D' A3. destruct (ALL _ _ A3) as [T6 A4].
      destruct x' as [[[? ?] ?]|]; unfold draw_env; repeat adv; apply reaches_here; exists h3; cbn [fst snd]; rewrite E; cbn [fst snd]; (split; [exact T6|]); cbv beta in R2; rewrite R2; exists c, d'; rewrite <- LEN;
        refine (conj eq_refl (conj T5 (conj NC (conj _ A4)))).
      all: destruct D' as [->|D']; [exact ND|]; destruct (get h d') as [v|] eqn:GD; [|reflexivity]; exfalso.
      all: pose proof (keeps_get _ _ _ _ _ K1 (fun x => x) GD) as G3; destruct (Nat.eq_dec d' a) as [->|NA]; [destruct T3; congruence|]; destruct (Nat.eq_dec d' b) as [->|NB]; [destruct T3; congruence|].
      all: rewrite (keeps_get _ _ _ _ _ K2 (fun X => match X with or_introl X => NA (eq_sym X) | or_intror (or_introl X) => NB (eq_sym X) | or_intror (or_intror X) => X end) G3) in D'; discriminate D'.
    - intros e h3 n R2 LN A3. destruct (ALL _ _ A3) as [T6 A4]. exists h3. rewrite E. cbn [fst snd]. split; [exact T6|]. cbv beta in R2. rewrite R2. split; [reflexivity|].
      exists n. rewrite <- LEN. split; assumption. }
  unfold randomize_velocities in o. unfold in_unit in o. clearbody Q. pose proof cmp_zero as F0.
  repeat (lazymatch goal with |- RefineBase.reaches _ _ (Ca (VClass "Track") _ _ _ _) _ => fail | _ => adv end).
  all: first [apply MAIN|apply reaches_here; apply STOP]; unfold o; change f_one with (S754_finite false 4503599627370496 (-52)); repeat match goal with H : fle _ _ = _ |- _ => rewrite H end; reflexivity.
Qed.
End Process.

(** ** The property *)
Lemma c76_randomize : forall Y h a b t mn mx me va, natural (py_sort Y) -> sort_contract (py_sort Y) -> track_at h a b t -> good_track t ->
  let vars := [("t", VRef a); ("lo", VFloat mn); ("hi", VFloat mx); ("m", VFloat me); ("s", VFloat va)] in
  let given mn mx me va r h' :=
    let o := randomize_velocities (py_sort Y) t mn mx me va (fun i => py_gauss Y (h_calls h + i) me (py_sqrt Y va)) in
    track_at h' a b (fst o) /\
    match snd o with
    | Ok t' => exists c d, r = Ok (VRef c) /\ track_at h' c d t' /\ get h c = None /\ get h d = None /\ after_draws [a; b] (List.length (t_heap t)) h h'
    | Err e => r = Err e /\ exists n, (n <= List.length (t_heap t))%nat /\ after_draws [a; b] n h h'
    end in
  brings Y h vars (call (name "processing.randomize_velocities") [name "t"; name "lo"; name "hi"; name "m"; name "s"]) (given mn mx me va) /\
  brings Y h vars (call (name "processing.randomize_velocities") [name "t"]) (given f_half f_one f_three_quarters (fdiv f_one (float_of_Z 100))).
Proof.
  intros Y h a b t mn mx me va N C T G. cbv zeta.
  pose proof (fun mn mx me va K => randomize_runs Y h a b t mn mx me va K N C T G) as R. cbv zeta in R.
  pose proof (proj1 T) as G1. unfold enc_track in G1.
  split; opening.
  all: repeat (lazymatch goal with |- reaches _ _ (Ca (VFun _) _ _ _ _) _ => fail | _ => adv end).
  - eapply reaches_trans; [exact (R mn mx me va K)|]. intros s (h' & T' & E). apply reaches_here.
    set (o := randomize_velocities _ _ _ _ _ _ _) in *. clearbody o. destruct o as [t1 [t2|e]]; cbn [fst snd] in *.
    + destruct E as (c & d & -> & E). exists (Ok (VRef c)), h'. split; [reflexivity|]. split; [exact T'|]. exists c, d. split; [reflexivity|exact E].
    + destruct E as (-> & E). exists (Err e), h'. split; [reflexivity|]. split; [exact T'|]. split; [reflexivity|exact E].
  - replace (fdiv f_one (float_of_Z 100)) with (S754_finite false 5764607523034235 (-59)) by (vm_compute; reflexivity).
    eapply reaches_trans; [eapply reaches_same; [| | |exact (R f_half f_one f_three_quarters (S754_finite false 5764607523034235 (-59)) K)]; [reflexivity|discriminate|]|].
    { intros (h' & _ & E). destruct (snd _); [destruct E as (? & ? & E & _)|destruct E as [E _]]; discriminate E. }
    intros s (h' & T' & E). apply reaches_here.
    set (o := randomize_velocities _ _ _ _ _ _ _) in *. clearbody o. destruct o as [t1 [t2|e]]; cbn [fst snd] in *.
    + destruct E as (c & d & -> & E). exists (Ok (VRef c)), h'. split; [reflexivity|]. split; [exact T'|]. exists c, d. split; [reflexivity|exact E].
    + destruct E as (-> & E). exists (Err e), h'. split; [reflexivity|]. split; [exact T'|]. split; [reflexivity|exact E].
Qed.
