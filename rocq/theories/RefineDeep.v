(** A data byte without a status to repeat makes the inner function read_event of MIDIReader._parse_track
    (io/midi.py 459-527) call itself again and again.  The machine has no limit on the number of active calls,
    so what the model calls RecursionError is there a run on which that number exceeds every bound. *)
From Coq Require Import ZArith List Bool String Lia.
From Verif Require Import Py PyFloat PySort Signature Tone Note Track Show MidiWriter MidiReader PyAst PySem PySource PyProgram SpecBase MidiSpec SigFacts VarLenFacts ReadFacts
  RefineBase RefineSignature RefineTone RefineNote RefineWriter RefineTrack RefineAdd RefineReader RefineNumbers RefineEvent.
Import ListNotations.
Open Scope string_scope.
Open Scope list_scope.
Open Scope Z_scope.
(** ** Without a status to repeat
    A call is made while [d] calls of functions are active.  When there is no status to repeat, this happens for every
    [d]: in CPython the call raises RecursionError at the recursion limit. *)
Fixpoint calls (K : list frame) : nat := match K with [] => 0 | KFun :: K => S (calls K) | _ :: K => calls K end.
Definition deep (d : nat) (s : state) : Prop := exists f args kws h K, s = Ca f args kws h K /\ (d <= calls K)%nat.

Section Deep.
Variable Y : python.
Notation reaches := (reaches melodia Y).
Variables p cd cp cr : nat.
Variable d : nat.
Lemma deep_runs r r1 x : good_reader r -> read_8 r = (r1, Ok x) -> x < 128 -> forall n h kws K, (d <= n + calls K)%nat ->
  reader_at h p r -> cells_at h p cd cp cr None -> In kws [[]; [("status", VNone)]] ->
  reaches (Ca (reader_of_events cd cp cr) [] kws h K) (deep d).
Proof.
  intros GR E X. induction n as [|n IH]; intros h kws K D G C I.
  { apply reaches_here. exists (reader_of_events cd cp cr), [], kws, h, K. split; [reflexivity|lia]. }
  pose proof G as G0. unfold reader_at in G0. pose proof C as (C1 & C2 & C3). cbn [enc_status] in C2.
  pose proof (read_8_good r GR) as (GR1 & D1 & V1). rewrite E in GR1, D1, V1. cbn [fst snd] in *. destruct V1 as [V1 I1].
  assert (N8 : (x =? 255) = false) by lia. assert (B : (x >=? 128) = false) by lia.
  assert (DD : p <> cp /\ p <> cd /\ p <> cr) by (unfold reader_of_events in *; repeat split; congruence). destruct DD as (D2 & D3 & D4).
  assert (NEXT : forall h' K', calls K' = S (calls K) -> reader_at h' p (mkReader (rd_data r1) (rd_idx r1 + -1)) -> keeps [p] h h' ->
    reaches (Ca (reader_of_events cd cp cr) [] [("status", VNone)] h' K') (deep d)).
  { intros h' K' L' G' KP. apply IH; [rewrite L'; lia| |repeat split; heap_get|right; left; reflexivity].
    destruct r as [a b]. cbn [rd_data rd_idx] in *. rewrite D1, I1 in G'. replace (b + 1 + -1) with b in G' by lia. exact G'. }
  clear IH. unfold reader_of_events, shared in *.
  eapply (reaches_more _ _ _ (Ex (hd SBreak (f_body src_MIDIReader__parse_track_read_event) :: event_rest) (("status", VNone) :: shared cd cp cr) h (KFun :: K))).
  { destruct I as [<-|[<-|[]]]; reflexivity. }
  unfold shared, hd, src_MIDIReader__parse_track_read_event. cbn [f_body]. 
  until_call "MIDIReader._read_8".
  eapply reaches_trans; [apply (read_8_runs Y p r GR); exact G|]. rewrite E. cbn [fst snd outcome_of]. intros ? (h1 & -> & G1 & K1). cbn [ends].
  pose proof G1 as G1'. unfold reader_at in G1'.
  repeat (lazymatch goal with |- RefineBase.reaches _ _ (Ex event_rest _ _ (KFun :: _)) _ => fail | _ => adv end).
  unfold event_rest. until_call "_Reader.shift".
  eapply reaches_trans; [eapply (shift_runs Y p (- (1)) r1); assumption|]. intros t (h2 & -> & G2 & K2). cbn [shift fst snd outcome_of ends] in *.
  pose proof G2 as G3. unfold reader_at in G3.
  repeat (lazymatch goal with |- RefineBase.reaches _ _ (Ca (VClosure _ _) _ _ _ _) _ => fail | _ => adv end).
  apply NEXT; [reflexivity|exact G2|keep].
Qed.
Lemma recursion_why previous r : good_reader r -> status_ok previous -> snd (read_event recursion_limit None previous r) = Err RecursionError ->
  previous = None /\ exists r1 x, read_8 r = (r1, Ok x) /\ x < 128.
Proof.
  intros [B I] S E. destruct r as [data i]. cbn [rd_data rd_idx] in *.
  set (pre := firstn (Z.to_nat i) data). set (rest := skipn (Z.to_nat i) data).
  assert (PR : pre ++ rest = data) by apply firstn_skipn. assert (LP : Z.of_nat (List.length pre) = i) by (unfold pre; rewrite firstn_length; lia).
  assert (AT : mkReader data i = at_ pre rest) by (unfold at_; rewrite PR, LP; reflexivity). rewrite AT in *. rewrite <- PR in B.
  destruct (tracks_event [] previous pre rest B S) as (p1 & r1 & _ & _ & T). rewrite E in T. destruct T as (_ & _ & -> & b & r2 & -> & L).
  split; [reflexivity|]. eexists _, b. split; [|lia]. unfold read_8, rbind. change (b :: r2) with ([b] ++ r2). rewrite (read_ok pre [b] r2 1 eq_refl). reflexivity.
Qed.
Lemma event_deep previous r h K : good_reader r -> reader_at h p r -> cells_at h p cd cp cr previous -> status_ok previous ->
  snd (read_event recursion_limit None previous r) = Err RecursionError -> reaches (Ca (reader_of_events cd cp cr) [] [] h K) (deep d).
Proof.
  intros GR G C S E. destruct (recursion_why previous r GR S E) as (-> & r1 & x & R & L).
  apply (deep_runs r r1 x GR R L d); [lia|exact G|exact C|left; reflexivity].
Qed.
End Deep.

(** The run of something that raises [e]. *)
Definition raised (d : nat) (e : err) (L : list nat) (h : heap) (s : state) : Prop :=
  match e with RecursionError => deep d s | _ => exists h', s = Thr e h' /\ keeps L h h' end.
Lemma raised_thr d e L h h' : e <> RecursionError -> keeps L h h' -> raised d e L h (Thr e h').
Proof. intros N K. destruct e; try (exists h'; split; [reflexivity|exact K]). congruence. Qed.
Lemma raised_inv d e L h s : raised d e L h s -> (e <> RecursionError /\ exists h', s = Thr e h' /\ keeps L h h') \/ (e = RecursionError /\ deep d s).
Proof. destruct e; intros R; try (left; split; [discriminate|exact R]). right. split; [reflexivity|exact R]. Qed.

(** Apart from the inner function, nothing raises RecursionError. *)
Definition calm {A} (o : res A) : Prop := o <> Err RecursionError.
Lemma calm_bind {A B} (o : res A) (f : A -> res B) : calm o -> (forall x, calm (f x)) -> calm (bind o f).
Proof. unfold calm. destruct o as [x|e]; cbn; intros H G; [apply G; reflexivity|congruence]. Qed.
Lemma calm_sig n d : calm (sig_new n d).
Proof. unfold calm, sig_new. destruct (negb _); discriminate. Qed.
Local Ltac nope := unfold calm; intros; discriminate.
Lemma calm_normalized s : calm (sig_normalized s).
Proof.
  assert (L : forall k n d, calm (norm_loop k n d)); [|apply calm_bind; [apply L|intros [n d]; apply calm_sig]].
  induction k as [|k IH]; intros n d; cbn [norm_loop]; (destruct (_ && _); [|nope]); [nope|apply IH].
Qed.
Lemma calm_to s d : calm (sig_to s d).
Proof. unfold sig_to. repeat first [apply calm_sig | nope | match goal with |- context [if ?b then _ else _] => destruct b end]. Qed.
Lemma calm_map {A B} (f : A -> res B) l : (forall x, calm (f x)) -> calm (map_res f l).
Proof. intros F. induction l as [|x l IH]; cbn [map_res]; [nope|]. apply calm_bind; [apply F|intros y]. apply calm_bind; [exact IH|nope]. Qed.
Lemma calm_add_note t n p : calm (snd (add_note t n p)).
Proof.
  assert (A : forall a b, calm (sig_add a b)) by (intros a b; unfold sig_add; destruct (to_common_denominator a b) as [[n1 n2] d]; apply calm_sig).
  unfold add_note. lazymatch goal with |- context [let '(_, _) := ?x in _] => set (r := x) end.
  assert (R : calm (snd r)).
  { unfold r. destruct (_ >? _); [|nope]. match goal with |- context [map_res ?f ?l] => pose proof (calm_map f l) as M; destruct (map_res f l) as [h|e] end; [nope|].
    intros X. apply M; [|injection X as ->; reflexivity]. intros x. apply calm_bind; [apply calm_to|nope]. }
  clearbody r. destruct r as [t1 [u|e]]; [|exact R]. pose proof (calm_to p (t_max_denominator t1)) as T. destruct (sig_to p (t_max_denominator t1)) as [p'|e]; [|cbn [snd]; intros X; apply T; congruence].
  pose proof (A p' (n_duration n)) as S1. destruct (sig_add p' (n_duration n)) as [p2|e]; [|cbn [snd]; intros X; apply S1; congruence]. destruct (sig_gt _ _); nope.
Qed.
Lemma calm_channel m q : forall l running t, calm (channel_loop m q l running t).
Proof.
  induction l as [|[a e] l IH]; intros running t; cbn [channel_loop]; [nope|]. destruct e; try apply IH.
  - destruct (dict_get running pitch) as [[b v]|]; [|apply IH]. 
    assert (T : forall x, calm (time_to_signature x q)).
    { intros x. unfold time_to_signature. destruct (negb _); [nope|]. apply calm_bind; [apply calm_sig|]. apply calm_normalized. }
    apply calm_bind; [apply T|intros s1]. apply calm_bind; [apply T|intros s2]. apply calm_bind; [unfold note_init; destruct (negb _); nope|intros n].
    cbn [track_add sig_of_arg add_at]. pose proof (calm_add_note t n s2) as C. destruct (add_note t n s2) as [t' [u|x]]; [apply IH|intros X; apply C; cbn [snd]; congruence].
  - destruct (dict_get running pitch); apply IH.
Qed.
Lemma calm_channels m q sigs : forall d, calm (channels_loop m q sigs d).
Proof.
  induction d as [|[c l] d IH]; cbn [channels_loop]; [nope|]. apply calm_bind; [apply calm_channel|intros t]. apply calm_bind; [apply IH|nope].
Qed.
Lemma calm_entries t l : calm (add_entries t l).
Proof.
  revert t. induction l as [|[p n] l IH]; intros t; cbn [add_entries]; [nope|]. 
  cbn [track_add sig_of_arg add_at]. pose proof (calm_add_note t n p) as C. destruct (add_note t n p) as [t' [u|x]]; [apply IH|intros X; apply C; cbn [snd]; congruence].
Qed.
Lemma calm_merge sort t l : calm (merge_tracks sort t l).
Proof. revert t. induction l as [|x l IH]; intros t; cbn [merge_tracks]; [nope|]. apply calm_bind; [apply calm_entries|exact IH]. Qed.
Lemma calm_var_len r : good_reader r -> calm (snd (read_var_len r)).
Proof.
  assert (L : forall k acc r, good_reader r -> calm (snd (var_len_rest k acc r))).
  { induction k as [|k IH]; intros acc r0 G; cbn [var_len_rest]; [nope|]. unfold rbind. pose proof (read_8_good r0 G) as (G1 & D1 & V1).
    destruct (read_8 r0) as [r1 [x|e]]; cbn [fst snd] in *; [|subst e; nope]. destruct (Z.land x 128 =? 0); [nope|]. apply IH, G1. }
  intros G. unfold read_var_len, rbind. pose proof (read_8_good r G) as (G1 & D1 & V1). destruct (read_8 r) as [r1 [x|e]]; cbn [fst snd] in *; [|subst e; nope].
  destruct (Z.land x 128 =? 0); [nope|]. apply L, G1.
Qed.
Lemma err_dec {A} (o : res A) : {o = Err RecursionError} + {o <> Err RecursionError}.
Proof. destruct o as [x|e]; [right; discriminate|]. destruct e; (left; reflexivity) || (right; discriminate). Defined.
Lemma calm_rbind {A B} (a : R A) (f : A -> R B) r : (forall r, calm (snd (a r))) -> (forall x r, calm (snd (f x r))) -> calm (snd (rbind a f r)).
Proof. intros H G. unfold rbind. specialize (H r). destruct (a r) as [r1 [x|e]]; [apply G|]. intros X. apply H. cbn [snd] in *. congruence. Qed.
Lemma calm_header r : calm (snd (parse_header r)).
Proof.
  assert (C : forall n r, calm (snd (read n r))) by (intros n r0; unfold read; destruct (_ <? _); nope).
  unfold parse_header, read_16. repeat (apply calm_rbind; [intros ?|intros ? ?]); try apply C; nope.
Qed.
