(** Running the source of MIDIWriter.dump and dumps (io/midi.py 197-251) gives what the model in MidiWriter.v says. *)
From Coq Require Import ZArith List Bool String Lia Permutation.
From Verif Require Import Py PyFloat PySort Signature Tone Note Track Show MidiWriter PyAst PySem PySource PyProgram SpecBase SigFacts SortFacts DecFacts ShowProps
  RefineBase RefineSignature RefineTone RefineNote RefineWriter RefineTrack RefineAdd RefineEqual.
Import ListNotations.
Open Scope string_scope.
Open Scope list_scope.
Open Scope Z_scope.

Definition enc_event (e : Z * bytes) : value := VTuple [VInt (fst e); VBytes (snd e)].
Definition event_lt (v w : value) : bool :=
  match v, w with VTuple [VInt a; _], VTuple [VInt b; _] => a <? b | _, _ => false end.
Definition valid_entry (e : entry) : Prop := valid_sig (fst e) /\ valid_sig (n_duration (snd e)).

(** A binary file, written to at its position. *)
Definition file_at (h : heap) (f : nat) (data : bytes) (pos : nat) : Prop :=
  get h f = Some (HFile data pos) /\ (pos <= List.length data)%nat.
Definition file_after (h : heap) (f : nat) (data : bytes) (pos : nat) (b : bytes) : Prop :=
  file_at h f (overwrite data pos b) (pos + List.length b).

Lemma valid_good e : valid_entry e -> good_entry e.
Proof.
  assert (V : forall s, valid_sig s -> good_sig s).
  { intros s [_ (k & K & E)]. unfold good_sig. rewrite E. pose proof (Z.pow_pos_nonneg 2 k). lia. }
  intros [A B]. split; apply V; assumption.
Qed.
Lemma skip_more {A} n m (l : list A) : skipn m (skipn n l) = skipn (n + m) l.
Proof. revert l. induction n as [|n IH]; intros l; [reflexivity|]. destruct l; [rewrite !skipn_nil; reflexivity|]. apply IH. Qed.
Lemma overwrite_more data pos b c : (pos <= List.length data)%nat ->
  overwrite (overwrite data pos b) (pos + List.length b) c = overwrite data pos (b ++ c).
Proof.
  intros L. unfold overwrite. rewrite app_length.
  assert (A : List.length (firstn pos data) = pos) by (rewrite firstn_length; lia).
  replace (firstn (pos + List.length b) (firstn pos data ++ b ++ skipn (pos + List.length b) data)) with (firstn pos data ++ b).
  2:{ rewrite (app_assoc (firstn pos data)). replace (pos + List.length b)%nat with (List.length (firstn pos data ++ b) + 0)%nat at 1 by (rewrite app_length, A; lia).
      rewrite firstn_app_2. cbn. rewrite app_nil_r. reflexivity. }
  rewrite <- !app_assoc. do 3 f_equal.
  rewrite (app_assoc (firstn pos data)).
  rewrite skipn_app. rewrite (skipn_all2 (firstn pos data ++ b)) by (rewrite app_length, A; lia). cbn [app].
  rewrite app_length, A. replace (pos + List.length b + List.length c - (pos + List.length b))%nat with (List.length c) by lia.
  rewrite skip_more, Nat.add_assoc. reflexivity.
Qed.

Lemma overwrite_length data pos b : (pos <= List.length data)%nat -> (pos + List.length b <= List.length (overwrite data pos b))%nat.
Proof. intros L. unfold overwrite. rewrite !app_length, firstn_length. lia. Qed.
Lemma concat_known l : concat_bytes (map VBytes l) = Some (concat l).
Proof. induction l as [|b l IH]; [reflexivity|]. cbn. rewrite IH. reflexivity. Qed.

Section Dump.
Variable Y : python.
Notation steps := (steps melodia Y).
Notation reaches := (reaches melodia Y).

Lemma write_reaches h f data pos b0 b K (Q : state -> Prop) : file_after h f data pos b0 -> (pos <= List.length data)%nat ->
  (forall h' n, file_after h' f data pos (b0 ++ b) -> keeps [f] h h' -> reaches (Rt (VInt n) h' K) Q) ->
  reaches (Ca (VMethod (VRef f) "write") [VBytes b] [] h K) Q.
Proof.
  intros [G L] P R. eapply reaches_more; [cbn [step call_step method_step]; unfold method_of_object; rewrite G; reflexivity|]. apply R.
  - split.
    + rewrite <- overwrite_more by exact P. rewrite app_length, Nat.add_assoc. eapply get_put. exact G.
    + apply overwrite_length. exact P.
  - keep.
Qed.
Lemma join_bytes_known c l h K : get h c = Some (HList (map VBytes l)) ->
  step melodia Y (Ca (VMethod (VBytes []) "join") [VRef c] [] h K) = Some (Rt (VBytes (concat l)) h K).
Proof. intros G. cbn. rewrite G, concat_known. reflexivity. Qed.
Lemma event_answers h l : answers melodia Y (Some 0) h (map enc_event l) event_lt.
Proof.
  intros x y X Y'. apply in_map_iff in X as ([a b] & <- & X). apply in_map_iff in Y' as ([c d] & <- & Y').
  exists (VInt a), (VInt c). split; [reflexivity|]. split; [reflexivity|].
  eapply steps_more; [reflexivity|]. apply steps_refl.
Qed.
Lemma sort_events_reaches a l h K Q : natural (py_sort Y) -> get h a = Some (HList (map enc_event l)) ->
  (forall h', get h' a = Some (HList (map enc_event (sort_events (py_sort Y) l))) -> keeps [a] h h' -> reaches (Rt VNone h' K) Q) ->
  reaches (Sort a (Some 0) h K) Q.
Proof.
  intros N G R. eapply reaches_red; [|eapply R; [eapply get_put; exact G|keep]].
  unfold sort_events. rewrite <- (N (Z * bytes)%type value enc_event (fun a b => fst a <? fst b) event_lt l) by (intros [? ?] [? ?] _ _; reflexivity).
  apply red_sort; [exact G|]. apply event_answers.
Qed.

Lemma pulses_total w s : valid_sig s -> exists z, signature_to_pulses w s = Ok z.
Proof. intros V. unfold signature_to_pulses. destruct (sig_normalized_spec s V) as (s' & E & _). rewrite E. eexists. reflexivity. Qed.

(** ** The loop over the notes (midi.py 205-213) *)
Definition notes_loop : target * list stmt :=
  Eval calc in match f_body src_MIDIWriter_dump with _ :: SFor t _ b :: _ => (t, b) | _ => (TName "", []) end.
Definition notes_target := Eval cbv in fst notes_loop.
Definition notes_body := Eval cbv in snd notes_loop.
(** The variables of one round. *)
Record round := mkRound { r_position : sig; r_note : note; r_on : Z; r_on_event : bytes; r_off : Z; r_off_event : bytes }.
Definition notes_env (self : value) (a f c : nat) (x : option round) : env :=
  match x with
  | None => [("self", self); ("track", VRef a); ("file", VRef f); ("absolute_note_events", VRef c)]
  | Some r => [("self", self); ("track", VRef a); ("file", VRef f); ("absolute_note_events", VRef c);
               ("position", enc_sig (r_position r)); ("note", enc_note (r_note r)); ("note_on_absolute_time", VInt (r_on r));
               ("note_on_event", VBytes (r_on_event r)); ("note_off_absolute_time", VInt (r_off r)); ("note_off_event", VBytes (r_off_event r))]
  end.
Ltac pulses c w p q n a b v :=
  idtac; lazymatch goal with
  | Z1 : signature_to_pulses _ (mkSig p q) = Ok ?z |- RefineBase.reaches _ _ (Ca (VFun "MIDIWriter._signature_to_pulses") [_; VObj _ [(_, VInt p); (_, VInt q)]] _ ?h ?K) _ =>
      eapply reaches_steps; [eapply (signature_to_pulses_runs Y c w (mkSig p q) z h K); assumption|]
  | Z1 : signature_to_pulses _ (mkSig a b) = Ok ?z |- RefineBase.reaches _ _ (Ca (VFun "MIDIWriter._signature_to_pulses") [_; VObj _ [(_, VInt a); (_, VInt b)]] _ ?h ?K) _ =>
      eapply reaches_steps; [eapply (signature_to_pulses_runs Y c w (mkSig a b) z h K); assumption|]
  | |- RefineBase.reaches _ _ (Ca (VFun "MIDIWriter._format_note_on") _ _ ?h ?K) _ =>
      invoke (format_note_on_runs Y c w (mkNote (mkTone n) (mkSig a b) v) h K); outcome
  | |- RefineBase.reaches _ _ (Ca (VFun "MIDIWriter._format_note_off") _ _ ?h ?K) _ =>
      invoke (format_note_off_runs Y c w (mkNote (mkTone n) (mkSig a b) v) h K); outcome
  end.
Lemma notes_loop_runs c w b e L a f K : middle_value c -> forall l h i done x (Q : state -> Prop),
  Forall valid_entry L ->
  get h b = Some (HList (map enc_entry L)) -> get h e = Some (HList (map enc_event done)) -> b <> e -> skipn i L = l ->
  (forall h', keeps [e] h h' ->
     match note_events w l with
     | Ok evs => get h' e = Some (HList (map enc_event (done ++ evs))) -> forall x', reaches (Ex [] (notes_env (enc_writer c w) a f e x') h' K) Q
     | Err er => Q (Thr er h')
     end) ->
  reaches (Lp notes_target notes_body (IRef b i) (notes_env (enc_writer c w) a f e x) h K) Q.
Proof.
  intros M. induction l as [|[[p p'] n] l IH]; intros h i done x Q V G G' BC E R.
  - eapply (reaches_more _ _ _ (Ex [] (notes_env (enc_writer c w) a f e x) h K)).
    { cbn [step]; unfold loop_step; cbn [next]. rewrite G, nth_error_map, (skipn_nil_nth _ _ E). reflexivity. }
    apply (R h); [keep|rewrite app_nil_r; exact G'].
  - destruct (skipn_cons _ _ _ _ E) as [A B].
    assert (VE : valid_entry (mkSig p p', n)) by (rewrite Forall_forall in V; apply V; eapply nth_error_In; exact A).
    eapply (reaches_more _ _ _ (As [(notes_target, enc_entry (mkSig p p', n))] notes_body (notes_env (enc_writer c w) a f e x) h (KLoopF notes_target notes_body (IRef b (S i)) :: K))).
    { cbn [step]; unfold loop_step; cbn [next]. rewrite G, nth_error_map, A. reflexivity. }
    destruct VE as [VP VD]. cbn [fst snd] in VP, VD.
    destruct (pulses_total w _ VP) as (z1 & Z1). destruct (pulses_total w _ VD) as (z2 & Z2).
    cbn [note_events] in R. rewrite Z1, Z2 in R. cbn [bind] in R.
    assert (NEXT : forall h1 on off, format_note_on w n = Ok on -> format_note_off w n = Ok off ->
      get h1 e = Some (HList (map enc_event (done ++ [(z1, on); (z1 + z2, off)]))) -> keeps [e] h h1 ->
      reaches (Lp notes_target notes_body (IRef b (S i)) (notes_env (enc_writer c w) a f e (Some (mkRound (mkSig p p') n z1 on (z1 + z2) off))) h1 K) Q).
    { intros h1 on off ON OFF G1 K1. rewrite ON, OFF in R. cbn [bind] in R.
      eapply (IH h1 (S i) (done ++ [(z1, on); (z1 + z2, off)])); [exact V|heap_get|exact G1|exact BC|exact B|].
      intros h' K2. assert (K3 : keeps [e] h h') by keep. specialize (R h' K3).
      destruct (note_events w l) as [evs|er]; cbn [bind] in R; [|exact R].
      intros G2. rewrite <- app_assoc in G2. exact (R G2). }
    assert (ERR : forall er h1, format_note_on w n = Err er \/ (exists on, format_note_on w n = Ok on) /\ format_note_off w n = Err er -> keeps [e] h h1 -> Q (Thr er h1)).
    { intros er h1 [ON|[[on ON] OFF]] K1; specialize (R h1 K1); rewrite ON in R; cbn [bind] in R; [exact R|]. rewrite OFF in R. exact R. }
    clear R IH E A B. unfold notes_env at 1. unfold notes_target at 1, notes_body at 1. unfold enc_entry at 1. cbn [fst snd].
    unfold enc_sig at 1. cbn [nominator denominator].
    destruct n as [[np] [da db] vel]. unfold enc_note at 1, enc_sig at 1, enc_tone at 1. cbn [n_tone n_duration n_velocity pitch nominator denominator] in *.
    unfold notes_env in NEXT. cbn [r_position r_note r_on r_on_event r_off r_off_event] in NEXT.
    destruct w as [q ww p1 bpm ch]. unfold enc_writer in *. cbn [w_ppq w_ppw w_delta w_bpm w_channel] in *.
    destruct x as [[[? ?] [[?] [? ?] ?] ? ? ? ?]|]; cbn [r_position r_note r_on r_on_event r_off r_off_event];
      go_with ltac:(pulses c (mkWriter q ww p1 bpm ch) p p' np da db vel).
    all: first [apply NEXT; [reflexivity|reflexivity| |keep]; erewrite get_put by heap_get; rewrite map_app, <- app_assoc; reflexivity
               |apply reaches_here; apply ERR; [left; reflexivity|keep]
               |apply reaches_here; apply ERR; [right; split; [eexists; reflexivity|reflexivity]|keep]].
Qed.

(** ** Delta times (midi.py 223-227) *)
Definition delta_loop : target * list stmt :=
  Eval calc in match f_body src_MIDIWriter_dump with _ :: _ :: _ :: _ :: _ :: SFor t _ b :: _ => (t, b) | _ => (TName "", []) end.
Definition delta_target := Eval cbv in fst delta_loop.
Definition delta_body := Eval cbv in snd delta_loop.
Definition delta_env (self : value) (a f c : nat) (x : option round) (d : nat) (last : Z) (y : option bytes) : env :=
  match x, y with
  | None, None => [("self", self); ("track", VRef a); ("file", VRef f); ("absolute_note_events", VRef c); ("delta_events", VRef d); ("last_absolute_time", VInt last)]
  | None, Some b => [("self", self); ("track", VRef a); ("file", VRef f); ("absolute_note_events", VRef c); ("delta_events", VRef d); ("last_absolute_time", VInt last);
      ("absolute_time", VInt last); ("note_event", VBytes b)]
  | Some r, None => [("self", self); ("track", VRef a); ("file", VRef f); ("absolute_note_events", VRef c);
      ("position", enc_sig (r_position r)); ("note", enc_note (r_note r)); ("note_on_absolute_time", VInt (r_on r));
      ("note_on_event", VBytes (r_on_event r)); ("note_off_absolute_time", VInt (r_off r)); ("note_off_event", VBytes (r_off_event r));
      ("delta_events", VRef d); ("last_absolute_time", VInt last)]
  | Some r, Some b => [("self", self); ("track", VRef a); ("file", VRef f); ("absolute_note_events", VRef c);
      ("position", enc_sig (r_position r)); ("note", enc_note (r_note r)); ("note_on_absolute_time", VInt (r_on r));
      ("note_on_event", VBytes (r_on_event r)); ("note_off_absolute_time", VInt (r_off r)); ("note_off_event", VBytes (r_off_event r));
      ("delta_events", VRef d); ("last_absolute_time", VInt last); ("absolute_time", VInt last); ("note_event", VBytes b)]
  end.
Lemma delta_loop_runs self x e d L a f K : plain_value self = true -> forall l h i done last y (Q : state -> Prop),
  get h e = Some (HList (map enc_event L)) -> get h d = Some (HList (map enc_event done)) -> e <> d -> skipn i L = l ->
  (forall h' last' y', get h' d = Some (HList (map enc_event (done ++ delta_events last l))) -> keeps [d] h h' ->
     reaches (Ex [] (delta_env self a f e x d last' y') h' K) Q) ->
  reaches (Lp delta_target delta_body (IRef e i) (delta_env self a f e x d last y) h K) Q.
Proof.
  intros PS. induction l as [|[z b] l IH]; intros h i done last y Q G G' BC E R.
  - eapply (reaches_more _ _ _ (Ex [] (delta_env self a f e x d last y) h K)).
    { cbn [step]; unfold loop_step; cbn [next]. rewrite G, nth_error_map, (skipn_nil_nth _ _ E). reflexivity. }
    apply R; [cbn [delta_events]; rewrite app_nil_r; exact G'|keep].
  - destruct (skipn_cons _ _ _ _ E) as [A B].
    eapply (reaches_more _ _ _ (As [(delta_target, enc_event (z, b))] delta_body (delta_env self a f e x d last y) h (KLoopF delta_target delta_body (IRef e (S i)) :: K))).
    { cbn [step]; unfold loop_step; cbn [next]. rewrite G, nth_error_map, A. reflexivity. }
    assert (NEXT : forall h1, get h1 d = Some (HList (map enc_event (done ++ [(z - last, b)]))) -> keeps [d] h h1 ->
      reaches (Lp delta_target delta_body (IRef e (S i)) (delta_env self a f e x d z (Some b)) h1 K) Q).
    { intros h1 G1 K1. eapply (IH h1 (S i) (done ++ [(z - last, b)])); [heap_get|exact G1|exact BC|exact B|].
      intros h' last' y' G2 K2. apply R; [|keep]. cbn [delta_events]. rewrite <- app_assoc in G2. exact G2. }
    clear R IH E A B. unfold delta_target at 1, delta_body at 1. unfold enc_event at 1. cbn [fst snd].
    unfold delta_env in *.
    destruct x as [[[? ?] [[?] [? ?] ?] ? ? ? ?]|]; destruct y; cbn [r_position r_note r_on r_on_event r_off r_off_event] in *; go_with values.
    all: apply NEXT; [erewrite get_put by heap_get; rewrite map_app; reflexivity|keep].
Qed.

(** ** The body of the track chunk (midi.py 236-239) *)
Definition body_loop : target * list stmt :=
  Eval calc in match f_body src_MIDIWriter_dump with _ :: _ :: _ :: _ :: _ :: _ :: _ :: _ :: _ :: SFor t _ b :: _ => (t, b) | _ => (TName "", []) end.
Definition body_target := Eval cbv in fst body_loop.
Definition body_body := Eval cbv in snd body_loop.
Definition body_env (r : env) (p : nat) (y : option (Z * bytes)) : env :=
  set_var "track_body" (VRef p) r ++ match y with None => [] | Some (z, b) => [("delta_time", VInt z); ("event", VBytes b)] end.
Lemma body_loop_runs c w x e d p last u L a f K : forall l h i done y (Q : state -> Prop),
  get h d = Some (HList (map enc_event L)) -> get h p = Some (HList (map VBytes done)) -> d <> p -> skipn i L = l ->
  (forall h', keeps [p] h h' ->
     match format_events l with
     | Ok body => forall done' y', get h' p = Some (HList (map VBytes done')) -> concat done' = concat done ++ body ->
         reaches (Ex [] (body_env (delta_env (enc_writer c w) a f e x d last u) p y') h' K) Q
     | Err er => Q (Thr er h')
     end) ->
  reaches (Lp body_target body_body (IRef d i) (body_env (delta_env (enc_writer c w) a f e x d last u) p y) h K) Q.
Proof.
  induction l as [|[z b] l IH]; intros h i done y Q G G' BC E R.
  - eapply (reaches_more _ _ _ (Ex [] (body_env (delta_env (enc_writer c w) a f e x d last u) p y) h K)).
    { cbn [step]; unfold loop_step; cbn [next]. rewrite G, nth_error_map, (skipn_nil_nth _ _ E). reflexivity. }
    cbn [format_events] in R. eapply R; [keep|exact G'|rewrite app_nil_r; reflexivity].
  - destruct (skipn_cons _ _ _ _ E) as [A B].
    eapply (reaches_more _ _ _ (As [(body_target, enc_event (z, b))] body_body (body_env (delta_env (enc_writer c w) a f e x d last u) p y) h (KLoopF body_target body_body (IRef d (S i)) :: K))).
    { cbn [step]; unfold loop_step; cbn [next]. rewrite G, nth_error_map, A. reflexivity. }
    cbn [format_events] in R. destruct (format_var_len z) as [v|er] eqn:VL; cbn [bind] in R.
    + assert (NEXT : forall h1, get h1 p = Some (HList (map VBytes (done ++ [v; b]))) -> keeps [p] h h1 ->
        reaches (Lp body_target body_body (IRef d (S i)) (body_env (delta_env (enc_writer c w) a f e x d last u) p (Some (z, b))) h1 K) Q).
      { intros h1 G1 K1. eapply (IH h1 (S i) (done ++ [v; b])); [heap_get|exact G1|exact BC|exact B|].
        intros h' K2. assert (K3 : keeps [p] h h') by keep. specialize (R h' K3).
        destruct (format_events l) as [body|er]; cbn [bind] in R; [|exact R].
        intros done' y' G2 C2. apply (R done' y' G2). rewrite C2, concat_app. cbn [concat]. rewrite app_nil_r, <- !app_assoc. reflexivity. }
      clear R IH E A B. unfold body_target at 1, body_body at 1. unfold enc_event at 1. cbn [fst snd].
      unfold body_env, delta_env in *.
      destruct x as [[[? ?] [[?] [? ?] ?] ? ? ? ?]|]; destruct u; destruct y as [[? ?]|]; cbn [r_position r_note r_on r_on_event r_off r_off_event app set_var String.eqb Ascii.eqb Bool.eqb] in *;
      go_with ltac:(idtac; lazymatch goal with |- RefineBase.reaches _ _ (Ca (VFun "MIDIWriter._format_var_len") [VInt ?z] _ ?h ?K) _ =>
          eapply reaches_steps; [exact (format_var_len_runs Y z h K)|]; rewrite VL; cbn [outcome_of ends] end).
      all: apply NEXT; [erewrite get_put by heap_get; rewrite map_app, <- app_assoc; reflexivity|keep].
    + clear IH E A B. unfold body_target at 1, body_body at 1. unfold enc_event at 1. cbn [fst snd].
      assert (R' : forall h', keeps [p] h h' -> Q (Thr er h')) by exact R. clear R.
      unfold body_env, delta_env in *.
      destruct x as [[[? ?] [[?] [? ?] ?] ? ? ? ?]|]; destruct u; destruct y as [[? ?]|]; cbn [r_position r_note r_on r_on_event r_off r_off_event app set_var String.eqb Ascii.eqb Bool.eqb] in *;
      go_with ltac:(idtac; lazymatch goal with |- RefineBase.reaches _ _ (Ca (VFun "MIDIWriter._format_var_len") [VInt ?z] _ ?h ?K) _ =>
          eapply reaches_steps; [exact (format_var_len_runs Y z h K)|]; rewrite VL; cbn [outcome_of ends] end).
      all: apply reaches_here; apply R'; keep.
Qed.

End Dump.
