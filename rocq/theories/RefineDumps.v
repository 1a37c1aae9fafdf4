(** Running the source of MIDIWriter.dump and dumps and of the module functions (io/midi.py 197-251, 677-699) gives what the model in MidiWriter.v says. *)
From Coq Require Import ZArith List Bool String Lia Permutation.
From Verif Require Import Py PyFloat PySort Signature Tone Note Track Show MidiWriter PyAst PySem PySource PyProgram SpecBase SigFacts SortFacts DecFacts ShowProps
  RefineBase RefineSignature RefineTone RefineNote RefineWriter RefineTrack RefineAdd RefineEqual RefineDump.
Import ListNotations.
Open Scope string_scope.
Open Scope list_scope.
Open Scope Z_scope.

Section Dumps.
Variable Y : python.
Notation steps := (steps melodia Y).
Notation reaches := (reaches melodia Y).

Definition after_notes : list stmt := Eval calc in match f_body src_MIDIWriter_dump with _ :: _ :: l => l | _ => [] end.
Definition after_delta : list stmt := Eval calc in match f_body src_MIDIWriter_dump with _ :: _ :: _ :: _ :: _ :: _ :: l => l | _ => [] end.
Definition after_body : list stmt := Eval calc in match f_body src_MIDIWriter_dump with _ :: _ :: _ :: _ :: _ :: _ :: _ :: _ :: _ :: _ :: l => l | _ => [] end.

Ltac stops n := repeat (lazymatch goal with |- RefineBase.reaches _ _ (Ca (VFun n) _ _ _ _) _ => fail | _ => adv end).
Ltac stop_at tac := repeat (first [tac; fail 2 | adv]).

(** From the writing of the body on (midi.py 240). *)
Lemma after_body_runs c w x e d p last u y a f h K data pos b0 done (Q : state -> Prop) :
  file_after h f data pos b0 -> (pos <= List.length data)%nat -> get h p = Some (HList (map VBytes done)) ->
  (forall h', keeps [f] h h' ->
     match format_chunk MTrk (concat done) with
     | Ok chunk => file_after h' f data pos (b0 ++ chunk) -> Q (Rt VNone h' K)
     | Err er => file_after h' f data pos b0 -> Q (Thr er h')
     end) ->
  reaches (Ex after_body (body_env (delta_env (enc_writer c w) a f e x d last u) p y) h (KFun :: K)) Q.
Proof.
  intros F L G R. pose proof (proj1 F) as GF.
  assert (FIN : reaches (Ca (VFun "MIDIWriter._format_chunk") [VBytes MTrk; VBytes (concat done)] [] h
    (KArgs (OCall [APos]) [VMethod (VRef f) "write"] [] (body_env (delta_env (enc_writer c w) a f e x d last u) p y) ::
     KExpr [] (body_env (delta_env (enc_writer c w) a f e x d last u) p y) :: KFun :: K)) Q).
  { eapply reaches_trans; [eapply format_chunk_runs|]. intros s (h1 & -> & K1).
    assert (F1 : file_after h1 f data pos b0) by (destruct F; split; [heap_get|assumption]).
    destruct (format_chunk MTrk (concat done)) as [chunk|er]; cbn [outcome_of ends].
    - eapply reaches_more; [reflexivity|]. cbn [value_step op_step rev_append call_args].
      eapply write_reaches; [exact F1|exact L|]. intros h2 n F2 K2.
      eapply reaches_more; [reflexivity|]. cbn [value_step]. eapply reaches_more; [reflexivity|]. cbn [exec_step].
      apply reaches_here. apply R; [keep|exact F2].
    - apply reaches_here. apply R; [keep|exact F1]. }
  unfold after_body. unfold body_env, delta_env in *.
  destruct x as [[[xp xq] [[xt] [xa xb] xv] x1 x2 x3 x4]|]; destruct u; destruct y as [[? ?]|]; cbn [r_position r_note r_on r_on_event r_off r_off_event app set_var String.eqb Ascii.eqb Bool.eqb] in *;
  repeat (lazymatch goal with
    | |- RefineBase.reaches _ _ (Ca (VMethod _ "join") _ _ _ _) _ => eapply reaches_more; [eapply join_bytes_known; exact G|]
    | |- RefineBase.reaches _ _ (Ca (VFun _) _ _ _ _) _ => fail
    | _ => adv end); exact FIN.
Qed.

(** From the end of the delta times on (midi.py 229-240). *)
Definition written_after (h' : heap) (f : nat) (data : bytes) (pos : nat) (w : writer) (evs : list (Z * bytes)) (K : list frame) (Q : state -> Prop) : Prop :=
  match format_header_chunk w 0 1 with
  | Err er => file_after h' f data pos [] -> Q (Thr er h')
  | Ok header =>
      match (let! body := format_events evs in format_chunk MTrk body) with
      | Err er => file_after h' f data pos header -> Q (Thr er h')
      | Ok chunk => file_after h' f data pos (header ++ chunk) -> Q (Rt VNone h' K)
      end
  end.
Lemma after_delta_runs c w x e d last u a f h K data pos evs (Q : state -> Prop) :
  file_after h f data pos [] -> (pos <= List.length data)%nat -> get h d = Some (HList (map enc_event evs)) ->
  (forall h', keeps [f; d] h h' -> written_after h' f data pos w (evs ++ [(0, [255; 47; 0])]) K Q) ->
  reaches (Ex after_delta (delta_env (enc_writer c w) a f e x d last u) h (KFun :: K)) Q.
Proof.
  intros F L G R. pose proof (proj1 F) as GF.
  assert (FD : f <> d) by (intros ->; rewrite G in GF; discriminate).
  set (r := delta_env (enc_writer c w) a f e x d last u).
  assert (LOOP : forall h2 p header, file_after h2 f data pos header -> format_header_chunk w 0 1 = Ok header ->
     get h2 d = Some (HList (map enc_event (evs ++ [(0, [255; 47; 0])]))) -> get h2 p = Some (HList []) -> p <> d -> p <> f -> keeps [f; d; p] h h2 -> get h p = None ->
     reaches (Lp body_target body_body (IRef d 0) (body_env r p None) h2 (KSeq after_body :: KFun :: K)) Q).
  { intros h2 p header F2 H2 G2 GP PD PF K2 NP. unfold r.
    assert (KK : forall h', keeps [f; p] h2 h' -> keeps [f; d] h h').
    { intros h' [K3 C3]. split; [|rewrite C3; exact (keeps_calls _ _ _ K2)]. intros q o NQ GQ.
      assert (q <> p) by congruence.
      apply K3; [intros [X|[X|[]]]; subst; [apply NQ; left; reflexivity|congruence]|]. apply (keeps_get _ _ _ _ _ K2); [|exact GQ].
      intros [X|[X|[X|[]]]]; subst; try congruence; apply NQ; [left|right; left]; reflexivity. }
    eapply (body_loop_runs Y c w x e d p last u _ a f _ _ h2 0%nat []); [exact G2|exact GP|congruence|reflexivity|].
    intros h3 K3. unfold written_after in R. rewrite H2 in R.
    assert (F3 : file_after h3 f data pos header) by (destruct F2; split; [heap_get|assumption]).
    cbn [skipn]. destruct (format_events _) as [body|er]; cbn [bind] in R.
    2:{ apply R; [apply KK; keep|exact F3]. }
    intros done' y' G3 C3. cbn [concat app] in C3. eapply reaches_more; [reflexivity|]. cbn [exec_step].
    eapply after_body_runs; [exact F3|exact L|exact G3|]. intros h4 K4. rewrite C3.
    assert (K5 : keeps [f; d] h h4) by (apply KK; keep). specialize (R h4 K5).
    destruct (format_chunk MTrk body); exact R. }
  assert (HEAD : forall h1 kk, get h1 d = Some (HList (map enc_event (evs ++ [(0, [255; 47; 0])]))) -> keeps [d] h h1 ->
     kk = KArgs (OCall [APos]) [VMethod (VRef f) "write"] [] r ->
     reaches (Ca (VFun "MIDIWriter._format_header_chunk") [enc_writer c w] [("kind", VInt 0); ("n_tracks", VInt 1)] h1
       (kk :: KExpr (skipn 2 after_delta) r :: KFun :: K)) Q).
  { intros h1 kk G1 K1 ->. assert (F1 : file_after h1 f data pos []) by (destruct F; split; [heap_get|assumption]).
    eapply reaches_trans; [eapply format_header_chunk_runs|]. intros s (h2 & -> & K2).
    assert (F2 : file_after h2 f data pos []) by (destruct F1; split; [heap_get|assumption]).
    unfold written_after in R. destruct (format_header_chunk w 0 1) as [header|er] eqn:H2; cbn [outcome_of ends].
    2:{ apply reaches_here. apply R; [keep|exact F2]. }
    eapply reaches_more; [reflexivity|]. cbn [value_step op_step rev_append call_args].
    eapply write_reaches; [exact F2|exact L|]. intros h3 n F3 K3. cbn [app] in F3.
    assert (G3 : get h3 d = Some (HList (map enc_event (evs ++ [(0, [255; 47; 0])])))) by (assert (get h2 d = Some (HList (map enc_event (evs ++ [(0, [255; 47; 0])])))) by heap_get; heap_get).
    specialize (LOOP (new h3 (HList [])) (next_place h3) header).
    assert (NP : get h (next_place h3) = None).
    { destruct (get h (next_place h3)) as [o|] eqn:O; [|reflexivity]. exfalso.
      destruct (Nat.eq_dec (next_place h3) d) as [Ea|Na]; [exact (old_new _ _ _ G3 (eq_sym Ea))|].
      destruct (Nat.eq_dec (next_place h3) f) as [Eb|Nb]; [exact (old_new _ _ _ (proj1 F3) (eq_sym Eb))|].
      assert (O2 : get h2 (next_place h3) = Some o) by (assert (get h1 (next_place h3) = Some o) by (apply (keeps_get _ _ _ _ _ K1); [intros [X|[]]; congruence|exact O]); heap_get).
      refine (old_new h3 _ o _ eq_refl). apply (keeps_get _ _ _ _ _ K3); [intros [X|[]]; congruence|exact O2]. }
    assert (LOOP' : reaches (Lp body_target body_body (IRef d 0) (body_env r (next_place h3) None) (new h3 (HList [])) (KSeq after_body :: KFun :: K)) Q).
    { apply LOOP; [destruct F3; split; [heap_get|assumption]|reflexivity|heap_get|heap_get|eapply new_old; exact G3|eapply new_old; exact (proj1 F3)|keep|exact NP]. }
    clear LOOP R. cbv [skipn after_delta]. subst r. unfold body_env, delta_env, body_target, body_body, after_body in *.
    destruct x as [[[xp xq] [[xt] [xa xb] xv] x1 x2 x3 x4]|]; destruct u; cbn [r_position r_note r_on r_on_event r_off r_off_event app set_var String.eqb Ascii.eqb Bool.eqb] in *;
      repeat (lazymatch goal with |- RefineBase.reaches _ _ (Lp _ _ _ _ _ _) _ => fail | _ => adv end);
      exact LOOP'. }
  clear LOOP R. unfold after_delta. cbv [skipn after_delta] in HEAD. subst r. unfold delta_env in *.
  destruct x as [[[xp xq] [[xt] [xa xb] xv] x1 x2 x3 x4]|]; destruct u; cbn [r_position r_note r_on r_on_event r_off r_off_event app set_var String.eqb Ascii.eqb Bool.eqb] in *;
    repeat (lazymatch goal with |- RefineBase.reaches _ _ (Ca (VFun _) _ _ _ _) _ => fail | _ => adv end);
    (eapply HEAD; [erewrite get_put by heap_get; rewrite map_app; reflexivity|keep|reflexivity]).
Qed.

(** From the sorting of the events on (midi.py 215-240). *)
Definition all_after (h' : heap) (f : nat) (data : bytes) (pos : nat) (w : writer) (s : sig) (nes : list (Z * bytes)) (K : list frame) (Q : state -> Prop) : Prop :=
  match (let! e1 := format_signature s (w_ppq w) 8 in
         let! tempo := tempo_of_bpm (w_bpm w) in
         let! e2 := format_tempo tempo in
         Ok ([(0, e1); (0, e2)] ++ delta_events 0 (sort_events (py_sort Y) nes))) with
  | Err er => file_after h' f data pos [] -> Q (Thr er h')
  | Ok evs => written_after h' f data pos w (evs ++ [(0, [255; 47; 0])]) K Q
  end.
Lemma fresh_place l h h' : keeps l h h' -> (forall p, In p l -> exists o, get h' p = Some o) -> get h (next_place h') = None.
Proof.
  intros [KP _] E. destruct (get h (next_place h')) as [o|] eqn:O; [|reflexivity]. exfalso.
  destruct (in_dec Nat.eq_dec (next_place h') l) as [I|I].
  - destruct (E _ I) as (o' & G). exact (old_new _ _ _ G eq_refl).
  - exact (old_new _ _ _ (KP _ _ I O) eq_refl).
Qed.
Lemma after_notes_runs c w x e a b t f h K data pos nes (Q : state -> Prop) : natural (py_sort Y) ->
  file_after h f data pos [] -> (pos <= List.length data)%nat -> track_at h a b t -> get h e = Some (HList (map enc_event nes)) -> e <> b ->
  (forall h', keeps [e; f] h h' -> all_after h' f data pos w (t_signature t) nes K Q) ->
  reaches (Ex after_notes (notes_env (enc_writer c w) a f e x) h (KFun :: K)) Q.
Proof.
  intros N F L T G EB R. pose proof (proj1 F) as GF. unfold all_after in R.
  assert (EF : e <> f) by (intros ->; rewrite G in GF; discriminate).
  assert (EA : e <> a) by (intros ->; rewrite (proj1 T) in G; discriminate).
  set (r := notes_env (enc_writer c w) a f e x).
  (* the loop *)
  assert (LOOP : forall h2 d e1 z e2, format_signature (t_signature t) (w_ppq w) 8 = Ok e1 -> tempo_of_bpm (w_bpm w) = Ok z -> format_tempo z = Ok e2 ->
     file_after h2 f data pos [] -> get h2 e = Some (HList (map enc_event (sort_events (py_sort Y) nes))) ->
     get h2 d = Some (HList (map enc_event [(0, e1); (0, e2)])) -> e <> d -> f <> d -> keeps [e; d] h h2 -> get h d = None ->
     reaches (Lp delta_target delta_body (IRef e 0) (delta_env (enc_writer c w) a f e x d 0 None) h2 (KSeq after_delta :: KFun :: K)) Q).
  { intros h2 d e1 z e2 E1 E2 E3 F2 G2 GD ED FD K2 ND. rewrite E1 in R. cbn [bind] in R. rewrite E2 in R. cbn [bind] in R. rewrite E3 in R. cbn [bind] in R.
    eapply (delta_loop_runs Y (enc_writer c w) x e d _ a f _ eq_refl _ h2 0%nat [(0, e1); (0, e2)]); [exact G2|exact GD|exact ED|reflexivity|].
    intros h3 last y G3 K3. eapply reaches_more; [reflexivity|]. cbn [exec_step].
    eapply after_delta_runs; [|exact L|exact G3|].
    { destruct F2; split; [heap_get|assumption]. }
    intros h4 K4. apply R.
    split; [|rewrite (keeps_calls _ _ _ K4), (keeps_calls _ _ _ K3); exact (keeps_calls _ _ _ K2)].
    intros q o NQ GQ. assert (q <> d) by congruence. assert (q <> e) by (intros ->; apply NQ; left; reflexivity). assert (q <> f) by (intros ->; apply NQ; right; left; reflexivity).
    assert (get h2 q = Some o) by heap_get. assert (get h3 q = Some o) by heap_get. heap_get. }
  (* the tempo *)
  set (T2 := fun (h2 : heap) (e1 : bytes) (r : env) => (KArgs OTuple [VInt 0] [] r :: KArgs OList [VTuple [VInt 0; VBytes e1]] [] r :: KAssign (TName "delta_events") (skipn 2 after_notes) r :: KFun :: K)).
  assert (TEMPO : forall h2 e1 z, format_signature (t_signature t) (w_ppq w) 8 = Ok e1 -> tempo_of_bpm (w_bpm w) = Ok z ->
     file_after h2 f data pos [] -> get h2 e = Some (HList (map enc_event (sort_events (py_sort Y) nes))) -> keeps [e] h h2 ->
     reaches (Ca (VFun "MIDIWriter._format_tempo") [VInt z] [] h2 (T2 h2 e1 r)) Q).
  { intros h2 e1 z E1 E2 F2 G2 K2. eapply reaches_trans; [eapply format_tempo_runs|]. intros s (h3 & -> & K3).
    assert (F3 : file_after h3 f data pos []) by (destruct F2; split; [heap_get|assumption]).
    assert (G3 : get h3 e = Some (HList (map enc_event (sort_events (py_sort Y) nes)))) by heap_get.
    destruct (format_tempo z) as [e2|er] eqn:E3; cbn [outcome_of ends].
    2:{ apply reaches_here. rewrite E1 in R. cbn [bind] in R. rewrite E2 in R. cbn [bind] in R. rewrite E3 in R. cbn [bind] in R. apply R; [keep|exact F3]. }
    specialize (LOOP (new h3 (HList [VTuple [VInt 0; VBytes e1]; VTuple [VInt 0; VBytes e2]])) (next_place h3) e1 z e2 E1 E2 E3).
    assert (LOOP' : reaches (Lp delta_target delta_body (IRef e 0) (delta_env (enc_writer c w) a f e x (next_place h3) 0 None) (new h3 (HList [VTuple [VInt 0; VBytes e1]; VTuple [VInt 0; VBytes e2]])) (KSeq after_delta :: KFun :: K)) Q).
    { assert (K4 : keeps [e] h h3) by keep.
      assert (FP : get h (next_place h3) = None) by (apply (fresh_place [e] h h3 K4); intros q [<-|[]]; eexists; exact G3).
      apply LOOP; [destruct F3; split; [heap_get|assumption]|heap_get|exact (get_new h3 _)|eapply old_new; exact G3|eapply old_new; exact (proj1 F3)| |exact FP].
      split; [intros q o NQ GQ; assert (get h3 q = Some o) by (apply (keeps_get _ _ _ _ _ K4); [intros [X|[]]; apply NQ; left; exact X|exact GQ]); heap_get|exact (keeps_calls _ _ _ K4)]. }
    clear LOOP R. unfold T2. cbv [skipn after_notes]. subst r. unfold notes_env, delta_env, delta_target, delta_body, after_delta in *.
    destruct x as [[[xp xq] [[xt] [xa xb] xv] x1 x2 x3 x4]|]; cbn [r_position r_note r_on r_on_event r_off r_off_event] in *;
      repeat (lazymatch goal with |- RefineBase.reaches _ _ (Lp _ _ _ _ _ _) _ => fail | _ => adv end);
      exact LOOP'. }
  assert (NOTEMPO : forall h2 e1 er, format_signature (t_signature t) (w_ppq w) 8 = Ok e1 -> tempo_of_bpm (w_bpm w) = Err er -> file_after h2 f data pos [] -> keeps [e] h h2 -> Q (Thr er h2)).
  { intros h2 e1 er E1 E2 F2 K2. rewrite E1 in R. cbn [bind] in R. rewrite E2 in R. cbn [bind] in R. apply R; [keep|exact F2]. }
  assert (NOSIG : forall h2 er, format_signature (t_signature t) (w_ppq w) 8 = Err er -> file_after h2 f data pos [] -> keeps [e] h h2 -> Q (Thr er h2)).
  { intros h2 er E1 F2 K2. rewrite E1 in R. cbn [bind] in R. apply R; [keep|exact F2]. }
  clear LOOP R. unfold T2 in TEMPO. clear T2. cbv [skipn after_notes] in TEMPO. subst r. unfold after_notes.
  pose proof (proj1 T) as GT. unfold enc_track in GT. destruct (t_signature t) as [sn sd]. unfold enc_sig in GT. cbn [nominator denominator] in GT.
  destruct w as [q ww p1 bpm ch]. unfold notes_env, enc_writer in *. cbn [w_ppq w_ppw w_delta w_bpm w_channel] in *.
  pose proof to_float_60 as TF. unfold tempo_of_bpm in *.
  destruct x as [[[xp xq] [[xt] [xa xb] xv] x1 x2 x3 x4]|]; cbn [r_position r_note r_on r_on_event r_off r_off_event] in *.
  all: repeat (lazymatch goal with
    | |- RefineBase.reaches _ _ (Sort _ _ _ _) _ =>
        eapply sort_events_reaches; [exact N|exact G|];
        let h1 := fresh "h" in let G1 := fresh "G" in let K1 := fresh "K" in
        intros h1 G1 K1; 
        assert (file_after h1 f data pos []) by (destruct F; split; [heap_get|assumption])
    | |- RefineBase.reaches _ _ (Ca (VFun "MIDIWriter._format_signature") _ _ ?h ?K) _ =>
        eapply reaches_trans; [eapply (format_signature_runs Y (mkSig sn sd) q 8 h K)|];
        let h1 := fresh "h" in let K1 := fresh "K" in intros ? (h1 & -> & K1); outcome;
        assert (file_after h1 f data pos []) by (match goal with F1 : file_after ?h _ _ _ _, K2 : keeps [] ?h h1 |- _ => destruct F1; split; [heap_get|assumption] end)
    | |- RefineBase.reaches _ _ (Ca (VFun "MIDIWriter._format_tempo") _ _ _ _) _ => fail
    | _ => adv end).
  all: first [eapply TEMPO; [reflexivity|reflexivity|assumption|heap_get|keep]
             |apply reaches_here; eapply NOTEMPO; [reflexivity|reflexivity|assumption|keep]
             |apply reaches_here; eapply NOSIG; [reflexivity|assumption|keep]].
Qed.


(** ** MIDIWriter.dump *)
Definition valid_track (t : track) : Prop := Forall valid_entry (t_heap t) /\ good_sig (t_max_position t) /\ good_sig (t_signature t).
Lemma valid_track_good t : valid_track t -> good_track t.
Proof. intros (F & M & S). split; [|split; assumption]. eapply Forall_impl; [|exact F]. apply valid_good. Qed.
Lemma overwrite_nil data pos : overwrite data pos [] = data.
Proof. unfold overwrite. cbn. rewrite Nat.add_0_r. apply firstn_skipn. Qed.

Definition dumped (h : heap) (a b f : nat) (data : bytes) (pos : nat) (o : dump_outcome) (h' : heap) : Prop :=
  track_at h' a b (d_track o) /\ file_after h' f data pos (d_written o) /\ keeps [a; b; f] h h'.
Lemma dump_runs c w h a b t f data pos K : natural (py_sort Y) -> sort_contract (py_sort Y) -> middle_value c ->
  track_at h a b t -> valid_track t -> file_at h f data pos ->
  reaches (Ca (VFun "MIDIWriter.dump") [enc_writer c w; VRef a; VRef f] [] h K)
    (returns (no_value (d_result (dump (py_sort Y) w t))) K (dumped h a b f data pos (dump (py_sort Y) w t))).
Proof.
  intros N C M T V F. destruct F as [GF L].
  set (R := returns _ _ _).
  assert (FA : f <> a) by (intros ->; rewrite (proj1 T) in GF; discriminate).
  assert (FB : f <> b) by (intros ->; rewrite (proj2 T) in GF; discriminate).
  set (t' := fst (track_iter (py_sort Y) t)).
  assert (V' : Forall valid_entry (t_heap t')).
  { unfold t', track_iter. destruct V as [V _]. destruct (t_sorted t); cbn; [exact V|].
    eapply (Permutation_Forall (x := t_heap t)); [|exact V]. symmetry. apply sort_permutation. exact C. }
  assert (ST : t_signature t' = t_signature t) by apply iter_signature.
  (* the end *)
  assert (FIN : forall h' wr r, track_at h' a b t' -> file_after h' f data pos wr -> keeps [a; b; f] h h' ->
     dump (py_sort Y) w t = mkDump wr t' r -> R (ends (no_value r) h' K)).
  { intros h' wr r T1 F1 K1 D. unfold R. rewrite D. exists h'. split; [reflexivity|]. repeat split; try assumption; try apply T1; try apply F1; apply K1. }
  (* the loop *)
  assert (LOOP : forall h1 e, track_at h1 a b t' -> get h1 e = Some (HList []) -> get h1 f = Some (HFile data pos) -> e <> a -> e <> b -> e <> f -> keeps [a; b] h h1 -> get h e = None ->
     reaches (Lp notes_target notes_body (IRef b 0) (notes_env (enc_writer c w) a f e None) h1 (KSeq after_notes :: KFun :: K)) R).
  { intros h1 e T1 G1 GF1 EA EB EF K1 NE.
    assert (KK : forall h', keeps [e; f] h1 h' -> keeps [a; b; f] h h' /\ track_at h' a b t').
    { intros h' K2. split; [|destruct T1; split; heap_get].
      split; [|rewrite (keeps_calls _ _ _ K2); exact (keeps_calls _ _ _ K1)]. intros q o NQ GQ.
      assert (q <> e) by congruence. apply (keeps_get _ _ _ _ _ K2).
      - intros [X|[X|[]]]; [congruence|]. apply NQ. right. right. left. exact X.
      - apply (keeps_get _ _ _ _ _ K1); [|exact GQ]. intros [X|[X|[]]]; apply NQ; [left|right; left]; exact X. }
    assert (W : forall h', get h' f = Some (HFile data pos) -> file_after h' f data pos []).
    { intros h' G. split; [rewrite overwrite_nil, Nat.add_0_r; exact G|rewrite overwrite_nil; cbn; lia]. }
    eapply (notes_loop_runs Y c w b e _ a f _ M _ h1 0%nat []); [exact V'|exact (proj2 T1)|exact G1|congruence|reflexivity|].
    intros h2 K2. cbn [skipn app]. destruct (note_events w (t_heap t')) as [nes|er] eqn:NES.
    2:{ destruct (KK h2) as [K3 T2]; [keep|]. apply (FIN h2 [] (Err er)); [exact T2|apply W; heap_get|exact K3|].
        unfold dump. rewrite (surjective_pairing (track_iter _ t)), iter_list. fold t'. unfold all_events. rewrite NES. reflexivity. }
    intros G2 x'. eapply reaches_more; [reflexivity|]. cbn [exec_step].
    eapply (after_notes_runs c w x' e a b t'); [exact N|apply W; heap_get|exact L|destruct T1; split; heap_get|exact G2|exact EB|].
    intros h3 K3. destruct (KK h3) as [K4 T3]; [keep|]. unfold all_after, written_after.
    assert (D : dump (py_sort Y) w t = match all_events (py_sort Y) w (t_signature t') (t_heap t') with
      | Err e => mkDump [] t' (Err e)
      | Ok evs => match format_header_chunk w 0 1 with
                  | Err e => mkDump [] t' (Err e)
                  | Ok header => match (let! body := format_events evs in format_chunk MTrk body) with
                                 | Err e => mkDump header t' (Err e)
                                 | Ok chunk => mkDump (header ++ chunk) t' (Ok tt) end end end).
    { unfold dump. rewrite (surjective_pairing (track_iter _ t)), iter_list. reflexivity. }
    unfold all_events in D. rewrite NES in D. cbn [bind] in D.
    destruct (format_signature (t_signature t') (w_ppq w) 8) as [e1|er]; cbn [bind] in *; [|intros F3; apply (FIN h3 [] (Err er)); assumption].
    destruct (tempo_of_bpm (w_bpm w)) as [z|er]; cbn [bind] in *; [|intros F3; apply (FIN h3 [] (Err er)); assumption].
    destruct (format_tempo z) as [e2|er]; cbn [bind] in *; [|intros F3; apply (FIN h3 [] (Err er)); assumption].
    rewrite <- !app_assoc. 
    destruct (format_header_chunk w 0 1) as [header|er]; [|intros F3; apply (FIN h3 [] (Err er)); assumption].
    destruct (let! body := _ in _) as [chunk|er]; intros F3; [apply (FIN h3 (header ++ chunk) (Ok tt)); assumption|apply (FIN h3 header (Err er)); assumption]. }
  assert (ITER : forall h0 e, track_at h0 a b t -> get h0 e = Some (HList []) -> get h0 f = Some (HFile data pos) -> e <> a -> e <> b -> e <> f -> keeps [] h h0 -> get h e = None ->
     reaches (Ca (VFun "Track.__iter__") [VRef a] [] h0 (KFor1 notes_target notes_body after_notes (notes_env (enc_writer c w) a f e None) :: KFun :: K)) R).
  { intros h0 e T0 G0 GF0 EA EB EF K0 NE.
    eapply reaches_trans; [eapply (track_iter_runs Y h0 a b t); [exact N|exact T0|apply valid_track_good; exact V]|]. intros s (h1 & -> & T1 & K1). cbn [ends].
    eapply reaches_more; [reflexivity|]. cbn [value_step].
    apply LOOP; [exact T1|heap_get|heap_get|exact EA|exact EB|exact EF|keep|exact NE]. }
  assert (ITER' := ITER (new h (HList [])) (next_place h)).
  assert (I : reaches (Ca (VFun "Track.__iter__") [VRef a] [] (new h (HList [])) (KFor1 notes_target notes_body after_notes (notes_env (enc_writer c w) a f (next_place h) None) :: KFun :: K)) R).
  { apply ITER'; [destruct T; split; heap_get|heap_get|heap_get|eapply new_old; exact (proj1 T)|eapply new_old; exact (proj2 T)|eapply new_old; exact GF|keep|apply fresh_none]. }
  clear ITER ITER' LOOP FIN. clearbody R. pose proof (proj1 T) as GT. unfold enc_track in GT.
  unfold notes_env, enc_writer, notes_target, notes_body, after_notes in *.
  repeat (lazymatch goal with |- RefineBase.reaches _ _ (Ca (VFun "Track.__iter__") _ _ _ _) _ => fail | _ => adv end).
  exact I.
Qed.
End Dumps.
