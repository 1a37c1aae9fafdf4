(** Running Track.__eq__ and Track.__repr__ gives what the model says. *)
From Coq Require Import ZArith List Bool String Lia Permutation.
From Verif Require Import Py PyFloat PySort Signature Tone Note Track Show PyAst PySem PySource PyProgram SpecBase SigFacts SortFacts
  RefineBase RefineSignature RefineTone RefineNote RefineTrack RefineAdd.
Import ListNotations.
Open Scope string_scope.
Open Scope list_scope.
Open Scope Z_scope.

Section Equal.
Variable Y : python.
Notation steps := (steps melodia Y).
Notation reaches := (reaches melodia Y).

(** ** Track.__eq__ *)
Definition eq_target : target := Eval calc in
  match f_body src_Track___eq__ with _ :: SFor t _ _ :: _ => t | _ => TName "" end.
Definition eq_body : list stmt := Eval calc in
  match f_body src_Track___eq__ with _ :: SFor _ _ b :: _ => b | _ => [] end.
Definition eq_env (a c : nat) (x : option (entry * entry)) : env :=
  match x with
  | None => [("self", VRef a); ("other", VRef c)]
  | Some ((p, n), (q, m)) => [("self", VRef a); ("other", VRef c); ("ap", enc_sig p); ("an", enc_note n); ("bp", enc_sig q); ("bn", enc_note m)]
  end.
Ltac compares :=
  idtac; lazymatch goal with
  | |- PySem.steps _ _ (Ca (VFun "Signature.__eq__") _ _ _ _) _ => eapply steps_trans; [eapply eq_runs; assumption|]
  | |- PySem.steps _ _ (Ca (VFun "Note.__eq__") [VObj _ [(_, VObj _ [(_, VInt ?p)]); (_, VObj _ [(_, VInt ?a); (_, VInt ?b)]); (_, VFloat ?f)]; VObj _ [(_, VObj _ [(_, VInt ?q)]); (_, VObj _ [(_, VInt ?c); (_, VInt ?d)]); (_, VFloat ?g)]] _ _ _) _ =>
      eapply steps_trans; [eapply (note_eq_runs Y (mkNote (mkTone p) (mkSig a b) f) (mkNote (mkTone q) (mkSig c d) g)); assumption|]
  end.
Lemma eq_loop_runs h b d L M a c K : get h b = Some (HList (map enc_entry L)) -> get h d = Some (HList (map enc_entry M)) ->
  Forall good_entry L -> Forall good_entry M -> forall l m i j x, skipn i L = l -> skipn j M = m ->
  steps (Lp eq_target eq_body (IZip (IRef b i) (IRef d j)) (eq_env a c x) h (KSeq [SReturn (EConst (VBool true))] :: KFun :: K))
        (Rt (VBool (zip_eq l m)) h K).
Proof.
  intros G G' F F'. induction l as [|[[p p'] n] l IH]; intros m i j x E E'.
  - eapply steps_more; [cbn [step]; unfold loop_step; cbn [next]; rewrite G, nth_error_map, (skipn_nil_nth _ _ E); reflexivity|].
    cbn. go. apply steps_refl.
  - destruct (skipn_cons _ _ _ _ E) as [A B]. destruct m as [|[[q q'] m] ms].
    + eapply steps_more; [cbn [step]; unfold loop_step; cbn [next]; rewrite G, G', !nth_error_map, A, (skipn_nil_nth _ _ E'); reflexivity|].
      cbn. go. apply steps_refl.
    + destruct (skipn_cons _ _ _ _ E') as [A' B'].
      assert (GE : good_entry (mkSig p p', n)) by (rewrite Forall_forall in F; apply F; eapply nth_error_In; exact A).
      assert (GF : good_entry (mkSig q q', m)) by (rewrite Forall_forall in F'; apply F'; eapply nth_error_In; exact A').
      eapply (steps_more _ _ _ (As [(eq_target, VTuple [enc_entry (mkSig p p', n); enc_entry (mkSig q q', m)])] eq_body (eq_env a c x) h
        (KLoopF eq_target eq_body (IZip (IRef b (S i)) (IRef d (S j))) :: KSeq [SReturn (EConst (VBool true))] :: KFun :: K)));
        [cbn [step]; unfold loop_step; cbn [next]; rewrite G, G', !nth_error_map, A, A'; reflexivity|].
      specialize (IH ms (S i) (S j) (Some ((mkSig p p', n), (mkSig q q', m))) B B').
      destruct GE as [G1 G2], GF as [G3 G4]. unfold good_sig in *. cbn [fst snd denominator] in *.
      cbn [zip_eq]. unfold eq_env in *. unfold eq_target, eq_body in IH |- *. unfold enc_entry at 1 2. cbn [fst snd].
      unfold enc_sig at 1 2. cbn [nominator denominator].
      revert IH. parts n. parts m. intros IH. cbn [n_duration denominator] in *.
      destruct x as [[[? ?] [? ?]]|].
      all: go_with compares; answers; cbn [negb orb]; try apply steps_refl; exact IH.
Qed.

Lemma iter_good t : good_track t -> sort_contract (py_sort Y) -> good_track (fst (track_iter (py_sort Y) t)).
Proof.
  intros (F & M & S) C. unfold track_iter. destruct (t_sorted t); cbn; [repeat split; assumption|].
  repeat split; try assumption. cbn. eapply (Permutation_Forall (x := t_heap t)); [|exact F]. symmetry. apply sort_permutation. exact C.
Qed.
Lemma iter_signature t : t_signature (fst (track_iter (py_sort Y) t)) = t_signature t.
Proof. unfold track_iter. destruct (t_sorted t); reflexivity. Qed.
Lemma iter_list t : snd (track_iter (py_sort Y) t) = t_heap (fst (track_iter (py_sort Y) t)).
Proof. reflexivity. Qed.


Lemma eq_head_runs h a b t c d u K (Q : state -> Prop) : track_at h a b t -> track_at h c d u -> good_track t -> good_track u ->
  (sig_eq (t_signature t) (t_signature u) = false -> Q (Rt (VBool false) h K)) ->
  (sig_eq (t_signature t) (t_signature u) = true ->
   reaches (Ca (VFun "Track.__iter__") [VRef a] [] h
     (KZip1 (VRef c) :: KFor0 eq_target eq_body [SReturn (EConst (VBool true))] (eq_env a c None) :: KFun :: K)) Q) ->
  reaches (Ca (VFun "Track.__eq__") [VRef a; VRef c] [] h K) Q.
Proof.
  intros [G1 _] [G2 _] (_ & _ & ST) (_ & _ & SU) NO YES. unfold enc_track in G1, G2. unfold good_sig in ST, SU.
  destruct (t_signature t) as [sn sd], (t_signature u) as [un ud]. cbn [nominator denominator] in *.
  repeat (lazymatch goal with
    | |- RefineBase.reaches _ _ (Ca (VFun "Signature.__eq__") _ _ _ _) _ => fail
    | |- RefineBase.reaches _ _ (Ca (VFun "Track.__iter__") _ _ _ _) _ => fail
    | _ => adv end).
  eapply reaches_steps; [eapply (eq_runs Y sn sd un ud); assumption|].
  destruct (sig_eq (mkSig sn sd) (mkSig un ud)).
  - specialize (YES eq_refl). repeat (lazymatch goal with
    | |- RefineBase.reaches _ _ (Ca (VFun "Track.__iter__") _ _ _ _) _ => fail
    | _ => adv end). exact YES.
  - go. apply reaches_here. apply NO. reflexivity.
Qed.

Lemma track_eq_runs h a b t c d u K r t' u' : natural (py_sort Y) -> sort_contract (py_sort Y) ->
  track_at h a b t -> track_at h c d u -> good_track t -> good_track u -> a <> c -> b <> d ->
  track_eq (py_sort Y) t u = (r, t', u') ->
  reaches (Ca (VFun "Track.__eq__") [VRef a; VRef c] [] h K)
    (returns (Ok (VBool r)) K (fun h' => track_at h' a b t' /\ track_at h' c d u' /\ keeps [a; b; c; d] h h')).
Proof.
  intros N C T U GT GU AC BD. unfold track_eq. rewrite (surjective_pairing (track_iter _ t)), (surjective_pairing (track_iter _ u)), !iter_list.
  assert (AD : a <> d) by (intros ->; destruct T as [T _], U as [_ U]; unfold enc_track in T; congruence).
  assert (BC : b <> c) by (intros ->; destruct T as [_ T], U as [U _]; unfold enc_track in U; congruence).
  pose proof (iter_good _ GT C) as [F _]. pose proof (iter_good _ GU C) as [F' _].
  intros E. eapply eq_head_runs; try eassumption; intros S; rewrite S in E; cbn [negb] in E; injection E as <- <- <-.
  - eexists. split; [reflexivity|]. split; [exact T|]. split; [exact U|keep].
  - eapply reaches_trans; [eapply track_iter_runs; eassumption|]. intros s (h1 & -> & T1 & K1). cbn [ends].
    assert (U1 : track_at h1 c d u) by (destruct U; split; heap_get).
    eapply reaches_more; [reflexivity|]. pose proof (proj1 U1) as G2. unfold enc_track in G2. cbn [value_step].
    adv. eapply reaches_trans; [eapply track_iter_runs; [exact N|exact U1|exact GU]|]. intros s (h2 & -> & U2 & K2). cbn [ends].
    assert (T2 : track_at h2 a b (fst (track_iter (py_sort Y) t))) by (destruct T1; split; heap_get).
    do 4 (eapply reaches_more; [reflexivity|]; cbn [value_step iter_step]).
    eapply reaches_steps; [eapply (eq_loop_runs h2 b d _ _ a c K (proj2 T2) (proj2 U2) F F' _ _ 0%nat 0%nat None); reflexivity|].
    apply reaches_here. eexists. split; [reflexivity|]. split; [exact T2|]. split; [exact U2|].
    split; [intros p o P G; assert (H1 : get h1 p = Some o) by heap_get; heap_get|].
    rewrite (keeps_calls _ _ _ K2). exact (keeps_calls _ _ _ K1).
Qed.
(** A track and itself. *)
Lemma track_eq_self_runs h a b t K r t' u' : natural (py_sort Y) -> sort_contract (py_sort Y) ->
  track_at h a b t -> good_track t -> track_eq (py_sort Y) t t = (r, t', u') ->
  reaches (Ca (VFun "Track.__eq__") [VRef a; VRef a] [] h K)
    (returns (Ok (VBool r)) K (fun h' => track_at h' a b t' /\ keeps [a; b] h h')).
Proof.
  intros N C T GT. unfold track_eq. rewrite (surjective_pairing (track_iter _ t)), !iter_list.
  pose proof (iter_good _ GT C) as G1. pose proof G1 as [F _].
  intros E. eapply eq_head_runs; try eassumption; intros S; rewrite S in E; cbn [negb] in E; injection E as <- <- <-.
  - eexists. split; [reflexivity|]. split; [exact T|keep].
  - eapply reaches_trans; [eapply track_iter_runs; eassumption|]. intros s (h1 & -> & T1 & K1). cbn [ends].
    eapply reaches_more; [reflexivity|]. pose proof (proj1 T1) as G2. unfold enc_track in G2. cbn [value_step].
    adv. eapply reaches_trans; [eapply track_iter_runs; [exact N|exact T1|exact G1]|]. intros s (h2 & -> & T2 & K2). cbn [ends].
    replace (track_iter (py_sort Y) (fst (track_iter (py_sort Y) t))) with (track_iter (py_sort Y) t) in T2
      by (unfold track_iter; destruct (t_sorted t) eqn:ST; cbn; rewrite ?ST; reflexivity).
    do 4 (eapply reaches_more; [reflexivity|]; cbn [value_step iter_step]).
    eapply reaches_steps; [eapply (eq_loop_runs h2 b b _ _ a a K (proj2 T2) (proj2 T2) F F _ _ 0%nat 0%nat None); reflexivity|].
    apply reaches_here. eexists. split; [reflexivity|]. split; [exact T2|].
    split; [intros p o P G; assert (H1 : get h1 p = Some o) by heap_get; heap_get|].
    rewrite (keeps_calls _ _ _ K2). exact (keeps_calls _ _ _ K1).
Qed.

(** ** Track.__repr__ *)
Definition repr_target : target := TTuple [TName "position"; TName "note"].
Definition repr_body : list stmt := Eval calc in
  match f_body src_Track___repr__ with _ :: _ :: _ :: SFor _ _ b :: _ => b | _ => [] end.
Definition repr_end : list stmt := Eval calc in
  match f_body src_Track___repr__ with _ :: _ :: _ :: SFor _ _ _ :: l => l | _ => [] end.
Definition repr_env (a c : nat) (s : pystr) (x : option entry) : env :=
  match x with
  | None => [("self", VRef a); ("name", VStr (lit "Track")); ("signature", VStr s); ("contents", VRef c)]
  | Some (p, n) => [("self", VRef a); ("name", VStr (lit "Track")); ("signature", VStr s); ("contents", VRef c); ("position", enc_sig p); ("note", enc_note n)]
  end.
Lemma repr_loop_runs b c s L a K : forall l h i done x (Q : state -> Prop),
  get h b = Some (HList (map enc_entry L)) -> get h c = Some (HList (map VStr done)) -> b <> c -> skipn i L = l ->
  (forall h' x', get h' c = Some (HList (map VStr (done ++ map (entry_repr (py_digits Y)) l))) -> keeps [c] h h' ->
     reaches (Ex [] (repr_env a c s x') h' K) Q) ->
  reaches (Lp repr_target repr_body (IRef b i) (repr_env a c s x) h K) Q.
Proof.
  induction l as [|[[p p'] n] l IH]; intros h i done x Q G G' BC E R.
  - eapply (reaches_more _ _ _ (Ex [] (repr_env a c s x) h K)).
    { cbn [step]; unfold loop_step; cbn [next]. rewrite G, nth_error_map, (skipn_nil_nth _ _ E). reflexivity. }
    apply R; [rewrite app_nil_r; exact G'|keep].
  - destruct (skipn_cons _ _ _ _ E) as [A B].
    eapply (reaches_more _ _ _ (As [(repr_target, enc_entry (mkSig p p', n))] repr_body (repr_env a c s x) h (KLoopF repr_target repr_body (IRef b (S i)) :: K))).
    { cbn [step]; unfold loop_step; cbn [next]. rewrite G, nth_error_map, A. reflexivity. }
    assert (NEXT : forall h1, get h1 c = Some (HList (map VStr (done ++ [entry_repr (py_digits Y) (mkSig p p', n)]))) -> keeps [c] h h1 ->
      reaches (Lp repr_target repr_body (IRef b (S i)) (repr_env a c s (Some (mkSig p p', n))) h1 K) Q).
    { intros h1 G1 K1. eapply (IH h1 (S i) (done ++ [entry_repr (py_digits Y) (mkSig p p', n)])); [heap_get|exact G1|exact BC|exact B|].
      intros h' x' G2 K2. apply R; [|keep]. rewrite <- app_assoc in G2. exact G2. }
    unfold repr_env at 1. unfold repr_target at 1, repr_body at 1. unfold enc_entry. cbn [fst snd].
    revert NEXT. parts n. intros NEXT. unfold repr_env, enc_sig, enc_note, enc_sig, enc_tone in NEXT. cbn [n_tone n_duration n_velocity pitch nominator denominator] in NEXT.
    unfold entry_repr in NEXT. cbn [fst snd nominator denominator] in NEXT. unfold note_repr in NEXT. cbn [n_tone n_duration n_velocity pitch nominator denominator] in NEXT.
    destruct x as [[? ?]|]; go; (apply NEXT; [|keep]);
      (erewrite get_put by exact G'; rewrite map_app; cbn [map]; do 3 f_equal; f_equal; f_equal; texts_equal).
Qed.

Lemma texts_map l : texts (map VStr l) = Some l.
Proof. induction l as [|x l IH]; [reflexivity|]. cbn. rewrite IH. reflexivity. Qed.
Lemma join_known s c l h K : get h c = Some (HList (map VStr l)) ->
  step melodia Y (Ca (VMethod (VStr s) "join") [VRef c] [] h K) = Some (Rt (VStr (join s l)) h K).
Proof. intros G. cbn. rewrite G, texts_map. reflexivity. Qed.
Lemma track_repr_runs h a b t K : natural (py_sort Y) -> track_at h a b t -> good_track t ->
  reaches (Ca (VFun "Track.__repr__") [VRef a] [] h K)
    (returns (Ok (VStr (snd (track_repr (py_digits Y) (py_sort Y) t)))) K
       (fun h' => track_at h' a b (fst (track_repr (py_digits Y) (py_sort Y) t)) /\ keeps [a; b] h h')).
Proof.
  intros N T GT. unfold track_repr. rewrite (surjective_pairing (track_iter _ t)), iter_list. cbn [fst snd].
  pose proof (proj1 T) as G. unfold enc_track in G. destruct (t_signature t) as [sn sd] eqn:S. unfold enc_sig at 1 in G. cbn [nominator denominator] in *.
  repeat (lazymatch goal with
    | |- RefineBase.reaches _ _ (Ca (VFun "Track.__iter__") _ _ _ _) _ => fail
    | _ => adv end).
  assert (GN : get (new h (HList [])) (next_place h) = Some (HList [])) by heap_get.
  assert (T0 : track_at (new h (HList [])) a b t) by (destruct T; split; heap_get).
  assert (K0 : keeps [] h (new h (HList []))) by keep.
  assert (CA : a <> next_place h) by (eapply old_new; exact G).
  assert (CB : b <> next_place h) by (eapply old_new; exact (proj2 T)).
  assert (FN : get h (next_place h) = None) by apply fresh_none.
  revert GN T0 K0 CA CB FN. generalize (new h (HList [])) as h0. generalize (next_place h) as c. intros c h0 GN T0 K0 CA CB FN.
  eapply reaches_trans; [eapply (track_iter_runs Y h0 a b t); eassumption|]. intros s (h1 & -> & T1 & K1). cbn [ends].
  eapply reaches_more; [reflexivity|]. cbn [value_step].
  eapply (repr_loop_runs b c _ _ a _ _ h1 0%nat [] None); [exact (proj2 T1)|heap_get|exact CB|reflexivity|].
  intros h2 x' G2 K2. cbn [app] in G2.
  assert (T2 : track_at h2 a b (fst (track_iter (py_sort Y) t))) by (destruct T1; split; heap_get).
  assert (KK : keeps [a; b] h h2).
  { split; [|rewrite (keeps_calls _ _ _ K2), (keeps_calls _ _ _ K1); exact (keeps_calls _ _ _ K0)].
    intros p o P GP. apply (keeps_get _ _ _ _ _ K2); [intros [X|[]]; congruence|]. apply (keeps_get _ _ _ _ _ K1); [exact P|].
    exact (keeps_get _ _ _ _ _ K0 (fun x => x) GP). }
  set (l := map (entry_repr (py_digits Y)) _) in *. clearbody l.
  destruct x' as [[? ?]|]; unfold repr_env.
  all: repeat (lazymatch goal with
    | |- RefineBase.reaches _ _ (Ca (VMethod _ "join") _ _ _ _) _ => eapply reaches_more; [eapply join_known; exact G2|]
    | _ => adv end).
  all: apply reaches_here; exists h2; (split; [|split; assumption]); cbn [ends]; do 2 f_equal; texts_equal.
Qed.
End Equal.
