(** Running the source of core/track.py gives what the model in Track.v and Show.v says. *)
From Coq Require Import ZArith List Bool String Lia Permutation.
From Verif Require Import Py PyFloat PySort Signature Tone Note Track Show PyAst PySem PySource PyProgram SpecBase SigFacts SortFacts
  RefineBase RefineSignature RefineTone RefineNote.
Import ListNotations.
Open Scope string_scope.
Open Scope list_scope.
Open Scope Z_scope.

(** A (position, note) tuple and back. *)
Definition enc_entry (e : entry) : value := VTuple [enc_sig (fst e); enc_note (snd e)].
Definition dec_entry (v : value) : entry :=
  match v with
  | VTuple [VObj _ [(_, VInt a); (_, VInt b)];
            VObj _ [(_, VObj _ [(_, VInt p)]); (_, VObj _ [(_, VInt c); (_, VInt d)]); (_, VFloat f)]] =>
      (mkSig a b, mkNote (mkTone p) (mkSig c d) f)
  | _ => (mkSig 0 1, mkNote (mkTone 0) (mkSig 0 1) f_zero)
  end.
Lemma dec_enc e : dec_entry (enc_entry e) = e.
Proof. destruct e as [[a b] [[p] [c d] f]]. reflexivity. Qed.
Definition value_lt (v w : value) : bool := entry_lt (dec_entry v) (dec_entry w).

(** What is assumed of list.sort: the result depends on the answers to the comparisons only. *)
Definition natural (sort : sort_fn) : Prop :=
  forall (A B : Type) (f : A -> B) (ltA : A -> A -> bool) (ltB : B -> B -> bool) (l : list A),
  (forall x y, In x l -> In y l -> ltB (f x) (f y) = ltA x y) ->
  sort B ltB (map f l) = map f (sort A ltA l).

Lemma map_set_nth {A B} (f : A -> B) l i v : map f (set_nth l i v) = set_nth (map f l) i (f v).
Proof. revert i. induction l as [|x l IH]; intros [|i]; cbn; try reflexivity. f_equal. apply IH. Qed.
Lemma siftdown_map {A B} (f : A -> B) ltA ltB : (forall x y, ltB (f x) (f y) = ltA x y) ->
  forall fuel l pos v, siftdown ltB fuel (map f l) pos (f v) = map f (siftdown ltA fuel l pos v).
Proof.
  intros E. induction fuel as [|k IH]; intros l pos v; cbn [siftdown]; [symmetry; apply map_set_nth|].
  destruct (Nat.eqb pos 0); [symmetry; apply map_set_nth|].
  rewrite nth_error_map. destruct (nth_error l _) as [p|]; cbn [option_map]; [|symmetry; apply map_set_nth].
  rewrite E. destruct (ltA v p); [|symmetry; apply map_set_nth]. rewrite <- map_set_nth. apply IH.
Qed.
Lemma heappush_map {A B} (f : A -> B) ltA ltB l v : (forall x y, ltB (f x) (f y) = ltA x y) ->
  heappush ltB (map f l) (f v) = map f (heappush ltA l v).
Proof.
  intros E. unfold heappush. rewrite map_length, <- (siftdown_map f ltA ltB E), map_app. reflexivity.
Qed.

(** The Track object at [a], whose list is at [b]. *)
Definition enc_track (b : nat) (t : track) : obj :=
  HInst "Track" [("_signature", enc_sig (t_signature t)); ("_max_denominator", VInt (t_max_denominator t)); ("_heap", VRef b);
                 ("_max_position", enc_sig (t_max_position t)); ("_sorted", VBool (t_sorted t))].
Definition track_at (h : heap) (a b : nat) (t : track) : Prop :=
  get h a = Some (enc_track b t) /\ get h b = Some (HList (map enc_entry (t_heap t))).

(** Denominators are not zero. *)
Definition good_sig (s : sig) : Prop := denominator s <> 0.
Definition good_entry (e : entry) : Prop := good_sig (fst e) /\ good_sig (n_duration (snd e)).
Definition good_track (t : track) : Prop :=
  Forall good_entry (t_heap t) /\ good_sig (t_max_position t) /\ good_sig (t_signature t).

Lemma sig_new_good n d s : sig_new n d = Ok s -> good_sig s.
Proof.
  unfold sig_new, good_sig. destruct (negb _) eqn:E; [discriminate|]. intros H. injection H as <-.
  cbn. intros ->. revert E. cbn. destruct (n >=? 0); discriminate.
Qed.

Ltac compute_state :=
  lazymatch goal with |- ?R ?P ?Y ?s ?t => let s' := eval calc in s in change (R P Y s' t) end.

(** ** Iterators *)

(** What an iterator still gives; the lists it reads are not at the places [own]. *)
Inductive yields (h : heap) (own : list nat) : iter -> list value -> Prop :=
| y_seq vs : yields h own (ISeq vs) vs
| y_ref p k full : get h p = Some (HList full) -> ~ In p own -> yields h own (IRef p k) (skipn k full).
Lemma skipn_cons {A} (l : list A) k x r : skipn k l = x :: r -> nth_error l k = Some x /\ skipn (S k) l = r.
Proof.
  revert l. induction k as [|k IH]; intros [|y l] E; try discriminate; [injection E as -> ->; split; reflexivity|].
  exact (IH l E).
Qed.
Lemma skipn_nil_nth {A} (l : list A) k : skipn k l = [] -> nth_error l k = None.
Proof. revert l. induction k as [|k IH]; intros [|y l] E; try discriminate; try reflexivity. exact (IH l E). Qed.
Lemma yields_next h own i v vs t b r K : yields h own i (v :: vs) ->
  exists i', loop_step t b i r h K = As [(t, v)] b r h (KLoopF t b i' :: K) /\ yields h own i' vs.
Proof.
  intros H. inversion H as [ws E|p k full G N E E']; subst.
  - exists (ISeq vs). split; [reflexivity|constructor].
  - destruct (skipn_cons _ _ _ _ E') as [A B]. exists (IRef p (S k)). split.
    + unfold loop_step, next. rewrite G, A. reflexivity.
    + rewrite <- B. constructor; assumption.
Qed.
Lemma yields_end h own i t b r K : yields h own i [] -> loop_step t b i r h K = Ex [] r h K.
Proof.
  intros H. inversion H as [ws E|p k full G N E E']; subst; [reflexivity|].
  unfold loop_step, next. rewrite G, (skipn_nil_nth _ _ E'). reflexivity.
Qed.
Section Track.
Variable Y : python.
Notation steps := (steps melodia Y).
Notation reaches := (reaches melodia Y).

(** ** Comparison of entries *)
Ltac compares :=
  idtac; lazymatch goal with
  | |- PySem.steps _ _ (Ca (VFun "Signature.__eq__") _ _ _ _) _ => eapply steps_trans; [eapply eq_runs; assumption|]
  | |- PySem.steps _ _ (Ca (VFun "Signature.__lt__") _ _ _ _) _ => eapply steps_trans; [eapply lt_runs; assumption|]
  end.
Lemma entry_lt_runs e f h K : good_entry e -> good_entry f ->
  steps (Cm CLt (enc_entry e) (enc_entry f) h K) (Rt (VBool (entry_lt e f)) h K).
Proof.
  destruct e as [[a b] n], f as [[c d] m]. unfold good_entry, good_sig, enc_entry, entry_lt. cbn [fst snd denominator].
  intros [A B] [C D]. unfold enc_sig at 1 2. cbn [nominator denominator].
  parts n. parts m. cbn [n_duration denominator] in B, D.
  unfold note_eq, note_lt, triplet_cmp, tone_eq, tone_lt. cbn [n_tone n_duration n_velocity pitch].
  go_with compares; finish_with.
Qed.
Lemma value_answers h l : Forall good_entry l -> answers melodia Y None h (map enc_entry l) value_lt.
Proof.
  intros F x y X Y'. apply in_map_iff in X as (e & <- & X). apply in_map_iff in Y' as (f & <- & Y').
  rewrite Forall_forall in F. exists (enc_entry e), (enc_entry f). repeat split.
  unfold value_lt. rewrite !dec_enc. apply entry_lt_runs; auto.
Qed.
Lemma value_lt_enc x y : value_lt (enc_entry x) (enc_entry y) = entry_lt x y.
Proof. unfold value_lt. rewrite !dec_enc. reflexivity. Qed.
Lemma push_reaches a l e h K Q : get h a = Some (HList (map enc_entry l)) -> Forall good_entry (l ++ [e]) ->
  (forall h', get h' a = Some (HList (map enc_entry (heappush entry_lt l e))) -> keeps [a] h h' -> reaches (Rt VNone h' K) Q) ->
  reaches (Push a (enc_entry e) h K) Q.
Proof.
  intros G F R. eapply reaches_red; [|eapply R; [eapply get_put; exact G|keep]]. rewrite <- (heappush_map enc_entry entry_lt value_lt) by exact value_lt_enc.
  apply red_push; [exact G|]. change [enc_entry e] with (map enc_entry [e]). rewrite <- map_app. apply value_answers. exact F.
Qed.
Lemma sort_reaches a l h K Q : natural (py_sort Y) -> get h a = Some (HList (map enc_entry l)) -> Forall good_entry l ->
  (forall h', get h' a = Some (HList (map enc_entry (py_sort Y entry entry_lt l))) -> keeps [a] h h' -> reaches (Rt VNone h' K) Q) ->
  reaches (Sort a None h K) Q.
Proof.
  intros N G F R. eapply reaches_red; [|eapply R; [eapply get_put; exact G|keep]].
  rewrite <- (N entry value enc_entry entry_lt value_lt l) by (intros; apply value_lt_enc).
  apply red_sort; [exact G|]. apply value_answers. exact F.
Qed.

(** ** Properties *)
Lemma track_signature_runs h a b t K : get h a = Some (enc_track b t) ->
  steps (Ca (VFun "Track.signature") [VRef a] [] h K) (Rt (enc_sig (t_signature t)) h K).
Proof. unfold enc_track. intros G. go. apply steps_refl. Qed.
Lemma track_length_runs h a b t K : get h a = Some (enc_track b t) ->
  steps (Ca (VFun "Track.length") [VRef a] [] h K) (Rt (enc_sig (t_max_position t)) h K).
Proof. unfold enc_track. intros G. go. apply steps_refl. Qed.
Lemma track_len_runs h a b t K : track_at h a b t ->
  steps (Ca (VFun "Track.__len__") [VRef a] [] h K) (Rt (VInt (track_len t)) h K).
Proof. unfold track_at, enc_track, track_len. intros [G G']. go. rewrite map_length. apply steps_refl. Qed.
Lemma track_str_runs h a b t K : track_at h a b t ->
  steps (Ca (VFun "Track.__str__") [VRef a] [] h K) (Rt (VStr (track_str t)) h K).
Proof.
  unfold track_at, enc_track, track_str, track_len, sig_str. destruct t as [[n d] m p l s]. cbn [t_heap t_signature nominator denominator].
  unfold enc_sig at 1. cbn [nominator denominator]. intros [G G']. go. rewrite map_length. text_result.
Qed.

(** ** Track.__iter__ *)
Lemma track_iter_runs h a b t K : natural (py_sort Y) -> track_at h a b t -> good_track t ->
  reaches (Ca (VFun "Track.__iter__") [VRef a] [] h K)
          (returns (Ok (VIter (IRef b 0))) K (fun h' => track_at h' a b (fst (track_iter (py_sort Y) t)) /\ keeps [a; b] h h')).
Proof.
  unfold track_at, enc_track, track_iter. intros N [G G'] (F & _). destruct t as [s m p l [|]]; cbn [t_heap t_signature t_max_denominator t_max_position t_sorted set_heap fst] in *.
  - go. apply reaches_here. eexists. split; [reflexivity|]. split; [split; assumption|keep].
  - assert (AB : a <> b) by (intros ->; rewrite G in G'; discriminate).
    go. eapply sort_reaches; [exact N|exact G'|exact F|]. intros h' G1 K1. go.
    apply reaches_here. eexists. split; [reflexivity|]. split; [split; heap_get|keep].
Qed.

(** ** Track.add *)

(** After the position is known, for a note. *)
Definition add_rest : list stmt := Eval calc in match f_body src_Track_add with _ :: _ :: l => l | _ => [] end.
Definition add_env (a : nat) (n : note) (w : value) (p : sig) : env :=
  [("self", VRef a); ("what", enc_note n); ("where", w); ("position", enc_sig p)].

(** The comprehension (track.py 104). *)
Definition rescale_comp : expr * target :=
  Eval calc in match add_rest with
  | _ :: SIf _ (_ :: SAssign _ (EComp _ e t _) :: _) _ :: _ => (e, t)
  | _ => (EConst VNone, TName "")
  end.
Definition rescaled (d : Z) (e : entry) : res entry := let! s := sig_to (fst e) d in Ok (s, snd e).
Lemma to_good s d s' : sig_to s d = Ok s' -> good_sig s'.
Proof.
  unfold sig_to. destruct (negb _); [discriminate|]. destruct (d =? _); [apply sig_new_good|].
  destruct (d >? _); [apply sig_new_good|discriminate].
Qed.
Lemma add_good s t s' : sig_add s t = Ok s' -> good_sig s'.
Proof. unfold sig_add. destruct (to_common_denominator s t) as [[? ?] ?]. apply sig_new_good. Qed.
Lemma rescaled_good d l l' : map_res (rescaled d) l = Ok l' -> Forall good_entry l -> Forall good_entry l'.
Proof.
  revert l'. induction l as [|[s n] l IH]; cbn [map_res]; intros l' E F; [injection E as <-; constructor|].
  unfold rescaled at 1 in E. cbn [fst snd] in E. destruct (sig_to s d) as [s'|] eqn:S; [|discriminate].
  cbn [bind] in E. destruct (map_res _ l) as [l1|]; [|discriminate]. cbn [bind] in E. injection E as <-.
  inversion F as [|x y [_ B] D]; subst. constructor; [split; [exact (to_good _ _ _ S)|exact B]|]. apply IH; auto.
Qed.

Definition comp_env (a : nat) (n : note) (w : value) (p : sig) : env := 
  [("self", VRef a); ("what", enc_note n); ("where", w); ("position", enc_sig p); ("note", enc_note n)].
Ltac tos :=
  idtac; lazymatch goal with
  | |- PySem.steps _ _ (Ca (VFun "Signature.to") [VObj _ [(_, VInt ?n); (_, VInt ?d)]; VInt ?x] _ _ _) _ =>
      eapply steps_trans; [eapply (to_runs Y n d x); assumption|]; outcome
  end.
Lemma comp_runs h a b c s0 d mp l so n w p K :
  get h a = Some (enc_track b (mkTrack s0 d mp c so)) -> get h b = Some (HList (map enc_entry l)) -> Forall good_entry l ->
  forall rest k acc, skipn k l = rest ->
  steps (comp_next CompList (fst rescale_comp) (snd rescale_comp) (comp_env a n w p) (IRef b k) acc h K)
        (match map_res (rescaled d) rest with
         | Ok l' => Rt (VRef (next_place h)) (new h (HList (rev acc ++ map enc_entry l'))) K
         | Err e => Thr e h
         end).
Proof.
  unfold enc_track. cbn [t_signature t_max_denominator t_max_position t_sorted]. intros G G' F.
  induction rest as [|[[x y] m] rest IH]; intros k acc E.
  - assert (N : nth_error (map enc_entry l) k = None).
    { apply nth_error_None. rewrite map_length. destruct (Nat.le_gt_cases (Datatypes.length l) k); [assumption|exfalso].
      assert (H0 : Datatypes.length (skipn k l) = 0%nat) by (rewrite E; reflexivity). rewrite skipn_length in H0. lia. }
    unfold comp_next, next. rewrite G', N. cbn [map_res map]. rewrite app_nil_r. apply steps_refl.
  - assert (N : nth_error l k = Some (mkSig x y, m)).
    { rewrite <- (firstn_skipn k l), E. assert (k < Datatypes.length l)%nat.
      { destruct (Nat.le_gt_cases (Datatypes.length l) k); [|assumption]. rewrite skipn_all2 in E by assumption. discriminate. }
      rewrite nth_error_app2; rewrite firstn_length_le by lia; [rewrite Nat.sub_diag; reflexivity|lia]. }
    assert (E' : skipn (S k) l = rest).
    { clear -E. revert l E. induction k as [|k IH]; intros l E; [destruct l; [discriminate|]; injection E as _ <-; reflexivity|].
      destruct l; [discriminate|]. exact (IH l E). }
    assert (D : y <> 0). { rewrite Forall_forall in F. apply nth_error_In in N. exact (proj1 (F _ N)). }
    assert (N' : nth_error (map enc_entry l) k = Some (enc_entry (mkSig x y, m))) by (rewrite nth_error_map, N; reflexivity).
    specialize (IH (S k)).
    unfold comp_next, next. rewrite G', N'. cbn [map_res]. unfold rescaled at 1. cbn [fst snd].
    compute_state.
    go_with tos; cbn [nominator denominator] in *; answers; cbn [bind].
    + eapply steps_more; [reflexivity|].
      match goal with |- PySem.steps _ _ (value_step _ _ ?v _ _ _) _ => specialize (IH (v :: acc) E') end.
      eapply steps_trans; [exact IH|]. destruct (map_res (rescaled d) rest) as [l'|]; cbn [bind]; [|apply steps_refl].
      cbn [rev map]. rewrite <- app_assoc. apply steps_refl.
    + apply steps_refl.
Qed.

(** The rest: track.py 106-113. *)
Definition tail_model (t1 : track) (n : note) (position : sig) : track * res unit :=
  match sig_to position (t_max_denominator t1) with
  | Err e => (t1, Err e)
  | Ok pt =>
      let t2 := set_heap t1 (heappush entry_lt (t_heap t1) (pt, n)) false in
      match sig_add pt (n_duration n) with
      | Err e => (t2, Err e)
      | Ok ep => if sig_gt ep (t_max_position t2) then (set_max_position t2 ep, Ok tt) else (t2, Ok tt)
      end
  end.
Definition add_tail : list stmt := Eval calc in match add_rest with _ :: _ :: l => l | _ => [] end.
Definition no_value (r : res unit) : res value := outcome_of (fun _ => VNone) r.

Ltac adds :=
  idtac; lazymatch goal with
  | |- RefineBase.reaches _ _ (Ca (VFun "Signature.to") [VObj _ [(_, VInt ?n); (_, VInt ?d)]; VInt ?x] _ _ _) _ =>
      eapply reaches_steps; [eapply (to_runs Y n d x); assumption|]; outcome
  | |- RefineBase.reaches _ _ (Ca (VFun "Signature.__add__") _ _ _ _) _ =>
      eapply reaches_steps; [eapply add_runs; assumption|]; outcome;
      [match goal with
       | E : sig_add _ _ = Ok ?x |- _ =>
           let G := fresh "G" in pose proof (add_good _ _ _ E) as G; destruct x as [?xn ?xd];
           unfold good_sig in G; cbn [denominator] in G; cbn [nominator denominator]
       end|]
  | |- RefineBase.reaches _ _ (Ca (VFun "Signature.__gt__") _ _ _ _) _ =>
      eapply reaches_steps; [eapply gt_runs; assumption|]
  end.
Lemma add_tail_runs h a b t n w p K : track_at h a b t -> good_track t -> good_sig p -> good_sig (n_duration n) ->
  reaches (Ex add_tail (comp_env a n w p) h (KFun :: K))
          (returns (no_value (snd (tail_model t n p))) K
                   (fun h' => track_at h' a b (fst (tail_model t n p)) /\ keeps [a; b] h h')).
Proof.
  unfold track_at, enc_track. intros [G G'] (F & MP & _) GP GN.
  assert (AB : a <> b) by (intros ->; rewrite G in G'; discriminate).
  unfold tail_model, comp_env. destruct t as [s m [mn md] l so], p as [pn pd]. parts n.
  cbn [t_heap t_signature t_max_denominator t_max_position t_sorted set_heap set_max_position n_duration] in *.
  unfold good_sig in *. cbn [n_duration denominator] in *.
  go_with adds.
  - pose proof (to_good _ _ _ E) as GX. destruct x as [xn xd]. unfold good_sig in GX. cbn [denominator] in GX.
    eapply (push_reaches _ _ (mkSig xn xd, mkNote (mkTone p) (mkSig a0 b0) v)); [exact G'| |].
    { apply Forall_app. split; [exact F|]. constructor; [|constructor]. split; assumption. }
    intros h' G1 K1. cbn [nominator denominator].
    go_with adds; answers; cbn [nominator denominator] in *; answers; cbn [fst snd set_max_position t_signature t_max_denominator t_max_position t_sorted t_heap no_value outcome_of ends].
    all: apply reaches_here; eexists; (split; [reflexivity|]); (split; [split; heap_get|keep]).
  - answers. cbn. apply reaches_here. eexists. split; [reflexivity|]. split; [split; assumption|keep].
Qed.

(** After a change of the track, its list is the old one or a new one. *)
Definition changed (h : heap) (a b : nat) (t : track) (h' : heap) : Prop :=
  exists b', track_at h' a b' t /\ (b' = b \/ get h b' = None) /\ keeps [a; b] h h'.

Lemma good_push l e : Forall good_entry l -> good_entry e -> Forall good_entry (heappush entry_lt l e).
Proof.
  intros F E. apply (Permutation_Forall (x := e :: l)); [symmetry; apply heappush_perm|constructor; assumption].
Qed.
Lemma tail_good t n p : good_track t -> good_sig p -> good_sig (n_duration n) -> good_track (fst (tail_model t n p)).
Proof.
  unfold tail_model. intros (F & M & S) P N. destruct (sig_to p _) as [pt|] eqn:E; [|repeat split; assumption].
  assert (F' : Forall good_entry (heappush entry_lt (t_heap t) (pt, n))).
  { apply good_push; [exact F|]. split; [exact (to_good _ _ _ E)|exact N]. }
  destruct (sig_add pt _) as [ep|] eqn:E'; [|repeat split; assumption]. pose proof (add_good _ _ _ E').
  destruct (sig_gt _ _); repeat split; assumption.
Qed.

(** track.py 102-104. *)
Definition rescale_model (t : track) (position : sig) : track * res unit :=
  if denominator position >? t_max_denominator t then
    let t' := set_max_denominator t (denominator position) in
    match map_res (rescaled (t_max_denominator t')) (t_heap t') with
    | Ok h => (set_heap t' h (t_sorted t'), Ok tt)
    | Err e => (t', Err e)
    end
  else (t, Ok tt).
Lemma add_note_parts t n p : add_note t n p =
  match rescale_model t p with (t1, Ok _) => tail_model t1 n p | (t1, Err e) => (t1, Err e) end.
Proof. reflexivity. Qed.
Lemma rescale_good t p : good_track t -> good_track (fst (rescale_model t p)).
Proof.
  unfold rescale_model. intros (F & M & S). destruct (_ >? _); [|repeat split; assumption].
  cbn [t_max_denominator t_heap set_max_denominator]. destruct (map_res _ _) as [l|] eqn:E; repeat split; try assumption.
  exact (rescaled_good _ _ _ E F).
Qed.
Lemma add_note_good t n p : good_track t -> good_sig p -> good_sig (n_duration n) -> good_track (fst (add_note t n p)).
Proof.
  intros T P N. rewrite add_note_parts. pose proof (rescale_good t p T) as R.
  destruct (rescale_model t p) as [t1 [u|e]]; [apply tail_good; assumption|exact R].
Qed.

Lemma add_note_runs h a b t n w p K : track_at h a b t -> good_track t -> good_sig p -> good_sig (n_duration n) ->
  reaches (Ex add_rest (add_env a n w p) h (KFun :: K))
          (returns (no_value (snd (add_note t n p))) K (changed h a b (fst (add_note t n p)))).
Proof.
  intros T GT GP GN. pose proof (rescale_good t p GT) as RG. rewrite add_note_parts.
  unfold rescale_model in *. pose proof T as [G G']. unfold enc_track in G.
  assert (AB : a <> b) by (intros ->; rewrite G in G'; discriminate).
  destruct t as [s m mp l so]. cbn [t_heap t_signature t_max_denominator t_max_position t_sorted set_heap set_max_denominator] in *.
  assert (TAIL : forall h1 b1 t1, track_at h1 a b1 t1 -> good_track t1 -> (b1 = b \/ get h b1 = None) -> keeps [a; b] h h1 ->
    reaches (Ex add_tail (comp_env a n w p) h1 (KFun :: K))
      (returns (no_value (snd (tail_model t1 n p))) K (changed h a b (fst (tail_model t1 n p))))).
  { intros h1 b1 t1 T1 G1 B1 K1. eapply reaches_trans; [apply (add_tail_runs h1 a b1 t1 n w p K); assumption|].
    intros x (h2 & -> & T2 & K2). apply reaches_here. exists h2. split; [reflexivity|]. exists b1. repeat split; try assumption; try apply T2.
    - intros c o C O. apply (keeps_get _ _ _ _ _ K2); [|exact (keeps_get _ _ _ _ _ K1 C O)].
      intros [E|[E|[]]]; subst; [apply C; cbn; auto|]. destruct B1 as [->|B1]; [apply C; cbn; auto|congruence].
    - rewrite (keeps_calls _ _ _ K2). exact (keeps_calls _ _ _ K1). }
  unfold add_env. destruct GT as (FE & _).
  go_with ltac:(idtac; lazymatch goal with
    | |- RefineBase.reaches _ _ (Ex (SAssign (TName "position_transformed") _ :: _) _ _ _) _ =>
        first [ eapply TAIL; [exact T|assumption|left; reflexivity|keep] | fail 2 ]
    | |- RefineBase.reaches _ _ (Rt (VIter (IRef b 0)) ?h1 (KComp1 _ _ _ _ :: ?K1)) _ =>
        eapply (reaches_more melodia Y _ (comp_next CompList (fst rescale_comp) (snd rescale_comp) (comp_env a n w p) (IRef b 0) [] h1 K1));
        [reflexivity|];
        eapply reaches_steps;
        [eapply (comp_runs h1 a b l s (denominator p) mp l so n w p K1); [apply (get_put _ _ _ _ G)|heap_get|exact FE|reflexivity]|];
        let l' := fresh "l" in let x := fresh "e" in let R := fresh "R" in
        destruct (map_res (rescaled (denominator p)) l) as [l'|x] eqn:R; cbn [fst snd no_value outcome_of ends rev app] in *
    end).
  all: cbn [skipn]; rewrite R; cbn [fst snd no_value outcome_of ends].
  - match goal with |- RefineBase.reaches _ _ (Rt (VRef ?c) (new ?h1 ?o) _) _ =>
      assert (N0 : get h c = None); [|assert (N1 : get (new h1 o) c = Some o) by heap_get;
      assert (N2 : get (new h1 o) a = Some (enc_track b (mkTrack s (denominator p) mp l so))) by heap_get;
      assert (N3 : keeps [a; b] h (new h1 o)) by keep; revert N0 N1 N2 N3; generalize (new h1 o) as h2; generalize c as b2] end.
    { apply nth_error_None. unfold next_place, put. cbn [h_objs]. clear. generalize (h_objs h) as x. intros x.
      match goal with |- (_ <= Datatypes.length (set_nth x a ?o))%nat => generalize o as y end. intros y. revert a.
      induction x as [|z x IH]; intros [|a]; cbn; try lia. specialize (IH a). lia. }
    intros b2 h2 N0 N1 N2 N3. unfold enc_track in N2. cbn [t_heap t_signature t_max_denominator t_max_position t_sorted] in N2.
    assert (AB2 : a <> b2) by (intros ->; rewrite N1 in N2; discriminate).
    go_with ltac:(idtac; lazymatch goal with
    | |- RefineBase.reaches _ _ (Ex (SAssign (TName "position_transformed") _ :: _) _ ?h3 _) _ =>
        eapply (TAIL h3 b2); [split; heap_get|exact RG|right; exact N0|keep] end).
  - apply reaches_here. eexists. split; [reflexivity|]. exists b. repeat split; try solve [left; reflexivity]; [heap_get|heap_get|intros; heap_get].
Qed.
End Track.
