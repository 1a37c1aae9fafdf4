(** The tracks and variables of a program of Client.v on the heap. *)
From Coq Require Import ZArith List Bool String Lia Permutation.
From Verif Require Import Py PyFloat PySort Signature Tone Note Track Show MidiWriter MidiReader Processing PyAst PySem PySource PyProgram SpecBase SigFacts SortFacts FloatFacts
  TrackSpec MidiSpec DumpSpec TrackFacts TrackProps LoadFacts LoadProps WriterProps ProcessingProps
  RefineBase RefineSignature RefineTone RefineNote RefineTrack RefineAdd RefineEqual RefineSpec RefineProps RefineTrackProps RefineWriter RefineDump RefineDumps RefineDumpProps
  RefineProcess RefineDeep RefineLoad RefineLoadProps RefineTests RefineTerm Client.
Import ListNotations.
Open Scope string_scope.
Open Scope list_scope.
Open Scope Z_scope.

(** ** Tracks of a program on the heap *)
Definition sound (t : track) : Prop := (exists l, Inv t l) /\ valid_sig (t_signature t).
(** [P]: the places of the tracks and of their lists. *)
Definition places (P : list (nat * nat)) : list nat := flat_map (fun p => [fst p; snd p]) P.
Record holds (ts : list track) (P : list (nat * nat)) (h : heap) : Prop := {
  h_length : List.length P = List.length ts;
  h_at : forall i t a b, nth_error ts i = Some t -> nth_error P i = Some (a, b) -> track_at h a b t /\ sound t;
  h_apart : forall i j a b c d, i <> j -> nth_error P i = Some (a, b) -> nth_error P j = Some (c, d) -> a <> c /\ b <> d
}.
Definition enc_item (P : list (nat * nat)) (v : item) : value :=
  match v with Val o => enc_obj o | Trk i => VRef (fst (nth i P (0, 0)%nat)) end.
Definition items (P : list (nat * nat)) (vars : list (string * item)) : env := map (fun v => (fst v, enc_item P (snd v))) vars.
Definition ok_item (n : nat) (v : item) : Prop := match v with Val o => valid_obj o | Trk i => (i < n)%nat end.
Record agrees (st : store) (P : list (nat * nat)) (r : env) (h : heap) : Prop := {
  a_env : r = items P (s_vars st);
  a_names : NoDup (map fst (s_vars st));
  a_unshadowed : unshadowed (map fst (s_vars st));
  a_items : Forall (fun v => ok_item (List.length (s_tracks st)) (snd v)) (s_vars st);
  a_holds : holds (s_tracks st) P h;
  a_draws : h_calls h = s_draws st
}.
(** What a program may do to the heap, and to the tracks that nothing was added to. *)
Record grows (P : list (nat * nat)) (h : heap) (T : list nat) (P' : list (nat * nat)) (h' : heap) : Prop := {
  g_same : forall i a b, nth_error P i = Some (a, b) -> exists b', nth_error P' i = Some (a, b') /\ (b' = b \/ In i T);
  g_new : forall p, In p (places P') -> In p (places P) \/ get h p = None;
  g_kept : forall p o, ~ In p (places P) -> get h p = Some o -> get h' p = Some o
}.
Definition settles (sort : sort_fn) (T : list nat) (ts ts' : list track) : Prop :=
  forall i t, nth_error ts i = Some t -> exists t', nth_error ts' i = Some t' /\ (In i T \/ t' = t \/ t' = fst (track_iter sort t)).

Lemma in_places P p : In p (places P) <-> exists i a b, nth_error P i = Some (a, b) /\ (p = a \/ p = b).
Proof.
  unfold places. rewrite in_flat_map. split.
  - intros ([a b] & I & E). apply In_nth_error in I. destruct I as [i I]. exists i, a, b. split; [exact I|]. destruct E as [<-|[<-|[]]]; auto.
  - intros (i & a & b & I & E). exists (a, b). split; [eapply nth_error_In; exact I|]. cbn. destruct E as [-> | ->]; auto.
Qed.
Lemma holds_place ts P h i a b : holds ts P h -> nth_error P i = Some (a, b) -> exists t, nth_error ts i = Some t /\ track_at h a b t /\ sound t.
Proof.
  intros H E. destruct (nth_error ts i) as [t|] eqn:F.
  - exists t. split; [reflexivity|]. eapply h_at; eassumption.
  - exfalso. apply nth_error_None in F. rewrite <- (h_length _ _ _ H) in F. apply nth_error_None in F. congruence.
Qed.
Lemma holds_track ts P h i t : holds ts P h -> nth_error ts i = Some t -> exists a b, nth_error P i = Some (a, b) /\ track_at h a b t /\ sound t.
Proof.
  intros H E. destruct (nth_error P i) as [[a b]|] eqn:F.
  - exists a, b. split; [reflexivity|]. eapply h_at; eassumption.
  - exfalso. apply nth_error_None in F. rewrite (h_length _ _ _ H) in F. apply nth_error_None in F. congruence.
Qed.
Lemma holds_get ts P h p : holds ts P h -> In p (places P) -> get h p <> None.
Proof.
  intros H I. apply in_places in I. destruct I as (i & a & b & E & X). destruct (holds_place _ _ _ _ _ _ H E) as (t & _ & [A B] & _).
  destruct X as [-> | ->]; congruence.
Qed.
(** The place of a track is not that of a list. *)
Lemma kinds ts P h i j a b c d : holds ts P h -> nth_error P i = Some (a, b) -> nth_error P j = Some (c, d) -> a <> d.
Proof.
  intros H E F ->. destruct (holds_place _ _ _ _ _ _ H E) as (t & _ & [A _] & _). destruct (holds_place _ _ _ _ _ _ H F) as (u & _ & [_ B] & _).
  unfold enc_track in A. congruence.
Qed.
Lemma others ts P h i j a b c d : holds ts P h -> i <> j -> nth_error P i = Some (a, b) -> nth_error P j = Some (c, d) -> ~ In c [a; b] /\ ~ In d [a; b].
Proof.
  intros H N E F. destruct (h_apart _ _ _ H _ _ _ _ _ _ N E F) as [A B]. pose proof (kinds _ _ _ _ _ _ _ _ _ H E F). pose proof (kinds _ _ _ _ _ _ _ _ _ H F E).
  split; intros [X|[X|[]]]; congruence.
Qed.
(** Some tracks change, the places stay. *)
Lemma holds_update ts P h ts' h' L : holds ts P h -> List.length ts' = List.length ts ->
  (forall p o, ~ In p L -> get h p = Some o -> get h' p = Some o) ->
  (forall i t' a b, nth_error ts' i = Some t' -> nth_error P i = Some (a, b) ->
     (nth_error ts i = Some t' /\ ~ In a L /\ ~ In b L) \/ (track_at h' a b t' /\ sound t')) ->
  holds ts' P h'.
Proof.
  intros H LE KP C. split.
  - rewrite LE. apply H.
  - intros i t' a b E F. destruct (C i t' a b E F) as [(G & A & B)|R]; [|exact R]. destruct (h_at _ _ _ H _ _ _ _ G F) as [[X1 X2] S].
    split; [split; apply KP; assumption|exact S].
  - apply H.
Qed.
Lemma nth_set {A} (l : list A) i x k y : nth_error (set_nth l i x) k = Some y -> (k = i /\ y = x) \/ (k <> i /\ nth_error l k = Some y).
Proof.
  destruct (Nat.eq_dec k i) as [->|N].
  - intros E. left. split; [reflexivity|]. destruct (nth_error l i) as [w|] eqn:F.
    + rewrite (set_nth_same _ _ _ _ F) in E. congruence.
    + exfalso. apply nth_error_None in F. revert l i F E. induction l as [|z l IH]; intros [|i] F E; try discriminate; cbn in *; [lia|]. apply (IH i); [lia|exact E].
  - rewrite set_nth_other by exact N. auto.
Qed.
Lemma set_length {A} (l : list A) i x : List.length (set_nth l i x) = List.length l.
Proof. revert i. induction l as [|y l IH]; intros [|i]; cbn; auto. Qed.
Lemma holds_set ts P h i a b t' h' : holds ts P h -> nth_error P i = Some (a, b) ->
  (forall p o, ~ In p [a; b] -> get h p = Some o -> get h' p = Some o) -> track_at h' a b t' -> sound t' ->
  holds (set_nth ts i t') P h'.
Proof.
  intros H E KP T S. apply (holds_update ts P h _ h' [a; b] H (set_length _ _ _) KP).
  intros k u c d F G. apply nth_set in F. destruct F as [[-> ->]|[N F]].
  - right. rewrite E in G. injection G as <- <-. auto.
  - left. split; [exact F|]. apply (others ts P h i k a b c d H); auto.
Qed.
(** A track gets a new list. *)
Lemma holds_move ts P h i a b b' t' h' : holds ts P h -> nth_error P i = Some (a, b) ->
  (forall p o, ~ In p [a; b] -> get h p = Some o -> get h' p = Some o) -> track_at h' a b' t' -> sound t' -> b' = b \/ get h b' = None ->
  holds (set_nth ts i t') (set_nth P i (a, b')) h'.
Proof.
  intros H E KP T S [->|F].
  { assert (X : set_nth P i (a, b) = P).
    { clear - E. revert i E. induction P as [|p P IH]; intros [|i] E; try discriminate; cbn in *; [congruence|]. rewrite IH; auto. }
    rewrite X. eapply holds_set; eassumption. }
  assert (NB : ~ In b' (places P)) by (intros I; exact (holds_get _ _ _ _ H I F)).
  split.
  - rewrite !set_length. apply H.
  - intros k u c d G1 G2. apply nth_set in G1, G2. destruct G1 as [[-> ->]|[N G1]], G2 as [[M G2]|[M G2]]; try congruence.
    + injection G2 as <- <-. auto.
    + destruct (h_at _ _ _ H _ _ _ _ G1 G2) as [[X1 X2] SU]. destruct (others ts P h i k a b c d H) as [O1 O2]; auto.
      split; [split; apply KP; assumption|exact SU].
  - intros k l c d e f N G1 G2. apply nth_set in G1, G2. destruct G1 as [[-> G1]|[M1 G1]], G2 as [[-> G2]|[M2 G2]]; try congruence.
    + injection G1 as <- <-. split; [exact (proj1 (h_apart _ _ _ H i l _ _ _ _ N E G2))|]. intros X. apply NB, in_places. exists l, e, f. auto.
    + injection G2 as <- <-. split; [exact (proj1 (h_apart _ _ _ H k i _ _ _ _ N G1 E))|]. intros X. apply NB, in_places. exists k, c, d. auto.
    + exact (h_apart _ _ _ H k l _ _ _ _ N G1 G2).
Qed.
Lemma nth_last {A} (l : list A) x k y : nth_error (l ++ [x]) k = Some y -> nth_error l k = Some y \/ (k = List.length l /\ y = x).
Proof.
  intros E. destruct (Nat.lt_ge_cases k (List.length l)) as [L|L].
  - rewrite nth_error_app1 in E by exact L. auto.
  - rewrite nth_error_app2 in E by exact L. right. destruct (k - List.length l)%nat as [|m] eqn:M.
    + cbn in E. split; [lia|congruence].
    + destruct m; discriminate.
Qed.
Lemma nth_first {A} (l m : list A) k y : nth_error l k = Some y -> nth_error (l ++ m) k = Some y.
Proof. intros E. rewrite nth_error_app1; [exact E|]. apply nth_error_Some. congruence. Qed.
(** A new track. *)
Lemma holds_push ts P h c d t : holds ts P h -> track_at h c d t -> sound t -> ~ In c (places P) -> ~ In d (places P) ->
  holds (ts ++ [t]) (P ++ [(c, d)]) h.
Proof.
  intros H T S NC ND. pose proof (h_length _ _ _ H) as L. split.
  - rewrite !app_length. cbn. lia.
  - intros k u a b E F. apply nth_last in E, F. destruct E as [E|[-> ->]], F as [F|[KE F]].
    + exact (h_at _ _ _ H _ _ _ _ E F).
    + exfalso. assert (X : nth_error ts k <> None) by congruence. apply nth_error_Some in X. lia.
    + exfalso. assert (X : nth_error P (List.length ts) <> None) by congruence. apply nth_error_Some in X. lia.
    + injection F as -> ->. auto.
  - intros k l a b e f N E F. apply nth_last in E, F. destruct E as [E|[-> E]], F as [F|[-> F]].
    + exact (h_apart _ _ _ H _ _ _ _ _ _ N E F).
    + injection F as -> ->. split; intros X; [apply NC|apply ND]; apply in_places; exists k, a, b; auto.
    + injection E as -> ->. split; intros X; [apply NC|apply ND]; apply in_places; exists l, e, f; auto.
    + congruence.
Qed.

(** ** Growth *)
Lemma grows_refl P h T : grows P h T P h.
Proof. split; eauto. Qed.
Lemma grows_trans P h T P1 h1 T1 P2 h2 : grows P h T P1 h1 -> grows P1 h1 T1 P2 h2 -> grows P h (T ++ T1) P2 h2.
Proof.
  intros [A1 A2 A3] [B1 B2 B3]. split.
  - intros i a b E. destruct (A1 i a b E) as (b1 & E1 & C1). destruct (B1 i a b1 E1) as (b2 & E2 & C2). exists b2. split; [exact E2|].
    rewrite in_app_iff. destruct C1 as [->|C1]; [|auto]. destruct C2 as [->|C2]; auto.
  - intros p I. destruct (B2 p I) as [I1|N]; [apply A2, I1|].
    destruct (in_dec Nat.eq_dec p (places P)) as [I0|NI]; [auto|]. right. destruct (get h p) as [o|] eqn:G; [|reflexivity].
    rewrite (A3 p o NI G) in N. discriminate.
  - intros p o NI G. apply B3; [|exact (A3 p o NI G)]. intros I1. destruct (A2 p I1) as [I0|N]; [exact (NI I0)|congruence].
Qed.
Lemma settles_refl sort T ts : settles sort T ts ts.
Proof. intros i t E. eauto. Qed.
Lemma settles_trans sort T1 T2 a b c : settles sort T1 a b -> settles sort T2 b c -> settles sort (T1 ++ T2) a c.
Proof.
  intros A B i t E. destruct (A i t E) as (t1 & E1 & C1). destruct (B i t1 E1) as (t2 & E2 & C2). exists t2. split; [exact E2|].
  rewrite in_app_iff. destruct C1 as [C1|[->| ->]]; [auto|tauto|]. destruct C2 as [C2|[->| ->]]; [auto|auto|]. rewrite iter_twice. auto.
Qed.
Lemma settles_set sort T ts i t t' : nth_error ts i = Some t -> In i T \/ t' = t \/ t' = fst (track_iter sort t) -> settles sort T ts (set_nth ts i t').
Proof.
  intros E C k u F. destruct (Nat.eq_dec k i) as [->|N].
  - exists t'. split; [eapply set_nth_same; exact E|]. rewrite E in F. injection F as <-. exact C.
  - exists u. rewrite set_nth_other by exact N. auto.
Qed.
Lemma settles_push sort T ts t : settles sort T ts (ts ++ [t]).
Proof. intros i u E. exists u. split; [apply nth_first, E|auto]. Qed.
Lemma grows_in P h L h' : (forall p o, ~ In p L -> get h p = Some o -> get h' p = Some o) -> (forall p, In p L -> In p (places P)) -> grows P h [] P h'.
Proof. intros K S. split; [intros i a b E; eauto|auto|]. intros p o N G. apply K; auto. Qed.
Lemma grows_push P h P' h' c d : P' = P ++ [(c, d)] -> get h c = None -> get h d = None -> grows P h [] P h' -> grows P h [] P' h'.
Proof.
  intros -> C D [A1 A2 A3]. split; [|intros p I|exact A3].
  - intros i a b E. destruct (A1 i a b E) as (b' & E1 & F). exists b'. split; [apply nth_first, E1|exact F].
  - unfold places in *. rewrite flat_map_app in I. apply in_app_or in I. destruct I as [I|[<-|[<-|[]]]]; auto.
Qed.
Lemma grows_move P h i a b b' h' : nth_error P i = Some (a, b) -> (forall p o, ~ In p [a; b] -> get h p = Some o -> get h' p = Some o) ->
  b' = b \/ get h b' = None -> grows P h [i] (set_nth P i (a, b')) h'.
Proof.
  intros E K F. split.
  - intros k c d G. destruct (Nat.eq_dec k i) as [->|N].
    + rewrite E in G. injection G as <- <-. exists b'. split; [eapply set_nth_same; exact E|right; left; reflexivity].
    + exists d. rewrite set_nth_other by exact N. auto.
  - intros p I. apply in_places in I. destruct I as (k & c & d & G & X). apply nth_set in G. destruct G as [[-> G]|[N G]].
    + injection G as -> ->. destruct X as [-> | ->]; [left; apply in_places; eauto 8|]. destruct F as [->|F]; [left; apply in_places; eauto 8|auto].
    + left. apply in_places. eauto 8.
  - intros p o N G. apply K; [|exact G]. intros [<-|[<-|[]]]; apply N, in_places; eauto 8.
Qed.

(** ** Variables *)
Lemma assoc_items P vars x : assoc x (items P vars) = match assoc x vars with Some v => Some (enc_item P v) | None => None end.
Proof. induction vars as [|[y v] vars IH]; [reflexivity|]. cbn. destruct (x =? y)%string; [reflexivity|exact IH]. Qed.
Lemma item_plain P v : plain_value (enc_item P v) = true.
Proof. destruct v as [o|i]; [apply obj_plain|reflexivity]. Qed.
Lemma set_items P x v vars : set_var x (enc_item P v) (items P vars) = items P (set_var x v vars).
Proof. induction vars as [|[y w] vars IH]; [reflexivity|]. cbn. destruct (x =? y)%string; [reflexivity|]. unfold items in IH. cbn. rewrite IH. reflexivity. Qed.
Lemma assign_items P x v vars h : assign_name x (enc_item P v) (items P vars) h = (items P (set_var x v vars), h).
Proof.
  unfold assign_name. rewrite assoc_items, set_items. destruct (assoc x vars) as [w|]; [|reflexivity]. destruct w as [o|i]; [destruct o|]; reflexivity.
Qed.
Lemma set_names {A} x (v : A) l : In x (map fst l) \/ ~ In x (map fst l) ->
  (In x (map fst l) -> map fst (set_var x v l) = map fst l) /\ (~ In x (map fst l) -> map fst (set_var x v l) = map fst l ++ [x]).
Proof.
  intros _. induction l as [|[y w] l [IH1 IH2]]; [split; [intros []|reflexivity]|]. cbn. destruct (String.eqb_spec x y) as [->|N]; cbn; (split; [intros I|intros I]).
  - reflexivity.
  - exfalso. auto.
  - f_equal. apply IH1. destruct I; [congruence|assumption].
  - f_equal. apply IH2. auto.
Qed.
Lemma set_var_names {A} x (v : A) l : NoDup (map fst l) -> NoDup (map fst (set_var x v l)).
Proof.
  intros N. destruct (set_names x v l) as [A1 A2]; [destruct (in_dec string_dec x (map fst l)); auto|]. destruct (in_dec string_dec x (map fst l)) as [I|I].
  - rewrite A1 by exact I. exact N.
  - rewrite A2 by exact I. apply (Permutation_NoDup (Permutation_cons_append _ x)). constructor; assumption.
Qed.

Lemma set_var_forall {A} (R : string * A -> Prop) x v l : Forall R l -> R (x, v) -> Forall R (set_var x v l).
Proof.
  intros F V. induction F as [|[y w] l H F IH]; [constructor; [exact V|constructor]|]. cbn. destruct (String.eqb_spec x y) as [<-|]; constructor; assumption.
Qed.
Lemma assoc_values vars x o : NoDup (map fst vars) -> assoc x (values vars) = Some o -> assoc x vars = Some (Val o).
Proof.
  induction vars as [|[y v] vars IH]; [discriminate|]. intros N. inversion N as [|? ? N1 N2]; subst. cbn in N1. destruct v as [o'|i]; cbn.
  - destruct (x =? y)%string; [intros [= ->]; reflexivity|apply IH, N2].
  - intros A. specialize (IH N2 A). destruct (String.eqb_spec x y) as [->|]; [|exact IH]. exfalso. apply assoc_in in IH. apply N1.
    change y with (fst (y, Val o)). apply in_map, IH.
Qed.
Lemma values_valid n vars : Forall (fun v => ok_item n (snd v)) vars -> Forall (fun v => valid_obj (snd v)) (values vars).
Proof. induction 1 as [|[y [o|i]] vars V F IH]; [constructor|constructor; [exact V|exact IH]|exact IH]. Qed.

(** ** Sound tracks *)
Lemma sound_valid t : sound t -> valid_track t.
Proof. intros [[l I] S]. eapply inv_valid; [exact I|apply valid_sig_good, S]. Qed.
Lemma sound_good t : sound t -> good_track t.
Proof. intros S. apply valid_track_good, sound_valid, S. Qed.
Lemma sound_new sa t : (forall s, sa = SA_sig s -> valid_sig s) -> track_new sa [] = Ok t -> sound t.
Proof.
  intros V E. unfold track_new in E. destruct (sig_of_arg sa) as [s|] eqn:S; cbn in E; [|discriminate]. injection E as <-.
  split; [exists []; apply inv_empty|]. cbn. unfold sig_of_arg in S. destruct sa as [s'|l|]; [injection S as <-; auto| |discriminate].
  unfold sig_star in S. destruct l as [|[x|] [|[y|] [|? ?]]]; try discriminate; [eapply sig_new_valid; exact S|]. destruct (x >=? 0); discriminate.
Qed.
Lemma sound_iter sort t : sort_contract sort -> sound t -> sound (fst (track_iter sort t)).
Proof. intros C [[l I] S]. destruct (track_iter_inv sort C t l I) as (I' & E & _). split; [exists l; exact I'|]. rewrite E. exact S. Qed.
Lemma sound_add t w a : sound t -> op_ok (OAdd w a) -> sound (fst (track_add t w a)).
Proof. intros [[l I] S] O. destruct (track_add_inv t l w a I O) as (I' & E & _). split; [eexists; exact I'|]. rewrite E. exact S. Qed.
Lemma max_signature_valid ts : Forall (fun t => valid_sig (t_signature t)) ts -> valid_sig (max_signature ts).
Proof.
  intros F. change (max_signature ts) with (fold_left take_max ts (mkSig 0 1)). destruct (max_some ts (mkSig 0 1)) as (s & I & ->).
  destruct I as [<-|I]; [split; [cbn; lia|exists 0; split; [lia|reflexivity]]|]. apply in_map_iff in I. destruct I as (t & <- & I).
  apply (proj1 (Forall_forall _ _) F t I).
Qed.
Lemma sound_load sort m file ch t : sort_contract sort -> Forall is_byte file -> load sort m file ch = Ok t -> sound t.
Proof.
  intros C B E. destruct (load_cases sort m file C B) as [[e X]|(q & evs & _ & V & _ & G)]; [congruence|].
  destruct ch as [c|].
  - destruct G as (G1 & G2 & _). destruct (in_dec Z.eq_dec c (chans evs)) as [I|NI]; [|rewrite (G2 c NI) in E; discriminate].
    destruct (G1 c I) as (L & I1 & S). rewrite L in E. injection E as <-. split; [eexists; exact I1|]. rewrite S. apply chan_sig_valid, V.
  - destruct (good_merged _ _ _ _ _ C G) as (t' & L & S & I1 & _). rewrite L in E. injection E as <-. split; [exact I1|]. rewrite S.
    apply max_signature_valid, Forall_map, Forall_forall. intros c I. destruct G as (G1 & _). rewrite (proj2 (proj2 (G1 c I))). apply chan_sig_valid, V.
Qed.
Lemma sound_randomize sort t mn mx me va draws : sort_contract sort -> sound t ->
  is_float mn = true -> is_float mx = true -> is_float me = true -> is_float va = true -> (forall i, is_float (draws i) = true) ->
  let o := randomize_velocities sort t mn mx me va draws in
  (fst o = t \/ fst o = fst (track_iter sort t)) /\ forall t', snd o = Ok t' -> sound t'.
Proof.
  intros C [[l I] S] F1 F2 F3 F4 D o.
  destruct (in_unit mn) eqn:E1; [|unfold o, randomize_velocities; rewrite E1; cbn; split; [auto|discriminate]].
  destruct (in_unit mx) eqn:E2; [|unfold o, randomize_velocities; rewrite E1, E2; cbn; split; [auto|discriminate]].
  destruct (in_unit me) eqn:E3; [|unfold o, randomize_velocities; rewrite E1, E2, E3; cbn; split; [auto|discriminate]].
  destruct (fle f_zero va) eqn:E4; [|unfold o, randomize_velocities; rewrite E1, E2, E3, E4; cbn; split; [auto|discriminate]].
  apply in_unit_spec in E1, E2, E3; try assumption. apply variance_spec in E4; [|assumption].
  unfold o. rewrite (randomize_ok sort t l mn mx me va draws C I E1 E2 E3 F4 E4 D). cbn [fst snd]. split; [auto|]. intros t' [= <-].
  destruct (LoadFacts.adds_empty (t_signature t) _ (revoiced_ok mn mx draws E1 E2 D _ 0%nat (yields_entry_ok sort t l C I))) as [I' S'].
  split; [eexists; exact I'|]. rewrite S'. exact S.
Qed.
Lemma dumped_track Y t bpm k : d_track (module_dump Y t bpm k) = t \/ d_track (module_dump Y t bpm k) = fst (track_iter (py_sort Y) t).
Proof. unfold module_dump. destruct (writer_new _ _ _ _ _) as [w|e]; [right; apply dump_track|left; reflexivity]. Qed.
Lemma repr_track nd sort t : fst (track_repr nd sort t) = fst (track_iter sort t).
Proof. unfold track_repr. destruct (track_iter sort t). reflexivity. Qed.
Lemma eq_tracks sort t u r t' u' : track_eq sort t u = (r, t', u') ->
  (t' = t \/ t' = fst (track_iter sort t)) /\ (u' = u \/ u' = fst (track_iter sort u)).
Proof.
  unfold track_eq. destruct (track_iter sort t), (track_iter sort u). destruct (negb _); intros [= <- <- <-]; auto.
Qed.
Lemma sound_either sort t t' : sort_contract sort -> sound t -> t' = t \/ t' = fst (track_iter sort t) -> sound t'.
Proof. intros C S [->| ->]; [exact S|apply sound_iter; assumption]. Qed.
Lemma bytes_all b : all_bytes b = true -> Forall is_byte b.
Proof. unfold all_bytes. rewrite forallb_forall. intros F. apply Forall_forall. intros x I. specialize (F x I). unfold is_byte. lia. Qed.
