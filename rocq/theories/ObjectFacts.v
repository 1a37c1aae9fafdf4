(** Track objects in a store behave like the values of Track.v: every operation changes one object
    the way the function on values does, and no other object. *)
From Coq Require Import ZArith List Bool Lia.
From Verif Require Import Py PyFloat PySort Signature Tone Note Track Processing TrackObjects.
Import ListNotations.
Open Scope nat_scope.

(** The object as a value. *)
Definition view (st : store) (i : nat) : track :=
  let o := the_track st i in
  mkTrack (o_signature o) (o_max_denominator o) (o_max_position o) (the_list st (o_heap o)) (o_sorted o).

Definition is_obj (st : store) (i : nat) : Prop := i < length (st_tracks st).

(** Every object has a list of its own. *)
Definition wf (st : store) : Prop :=
  (forall i, is_obj st i -> o_heap (the_track st i) < length (st_lists st)) /\
  (forall i j, is_obj st i -> is_obj st j -> i <> j -> o_heap (the_track st i) <> o_heap (the_track st j)).

Record upd (st st' : store) (i : nat) (t' : track) : Prop := {
  u_wf : wf st';
  u_n : length (st_tracks st') = length (st_tracks st);
  u_len : length (st_lists st) <= length (st_lists st');
  u_view : view st' i = t';
  u_other : forall j, j <> i -> the_track st' j = the_track st j;
  u_lists : forall r, r < length (st_lists st) -> r <> o_heap (the_track st i) -> the_list st' r = the_list st r;
  u_heap : o_heap (the_track st' i) = o_heap (the_track st i) \/ length (st_lists st) <= o_heap (the_track st' i)
}.

Lemma put_at_length {A} (l : list A) : forall i x, length (put_at l i x) = length l.
Proof. induction l as [|y l IH]; intros [|i] x; cbn; auto. Qed.
Lemma put_at_same {A} (l : list A) d : forall i x, i < length l -> nth i (put_at l i x) d = x.
Proof. induction l as [|y l IH]; intros [|i] x H; cbn in *; try lia; auto. apply IH. lia. Qed.
Lemma put_at_other {A} (l : list A) d : forall i j x, i <> j -> nth j (put_at l i x) d = nth j l d.
Proof. induction l as [|y l IH]; intros [|i] [|j] x H; cbn in *; try lia; auto. Qed.

Lemma upd_refl st i : wf st -> upd st st i (view st i).
Proof. intros H. constructor; auto. Qed.

Lemma upd_trans st st' st'' i t' t'' : upd st st' i t' -> upd st' st'' i t'' -> upd st st'' i t''.
Proof.
  intros [A1 A2 A3 A4 A5 A6 A7] [B1 B2 B3 B4 B5 B6 B7]. constructor; try assumption; try lia.
  - intros j Hj. rewrite B5, A5 by exact Hj. reflexivity.
  - intros r Hr Hn. rewrite B6, A6; [reflexivity|exact Hr|exact Hn|lia|]. destruct A7 as [E|E]; [rewrite E; exact Hn|lia].
Qed.

(** Other fields of the object are assigned. *)
Lemma upd_set_track st i o : wf st -> is_obj st i -> o_heap o = o_heap (the_track st i) ->
  upd st (set_track st i o) i (mkTrack (o_signature o) (o_max_denominator o) (o_max_position o) (the_list st (o_heap o)) (o_sorted o)).
Proof.
  intros [W1 W2] Hi Ho.
  assert (HT : forall j, the_track (set_track st i o) j = if Nat.eq_dec j i then o else the_track st j).
  { intros j. unfold the_track, set_track. cbn [st_tracks]. destruct (Nat.eq_dec j i) as [->|Hn]; [apply put_at_same, Hi|apply put_at_other; auto]. }
  assert (HO : forall j, is_obj (set_track st i o) j <-> is_obj st j) by (intros j; unfold is_obj, set_track; cbn; rewrite put_at_length; reflexivity).
  assert (HH : forall j, o_heap (the_track (set_track st i o) j) = o_heap (the_track st j)).
  { intros j. rewrite HT. destruct (Nat.eq_dec j i) as [->|_]; [exact Ho|reflexivity]. }
  constructor.
  - split; [intros j Hj|intros j k Hj Hk Hn]; rewrite ?HH; rewrite HO in *; auto.
  - unfold set_track. cbn. apply put_at_length.
  - reflexivity.
  - unfold view. rewrite HT. destruct (Nat.eq_dec i i); [reflexivity|congruence].
  - intros j Hj. rewrite HT. destruct (Nat.eq_dec j i); [congruence|reflexivity].
  - reflexivity.
  - left. apply HH.
Qed.

(** The list of the object is changed in place. *)
Lemma upd_set_list st i l : wf st -> is_obj st i -> upd st (set_list st (o_heap (the_track st i)) l) i (set_heap (view st i) l (o_sorted (the_track st i))).
Proof.
  intros [W1 W2] Hi. pose proof (W1 i Hi) as Hr. set (r := o_heap (the_track st i)) in *.
  constructor.
  - split; [intros j Hj; unfold set_list; cbn [st_lists]; rewrite put_at_length; apply W1, Hj|exact W2].
  - reflexivity.
  - unfold set_list. cbn [st_lists]. rewrite put_at_length. lia.
  - unfold view, set_heap. cbn [t_signature t_max_denominator t_max_position].
    change (the_track (set_list st r l) i) with (the_track st i). fold r. f_equal.
    unfold the_list, set_list. cbn [st_lists]. apply put_at_same, Hr.
  - reflexivity.
  - intros k Hk Hn. unfold the_list, set_list. cbn [st_lists]. apply put_at_other. auto.
  - left. reflexivity.
Qed.

(** The object gets a new list. *)
Lemma upd_new_list st i l o : wf st -> is_obj st i -> o_heap o = length (st_lists st) ->
  upd st (set_track (fst (new_list st l)) i o) i (mkTrack (o_signature o) (o_max_denominator o) (o_max_position o) l (o_sorted o)).
Proof.
  intros [W1 W2] Hi Ho. cbn [new_list fst]. set (st1 := mkStore (st_lists st ++ [l]) (st_tracks st)).
  assert (HT : forall j, the_track (set_track st1 i o) j = if Nat.eq_dec j i then o else the_track st j).
  { intros j. unfold the_track, set_track. cbn [st_tracks]. destruct (Nat.eq_dec j i) as [->|Hn]; [apply put_at_same, Hi|apply put_at_other; auto]. }
  assert (HO : forall j, is_obj (set_track st1 i o) j <-> is_obj st j) by (intros j; unfold is_obj, set_track; cbn; rewrite put_at_length; reflexivity).
  assert (HL : length (st_lists (set_track st1 i o)) = S (length (st_lists st))) by (cbn; rewrite app_length; cbn; lia).
  constructor.
  - split.
    + intros j Hj. apply HO in Hj. rewrite HL, HT. destruct (Nat.eq_dec j i); [lia|]. specialize (W1 j Hj). lia.
    + intros j k Hj Hk Hn. apply HO in Hj. apply HO in Hk. rewrite !HT. pose proof (W1 j Hj). pose proof (W1 k Hk).
      destruct (Nat.eq_dec j i); destruct (Nat.eq_dec k i); try lia. apply W2; assumption.
  - unfold set_track, st1. cbn. apply put_at_length.
  - rewrite HL. lia.
  - unfold view. rewrite HT. destruct (Nat.eq_dec i i); [|congruence]. f_equal. rewrite Ho. unfold the_list. cbn.
    rewrite app_nth2, Nat.sub_diag by lia. reflexivity.
  - intros j Hj. rewrite HT. destruct (Nat.eq_dec j i); [congruence|reflexivity].
  - intros r Hr _. unfold the_list. cbn. apply app_nth1, Hr.
  - right. rewrite HT. destruct (Nat.eq_dec i i); [lia|congruence].
Qed.

Lemma upd_obj st st' i t' j : upd st st' i t' -> is_obj st j -> is_obj st' j.
Proof. intros H. unfold is_obj. rewrite (u_n _ _ _ _ H). auto. Qed.

Lemma view_fields st i t : view st i = t -> o_signature (the_track st i) = t_signature t /\ o_max_denominator (the_track st i) = t_max_denominator t /\
  o_max_position (the_track st i) = t_max_position t /\ the_list st (o_heap (the_track st i)) = t_heap t /\ o_sorted (the_track st i) = t_sorted t.
Proof. intros <-. auto. Qed.

(** ** Operations *)
Definition simulates {A} (st : store) (i : nat) (x : store * res A) (y : track * res A) : Prop :=
  upd st (fst x) i (fst y) /\ snd x = snd y.

Lemma add_note_simulates st i n p : wf st -> is_obj st i -> simulates st i (obj_add_note st i n p) (add_note (view st i) n p).
Proof.
  intros W Hi. unfold obj_add_note, add_note.
  match goal with |- simulates _ _ (match ?X with (_, _) => _ end) (match ?Y with (_, _) => _ end) => set (A := X); set (B := Y) end.
  assert (HA : simulates st i A B).
  { unfold A, B. change (t_max_denominator (view st i)) with (o_max_denominator (the_track st i)).
    destruct (denominator p >? o_max_denominator (the_track st i))%Z; [|split; [apply upd_refl, W|reflexivity]].
    set (o := the_track st i). set (o1 := mkObj (o_signature o) (denominator p) (o_max_position o) (o_heap o) (o_sorted o)).
    pose proof (upd_set_track st i o1 W Hi eq_refl) as U1. set (st1 := set_track st i o1) in *.
    assert (E1 : the_track st1 i = o1) by (unfold the_track, st1, set_track; cbn; apply put_at_same, Hi). rewrite E1.
    cbn [o_max_denominator o1 o_heap set_max_denominator t_max_denominator t_heap view].
    change (the_list st1 (o_heap o)) with (the_list st (o_heap o)).
    fold o. destruct (map_res _ (the_list st (o_heap o))) as [h|e]; [|split; [exact U1|reflexivity]].
    cbn [new_list]. split; [|reflexivity]. cbn [fst]. eapply upd_trans; [exact U1|].
    pose proof (upd_new_list st1 i h (mkObj (o_signature o1) (o_max_denominator o1) (o_max_position o1) (length (st_lists st1)) (o_sorted o1))
      (u_wf _ _ _ _ U1) (upd_obj _ _ _ _ _ U1 Hi) eq_refl) as U2. exact U2. }
  clearbody A B. destruct A as [st1 r1], B as [t1 r1']. destruct HA as [U1 E1]. cbn [fst snd] in *. subst r1'.
  destruct r1 as [[]|e]; [|split; [exact U1|reflexivity]].
  destruct (view_fields _ _ _ (u_view _ _ _ _ U1)) as (F1 & F2 & F3 & F4 & F5). rewrite F2.
  destruct (sig_to p (t_max_denominator t1)) as [q|e]; [|split; [exact U1|reflexivity]].
  pose proof (upd_obj _ _ _ _ _ U1 Hi) as Hi1.
  set (r := o_heap (the_track st1 i)) in *. rewrite F4. set (h := heappush _ _ _).
  pose proof (upd_set_list st1 i h (u_wf _ _ _ _ U1) Hi1) as U2. fold r in U2. set (st2 := set_list st1 r h) in *.
  assert (Hi2 : is_obj st2 i) by exact Hi1. change (the_track st2 i) with (the_track st1 i).
  set (o := the_track st1 i) in *. set (o3 := mkObj (o_signature o) (o_max_denominator o) (o_max_position o) (o_heap o) false).
  pose proof (upd_set_track st2 i o3 (u_wf _ _ _ _ U2) Hi2 eq_refl) as U3. set (st3 := set_track st2 i o3) in *.
  assert (E3 : the_track st3 i = o3) by (unfold the_track, st3, set_track; cbn; apply put_at_same, Hi1).
  pose proof (upd_trans _ _ _ _ _ _ U1 (upd_trans _ _ _ _ _ _ U2 U3)) as U13.
  assert (EL : the_list st2 (o_heap o) = h).
  { unfold the_list, st2, set_list. cbn. apply put_at_same. apply (proj1 (u_wf _ _ _ _ U1) i Hi1). }
  assert (EV : mkTrack (o_signature o3) (o_max_denominator o3) (o_max_position o3) (the_list st2 (o_heap o3)) (o_sorted o3) = set_heap t1 h false).
  { unfold set_heap, o3. cbn [o_signature o_max_denominator o_max_position o_heap o_sorted t_signature t_max_denominator t_max_position t_heap t_sorted]. rewrite EL, F1, F2, F3. reflexivity. }
  rewrite EV in U13, U3. rewrite E3.
  destruct (sig_add q (n_duration n)) as [x|e]; [|split; [exact U13|reflexivity]].
  cbn [set_heap t_max_position o_max_position o3]. rewrite F3. destruct (sig_gt x (t_max_position t1)); [|split; [exact U13|reflexivity]].
  split; [|reflexivity]. cbn [fst]. eapply upd_trans; [exact U13|].
  pose proof (upd_set_track st3 i (mkObj (o_signature o3) (o_max_denominator o3) x (o_heap o3) (o_sorted o3)) (u_wf _ _ _ _ U3)
    ltac:(unfold is_obj; rewrite (u_n _ _ _ _ U3); exact Hi2) ltac:(rewrite E3; reflexivity)) as U4.
  assert (E4 : mkTrack (o_signature o) (o_max_denominator o) x (the_list st2 (o_heap o)) false = set_max_position (set_heap t1 h false) x).
  { unfold set_max_position, set_heap. cbn [o_signature o_max_denominator o_max_position o_heap o_sorted t_signature t_max_denominator t_max_position t_heap t_sorted]. rewrite EL, F1, F2. reflexivity. }
  rewrite <- E4. exact U4.
Qed.

Lemma view_other st st' i t' j : wf st -> upd st st' i t' -> is_obj st i -> is_obj st j -> j <> i -> view st' j = view st j.
Proof.
  intros [W1 W2] U Hi Hj Hn. unfold view. rewrite (u_other _ _ _ _ U j Hn). f_equal. apply (u_lists _ _ _ _ U); [apply W1, Hj|apply W2; assumption].
Qed.

(** Whatever succeeds in the one succeeds in the other, step by step. *)
Lemma add_at_simulates : forall w p st i, wf st -> is_obj st i -> simulates st i (obj_add_at w p i st) (add_at w p (view st i)).
Proof.
  fix IH 1. intros [n|l] p st i W Hi; [apply add_note_simulates; assumption|]. cbn [obj_add_at add_at].
  revert st W Hi. induction l as [|x r IHr]; intros st W Hi; [split; [apply upd_refl, W|reflexivity]|].
  pose proof (IH x p st i W Hi) as [U E]. destruct (obj_add_at x p i st) as [st1 r1]. destruct (add_at x p (view st i)) as [t1 r1'].
  cbn [fst snd] in U, E. subst r1'. destruct r1 as [[]|e]; [|split; [exact U|reflexivity]].
  pose proof (IHr st1 (u_wf _ _ _ _ U) (upd_obj _ _ _ _ _ U Hi)) as [U2 E2]. rewrite (u_view _ _ _ _ U) in U2, E2.
  split; [eapply upd_trans; eassumption|exact E2].
Qed.

Lemma add_simulates st i w p : wf st -> is_obj st i -> simulates st i (obj_add st i w p) (track_add (view st i) w p).
Proof.
  intros W Hi. unfold obj_add, track_add. cbn [view t_max_position].
  destruct (match p with None => Ok (o_max_position (the_track st i)) | Some a => sig_of_arg a end) as [q|e]; [|split; [apply upd_refl, W|reflexivity]].
  apply (add_at_simulates w q st i W Hi).
Qed.

Section Sort.
Variable sort : sort_fn.

Lemma iter_simulates st i : wf st -> is_obj st i ->
  let (st', r) := obj_iter sort st i in
  upd st st' i (fst (track_iter sort (view st i))) /\ r = o_heap (the_track st' i) /\ the_list st' r = snd (track_iter sort (view st i)) /\
  o_heap (the_track st' i) = o_heap (the_track st i).
Proof.
  intros W Hi. unfold obj_iter, track_iter. cbn [view t_sorted]. destruct (o_sorted (the_track st i)) eqn:E; cbn [fst snd].
  - split; [apply upd_refl, W|]. split; [reflexivity|]. split; reflexivity.
  - set (h := sort entry entry_lt (the_list st (o_heap (the_track st i)))).
    pose proof (upd_set_list st i h W Hi) as U1. set (st1 := set_list st (o_heap (the_track st i)) h) in *.
    set (o := the_track st i) in *. set (o2 := mkObj (o_signature o) (o_max_denominator o) (o_max_position o) (o_heap o) true).
    assert (Hi1 : is_obj st1 i) by exact Hi.
    pose proof (upd_set_track st1 i o2 (u_wf _ _ _ _ U1) Hi1 eq_refl) as U2. set (st2 := set_track st1 i o2) in *.
    assert (EL : the_list st1 (o_heap o) = h) by (unfold the_list, st1, set_list; cbn [st_lists]; apply put_at_same, (proj1 W i Hi)).
    assert (E2 : the_track st2 i = o2) by (unfold the_track, st2, set_track; cbn [st_tracks]; apply put_at_same, Hi).
    rewrite E2. split; [|split; [reflexivity|split; [|reflexivity]]].
    + eapply upd_trans; [exact U1|]. unfold o2 in U2 at 2 3 4 5. cbn [o_signature o_max_denominator o_max_position o_heap o_sorted] in U2.
      rewrite EL in U2. exact U2.
    + cbn [o2 o_heap]. change (the_list st2 (o_heap o)) with (the_list st1 (o_heap o)). rewrite EL. reflexivity.
Qed.

(** A new object. *)
Lemma new_obj st s : wf st -> let (st', i) := obj_new st s in
  wf st' /\ i = length (st_tracks st) /\ length (st_tracks st') = S (length (st_tracks st)) /\ view st' i = track_empty s /\
  (forall j, is_obj st j -> the_track st' j = the_track st j) /\ o_heap (the_track st' i) = length (st_lists st) /\
  length (st_lists st') = S (length (st_lists st)) /\ (forall r, r < length (st_lists st) -> the_list st' r = the_list st r).
Proof.
  intros [W1 W2]. unfold obj_new, new_list, new_track. cbn [fst snd st_lists st_tracks].
  set (o := mkObj s 1 (mkSig 0 1) (length (st_lists st)) true). set (st' := mkStore (st_lists st ++ [[]]) (st_tracks st ++ [o])).
  assert (HO : forall j, is_obj st j -> the_track st' j = the_track st j) by (intros j Hj; unfold the_track; cbn; apply app_nth1, Hj).
  assert (HN : the_track st' (length (st_tracks st)) = o) by (unfold the_track; cbn [st' st_tracks]; rewrite app_nth2, Nat.sub_diag by lia; reflexivity).
  assert (HL : length (st_lists st') = S (length (st_lists st))) by (cbn; rewrite app_length; cbn; lia).
  assert (HT : length (st_tracks st') = S (length (st_tracks st))) by (cbn; rewrite app_length; cbn; lia).
  assert (HC : forall j, is_obj st' j -> is_obj st j \/ j = length (st_tracks st)) by (unfold is_obj; intros j; rewrite HT; lia).
  split; [|split; [reflexivity|split; [exact HT|split; [|split; [exact HO|split; [rewrite HN; reflexivity|split; [exact HL|]]]]]]].
  - split.
    + intros j Hj. rewrite HL. destruct (HC j Hj) as [H| ->]; [rewrite (HO j H); specialize (W1 j H); lia|rewrite HN; cbn; lia].
    + intros j k Hj Hk Hn. destruct (HC j Hj) as [H1| ->]; destruct (HC k Hk) as [H2| ->]; rewrite ?HN, ?(HO _ H1), ?(HO _ H2); try lia.
      * apply W2; assumption.
      * specialize (W1 j H1). cbn [o o_heap]. lia.
      * specialize (W1 k H2). cbn [o o_heap]. lia.
  - unfold view. rewrite HN. cbn [o o_signature o_max_denominator o_max_position o_heap o_sorted]. unfold the_list. cbn [st' st_lists].
    rewrite app_nth2, Nat.sub_diag by lia. reflexivity.
  - intros r Hr. unfold the_list. cbn [st' st_lists]. apply app_nth1, Hr.
Qed.

Lemma skipn_nth {A} (l : list A) : forall k, match nth_error l k with Some x => skipn k l = x :: skipn (S k) l | None => skipn k l = [] end.
Proof. induction l as [|x l IH]; intros [|k]; try reflexivity. cbn [nth_error]. apply (IH k). Qed.

Lemma zip_simulates st r s : forall fuel k, length (the_list st r) < fuel + k -> k <= length (the_list st r) ->
  obj_zip_eq fuel st r s k = Ok (zip_eq (skipn k (the_list st r)) (skipn k (the_list st s))).
Proof.
  induction fuel as [|fuel IH]; intros k Hk Hl; [exfalso; lia|]. cbn [obj_zip_eq].
  pose proof (skipn_nth (the_list st r) k) as H1. pose proof (skipn_nth (the_list st s) k) as H2.
  destruct (nth_error (the_list st r) k) as [[ap an]|] eqn:E1; [|rewrite H1; reflexivity].
  assert (HS : S k <= length (the_list st r)) by (apply nth_error_Some; congruence).
  destruct (nth_error (the_list st s) k) as [[bp bn]|] eqn:E2; rewrite H1, H2; [|reflexivity]. cbn [zip_eq].
  destruct (negb (note_eq an bn) || negb (sig_eq ap bp)); [reflexivity|]. apply IH; lia.
Qed.

Lemma sig_eq_refl a : sig_eq a a = true.
Proof. unfold sig_eq, to_common_denominator. rewrite Z.eqb_refl. apply Z.eqb_refl. Qed.

Lemma iter_twice t : track_iter sort (fst (track_iter sort t)) = track_iter sort t.
Proof. unfold track_iter. destruct (t_sorted t) eqn:E; cbn; [rewrite E|]; reflexivity. Qed.

Lemma eq_simulates st i j : wf st -> is_obj st i -> is_obj st j ->
  let (st', b) := obj_eq sort st i j in
  wf st' /\ length (st_tracks st') = length (st_tracks st) /\ b = Ok (fst (fst (track_eq sort (view st i) (view st j)))) /\
  view st' i = snd (fst (track_eq sort (view st i) (view st j))) /\ view st' j = snd (track_eq sort (view st i) (view st j)) /\
  forall k, is_obj st k -> k <> i -> k <> j -> view st' k = view st k.
Proof.
  intros W Hi Hj. unfold obj_eq, track_eq. cbn [view t_signature].
  destruct (sig_eq (o_signature (the_track st i)) (o_signature (the_track st j))) eqn:ES; cbn [negb].
  2:{ split; [exact W|]. auto. }
  pose proof (iter_simulates st i W Hi) as H1. destruct (obj_iter sort st i) as [st1 r]. destruct H1 as (U1 & R1 & L1 & H1).
  pose proof (upd_obj _ _ _ _ _ U1 Hi) as Hi1. pose proof (upd_obj _ _ _ _ _ U1 Hj) as Hj1. pose proof (u_wf _ _ _ _ U1) as W1.
  pose proof (iter_simulates st1 j W1 Hj1) as H2. destruct (obj_iter sort st1 j) as [st2 s]. destruct H2 as (U2 & R2 & L2 & H2).
  destruct (track_iter sort (view st i)) as [a' la] eqn:EA. destruct (track_iter sort (view st j)) as [b' lb] eqn:EB. cbn [fst snd] in *.
  destruct (Nat.eq_dec j i) as [->|Hn].
  - rewrite EA in EB. injection EB as <- <-. rewrite (u_view _ _ _ _ U1) in U2, L2.
    assert (EI : track_iter sort a' = (a', la)) by (rewrite <- EA; change a' with (fst (a', la)); rewrite <- EA; apply iter_twice).
    rewrite EI in U2, L2. cbn [fst snd] in U2, L2. split; [apply (u_wf _ _ _ _ U2)|].
    split; [rewrite (u_n _ _ _ _ U2), (u_n _ _ _ _ U1); reflexivity|].
    assert (ER : s = r) by congruence. rewrite ER in L2 |- *. clear R2 ER. split; [|split; [apply (u_view _ _ _ _ U2)|split; [apply (u_view _ _ _ _ U2)|]]].
    + rewrite zip_simulates by lia. cbn [skipn]. rewrite L2. reflexivity.
    + intros k Hk Hn _. pose proof (upd_trans _ _ _ _ _ _ U1 U2) as U. apply (view_other st st2 i a' k W U Hi Hk Hn).
  - rewrite (view_other st st1 i a' j W U1 Hi Hj Hn), EB in U2, L2. cbn [fst snd] in U2, L2.
    assert (V2 : view st2 i = a') by (rewrite (view_other st1 st2 j b' i W1 U2 Hj1 Hi1 ltac:(congruence)); apply (u_view _ _ _ _ U1)).
    split; [apply (u_wf _ _ _ _ U2)|]. split; [rewrite (u_n _ _ _ _ U2), (u_n _ _ _ _ U1); reflexivity|].
    split; [|split; [exact V2|split; [apply (u_view _ _ _ _ U2)|]]].
    + assert (LR : the_list st2 r = la).
      { rewrite <- L1. apply (u_lists _ _ _ _ U2); rewrite R1; [apply (proj1 W1), Hi1|apply (proj2 W1); congruence]. }
      rewrite zip_simulates by lia. cbn [skipn]. rewrite LR, L2. reflexivity.
    + intros k Hk Hki Hkj. rewrite (view_other st1 st2 j b' k W1 U2 Hj1 (upd_obj _ _ _ _ _ U1 Hk) Hkj). apply (view_other st st1 i a' k W U1 Hi Hk Hki).
Qed.

Lemma loop_simulates minimum maximum draws r result : forall fuel k st, wf st -> is_obj st result ->
  r < length (st_lists st) -> r <> o_heap (the_track st result) -> length (the_list st r) < fuel + k -> k <= length (the_list st r) ->
  let x := obj_randomize_loop fuel minimum maximum draws r k result st in
  exists t', upd st (fst x) result t' /\
  match randomize_loop minimum maximum draws k (skipn k (the_list st r)) (view st result) with
  | Ok t => snd x = Ok tt /\ t' = t
  | Err e => snd x = Err e
  end.
Proof.
  induction fuel as [|fuel IH]; intros k st W Hr Hlr Hne Hk Hl; [exfalso; lia|]. cbn zeta. cbn [obj_randomize_loop].
  pose proof (skipn_nth (the_list st r) k) as H1.
  destruct (nth_error (the_list st r) k) as [[p n]|] eqn:E1; rewrite H1; cbn [randomize_loop].
  2:{ eexists. split; [apply upd_refl, W|]. split; reflexivity. }
  assert (HS : S k <= length (the_list st r)) by (apply nth_error_Some; congruence).
  destruct (with_velocity n (fmax minimum (fmin maximum (draws k)))) as [n'|e]; cbn [bind].
  2:{ eexists. split; [apply upd_refl, W|]. reflexivity. }
  pose proof (add_simulates st result (WNote n') (Some (SA_sig p)) W Hr) as [U E].
  destruct (obj_add st result (WNote n') (Some (SA_sig p))) as [st1 r1].
  destruct (track_add (view st result) (WNote n') (Some (SA_sig p))) as [t1 r1']. cbn [fst snd] in U, E. subst r1'.
  destruct r1 as [[]|e]; [|eexists; split; [exact U|reflexivity]].
  assert (LR : the_list st1 r = the_list st r) by (apply (u_lists _ _ _ _ U); assumption).
  destruct (IH (S k) st1 (u_wf _ _ _ _ U) (upd_obj _ _ _ _ _ U Hr)) as (t' & U' & E').
  - pose proof (u_len _ _ _ _ U). lia.
  - destruct (u_heap _ _ _ _ U) as [Hh|Hh]; [congruence|lia].
  - rewrite LR. lia.
  - rewrite LR. lia.
  - rewrite LR, (u_view _ _ _ _ U) in E'. exists t'. split; [eapply upd_trans; eassumption|exact E'].
Qed.

Lemma randomize_simulates st i minimum maximum mean variance draws : wf st -> is_obj st i ->
  let (st', x) := obj_randomize sort st i minimum maximum mean variance draws in
  let (t', y) := randomize_velocities sort (view st i) minimum maximum mean variance draws in
  wf st' /\ length (st_tracks st) <= length (st_tracks st') /\ view st' i = t' /\
  (forall k, is_obj st k -> k <> i -> view st' k = view st k) /\
  match y with
  | Ok t => x = Ok (length (st_tracks st)) /\ length (st_tracks st') = S (length (st_tracks st)) /\ view st' (length (st_tracks st)) = t
  | Err e => x = Err e
  end.
Proof.
  intros W Hi. unfold obj_randomize, randomize_velocities.
  destruct (in_unit minimum); [|split; [exact W|]; auto]. destruct (in_unit maximum); [|split; [exact W|]; auto].
  destruct (in_unit mean); [|split; [exact W|]; auto]. destruct (fle f_zero variance); [|split; [exact W|]; auto]. cbn [negb].
  pose proof (new_obj st (o_signature (the_track st i)) W) as H0. destruct (obj_new st (o_signature (the_track st i))) as [st0 n].
  destruct H0 as (W0 & -> & N0 & V0 & T0 & H0 & L0 & LL0).
  assert (VO : forall k, is_obj st k -> view st0 k = view st k).
  { intros k Hk. unfold view. rewrite (T0 k Hk). f_equal. apply LL0, (proj1 W), Hk. }
  assert (I0 : forall k, is_obj st k -> is_obj st0 k) by (unfold is_obj; intros; lia).
  assert (In0 : is_obj st0 (length (st_tracks st))) by (unfold is_obj; lia).
  assert (Hin : i <> length (st_tracks st)) by (unfold is_obj in Hi; lia).
  pose proof (iter_simulates st0 i W0 (I0 i Hi)) as H1. destruct (obj_iter sort st0 i) as [st1 r]. destruct H1 as (U1 & R1 & L1 & H1).
  rewrite (VO i Hi) in U1, L1. destruct (track_iter sort (view st i)) as [t' items] eqn:EI. cbn [fst snd] in U1, L1.
  pose proof (u_wf _ _ _ _ U1) as W1. pose proof (upd_obj _ _ _ _ _ U1 In0) as In1. pose proof (upd_obj _ _ _ _ _ U1 (I0 i Hi)) as Hi1.
  assert (V1 : view st1 (length (st_tracks st)) = track_empty (o_signature (the_track st i))).
  { rewrite (view_other st0 st1 i t' _ W0 U1 (I0 i Hi) In0 ltac:(congruence)). exact V0. }
  destruct (loop_simulates minimum maximum draws r (length (st_tracks st)) (S (length (the_list st1 r))) 0 st1 W1 In1) as (t2 & U2 & E2).
  - rewrite R1. apply (proj1 W1), Hi1.
  - rewrite R1. apply (proj2 W1); congruence.
  - lia.
  - lia.
  - destruct (obj_randomize_loop (S (length (the_list st1 r))) minimum maximum draws r 0 (length (st_tracks st)) st1) as [st2 x].
    cbn [fst snd skipn] in U2, E2. rewrite L1, V1 in E2. cbn [view t_signature].
    assert (G : wf st2 /\ length (st_tracks st) <= length (st_tracks st2) /\ view st2 i = t' /\
      (forall k, is_obj st k -> k <> i -> view st2 k = view st k)).
    { split; [apply (u_wf _ _ _ _ U2)|]. split; [rewrite (u_n _ _ _ _ U2), (u_n _ _ _ _ U1); lia|]. split.
      - rewrite (view_other st1 st2 _ t2 i W1 U2 In1 Hi1 Hin). apply (u_view _ _ _ _ U1).
      - intros k Hk Hki. assert (Hkn : k <> length (st_tracks st)) by (unfold is_obj in Hk; lia).
        rewrite (view_other st1 st2 _ t2 k W1 U2 In1 (upd_obj _ _ _ _ _ U1 (I0 k Hk)) Hkn).
        rewrite (view_other st0 st1 i t' k W0 U1 (I0 i Hi) (I0 k Hk) Hki). apply VO, Hk. }
    destruct (randomize_loop minimum maximum draws 0 items (track_empty (o_signature (the_track st i)))) as [t|e].
    + destruct E2 as [-> ->]. repeat (split; [apply G|]). split; [reflexivity|]. split; [rewrite (u_n _ _ _ _ U2), (u_n _ _ _ _ U1); lia|].
      apply (u_view _ _ _ _ U2).
    + rewrite E2. repeat (split; [apply G|]). reflexivity.
Qed.
End Sort.
