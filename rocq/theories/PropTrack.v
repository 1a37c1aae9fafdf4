(** Properties of tracks (C17-C26).

    A history is a list of operations [op]; [run] is the track after it, [log] the list of
    (position, note) pairs it added, [yields] what iterating over the track gives (TrackSpec.v).
    Everything holds for every [sort] that meets [sort_contract] (PySort.v), a contract that the
    model of CPython's own sort is proved to meet ([cpython_sort_contract], TimsortFacts.v). *)
From Coq Require Import ZArith QArith Qreduction List Bool Permutation Sorted.
From Verif Require Import Py PyFloat PySort Timsort Signature Tone Note Track MidiWriter Processing
  SpecBase TrackSpec SigProps FloatFacts NoteProps TimsortFacts TrackProps.
Import ListNotations.
Open Scope Z_scope.

Theorem sorting_contract_met :
  sort_contract cpython_sort.
Proof. exact cpython_sort_contract. Qed.
Print Assumptions sorting_contract_met.

(** A history used in the examples: two notes at 1/4 and 0, one appended, an iteration in between. *)
Definition ex_note (p n d : Z) : note := mkNote (mkTone p) (mkSig n d) f_half.
Definition ex_ops : list op :=
  [OAdd (WNote (ex_note 60 1 4)) (Some (SA_iter [EInt 1; EInt 4])); OIter;
   OAdd (WIter [WNote (ex_note 64 1 4); WIter [WNote (ex_note 62 1 4)]]) (Some (SA_sig (mkSig 0 1)));
   OAdd (WNote (ex_note 65 1 8)) None;
   OAdd (WNote (ex_note 66 1 8)) (Some (SA_iter [EInt 1; EInt 3]))].
Example ex_ops_ok : Forall op_ok ex_ops.
Proof.
  assert (H : forall p n k, 0 <= n -> 0 <= k -> valid_note (ex_note p n (2 ^ k))).
  { intros p n k Hn Hk. split; [apply valid_pow; assumption|apply unit_test; reflexivity]. }
  pose proof (fun p => H p 1 2 ltac:(discriminate) ltac:(discriminate)) as H4.
  pose proof (fun p => H p 1 3 ltac:(discriminate) ltac:(discriminate)) as H8.
  constructor; [split; [repeat constructor; apply H4|discriminate]|].
  constructor; [exact I|].
  constructor; [split; [repeat constructor; apply H4|intros s E; injection E as <-; apply (valid_pow 0 0); discriminate]|].
  constructor; [split; [repeat constructor; apply H8|discriminate]|].
  constructor; [split; [repeat constructor; apply H8|discriminate]|constructor].
Qed.

(** C17: iterating yields exactly what was added: same notes, positions of equal value, nothing
    lost or duplicated. *)
Theorem C17_contents :
  forall sort, sort_contract sort -> forall s ops, Forall op_ok ops ->
  let t := run sort (track_empty s) ops in
  Permutation (map placed (yields sort t)) (map placed (log sort (track_empty s) ops)) /\
  Forall (fun e => valid_sig (fst e)) (yields sort t).
Proof. exact c17_contents. Qed.
Print Assumptions C17_contents.
(** C17: the constructor's content is added like any other. *)
Theorem C17_constructor :
  forall sort sa s content, position_of sa = Some s ->
  Forall content_ok content ->
  track_new sa content = Ok (run sort (track_empty s) (map content_op content)).
Proof. exact c17_constructor. Qed.
Print Assumptions C17_constructor.
Example C17_ex : map placed (yields cpython_sort (run cpython_sort (track_empty (mkSig 4 4)) ex_ops)) =
  [(0%Q, ex_note 62 1 4); (0%Q, ex_note 64 1 4); ((1 # 4)%Q, ex_note 60 1 4); ((1 # 2)%Q, ex_note 65 1 8)].
Proof. vm_compute. reflexivity. Qed.

(** C18: ascending positions, at one position ascending tones. *)
Theorem C18_order :
  forall sort, sort_contract sort -> forall s ops, Forall op_ok ops ->
  StronglySorted in_order (yields sort (run sort (track_empty s) ops)).
Proof. exact c18_order. Qed.
Print Assumptions C18_order.
Example C18_ex : map (fun e => pitch (n_tone (snd e)))
  (yields cpython_sort (run cpython_sort (track_empty (mkSig 4 4)) ex_ops)) = [62; 64; 60; 65].
Proof. vm_compute. reflexivity. Qed.

(** C19: observations.  The full statement; it is false. *)
Print observation_neutral.
Theorem C19_refuted :
  sort_contract cpython_sort /\ ~ observation_neutral cpython_sort.
Proof. exact c19_refuted. Qed.
Print Assumptions C19_refuted.
(** C19: what holds.  An observation inserted anywhere changes no later signature, len, length, str
    and contents, and no later sequence of (position, tone); the sequence of notes does not change
    either if notes that share position and tone have comparable durations ([consistent]).
    Missing: the sequence among notes that share position and tone but whose durations have
    different denominators, where it does change. *)
Theorem C19_partial :
  forall sort, sort_contract sort -> forall s before o after,
  Forall op_ok (before ++ o :: after) -> is_add o = false ->
  let t := run sort (track_empty s) (before ++ o :: after) in
  let u := run sort (track_empty s) (before ++ after) in
  looks_same sort place_pitch t u /\
  (consistent (log sort (track_empty s) (before ++ after)) -> looks_same sort value_of t u).
Proof. exact c19_partial. Qed.
Print Assumptions C19_partial.
(** C19: right after an observation everything looks the same, and iterating twice yields the same. *)
Theorem C19_one :
  forall sort, sort_contract sort -> forall s ops o, Forall op_ok ops -> is_add o = false ->
  let t := run sort (track_empty s) ops in
  looks_same sort (fun e => e) (step sort t o) t /\
  track_iter sort (fst (track_iter sort t)) = track_iter sort t.
Proof. exact c19_one. Qed.
Print Assumptions C19_one.
Example C19_ex : consistent (log cpython_sort (track_empty (mkSig 4 4)) ex_ops).
Proof.
  change (log cpython_sort (track_empty (mkSig 4 4)) ex_ops) with
    [(mkSig 1 4, ex_note 60 1 4); (mkSig 0 1, ex_note 64 1 4); (mkSig 0 1, ex_note 62 1 4); (mkSig 2 4, ex_note 65 1 8)].
  intros e f He Hf Hp Ht. cbn in He, Hf.
  destruct He as [<-|[<-|[<-|[<-|[]]]]]; destruct Hf as [<-|[<-|[<-|[<-|[]]]]]; cbn in Ht; try discriminate;
    right; reflexivity.
Qed.

(** C20: len counts the notes passed with an acceptable position. *)
Theorem C20_len :
  forall sort, sort_contract sort -> forall s ops, Forall op_ok ops ->
  track_len (run sort (track_empty s) ops) = Z.of_nat (fold_right Nat.add 0%nat (map passed ops)).
Proof. exact c20_len. Qed.
Print Assumptions C20_len.
Example C20_ex : fold_right Nat.add 0%nat (map passed ex_ops) = 4%nat.
Proof. reflexivity. Qed.

(** C21: the full statement; it is false whatever the sort. *)
Print length_right.
Theorem C21_refuted :
  forall sort, ~ length_right sort.
Proof. exact c21_refuted. Qed.
Print Assumptions C21_refuted.
Theorem C21_shrinks_refuted :
  exists s ops o, Forall op_ok (ops ++ [o]) /\
  forall sort, (sval (track_length (run sort (track_empty s) (ops ++ [o]))) <
                sval (track_length (run sort (track_empty s) ops)))%Q.
Proof. exact c21_shrinks. Qed.
Print Assumptions C21_shrinks_refuted.
(** C21: what holds.  The length is always the end of some note (or 0); it is the right-most end if
    the denominators of durations do not fall below earlier ones (unless covered by the denominator
    of a position).  Missing: other orders of denominators, for which it fails. *)
Theorem C21_partial :
  forall sort, sort_contract sort -> forall s ops, Forall op_ok ops ->
  let t := run sort (track_empty s) ops in
  let l := log sort (track_empty s) ops in
  valid_sig (track_length t) /\
  ((sval (track_length t) == 0)%Q \/ exists e, In e l /\ (sval (track_length t) == note_end e)%Q) /\
  (denominators_grow l -> (sval (track_length t) == right_most l)%Q).
Proof. exact c21_partial. Qed.
Print Assumptions C21_partial.
Theorem C21_uniform :
  forall (l : list (sig * note)) d,
  Forall (fun e => denominator (n_duration (snd e)) = d) l -> denominators_grow l.
Proof. exact c21_uniform. Qed.
Print Assumptions C21_uniform.
Example C21_ex : (right_most (log cpython_sort (track_empty (mkSig 4 4)) ex_ops) == 5 # 8)%Q /\
  track_length (run cpython_sort (track_empty (mkSig 4 4)) ex_ops) = mkSig 5 8.
Proof. split; vm_compute; reflexivity. Qed.

(** C22: the full statement; it is false. *)
Print appending_right.
Theorem C22_refuted :
  forall sort, ~ appending_right sort.
Proof. exact c22_refuted. Qed.
Print Assumptions C22_refuted.
(** C22: what holds.  Groups are laid end to end if in every group the denominators of durations do
    not decrease (single notes, chords).  Missing: groups with decreasing denominators. *)
Theorem C22_partial :
  forall sort, sort_contract sort -> forall s groups,
  Forall group_ok groups -> Forall group_grows groups ->
  let t := run sort (track_empty s) (map (fun g => OAdd g None) groups) in
  Permutation (map placed (yields sort t)) (laid_out 0 groups) /\
  (sval (track_length t) == total groups)%Q.
Proof. exact c22_partial. Qed.
Print Assumptions C22_partial.
(** C22: first half, in full: notes added without a position are at the current length. *)
Theorem C22_at_length :
  forall sort, sort_contract sort -> forall s ops w, Forall op_ok ops -> group_ok w ->
  let t := run sort (track_empty s) ops in
  Permutation (map placed (yields sort (fst (track_add t w None))))
    (map placed (yields sort t) ++ map (fun n => (Qred (sval (track_length t)), n)) (notes_of w)).
Proof. exact c22_at_length. Qed.
Print Assumptions C22_at_length.
Example C22_ex : laid_out 0 [WIter [WNote (ex_note 1 1 4); WNote (ex_note 2 1 2)]; WNote (ex_note 3 1 1)]
  = [(0%Q, ex_note 1 1 4); (0%Q, ex_note 2 1 2); ((1 # 2)%Q, ex_note 3 1 1)].
Proof. reflexivity. Qed.

(** C23: an iterable is its notes one after another at one position. *)
Theorem C23_iterable :
  forall sort, sort_contract sort -> forall s ops w a p,
  Forall op_ok ops -> op_ok (OAdd w a) ->
  let t := run sort (track_empty s) ops in
  resolved t a = Some p ->
  track_add t w a =
    (fold_left (fun t n => fst (track_add t (WNote n) (Some (SA_sig p)))) (notes_of w) t, Ok tt).
Proof. exact c23_iterable. Qed.
Print Assumptions C23_iterable.
Example C23_ex : notes_of (WIter [WNote (ex_note 1 1 4); WIter [WIter []; WNote (ex_note 2 1 2)]]) =
  [ex_note 1 1 4; ex_note 2 1 2].
Proof. reflexivity. Qed.

(** C24 *)
Theorem C24_rejected :
  forall t w a, position_of a = None ->
  track_add t w (Some a) = (t, Err ValueError) \/ track_add t w (Some a) = (t, Err TypeError).
Proof. exact c24_rejected. Qed.
Print Assumptions C24_rejected.
Theorem C24_accepted :
  forall sort, sort_contract sort -> forall s ops w a,
  Forall op_ok ops -> op_ok (OAdd w a) -> (forall b, a = Some b -> position_of b <> None) ->
  snd (track_add (run sort (track_empty s) ops) w a) = Ok tt.
Proof. exact c24_accepted. Qed.
Print Assumptions C24_accepted.
Example C24_ex : position_of (SA_iter [EInt 1; EInt 3]) = None /\ position_of (SA_iter [EInt (-1); EInt 4]) = None /\
  position_of (SA_iter [EInt 1]) = None /\ position_of SA_other = None /\
  position_of (SA_iter [EInt 5; EInt 8]) = Some (mkSig 5 8).
Proof. repeat split. Qed.

(** C25: the full statement; it is false, and equality is not transitive. *)
Print equality_right.
Theorem C25_refuted :
  forall sort, sort_contract sort ->
  ~ equality_right sort /\
  (** not transitive *)
  exists t u v, eq_result sort t u = true /\ eq_result sort u v = true /\ eq_result sort t v = false /\
    (exists ops, Forall op_ok ops /\ t = run sort (track_empty (mkSig 4 4)) ops) /\
    (exists ops, Forall op_ok ops /\ u = run sort (track_empty (mkSig 4 4)) ops) /\
    (exists ops, Forall op_ok ops /\ v = run sort (track_empty (mkSig 4 4)) ops).
Proof. exact c25_refuted. Qed.
Print Assumptions C25_refuted.
(** C25: what holds.  Missing: tracks of different length, of which one is a beginning of the other,
    are equal; tracks that are not [consistent] may be different although contents agree. *)
Theorem C25_partial :
  forall sort, sort_contract sort -> forall s s' ops ops',
  valid_sig s -> valid_sig s' -> Forall op_ok ops -> Forall op_ok ops' ->
  let t := run sort (track_empty s) ops in
  let u := run sort (track_empty s') ops' in
  let l := log sort (track_empty s) ops in
  let m := log sort (track_empty s') ops' in
  (** reflexive and symmetric *)
  eq_result sort t t = true /\ eq_result sort t u = eq_result sort u t /\
  (** equal tracks have equal signatures, and equal contents if they have as many notes *)
  (eq_result sort t u = true ->
     (sval s == sval s')%Q /\
     (track_len t = track_len u -> Permutation (map value_of l) (map value_of m))) /\
  (** in general the notes of the shorter one are the first notes of the longer one *)
  (eq_result sort t u = true -> track_len t <= track_len u ->
     exists r, map value_of (yields sort u) = map value_of (yields sort t) ++ r) /\
  (** tracks with equal signatures and contents are equal if [consistent] *)
  ((sval s == sval s')%Q -> Permutation (map value_of l) (map value_of m) ->
   consistent l -> consistent m -> eq_result sort t u = true).
Proof. exact c25_partial. Qed.
Print Assumptions C25_partial.
Example C25_ex : let t := run cpython_sort (track_empty (mkSig 4 4)) ex_ops in
  eq_result cpython_sort t (run cpython_sort (track_empty (mkSig 2 2)) ex_ops) = true /\
  eq_result cpython_sort t (run cpython_sort (track_empty (mkSig 4 4)) [OAdd (WNote (ex_note 1 1 4)) None]) = false.
Proof. split; vm_compute; reflexivity. Qed.

(** C26: the full statement; it is false. *)
Print insertion_order_irrelevant.
Theorem C26_refuted :
  sort_contract cpython_sort /\
  exists l l', Forall pair_ok l /\ Permutation l l' /\
    eq_result cpython_sort (run cpython_sort (track_empty (mkSig 4 4)) (adds l))
                           (run cpython_sort (track_empty (mkSig 4 4)) (adds l')) = false.
Proof. exact c26_refuted. Qed.
Print Assumptions C26_refuted.
(** C26: what holds.  Missing: lists that are not [consistent]. *)
Theorem C26_partial :
  forall sort, sort_contract sort -> forall s s' l l',
  valid_sig s -> valid_sig s' -> (sval s == sval s')%Q -> Forall pair_ok l -> Permutation l l' ->
  let t := run sort (track_empty s) (adds l) in
  let u := run sort (track_empty s') (adds l') in
  map place_pitch (yields sort t) = map place_pitch (yields sort u) /\
  (consistent (map (fun x => (snd x, fst x)) l) ->
   eq_result sort t u = true /\ map value_of (yields sort t) = map value_of (yields sort u)).
Proof. exact c26_partial. Qed.
Print Assumptions C26_partial.
Example C26_ex :
  map value_of (yields cpython_sort (run cpython_sort (track_empty (mkSig 4 4))
    (adds [(ex_note 1 1 4, mkSig 1 2); (ex_note 2 1 8, mkSig 1 16)]))) =
  map value_of (yields cpython_sort (run cpython_sort (track_empty (mkSig 4 4))
    (adds [(ex_note 2 1 8, mkSig 1 16); (ex_note 1 1 4, mkSig 1 2)]))).
Proof. vm_compute. reflexivity. Qed.
