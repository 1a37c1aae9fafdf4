(** Adding notes in a loop over a track (C61). *)
From Coq Require Import ZArith QArith List Bool.
From Verif Require Import Py PyFloat PySort Timsort Signature Tone Note Track Processing TrackObjects
  SpecBase TrackSpec TrackProps ObjectFacts FeedProps.
Import ListNotations.
Open Scope nat_scope.

(** C61 in full is [loop_adds_all]; it is false of a loop over the track that is added to. *)
Theorem C61_refuted :
  forall sort, sort_contract sort -> ~ loop_adds_all sort.
Proof. exact c61_refuted. Qed.
Print Assumptions C61_refuted.
(** C61: what holds.  A loop over another track. *)
Theorem C61_partial :
  forall sort, sort_contract sort -> forall st i j f s ops,
  wf st -> is_obj st i -> is_obj st j -> i <> j -> view st i = run sort (track_empty s) ops -> Forall op_ok ops ->
  Forall good_add (fed f (yields sort (view st j))) ->
  exists fuel st', obj_for sort fuel st j i f = (st', Ok tt) /\ wf st' /\
    view st' i = run sort (view st i) (fed f (yields sort (view st j))) /\
    view st' j = run sort (view st j) [OIter] /\
    (forall k, is_obj st k -> k <> i -> k <> j -> view st' k = view st k).
Proof. exact c61_distinct. Qed.
Print Assumptions C61_partial.
(** C61: a loop over the track itself never stops when no addition needs a larger denominator; the track
    grows by one note in every step. *)
Theorem C61_self :
  forall sort, sort_contract sort -> forall st i f s ops,
  wf st -> is_obj st i -> view st i = run sort (track_empty s) ops -> Forall op_ok ops ->
  yields sort (view st i) <> [] ->
  (forall e : entry, valid_sig (fst e) -> valid_note (snd e) -> denominator (fst e) = t_max_denominator (view st i) ->
     exists n p, f e = (WNote n, Some (SA_sig p)) /\ valid_note n /\ valid_sig p /\ (denominator p <= denominator (fst e))%Z) ->
  forall fuel, exists st', obj_for sort fuel st i i f = (st', Err OutOfFuel) /\
    track_len (view st' i) = (track_len (view st i) + Z.of_nat fuel)%Z.
Proof. exact c61_self. Qed.
Print Assumptions C61_self.
(** C61: a loop over the track itself stops when the first addition needs a larger denominator, because
    the track then gets a new list. *)
Theorem C61_fresh :
  forall sort, sort_contract sort -> forall st i f s ops e rest n p,
  wf st -> is_obj st i -> view st i = run sort (track_empty s) ops -> Forall op_ok ops ->
  yields sort (view st i) = e :: rest -> f e = (WNote n, Some (SA_sig p)) -> (denominator p > t_max_denominator (view st i))%Z ->
  Forall good_add (fed f (yields sort (view st i))) ->
  exists fuel st', obj_for sort fuel st i i f = (st', Ok tt) /\ wf st' /\
    view st' i = run sort (view st i) (OIter :: fed f (yields sort (view st i))).
Proof. exact c61_fresh. Qed.
Print Assumptions C61_fresh.

(** Two tracks with two notes and one note; the notes are repeated an octave higher. *)
Definition ex_feed_track (tone : Z) : track :=
  run cpython_sort (track_empty (mkSig 4 4)) [OAdd (WNote (mkNote (mkTone tone) (mkSig 1 4) f_one)) None; OAdd (WNote (mkNote (mkTone (tone + 4)) (mkSig 1 4) f_half)) None].
Definition ex_obj (t : track) (r : nat) : tobj := mkObj (t_signature t) (t_max_denominator t) (t_max_position t) r (t_sorted t).
Definition ex_feed_store : store :=
  mkStore [t_heap (ex_feed_track 36); t_heap (ex_feed_track 50)] [ex_obj (ex_feed_track 36) 0; ex_obj (ex_feed_track 50) 1].
Definition ex_octave (e : entry) : what * option sig_arg :=
  (WNote (mkNote (mkTone (pitch (n_tone (snd e)) + 12)) (n_duration (snd e)) (n_velocity (snd e))), Some (SA_sig (fst e))).
Definition ex_later (e : entry) : what * option sig_arg :=
  (WNote (snd e), Some (SA_sig (mkSig (2 * nominator (fst e) + 1) (2 * denominator (fst e))))).
Example C61_ex :
  (let x := obj_for cpython_sort 3 ex_feed_store 1 0 ex_octave in
   snd x = Ok tt /\ map (fun e : entry => pitch (n_tone (snd e))) (yields cpython_sort (view (fst x) 0)) = [36; 62; 40; 66]%Z) /\
  (let x := obj_for cpython_sort 20 ex_feed_store 0 0 ex_octave in
   snd x = Err OutOfFuel /\ track_len (view (fst x) 0) = 22%Z) /\
  (let x := obj_for cpython_sort 3 ex_feed_store 0 0 ex_later in
   snd x = Ok tt /\ map (fun e : entry => value_of e) (yields cpython_sort (view (fst x) 0)) =
     [(0%Q, 36%Z, (1 # 4)%Q, 1%Q); ((1 # 8)%Q, 36%Z, (1 # 4)%Q, 1%Q); ((1 # 4)%Q, 40%Z, (1 # 4)%Q, (1 # 2)%Q); ((3 # 8)%Q, 40%Z, (1 # 4)%Q, (1 # 2)%Q)]).
Proof. split; [|split]; split; vm_compute; reflexivity. Qed.
