(** Properties of randomize_velocities (C50, C51) and of Track objects that share a store (C60). *)
From Coq Require Import ZArith QArith Qreduction Qminmax List Bool Permutation.
From Verif Require Import Py PyFloat PySort Timsort Signature Tone Note Track Processing TrackObjects
  SpecBase TrackSpec TimsortFacts TrackProps ProcessingProps ObjectFacts ObjectSpec ObjectProps.
Import ListNotations.
Open Scope Z_scope.

(** C50: valid parameters ([draws i] is whatever the i-th call of random.gauss returns). *)
Theorem C50_result :
  forall sort, sort_contract sort -> forall s ops minimum maximum mean variance draws,
  Forall op_ok ops -> valid_velocity minimum -> valid_velocity maximum -> valid_velocity mean ->
  is_float variance = true -> valid_variance variance -> (forall i, is_float (draws i) = true) ->
  let t := run sort (track_empty s) ops in
  exists t' r, randomize_velocities sort t minimum maximum mean variance draws = (t', Ok r) /\
    t_signature r = s /\
    Permutation (map but_velocity (yields sort r)) (map but_velocity (log sort (track_empty s) ops)) /\
    Permutation (map value_of (yields sort r)) (with_draws minimum maximum draws 0 (yields sort t)) /\
    Forall (fun e : entry => valid_velocity (n_velocity (snd e)) /\
      (fval minimum <= fval (n_velocity (snd e)) <= Qmax (fval minimum) (fval maximum))%Q) (yields sort r).
Proof. exact c50_result. Qed.
Print Assumptions C50_result.
(** C50: invalid parameters. *)
Theorem C50_invalid :
  forall sort t minimum maximum mean variance draws,
  is_float minimum = true -> is_float maximum = true -> is_float mean = true -> is_float variance = true ->
  ~ (valid_velocity minimum /\ valid_velocity maximum /\ valid_velocity mean /\ valid_variance variance) ->
  randomize_velocities sort t minimum maximum mean variance draws = (t, Err ValueError).
Proof. exact c50_invalid. Qed.
Print Assumptions C50_invalid.
Definition ex_random_ops : list op :=
  [OAdd (WNote (mkNote (mkTone 36) (mkSig 1 4) f_one)) None; OAdd (WNote (mkNote (mkTone 40) (mkSig 1 8) f_half)) None;
   OAdd (WNote (mkNote (mkTone 43) (mkSig 1 8) f_half)) None].
Definition ex_draws (i : nat) : float := match i with O => S754_nan | 1%nat => S754_infinity true | _ => S754_finite false 6004799503160661 (-53) end.
Example C50_ex :
  match randomize_velocities cpython_sort (run cpython_sort (track_empty (mkSig 4 4)) ex_random_ops) f_half f_one f_half f_zero ex_draws with
  | (_, Ok r) => map value_of (yields cpython_sort r) =
      [(0%Q, 36, (1 # 4)%Q, 1%Q); ((1 # 4)%Q, 40, (1 # 8)%Q, (1 # 2)%Q); ((3 # 8)%Q, 43, (1 # 8)%Q, (6004799503160661 # 9007199254740992)%Q)]
  | (_, Err _) => False
  end /\
  snd (randomize_velocities cpython_sort (track_empty (mkSig 4 4)) f_half f_one f_half S754_nan ex_draws) = Err ValueError.
Proof. split; vm_compute; reflexivity. Qed.

(** C51: the input after the call. *)
Theorem C51_input :
  forall sort, sort_contract sort -> forall s ops minimum maximum mean variance draws, Forall op_ok ops ->
  let t := run sort (track_empty s) ops in
  let t' := fst (randomize_velocities sort t minimum maximum mean variance draws) in
  looks_same sort (fun e => e) t' t.
Proof. exact c51_input. Qed.
Print Assumptions C51_input.
(** C51: the two objects after the call, whatever is done with them later. *)
Theorem C51_independent :
  forall sort, sort_contract sort -> forall st i minimum maximum mean variance draws n h,
  wf st -> is_obj st i -> snd (obj_randomize sort st i minimum maximum mean variance draws) = Ok n ->
  let st1 := fst (obj_randomize sort st i minimum maximum mean variance draws) in
  refs_ok sort st1 h ->
  i <> n /\ is_obj st1 i /\ is_obj st1 n /\
  view (execs sort st1 h) i = run sort (view st1 i) (ops_of sort st1 i h) /\
  view (execs sort st1 h) n = run sort (view st1 n) (ops_of sort st1 n h) /\
  ((forall o, In o h -> ~ In i (mentions o)) -> view (execs sort st1 h) i = view st1 i) /\
  ((forall o, In o h -> ~ In n (mentions o)) -> view (execs sort st1 h) n = view st1 n).
Proof. exact c51_independent. Qed.
Print Assumptions C51_independent.
(** C60: every object changes as if it was alone. *)
Theorem C60_independent :
  forall sort st h, wf st -> refs_ok sort st h ->
  wf (execs sort st h) /\
  forall i, is_obj st i -> is_obj (execs sort st h) i /\ view (execs sort st h) i = run sort (view st i) (ops_of sort st i h).
Proof. exact c60_independent. Qed.
Print Assumptions C60_independent.
(** C60: an object that is not mentioned does not change. *)
Theorem C60_not_mentioned :
  forall sort st h i, wf st -> refs_ok sort st h -> is_obj st i ->
  (forall o, In o h -> ~ In i (mentions o)) -> view (execs sort st h) i = view st i.
Proof. exact c60_not_mentioned. Qed.
Print Assumptions C60_not_mentioned.
(** C60: objects in the store do what the values of the rest of the model do. *)
Theorem C60_operations :
  forall sort st i, wf st -> is_obj st i ->
  (forall w p, snd (obj_add st i w p) = snd (track_add (view st i) w p)) /\
  (let (st', r) := obj_iter sort st i in the_list st' r = yields sort (view st i)) /\
  (forall j, is_obj st j -> snd (obj_eq sort st i j) = Ok (fst (fst (track_eq sort (view st i) (view st j))))) /\
  (forall mn mx me va dr, match randomize_velocities sort (view st i) mn mx me va dr with
     | (_, Ok t) => exists n, obj_randomize sort st i mn mx me va dr = (fst (obj_randomize sort st i mn mx me va dr), Ok n) /\
                      ~ is_obj st n /\ view (fst (obj_randomize sort st i mn mx me va dr)) n = t
     | (_, Err e) => snd (obj_randomize sort st i mn mx me va dr) = Err e
     end).
Proof. exact c60_operations. Qed.
Print Assumptions C60_operations.
(** A track, a randomized copy of it, and a note added to each. *)
Definition ex_history : list oop :=
  [NInit (SA_sig (mkSig 3 4)) [(WNote (mkNote (mkTone 36) (mkSig 1 4) f_one), None)];
   NRandomize 0 f_half f_half f_half f_zero ex_draws;
   NAdd 0 (WNote (mkNote (mkTone 40) (mkSig 1 8) f_one)) None;
   NAdd 1 (WNote (mkNote (mkTone 43) (mkSig 1 16) f_one)) (Some (SA_sig (mkSig 1 2)));
   NEq 0 1].
Example C51_ex : let st := execs cpython_sort (mkStore [] []) ex_history in
  wf (mkStore [] []) /\ refs_ok cpython_sort (mkStore [] []) ex_history /\ length (st_tracks st) = 2%nat /\
  map value_of (yields cpython_sort (view st 0)) = [(0%Q, 36, (1 # 4)%Q, 1%Q); ((1 # 4)%Q, 40, (1 # 8)%Q, 1%Q)] /\
  map value_of (yields cpython_sort (view st 1)) = [(0%Q, 36, (1 # 4)%Q, (1 # 2)%Q); ((1 # 2)%Q, 43, (1 # 16)%Q, 1%Q)].
Proof.
  split; [split; [intros i H; inversion H|intros i j H; inversion H]|].
  split; [|split; [vm_compute; reflexivity|split; vm_compute; reflexivity]].
  cbn [refs_ok mentions ex_history]. split; [intros i []|]. split; [intros i [<-|[]]; vm_compute; repeat constructor|].
  split; [intros i [<-|[]]; vm_compute; repeat constructor|]. split; [intros i [<-|[]]; vm_compute; repeat constructor|].
  split; [intros i [<-|[<-|[]]]; vm_compute; repeat constructor|exact I].
Qed.
