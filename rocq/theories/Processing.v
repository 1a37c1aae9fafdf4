(** Model of src/melodia/processing/track.py.  No proofs in this file. *)
From Verif Require Import Py PyFloat PySort Signature Tone Note Track.
Open Scope Z_scope.

(** The test [0 <= x <= 1.0] (processing/track.py 25, 28, 31); NaN fails it. *)
Definition in_unit (x : float) : bool := fle f_zero x && fle x f_one.

(** The loop (processing/track.py 41-43).  [draws i] is the i-th value returned by
    [random.gauss(mean, std)]: an arbitrary float. *)
Fixpoint randomize_loop (minimum maximum : float) (draws : nat -> float) (i : nat)
         (items : list entry) (result : track) : res track :=
  match items with
  | [] => Ok result
  | (position, n) :: r =>
      let new_velocity := fmax minimum (fmin maximum (draws i)) in
      let! n' := with_velocity n new_velocity in
      match track_add result (WNote n') (Some (SA_sig position)) with
      | (result', Ok _) => randomize_loop minimum maximum draws (S i) r result'
      | (_, Err e) => Err e
      end
  end.

(** randomize_velocities (processing/track.py 7-45): the input track (its __iter__ may sort it) and
    the outcome.  math.sqrt does not raise on the variances that pass the test. *)
Definition randomize_velocities (sort : sort_fn) (t : track)
           (minimum maximum mean variance : float) (draws : nat -> float) : track * res track :=
  if negb (in_unit minimum) then (t, Err ValueError)
  else if negb (in_unit maximum) then (t, Err ValueError)
  else if negb (in_unit mean) then (t, Err ValueError)
  else if negb (fle f_zero variance) then (t, Err ValueError)
  else
    let (t', items) := track_iter sort t in
    (t', randomize_loop minimum maximum draws 0 items (track_empty (t_signature t))).
