(** Track objects in a store: the same code as in Track.v and Processing.v (src/melodia/core/track.py,
    src/melodia/processing/track.py), with the lists that the objects hold as mutable objects of their
    own, so that sharing can be spoken about.  Notes and signatures are immutable and stay values.
    No proofs in this file. *)
From Verif Require Import Py PyFloat PySort Signature Tone Note Track Processing.
Open Scope Z_scope.

(** A Track object (track.py 13-19): the slot [_heap] refers to a list object. *)
Record tobj := mkObj {
  o_signature : sig;
  o_max_denominator : Z;
  o_max_position : sig;
  o_heap : nat;
  o_sorted : bool
}.

(** All list objects and all Track objects there are; a reference is a place in these lists. *)
Record store := mkStore { st_lists : list (list entry); st_tracks : list tobj }.

(** Assignment to one place of a list (nothing happens outside of it). *)
Fixpoint put_at {A} (l : list A) (i : nat) (x : A) : list A :=
  match l, i with
  | [], _ => []
  | _ :: r, O => x :: r
  | y :: r, S k => y :: put_at r k x
  end.

Definition no_obj : tobj := mkObj (mkSig 0 1) 1 (mkSig 0 1) 0 true.
Definition the_list (st : store) (r : nat) : list entry := nth r (st_lists st) [].
Definition the_track (st : store) (i : nat) : tobj := nth i (st_tracks st) no_obj.

(** A list object is changed in place; a new one is made; a Track object is changed; a new one is
    made. *)
Definition set_list (st : store) (r : nat) (l : list entry) : store :=
  mkStore (put_at (st_lists st) r l) (st_tracks st).
Definition new_list (st : store) (l : list entry) : store * nat :=
  (mkStore (st_lists st ++ [l]) (st_tracks st), length (st_lists st)).
Definition set_track (st : store) (i : nat) (o : tobj) : store :=
  mkStore (st_lists st) (put_at (st_tracks st) i o).
Definition new_track (st : store) (o : tobj) : store * nat :=
  (mkStore (st_lists st) (st_tracks st ++ [o]), length (st_tracks st)).

(** Track(signature=s) (track.py 40-44). *)
Definition obj_new (st : store) (s : sig) : store * nat :=
  let (st, r) := new_list st [] in
  new_track st (mkObj s 1 (mkSig 0 1) r true).

(** Adding one note at a known position (track.py 100-113). *)
Definition obj_add_note (st : store) (i : nat) (n : note) (position : sig) : store * res unit :=
  (* track.py 102-104: the comprehension makes a new list *)
  let '(st1, r1) :=
    let o := the_track st i in
    if denominator position >? o_max_denominator o then
      let st := set_track st i (mkObj (o_signature o) (denominator position) (o_max_position o) (o_heap o) (o_sorted o)) in
      let o := the_track st i in
      match map_res (fun e : entry => let! s := sig_to (fst e) (o_max_denominator o) in Ok (s, snd e))
                    (the_list st (o_heap o)) with
      | Ok h =>
          let (st, r) := new_list st h in
          (set_track st i (mkObj (o_signature o) (o_max_denominator o) (o_max_position o) r (o_sorted o)), Ok tt)
      | Err e => (st, Err e)
      end
    else (st, Ok tt) in
  match r1 with
  | Err e => (st1, Err e)
  | Ok _ =>
      (* track.py 106 *)
      match sig_to position (o_max_denominator (the_track st1 i)) with
      | Err e => (st1, Err e)
      | Ok position_transformed =>
          (* track.py 108-109: heappush changes the list in place *)
          let r := o_heap (the_track st1 i) in
          let st2 := set_list st1 r (heappush entry_lt (the_list st1 r) (position_transformed, n)) in
          let o := the_track st2 i in
          let st2 := set_track st2 i (mkObj (o_signature o) (o_max_denominator o) (o_max_position o) (o_heap o) false) in
          (* track.py 111-113 *)
          match sig_add position_transformed (n_duration n) with
          | Err e => (st2, Err e)
          | Ok end_position =>
              let o := the_track st2 i in
              if sig_gt end_position (o_max_position o)
              then (set_track st2 i (mkObj (o_signature o) (o_max_denominator o) end_position (o_heap o) (o_sorted o)), Ok tt)
              else (st2, Ok tt)
          end
      end
  end.

(** Track.add once the position is known (track.py 95-113). *)
Fixpoint obj_add_at (w : what) (position : sig) (i : nat) (st : store) {struct w} : store * res unit :=
  match w with
  | WNote n => obj_add_note st i n position
  | WIter l =>
      (fix go (l : list what) (st : store) {struct l} : store * res unit :=
         match l with
         | [] => (st, Ok tt)
         | x :: r =>
             match obj_add_at x position i st with
             | (st', Ok _) => go r st'
             | (st', Err e) => (st', Err e)
             end
         end) l st
  end.

(** Track.add (track.py 70-113). *)
Definition obj_add (st : store) (i : nat) (w : what) (where_ : option sig_arg) : store * res unit :=
  match (match where_ with
         | None => Ok (o_max_position (the_track st i))
         | Some a => sig_of_arg a
         end) with
  | Err e => (st, Err e)
  | Ok position => obj_add_at w position i st
  end.

Section Sort.
Variable sort : sort_fn.

(** Track.__iter__ (track.py 132-143): the list is sorted in place; what is returned is an iterator
    over the list object itself. *)
Definition obj_iter (st : store) (i : nat) : store * nat :=
  let o := the_track st i in
  let st :=
    if o_sorted o then st
    else
      let st := set_list st (o_heap o) (sort entry entry_lt (the_list st (o_heap o))) in
      set_track st i (mkObj (o_signature o) (o_max_denominator o) (o_max_position o) (o_heap o) true) in
  (st, o_heap (the_track st i)).

(** The zip loop of Track.__eq__ (track.py 126-130) from place [k] of both lists on: a list iterator
    looks at the list as it is when the next element is asked for. *)
Fixpoint obj_zip_eq (fuel : nat) (st : store) (r s k : nat) : res bool :=
  match fuel with
  | O => Err OutOfFuel
  | S f =>
      match nth_error (the_list st r) k with
      | None => Ok true
      | Some (ap, an) =>
          match nth_error (the_list st s) k with
          | None => Ok true
          | Some (bp, bn) =>
              if negb (note_eq an bn) || negb (sig_eq ap bp) then Ok false
              else obj_zip_eq f st r s (S k)
          end
      end
  end.

(** Track.__eq__ (track.py 115-130). *)
Definition obj_eq (st : store) (i j : nat) : store * res bool :=
  if negb (sig_eq (o_signature (the_track st i)) (o_signature (the_track st j))) then (st, Ok false)
  else
    let (st, r) := obj_iter st i in
    let (st, s) := obj_iter st j in
    (st, obj_zip_eq (S (length (the_list st r))) st r s 0).

(** The loop of randomize_velocities (processing/track.py 41-43) over the list [r], from place [k] on. *)
Fixpoint obj_randomize_loop (fuel : nat) (minimum maximum : float) (draws : nat -> float)
         (r k result : nat) (st : store) : store * res unit :=
  match fuel with
  | O => (st, Err OutOfFuel)
  | S f =>
      match nth_error (the_list st r) k with
      | None => (st, Ok tt)
      | Some (position, n) =>
          let new_velocity := fmax minimum (fmin maximum (draws k)) in
          match with_velocity n new_velocity with
          | Err e => (st, Err e)
          | Ok n' =>
              match obj_add st result (WNote n') (Some (SA_sig position)) with
              | (st, Ok _) => obj_randomize_loop f minimum maximum draws r (S k) result st
              | (st, Err e) => (st, Err e)
              end
          end
      end
  end.

(** randomize_velocities (processing/track.py 7-45): the store and the new Track object. *)
Definition obj_randomize (st : store) (i : nat) (minimum maximum mean variance : float) (draws : nat -> float)
  : store * res nat :=
  if negb (in_unit minimum) then (st, Err ValueError)
  else if negb (in_unit maximum) then (st, Err ValueError)
  else if negb (in_unit mean) then (st, Err ValueError)
  else if negb (fle f_zero variance) then (st, Err ValueError)
  else
    let (st, result) := obj_new st (o_signature (the_track st i)) in
    let (st, r) := obj_iter st i in
    match obj_randomize_loop (S (length (the_list st r))) minimum maximum draws r 0 result st with
    | (st, Ok _) => (st, Ok result)
    | (st, Err e) => (st, Err e)
    end.

(** A loop [for position, note in other: track.add( ... )] over the list [r], from place [k] on: the one
    at midi.py 653-654 (there [f] gives the note and the position back), and the loop of
    [track.add(( ... for position, note in other), where)] (track.py 96-97).  [f] says what is added for
    an entry.  The list iterator looks at the list as it is when the next element is asked for. *)
Fixpoint obj_feed (fuel : nat) (f : entry -> what * option sig_arg) (r k i : nat) (st : store) : store * res unit :=
  match fuel with
  | O => (st, Err OutOfFuel)
  | S fuel' =>
      match nth_error (the_list st r) k with
      | None => (st, Ok tt)
      | Some e =>
          match obj_add st i (fst (f e)) (snd (f e)) with
          | (st, Ok _) => obj_feed fuel' f r (S k) i st
          | (st, Err x) => (st, Err x)
          end
      end
  end.
Definition obj_for (fuel : nat) (st : store) (j i : nat) (f : entry -> what * option sig_arg) : store * res unit :=
  let (st, r) := obj_iter st j in
  obj_feed fuel f r 0 i st.

(** Track(signature, content) (track.py 21-48): the new object also when an exception is raised (it is
    garbage then). *)
Fixpoint obj_add_content (st : store) (i : nat) (content : list (what * option sig_arg)) : store * res unit :=
  match content with
  | [] => (st, Ok tt)
  | (w, p) :: r =>
      match obj_add st i w p with
      | (st, Ok _) => obj_add_content st i r
      | (st, Err e) => (st, Err e)
      end
  end.
Definition obj_init (st : store) (sa : sig_arg) (content : list (what * option sig_arg)) : store * res nat :=
  match sig_of_arg sa with
  | Err e => (st, Err e)
  | Ok s =>
      let (st, i) := obj_new st s in
      match obj_add_content st i content with
      | (st, Ok _) => (st, Ok i)
      | (st, Err e) => (st, Err e)
      end
  end.
End Sort.
