(** Sorting and heaps: what the code uses of [list.sort] and [heapq.heappush]. No proofs here. *)
From Coq Require Import List Bool Arith Permutation.
Import ListNotations.

(** A sorting function in the sense of [list.sort]: it receives the comparison [x < y] and the
    list ([list.sort(key=k)] is the comparison of keys). *)
Definition sort_fn := forall A : Type, (A -> A -> bool) -> list A -> list A.

(** Consecutive elements are related. *)
Fixpoint adjacent {A : Type} (R : A -> A -> Prop) (l : list A) : Prop :=
  match l with
  | x :: ((y :: _) as r) => R x y /\ adjacent R r
  | _ => True
  end.

(** Pair every element with its index in the list. *)
Definition enumerate {A : Type} (l : list A) : list (nat * A) :=
  combine (seq 0 (length l)) l.

(** What is assumed of Python's [list.sort].  The result is a rearrangement of the input and
    every two neighbours x, y of the result are in that order because the comparison answered
    [x < y], or because it answered [not (y < x)] and x already stood before y.
    This is meaningful for *every* comparison, also one that is not an order at all; for a strict
    weak order it says exactly: sorted and stable. *)
Definition sort_contract (sort : sort_fn) : Prop :=
  forall (A : Type) (lt : A -> A -> bool) (l : list A),
  exists p : list (nat * A),
    Permutation p (enumerate l) /\
    map snd p = sort A lt l /\
    adjacent (fun a b => lt (snd a) (snd b) = true \/
                         (lt (snd b) (snd a) = false /\ fst a < fst b)) p.

(** Replace the element at an index. *)
Fixpoint set_nth {A : Type} (l : list A) (i : nat) (v : A) : list A :=
  match l, i with
  | [], _ => []
  | _ :: r, O => v :: r
  | x :: r, S k => x :: set_nth r k v
  end.

(** [heapq._siftdown(heap, 0, pos)] (Lib/heapq.py, used through src/melodia/core/track.py 108):
    follow the path to the root, moving parents down until finding a place where [newitem] fits. *)
Fixpoint siftdown {A : Type} (lt : A -> A -> bool) (fuel : nat)
         (heap : list A) (pos : nat) (newitem : A) : list A :=
  match fuel with
  | O => set_nth heap pos newitem
  | S k =>
      if Nat.eqb pos 0 then set_nth heap pos newitem
      else
        let parentpos := Nat.div2 (pos - 1) in
        match nth_error heap parentpos with
        | None => set_nth heap pos newitem
        | Some parent =>
            if lt newitem parent
            then siftdown lt k (set_nth heap pos parent) parentpos newitem
            else set_nth heap pos newitem
        end
  end.

(** [heapq.heappush(heap, item)] (Lib/heapq.py): append, then sift up. *)
Definition heappush {A : Type} (lt : A -> A -> bool) (heap : list A) (item : A) : list A :=
  siftdown lt (length heap) (heap ++ [item]) (length heap) item.
