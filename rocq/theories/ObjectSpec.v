(** Histories of operations on several Track objects. *)
From Coq Require Import ZArith List Bool.
From Verif Require Import Py PyFloat PySort Signature Tone Note Track Processing TrackObjects SpecBase TrackSpec ObjectFacts.
Import ListNotations.
Open Scope nat_scope.

(** Operations on objects: a new Track, add, iteration, comparison, randomize_velocities. *)
Inductive oop :=
| NInit (sa : sig_arg) (content : list (what * option sig_arg))
| NAdd (i : nat) (w : what) (where_ : option sig_arg)
| NIter (i : nat)
| NEq (i j : nat)
| NRandomize (i : nat) (minimum maximum mean variance : float) (draws : nat -> float).

(** The objects an operation is told about. *)
Definition mentions (o : oop) : list nat :=
  match o with
  | NInit _ _ => []
  | NAdd i _ _ | NIter i | NRandomize i _ _ _ _ _ => [i]
  | NEq i j => [i; j]
  end.
Definition adds_to (i : nat) (o : oop) : bool := match o with NAdd j _ _ => j =? i | _ => false end.

Section Sort.
Variable sort : sort_fn.

Definition exec (st : store) (o : oop) : store :=
  match o with
  | NInit sa content => fst (obj_init st sa content)
  | NAdd i w p => fst (obj_add st i w p)
  | NIter i => fst (obj_iter sort st i)
  | NEq i j => fst (obj_eq sort st i j)
  | NRandomize i mn mx me va dr => fst (obj_randomize sort st i mn mx me va dr)
  end.
Definition execs (st : store) (h : list oop) : store := fold_left exec h st.

(** Only objects that exist are mentioned. *)
Fixpoint refs_ok (st : store) (h : list oop) : Prop :=
  match h with
  | [] => True
  | o :: r => (forall i, In i (mentions o) -> is_obj st i) /\ refs_ok (exec st o) r
  end.

(** What an operation means to the object [i] alone; nothing if it does not mention it. *)
Definition op_of (st : store) (i : nat) (o : oop) : list op :=
  match o with
  | NInit _ _ => []
  | NAdd j w p => if j =? i then [OAdd w p] else []
  | NIter j => if j =? i then [OIter] else []
  | NEq j k => if j =? i then [OEq (view st k)] else if k =? i then [OEqR (view st j)] else []
  | NRandomize j mn mx me va dr => if j =? i then [ORandomize mn mx me va dr] else []
  end.
Fixpoint ops_of (st : store) (i : nat) (h : list oop) : list op :=
  match h with
  | [] => []
  | o :: r => op_of st i o ++ ops_of (exec st o) i r
  end.
End Sort.
