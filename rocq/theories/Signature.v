(** Model of src/melodia/core/signature.py.  No proofs in this file. *)
From Coq Require Import String.
From Verif Require Import Py.
Open Scope Z_scope.

(** class Signature, the two slots (signature.py 8, 33-34). *)
Record sig := mkSig { nominator : Z; denominator : Z }.

(** Signature.__init__ (signature.py 10-34). *)
Definition sig_new (n d : Z) : res sig :=
  if negb ((n >=? 0) && (d >? 0) && (Z.land d (d - 1) =? 0)) then Err ValueError
  else Ok (mkSig n d).

(** Signature.to (signature.py 54-81). *)
Definition sig_to (s : sig) (d : Z) : res sig :=
  if negb ((d >? 0) && (Z.land d (d - 1) =? 0)) then Err ValueError
  else if d =? denominator s then sig_new (nominator s) (denominator s)
  else if d >? denominator s then sig_new (d / denominator s * nominator s) d
  else Err ValueError.

(** The while loop of Signature.normalized (signature.py 101-103), with fuel. *)
Fixpoint norm_loop (fuel : nat) (n d : Z) : res (Z * Z) :=
  if (Z.land n 1 =? 0) && (d >? 1) then
    match fuel with
    | O => Err OutOfFuel
    | S k => norm_loop k (Z.shiftr n 1) (Z.shiftr d 1)
    end
  else Ok (n, d).

(** Signature.normalized (signature.py 83-105).  The fuel log2(d)+1 is enough: each turn halves d. *)
Definition sig_normalized (s : sig) : res sig :=
  let! (n, d) := norm_loop (S (Z.to_nat (Z.log2 (denominator s)))) (nominator s) (denominator s) in
  sig_new n d.

(** Signature._to_common_denominator (signature.py 107-117); the last branch returns the operands
    in the other order, as the code does. *)
Definition to_common_denominator (a b : sig) : Z * Z * Z :=
  let n1 := nominator a in let d1 := denominator a in
  let n2 := nominator b in let d2 := denominator b in
  if d1 =? d2 then (n1, n2, d1)
  else if d1 >? d2 then (n1, d1 / d2 * n2, d1)
  else (n2, d2 / d1 * n1, d2).

(** Signature.__eq__ (signature.py 135-144); [!=] is its negation (Python's default __ne__). *)
Definition sig_eq (a b : sig) : bool :=
  let '(n1, n2, _) := to_common_denominator a b in n1 =? n2.

(** Signature.__le__ (signature.py 146-155). *)
Definition sig_le (a b : sig) : bool :=
  let '(n1, n2, _) := to_common_denominator a b in n1 <=? n2.

(** Signature.__lt__ (signature.py 157-166). *)
Definition sig_lt (a b : sig) : bool :=
  let '(n1, n2, _) := to_common_denominator a b in n1 <? n2.

(** Signature.__ge__ (signature.py 168-177). *)
Definition sig_ge (a b : sig) : bool :=
  let '(n1, n2, _) := to_common_denominator a b in n1 >=? n2.

(** Signature.__gt__ (signature.py 179-188). *)
Definition sig_gt (a b : sig) : bool :=
  let '(n1, n2, _) := to_common_denominator a b in n1 >? n2.

(** Signature.__add__ (signature.py 190-199). *)
Definition sig_add (a b : sig) : res sig :=
  let '(n1, n2, d) := to_common_denominator a b in sig_new (n1 + n2) d.

(** Signature.__mul__ (signature.py 201-208). *)
Definition sig_mul (a b : sig) : res sig :=
  sig_new (nominator a * nominator b) (denominator a * denominator b).

(** Signature.__abs__ (signature.py 210-216). *)
Definition sig_abs (a : sig) : res sig :=
  sig_new (Z.abs (nominator a)) (denominator a).

(** Signature.__str__ (signature.py 119-125). *)
Definition sig_str (s : sig) : pystr :=
  str_of_Z (nominator s) ++ lit "/" ++ str_of_Z (denominator s).

(** Signature.__repr__ (signature.py 127-133), for the class itself (no subclass). *)
Definition sig_repr (s : sig) : pystr :=
  lit "Signature(" ++ str_of_Z (nominator s) ++ lit ", " ++ str_of_Z (denominator s) ++ lit ")".

(** An element of the iterable in [Signature( *iterable )]: an int, or an object without an order
    relative to ints (e.g. a str).  Floats, which Python would let through as nominators against
    the annotations, are not modelled. *)
Inductive elem := EInt (z : Z) | EOther.

(** [Signature( *l )] (note.py 46, track.py 36 and 91): wrong arity and unordered operands raise
    TypeError; the checks of signature.py 27 are evaluated left to right with short circuit. *)
Definition sig_star (l : list elem) : res sig :=
  match l with
  | [EInt n; EInt d] => sig_new n d
  | [EInt n; EOther] => if n >=? 0 then Err TypeError else Err ValueError
  | _ => Err TypeError
  end.

(** Arguments documented as "Signature or pair of integers": a Signature, an iterable, or
    something else. *)
Inductive sig_arg := SA_sig (s : sig) | SA_iter (l : list elem) | SA_other.

(** The dispatch repeated at note.py 42-48, track.py 32-38 and 88-93. *)
Definition sig_of_arg (a : sig_arg) : res sig :=
  match a with
  | SA_sig s => Ok s
  | SA_iter l => sig_star l
  | SA_other => Err TypeError
  end.
