(** Python values and built-ins used by melodia: exceptions as values, unbounded
    integers, bytes, decimal strings.  No proofs in this file. *)
From Coq Require Export ZArith List Bool.
From Coq Require Import String Ascii.
Export ListNotations.
Open Scope Z_scope.

(** The exception classes that the modelled code can raise.
    [MIDIParsingError]: src/melodia/io/midi.py 13-18.  [RecursionError] is what CPython raises
    when a recursion does not stop.  [OutOfFuel] is not a Python exception: it is the value of a
    modelled loop whose fuel ran out, and is proved unreachable. *)
Inductive err : Type :=
| ValueError | TypeError | OverflowError | ZeroDivisionError | AssertionError
| KeyError | IndexError | MIDIParsingError | RecursionError | OutOfFuel.

(** Result of a Python expression: a value or a raised exception. *)
Inductive res (A : Type) : Type :=
| Ok (a : A)
| Err (e : err).
Arguments Ok {A} a.
Arguments Err {A} e.

(** Sequencing: the first exception wins (Python's propagation of exceptions). *)
Definition bind {A B : Type} (m : res A) (k : A -> res B) : res B :=
  match m with
  | Ok a => k a
  | Err e => Err e
  end.
Notation "'let!' x := m 'in' k" := (bind m (fun x => k))
  (at level 200, x pattern, m at level 100, k at level 200, right associativity).

(** A list comprehension / loop whose body may raise, left to right. *)
Fixpoint map_res {A B : Type} (f : A -> res B) (l : list A) : res (list B) :=
  match l with
  | [] => Ok []
  | x :: r => let! y := f x in let! ys := map_res f r in Ok (y :: ys)
  end.

Definition is_ok {A : Type} (m : res A) : bool :=
  match m with Ok _ => true | Err _ => false end.

(** ** bytes: lists of integers in 0..255 *)
Definition bytes := list Z.

(** [int.bit_length] (Python built-in), used at src/melodia/io/midi.py 155 and 160. *)
Definition bit_length (n : Z) : Z :=
  if n =? 0 then 0 else Z.log2 (Z.abs n) + 1.

(** Little-endian base-256 digits; helper of [to_bytes_le]. *)
Fixpoint le_digits (len : nat) (n : Z) : bytes :=
  match len with
  | O => []
  | S k => (n mod 256) :: le_digits k (n / 256)
  end.

(** [int.to_bytes(len, 'little')] (built-in; used at src/melodia/io/midi.py 155): raises
    OverflowError for a negative integer and for one that does not fit. *)
Definition to_bytes_le (n : Z) (len : nat) : res bytes :=
  if (n <? 0) || (256 ^ Z.of_nat len <=? n) then Err OverflowError
  else Ok (le_digits len n).

(** [int.to_bytes(len, 'big')] (built-in; used all over src/melodia/io/midi.py). *)
Definition to_bytes_be (n : Z) (len : nat) : res bytes :=
  let! l := to_bytes_le n len in Ok (rev l).

(** [int.from_bytes(b, 'big')] (built-in). *)
Definition from_bytes_be (b : bytes) : Z :=
  fold_left (fun acc x => acc * 256 + x) b 0.

(** ** strings: lists of code points *)
Definition pystr := list Z.

(** String literals. *)
Fixpoint lit (s : string) : pystr :=
  match s with
  | EmptyString => []
  | String c r => Z.of_nat (nat_of_ascii c) :: lit r
  end.

Arguments lit s%string_scope.

(** Decimal digits of a non-negative integer, most significant first, as code points
    ('0' is 48); [fuel] bounds the number of digits. *)
Fixpoint dec_digits (fuel : nat) (n : Z) (acc : pystr) : pystr :=
  match fuel with
  | O => acc
  | S k =>
      let acc' := (48 + n mod 10) :: acc in
      if n / 10 =? 0 then acc' else dec_digits k (n / 10) acc'
  end.

(** [str(int)] and the format ['{:d}'] (built-ins): decimal, with a leading '-' (45) for
    negative integers. *)
Definition str_of_Z (n : Z) : pystr :=
  let body := dec_digits (S (Z.to_nat (Z.log2 (Z.abs n)))) (Z.abs n) [] in
  if n <? 0 then 45 :: body else body.

(** ** Insertion-ordered dictionaries with integer keys (Python [dict]) *)
Definition dict (A : Type) := list (Z * A).

(** [d.get(k)] / [k in d]. *)
Fixpoint dict_get {A} (d : dict A) (k : Z) : option A :=
  match d with
  | [] => None
  | (k', v) :: r => if k =? k' then Some v else dict_get r k
  end.

(** [d[k] = v]: an existing key keeps its place, a new key goes last. *)
Fixpoint dict_set {A} (d : dict A) (k : Z) (v : A) : dict A :=
  match d with
  | [] => [(k, v)]
  | (k', v') :: r => if k =? k' then (k, v) :: r else (k', v') :: dict_set r k v
  end.

(** [del d[k]]. *)
Fixpoint dict_del {A} (d : dict A) (k : Z) : dict A :=
  match d with
  | [] => []
  | (k', v') :: r => if k =? k' then r else (k', v') :: dict_del r k
  end.
