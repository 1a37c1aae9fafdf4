(** Syntax trees of the part of Python that melodia is written in, and the values its programs
    compute with.  The trees of the source files are in PySource.v, what they mean is in PySem.v.
    No proofs in this file. *)
From Coq Require Import ZArith List String.
From Verif Require Import Py PyFloat.
Import ListNotations.
Open Scope Z_scope.

(** ** Values *)

(** Objects that can be changed are places in a heap ([VRef]); an instance of a class that assigns to
    attributes in [__init__] only is the value [VObj] of its attributes, and [VNew] while [__init__]
    runs.  [VList] and [VDict] are the lists and dictionaries of module level, which are never changed. *)
Inductive value :=
| VNone
| VBool (b : bool)
| VInt (z : Z)
| VFloat (f : float)
| VStr (s : pystr)
| VBytes (b : bytes)
| VTuple (l : list value)
| VList (l : list value)
| VDict (l : list (value * value))
| VObj (c : string) (fields : list (string * value))
| VNew (c : string) (fields : list (string * value))
| VRef (a : nat)
| VCell (a : nat)                                     (* a variable shared with an inner function *)
| VClass (c : string)
| VFun (f : string)                                   (* a function of the source *)
| VClosure (f : string) (cells : list (string * value))
| VBound (self : value) (f : string)                  (* a method of the source with its object *)
| VBuiltin (f : string)
| VMethod (self : value) (m : string)                 (* a method of a built-in type *)
| VModule (m : string)
| VExc (e : err)
| VIter (i : iter)
| VGetter (n : Z)                                     (* operator.itemgetter(n) *)
| VRegex (pattern : pystr)
| VMatch (groups : list (pystr * value))
(** Iterators: over values known at the start, over the list object at a place of the heap (from an
    index on), over two iterables in parallel, over a generator. *)
with iter :=
| ISeq (l : list value)
| IRef (a : nat) (i : nat)
| IZip (x y : iter)
| IGen (a : nat).

(** ** Expressions *)

Inductive binop := Add | Sub | Mult | Div | FloorDiv | Mod | Pow | LShift | RShift | BitAnd | BitOr.
Inductive cmpop := CEq | CNe | CLt | CLe | CGt | CGe | CIs | CIsNot | CIn | CNotIn.

(** Arguments of a call: positional, starred, by keyword. *)
Inductive argspec := APos | AStar | AKey (x : string).

(** Pieces of an f-string: text, and a replacement field with its format specification. *)
Inductive fpart := FLit (s : string) | FVal (spec : string).

(** Operations all of whose operands are evaluated, from left to right.  The first operand of
    [OCall] is what is called; the operands of [ODict] are keys and values in turn; [OSet] and [ODel]
    are [a[i] = v] and [del a[i]]. *)
Inductive opk :=
| OBin (o : binop)
| ONot | ONeg | OPos
| OAttr (x : string)
| OIndex | OSlice | OSliceFrom | OSliceTo
| OSet | ODel
| OTuple | OList | ODict
| OCall (spec : list argspec)
| OFormat (parts : list fpart).

Inductive compkind := CompList | CompGen | CompDict.

(** [TAttr x a] is the target [x.a] for a variable x. *)
Inductive expr :=
| EConst (v : value)
| EName (x : string)
| EOp (o : opk) (args : list expr)
| EAnd (a b : expr)
| EOr (a b : expr)
| EIf (c a b : expr)                                  (* a if c else b *)
| ECmp (a : expr) (rest : list (cmpop * expr))        (* a chain of comparisons *)
| EComp (k : compkind) (elt : expr) (t : target) (i : expr)
with target :=
| TName (x : string)
| TTuple (l : list target)
| TAttr (x a : string)
| TIndex (e i : expr).

(** ** Statements *)

(** [SDef x f cells] binds x to the inner function f, which uses the variables [cells] of the function
    around it. *)
Inductive stmt :=
| SExpr (e : expr)
| SAssign (t : target) (e : expr)
| SIf (c : expr) (a b : list stmt)
| SWhile (c : expr) (b : list stmt)
| SFor (t : target) (e : expr) (b : list stmt)
| SReturn (e : expr)
| SRaise (e : expr)
| SBreak
| SContinue
| SDef (x f : string) (cells : list string)
| SYield (e : expr).

(** A function: its name, the parameters with their defaults, the variables that inner functions use,
    whether it is a generator, and the body. *)
Record fundef := mkFun {
  f_name : string;
  f_params : list (string * option expr);
  f_cells : list string;
  f_generator : bool;
  f_body : list stmt
}.

Inductive attrkind := KMethod | KProperty | KClassMethod | KStatic.

(** A class: its bases, the functions defined in it, whether attributes are assigned in [__init__]
    only, and the fields if it is a dataclass. *)
Record classdef := mkClass {
  c_bases : list string;
  c_attrs : list (string * attrkind);
  c_frozen : bool;
  c_fields : option (list string)
}.
