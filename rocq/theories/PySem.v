(** What the syntax trees of PyAst.v mean: a machine that runs them step by step.  No proofs here.

    Everything outside of these rules (other operand types, other built-ins, other uses of them) makes
    the machine stop without a result, so a run that ends in a value or an exception has stayed inside. *)
From Coq Require Import ZArith List Bool String.
From Verif Require Import Py PyFloat PySort Tone Show FrequencyFloat PyRegex PyAst.
Import ListNotations.
Open Scope Z_scope.

(** ** The surroundings of a program *)

(** What is left open about Python: decimal digits of Unicode (Tone.v), digits of printed floats
    (Show.v), [2 ** y] (FrequencyFloat.v), [math.sqrt], the values of [random.gauss] and [random.randint]
    (by the number of earlier calls) and [list.sort]. *)
Record python := mkPython {
  py_nd : Z -> option Z;
  py_digits : positive -> Z -> Z * Z;
  py_pow2 : float -> res float;
  py_sqrt : float -> float;
  py_gauss : nat -> float -> float -> float;
  py_randint : nat -> Z -> Z -> Z;
  py_sort : sort_fn
}.

(** A program: its functions and classes, the values of module level names, and the values of default
    arguments (by function and parameter), both of which are computed when a module is imported. *)
Record program := mkProgram {
  functions_of : list (string * fundef);
  classes_of : list (string * classdef);
  globals_of : list (string * value);
  defaults_of : list (string * list (string * value))
}.

(** ** The machine *)

(** The variables of a running function. *)
Definition env := list (string * value).

(** What remains to be done with the result of the present work. *)
Inductive frame :=
(* expressions *)
| KArgs (o : opk) (done : list value) (todo : list expr) (r : env)     (* [done] is in reverse *)
| KAnd (b : expr) (r : env)
| KOr (b : expr) (r : env)
| KIfE (a b : expr) (r : env)
| KCmp1 (rest : list (cmpop * expr)) (r : env)                          (* the first operand is awaited *)
| KCmp (v : value) (o : cmpop) (rest : list (cmpop * expr)) (r : env)  (* the right operand is awaited *)
| KCmpNext (w : value) (rest : list (cmpop * expr)) (r : env)          (* the comparison with w is awaited *)
| KTuples (o : cmpop) (x y : value) (xs ys : list value)               (* x == y is awaited *)
| KNot
| KComp0 (k : compkind) (elt : expr) (t : target) (r : env)            (* the iterable is awaited *)
| KComp1 (k : compkind) (elt : expr) (t : target) (r : env)            (* the iterator is awaited *)
| KComp (k : compkind) (elt : expr) (t : target) (r : env) (i : iter) (acc : list value)
| KZip1 (y : value)
| KZip2 (x : iter)
(* statements; [rest] is what follows in the block *)
| KExpr (rest : list stmt) (r : env)
| KAssign (t : target) (rest : list stmt) (r : env)
| KTargets (todo : list (target * value)) (rest : list stmt) (r : env)
| KIf (a b rest : list stmt) (r : env)
| KWhile (c : expr) (b : list stmt) (r : env)
| KFor0 (t : target) (b rest : list stmt) (r : env)                    (* the iterable is awaited *)
| KFor1 (t : target) (b rest : list stmt) (r : env)                    (* the iterator is awaited *)
| KReturn
| KRaise
| KYield (rest : list stmt) (r : env)
(* blocks: what to do when the block inside is finished *)
| KSeq (rest : list stmt)
| KLoopW (c : expr) (b : list stmt)
| KLoopF (t : target) (b : list stmt) (i : iter)
(* calls *)
| KFun                                                                 (* a function runs *)
| KInit                                                                (* __init__ of a frozen class *)
| KInitRef (a : nat)                                                   (* __init__ of the object at a *)
| KGen (a : nat)                                                       (* the generator at a runs *)
| KGenFor (t : target) (b : list stmt) (i : iter) (r : env).           (* its next value is awaited *)

(** Objects that can be changed. *)
Inductive obj :=
| HList (l : list value)
| HDict (default : bool) (l : list (value * value))    (* [default]: a defaultdict(list) *)
| HInst (c : string) (fields : list (string * value))
| HFile (data : bytes) (pos : nat)                     (* io.BytesIO *)
| HCell (v : option value)
| HGen (g : option (list stmt * env * list frame)).    (* None: running or finished *)

(** The heap; [h_calls] counts the calls of functions of the module random. *)
Record heap := mkHeap { h_objs : list obj; h_calls : nat }.

Definition get (h : heap) (a : nat) : option obj := nth_error (h_objs h) a.
Definition put (h : heap) (a : nat) (o : obj) : heap := mkHeap (set_nth (h_objs h) a o) (h_calls h).
Definition new (h : heap) (o : obj) : heap := mkHeap (h_objs h ++ [o]) (h_calls h).
Definition next_place (h : heap) : nat := List.length (h_objs h).

Inductive state :=
| Ev (e : expr) (r : env) (h : heap) (K : list frame)                          (* evaluate *)
| Rt (v : value) (h : heap) (K : list frame)                                   (* a value is there *)
| Ex (b : list stmt) (r : env) (h : heap) (K : list frame)                     (* execute *)
| As (todo : list (target * value)) (rest : list stmt) (r : env) (h : heap) (K : list frame)
| Ca (f : value) (args : list value) (kws : list (string * value)) (h : heap) (K : list frame)
| Cm (o : cmpop) (v w : value) (h : heap) (K : list frame)                     (* compare *)
| It (v : value) (h : heap) (K : list frame)                                   (* iter(v) *)
| Lp (t : target) (b : list stmt) (i : iter) (r : env) (h : heap) (K : list frame)
| Un (v : value) (h : heap) (K : list frame)                                   (* return v *)
| Br (r : env) (h : heap) (K : list frame)                                     (* break *)
| Co (r : env) (h : heap) (K : list frame)                                     (* continue *)
| Sort (a : nat) (key : option Z) (h : heap) (K : list frame)                  (* list.sort *)
| Push (a : nat) (v : value) (h : heap) (K : list frame)                       (* heapq.heappush *)
| Thr (e : err) (h : heap)                                                     (* an exception is raised *)
| Stuck.

(** ** Names *)

Fixpoint assoc {A} (x : string) (l : list (string * A)) : option A :=
  match l with
  | [] => None
  | (y, v) :: r => if String.eqb x y then Some v else assoc x r
  end.

Fixpoint set_var {A} (x : string) (v : A) (l : list (string * A)) : list (string * A) :=
  match l with
  | [] => [(x, v)]
  | (y, w) :: r => if String.eqb x y then (x, v) :: r else (y, w) :: set_var x v r
  end.

(** One list before another: variables, frames and arguments (bytes, strings and lists of values have [++]). *)
Fixpoint also {A} (a b : list A) : list A :=
  match a with
  | [] => b
  | x :: r => x :: also r b
  end.

Fixpoint any {A} (f : A -> bool) (l : list A) : bool :=
  match l with
  | [] => false
  | x :: r => if f x then true else any f r
  end.
Definition is_one_of (x : string) (l : list string) : bool := any (String.eqb x) l.

Definition builtins : list string :=
  ["isinstance"; "len"; "abs"; "int"; "str"; "repr"; "max"; "min"; "sum"; "iter"; "range"; "zip"; "list";
   "Iterable"; "defaultdict"; "itemgetter"]%string.
Definition modules : list string := ["heapq"; "io"; "math"; "random"; "re"]%string.

(** Exception classes. *)
Definition exception (c : string) : option err :=
  assoc c [("ValueError", ValueError); ("TypeError", TypeError); ("AssertionError", AssertionError);
           ("MIDIParsingError", MIDIParsingError)]%string.

Section Machine.
Variable P : program.
Variable Y : python.

Definition global (x : string) : option value :=
  match assoc x (globals_of P) with
  | Some v => Some v
  | None =>
      match assoc x (functions_of P) with
      | Some _ => Some (VFun x)
      | None =>
          match assoc x (classes_of P) with
          | Some _ => Some (VClass x)
          | None =>
              match exception x with
              | Some _ => Some (VClass x)
              | None =>
                  if is_one_of x builtins then Some (VBuiltin x)
                  else if is_one_of x modules then Some (VModule x)
                  else None
              end
          end
      end
  end.

Definition variable (x : string) (r : env) (h : heap) : option value :=
  match assoc x r with
  | Some (VCell a) => match get h a with Some (HCell (Some v)) => Some v | _ => None end
  | Some v => Some v
  | None => global x
  end.

(** The function [x] found in a class or the classes it is derived from, and its kind. *)
Fixpoint find_attr (fuel : nat) (c x : string) : option (string * attrkind) :=
  match fuel with
  | O => None
  | S k =>
      match assoc c (classes_of P) with
      | None => None
      | Some d =>
          match assoc x (c_attrs d) with
          | Some kind => Some ((c ++ "." ++ x)%string, kind)
          | None =>
              fold_left (fun acc b => match acc with Some p => Some p | None => find_attr k b x end)
                        (c_bases d) None
          end
      end
  end.
Definition class_attr (c x : string) := find_attr 4 c x.

Fixpoint subclass (fuel : nat) (c d : string) : bool :=
  if String.eqb c d then true
  else
  match fuel with
  | O => false
  | S k => match assoc c (classes_of P) with
           | Some x => any (fun b => subclass k b d) (c_bases x)
           | None => false
           end
  end.

(** ** Values *)

Definition ref_class (a : nat) (h : heap) : option string :=
  match get h a with Some (HInst c _) => Some c | _ => None end.

(** The class of an instance of a class of the source. *)
Definition class_of (v : value) (h : heap) : option string :=
  match v with VObj c _ => Some c | VRef a => ref_class a h | _ => None end.

Definition truthy (v : value) (h : heap) : option bool :=
  match v with
  | VNone => Some false
  | VBool b => Some b
  | VInt z => Some (negb (z =? 0))
  | VStr s => Some (match s with [] => false | _ => true end)
  | VBytes s => Some (match s with [] => false | _ => true end)
  | VTuple l => Some (match l with [] => false | _ => true end)
  | VRef a =>
      match get h a with
      | Some (HList l) => Some (match l with [] => false | _ => true end)
      | Some (HDict _ l) => Some (match l with [] => false | _ => true end)
      | _ => None
      end
  | _ => None
  end.

(** isinstance(v, c). *)
Definition is_iterable (v : value) (h : heap) : bool :=
  match v with
  | VStr _ | VBytes _ | VTuple _ | VList _ | VDict _ | VIter _ => true
  | VRef a =>
      match get h a with
      | Some (HList _) | Some (HDict _ _) | Some (HFile _ _) => true
      | Some (HInst c _) => match class_attr c "__iter__" with Some _ => true | None => false end
      | _ => false
      end
  | VObj c _ => match class_attr c "__iter__" with Some _ => true | None => false end
  | _ => false
  end.
Definition instance_of (v c : value) (h : heap) : option bool :=
  match c with
  | VBuiltin "int"%string => Some (match v with VInt _ | VBool _ => true | _ => false end)
  | VBuiltin "str"%string => Some (match v with VStr _ => true | _ => false end)
  | VBuiltin "Iterable"%string => Some (is_iterable v h)
  | VClass d => Some (match class_of v h with Some c => subclass 4 c d | None => false end)
  | _ => None
  end.
Fixpoint instance_of_any (v : value) (cs : list value) (h : heap) : option bool :=
  match cs with
  | [] => Some false
  | c :: r => match instance_of v c h with
              | Some true => Some true
              | Some false => instance_of_any v r h
              | None => None
              end
  end.

(** A mixed operation converts the int; a too large one raises OverflowError. *)
Definition to_float (z : Z) : res float :=
  match float_of_Z z with S754_infinity _ => Err OverflowError | f => Ok f end.

(** ** Equality and order of built-in values *)

Inductive kind := Num | Str | Byt | Non | Tup.
Definition kind_of (v : value) : option kind :=
  match v with
  | VInt _ | VFloat _ => Some Num
  | VStr _ => Some Str
  | VBytes _ => Some Byt
  | VNone => Some Non
  | VTuple _ => Some Tup
  | _ => None
  end.
Definition kind_eqb (a b : kind) : bool :=
  match a, b with Num, Num | Str, Str | Byt, Byt | Non, Non | Tup, Tup => true | _, _ => false end.

Fixpoint text_eq (a b : list Z) : bool :=
  match a, b with
  | [], [] => true
  | x :: a', y :: b' => (x =? y) && text_eq a' b'
  | _, _ => false
  end.

Definition cmp_Z (o : cmpop) (a b : Z) : option bool :=
  match o with
  | CEq => Some (a =? b) | CNe => Some (negb (a =? b))
  | CLt => Some (a <? b) | CLe => Some (a <=? b) | CGt => Some (a >? b) | CGe => Some (a >=? b)
  | _ => None
  end.
Definition cmp_float (o : cmpop) (a b : float) : option bool :=
  match o with
  | CEq => Some (feq a b) | CNe => Some (negb (feq a b))
  | CLt => Some (flt a b) | CLe => Some (fle a b) | CGt => Some (flt b a) | CGe => Some (fle b a)
  | _ => None
  end.
(** Integers up to this size are floats. *)
Definition small (z : Z) : bool := Z.abs z <=? 2 ^ 53.

(** Values of types that have no order with each other. *)
Definition cmp_unlike (o : cmpop) : option (res bool) :=
  match o with
  | CEq => Some (Ok false)
  | CNe => Some (Ok true)
  | CLt | CLe | CGt | CGe => Some (Err TypeError)
  | _ => None
  end.
Definition ok_bool (b : option bool) : option (res bool) :=
  match b with Some b => Some (Ok b) | None => None end.
Definition cmp_text (o : cmpop) (a b : list Z) : option (res bool) :=
  match o with
  | CEq => Some (Ok (text_eq a b))
  | CNe => Some (Ok (negb (text_eq a b)))
  | _ => None
  end.
(** Comparison of built-in values other than two tuples. *)
Definition cmp_base (o : cmpop) (v w : value) : option (res bool) :=
  match v, w with
  | VInt a, VInt b => ok_bool (cmp_Z o a b)
  | VFloat a, VFloat b => ok_bool (cmp_float o a b)
  | VInt a, VFloat b => if small a then ok_bool (cmp_float o (float_of_Z a) b) else None
  | VFloat a, VInt b => if small b then ok_bool (cmp_float o a (float_of_Z b)) else None
  | VStr a, VStr b => cmp_text o a b
  | VBytes a, VBytes b => cmp_text o a b
  | VNone, VNone => match o with CEq => Some (Ok true) | CNe => Some (Ok false)
                               | CLt | CLe | CGt | CGe => Some (Err TypeError) | _ => None end
  | _, _ =>
      match kind_of v, kind_of w with
      | Some a, Some b => if kind_eqb a b then None else cmp_unlike o
      | _, _ => None
      end
  end.

(** [x == k] for a key of a dictionary or an element of a tuple of constants. *)
Definition key_eq (x k : value) : option bool :=
  match cmp_base CEq x k with Some (Ok b) => Some b | _ => None end.
Fixpoint lookup (x : value) (l : list (value * value)) : option (option value) :=
  match l with
  | [] => Some None
  | (k, v) :: r => match key_eq x k with
                   | Some true => Some (Some v)
                   | Some false => lookup x r
                   | None => None
                   end
  end.
Fixpoint insert (x v : value) (l : list (value * value)) : option (list (value * value)) :=
  match l with
  | [] => Some [(x, v)]
  | (k, w) :: r => match key_eq x k with
                   | Some true => Some ((k, v) :: r)
                   | Some false => match insert x v r with Some r' => Some ((k, w) :: r') | None => None end
                   | None => None
                   end
  end.
Fixpoint remove (x : value) (l : list (value * value)) : option (option (list (value * value))) :=
  match l with
  | [] => Some None
  | (k, w) :: r => match key_eq x k with
                   | Some true => Some (Some r)
                   | Some false => match remove x r with
                                   | Some (Some r') => Some (Some ((k, w) :: r'))
                                   | Some None => Some None
                                   | None => None
                                   end
                   | None => None
                   end
  end.
Fixpoint member (x : value) (l : list value) : option bool :=
  match l with
  | [] => Some false
  | y :: r => match key_eq x y with
              | Some true => Some true
              | Some false => member x r
              | None => None
              end
  end.

(** [x in c] *)
Definition contains (x c : value) (h : heap) : option bool :=
  let in_dict l := match lookup x l with
                   | Some (Some _) => Some true | Some None => Some false | None => None end in
  match c with
  | VTuple l | VList l => member x l
  | VDict l => in_dict l
  | VRef a => match get h a with
              | Some (HDict _ l) => in_dict l
              | Some (HList l) => member x l
              | _ => None
              end
  | _ => None
  end.

(** ** Operations *)

(** What an operation on built-in values gives: a value, an exception, or nothing (not modelled). *)
Definition outcome := option (res value).
Definition done (v : value) : outcome := Some (Ok v).

Definition finish (o : outcome) (h : heap) (K : list frame) : state :=
  match o with
  | Some (Ok v) => Rt v h K
  | Some (Err e) => Thr e h
  | None => Stuck
  end.

Definition lift {A} (f : A -> value) (r : res A) : outcome :=
  Some (match r with Ok a => Ok (f a) | Err e => Err e end).

Definition binop_int (o : binop) (a b : Z) : outcome :=
  match o with
  | Add => done (VInt (a + b))
  | Sub => done (VInt (a - b))
  | Mult => done (VInt (a * b))
  | FloorDiv => if b =? 0 then Some (Err ZeroDivisionError) else done (VInt (a / b))
  | Mod => if b =? 0 then Some (Err ZeroDivisionError) else done (VInt (a mod b))
  | Div => lift VFloat (int_truediv a b)
  | LShift => if b <? 0 then Some (Err ValueError) else done (VInt (Z.shiftl a b))
  | RShift => if b <? 0 then Some (Err ValueError) else done (VInt (Z.shiftr a b))
  | BitAnd => done (VInt (Z.land a b))
  | BitOr => done (VInt (Z.lor a b))
  | Pow => None
  end.
Definition binop_float (o : binop) (a b : float) : outcome :=
  match o with
  | Mult => done (VFloat (fmul a b))
  | Div => if feq b f_zero then Some (Err ZeroDivisionError) else done (VFloat (fdiv a b))
  | _ => None
  end.
Definition binop_mixed (o : binop) (a b : res float) : outcome :=
  match a, b with
  | Ok a, Ok b => binop_float o a b
  | Err e, _ | _, Err e => Some (Err e)
  end.
Definition binop_base (o : binop) (v w : value) : outcome :=
  match v, w with
  | VInt a, VInt b => binop_int o a b
  | VFloat a, VFloat b => binop_float o a b
  | VInt a, VFloat b =>
      match o with
      | Pow => if a =? 2 then lift VFloat (py_pow2 Y b) else None
      | _ => binop_mixed o (to_float a) (Ok b)
      end
  | VFloat a, VInt b => binop_mixed o (Ok a) (to_float b)
  | VStr a, VStr b => match o with Add => done (VStr (a ++ b)) | _ => None end
  | VBytes a, VBytes b => match o with Add => done (VBytes (a ++ b)) | _ => None end
  | _, _ => None
  end.
Definition binop_method (o : binop) : string :=
  match o with Add => "__add__" | Mult => "__mul__" | _ => "" end.

Definition binop_step (o : binop) (v w : value) (h : heap) (K : list frame) : state :=
  match v with
  | VObj c _ =>
      match class_attr c (binop_method o) with
      | Some (f, KMethod) => Ca (VFun f) [v; w] [] h K
      | _ => Stuck
      end
  | VRef a =>
      match get h a, w, o with
      | Some (HList l), VInt n, Mult =>
          Rt (VRef (next_place h)) (new h (HList (concat (repeat l (Z.to_nat n))))) K
      | _, _, _ => Stuck
      end
  | _ => finish (binop_base o v w) h K
  end.

(** Attributes. *)
Definition attr_of_class (c x : string) (self : value) (h : heap) (K : list frame) : state :=
  match class_attr c x with
  | Some (f, KMethod) => Rt (VBound self f) h K
  | Some (f, KStatic) => Rt (VFun f) h K
  | Some (f, KClassMethod) => Rt (VBound (VClass c) f) h K
  | Some (f, KProperty) => Ca (VFun f) [self] [] h K
  | None => if String.eqb x "__class__" then Rt (VClass c) h K else Stuck
  end.
Definition attr_of_instance (c : string) (fields : list (string * value)) (x : string) (self : value)
           (h : heap) (K : list frame) : state :=
  match class_attr c x, assoc x fields with
  | Some (_, KProperty), _ => attr_of_class c x self h K
  | _, Some v => Rt v h K
  | _, None => attr_of_class c x self h K
  end.
Definition attr_step (v : value) (x : string) (h : heap) (K : list frame) : state :=
  match v with
  | VObj c fields => attr_of_instance c fields x v h K
  | VNew c fields => match assoc x fields with Some w => Rt w h K | None => Stuck end
  | VRef a =>
      match get h a with
      | Some (HInst c fields) => attr_of_instance c fields x v h K
      | Some (HList _) | Some (HDict _ _) | Some (HFile _ _) => Rt (VMethod v x) h K
      | _ => Stuck
      end
  | VClass c =>
      if String.eqb x "__name__" then Rt (VStr (lit c)) h K
      else
        match class_attr c x with
        | Some (f, KClassMethod) => Rt (VBound v f) h K
        | Some (f, KStatic) | Some (f, KMethod) => Rt (VFun f) h K
        | _ => Stuck
        end
  | VModule m => Rt (VBuiltin (m ++ "." ++ x)%string) h K
  | VBuiltin "int"%string | VInt _ | VStr _ | VBytes _ | VDict _ | VRegex _ | VMatch _ => Rt (VMethod v x) h K
  | _ => Stuck
  end.

(** Indices and slices: negative ones count from the end; slices are cut to the size. *)
Definition index_of (i n : Z) : option nat :=
  let j := if i <? 0 then i + n else i in
  if (0 <=? j) && (j <? n) then Some (Z.to_nat j) else None.
Definition index_list (l : list value) (i : Z) : outcome :=
  match index_of i (Z.of_nat (List.length l)) with
  | None => Some (Err IndexError)
  | Some k => match nth_error l k with Some v => done v | None => None end
  end.
Definition bound (i n : Z) : Z := if i <? 0 then Z.max 0 (i + n) else Z.min i n.
Definition slice (l : list Z) (lo hi : Z) : list Z :=
  let n := Z.of_nat (List.length l) in
  let a := bound lo n in
  let b := bound hi n in
  firstn (Z.to_nat (b - a)) (skipn (Z.to_nat a) l).

Definition index_step (c i : value) (h : heap) (K : list frame) : state :=
  match c, i with
  | VTuple l, VInt z | VList l, VInt z => finish (index_list l z) h K
  | VDict l, _ =>
      match lookup i l with
      | Some (Some v) => Rt v h K
      | Some None => Thr KeyError h
      | None => Stuck
      end
  | VRef a, _ =>
      match get h a with
      | Some (HList l) => match i with VInt z => finish (index_list l z) h K | _ => Stuck end
      | Some (HDict default l) =>
          match lookup i l with
          | Some (Some v) => Rt v h K
          | Some None =>
              if default then
                let v := VRef (next_place h) in
                Rt v (put (new h (HList [])) a (HDict default (l ++ [(i, v)]))) K
              else Thr KeyError h
          | None => Stuck
          end
      | _ => Stuck
      end
  | _, _ => Stuck
  end.

Definition set_step (c i v : value) (h : heap) (K : list frame) : state :=
  match c with
  | VRef a =>
      match get h a with
      | Some (HDict default l) =>
          match insert i v l with
          | Some l' => Rt VNone (put h a (HDict default l')) K
          | None => Stuck
          end
      | Some (HList l) =>
          match i with
          | VInt z =>
              match index_of z (Z.of_nat (List.length l)) with
              | Some k => Rt VNone (put h a (HList (set_nth l k v))) K
              | None => Thr IndexError h
              end
          | _ => Stuck
          end
      | _ => Stuck
      end
  | _ => Stuck
  end.

Definition del_step (c i : value) (h : heap) (K : list frame) : state :=
  match c with
  | VRef a =>
      match get h a with
      | Some (HDict default l) =>
          match remove i l with
          | Some (Some l') => Rt VNone (put h a (HDict default l')) K
          | Some None => Thr KeyError h
          | None => Stuck
          end
      | _ => Stuck
      end
  | _ => Stuck
  end.

(** f-strings. *)
Definition format_value (spec : string) (v : value) : option pystr :=
  match spec, v with
  | ""%string, VInt z => Some (str_of_Z z)
  | ""%string, VStr s => Some s
  | ""%string, VFloat f => Some (repr_float (py_digits Y) f)
  | "s"%string, VStr s => Some s
  | "d"%string, VInt z => Some (str_of_Z z)
  | ".3f"%string, VFloat f => Some (fixed3 f)
  | _, _ => None
  end.
Fixpoint format_parts (parts : list fpart) (vs : list value) : option pystr :=
  match parts, vs with
  | [], [] => Some []
  | FLit s :: r, _ => match format_parts r vs with Some t => Some (lit s ++ t) | None => None end
  | FVal spec :: r, v :: vs' =>
      match format_value spec v, format_parts r vs' with
      | Some s, Some t => Some (s ++ t)
      | _, _ => None
      end
  | _, _ => None
  end.

(** The elements of a built-in iterable. *)
Definition elements (v : value) (h : heap) : option (list value) :=
  match v with
  | VTuple l | VList l => Some l
  | VStr s => Some (map (fun c => VStr [c]) s)
  | VBytes s => Some (map VInt s)
  | VRef a => match get h a with Some (HList l) => Some l | _ => None end
  | _ => None
  end.

(** The arguments of a call in the order of the specification. *)
Fixpoint call_args (spec : list argspec) (vs : list value) (h : heap)
  : option (list value * list (string * value)) :=
  match spec, vs with
  | [], [] => Some ([], [])
  | APos :: s, v :: r =>
      match call_args s r h with Some (args, kws) => Some (v :: args, kws) | None => None end
  | AKey x :: s, v :: r =>
      match call_args s r h with Some (args, kws) => Some (args, (x, v) :: kws) | None => None end
  | AStar :: s, v :: r =>
      match elements v h, call_args s r h with
      | Some l, Some (args, kws) => Some (also l args, kws)
      | _, _ => None
      end
  | _, _ => None
  end.

Fixpoint pairs (l : list value) : option (list (value * value)) :=
  match l with
  | [] => Some []
  | k :: v :: r => match pairs r with Some p => Some ((k, v) :: p) | None => None end
  | _ => None
  end.
Fixpoint insert_all (l : list (value * value)) (acc : list (value * value)) : option (list (value * value)) :=
  match l with
  | [] => Some acc
  | (k, v) :: r => match insert k v acc with Some acc' => insert_all r acc' | None => None end
  end.

Definition op_step (o : opk) (vs : list value) (h : heap) (K : list frame) : state :=
  match o, vs with
  | OBin b, [v; w] => binop_step b v w h K
  | ONot, [v] => match truthy v h with Some b => Rt (VBool (negb b)) h K | None => Stuck end
  | ONeg, [VInt z] => Rt (VInt (- z)) h K
  | OPos, [VInt z] => Rt (VInt z) h K
  | OAttr x, [v] => attr_step v x h K
  | OIndex, [c; i] => index_step c i h K
  | OSlice, [VBytes b; VInt lo; VInt hi] => Rt (VBytes (slice b lo hi)) h K
  | OSliceFrom, [VBytes b; VInt lo] => Rt (VBytes (slice b lo (Z.of_nat (List.length b)))) h K
  | OSliceTo, [VBytes b; VInt hi] => Rt (VBytes (slice b 0 hi)) h K
  | OSet, [c; i; v] => set_step c i v h K
  | ODel, [c; i] => del_step c i h K
  | OTuple, _ => Rt (VTuple vs) h K
  | OList, _ => Rt (VRef (next_place h)) (new h (HList vs)) K
  | ODict, _ =>
      match pairs vs with
      | Some p => match insert_all p [] with
                  | Some l => Rt (VRef (next_place h)) (new h (HDict false l)) K
                  | None => Stuck
                  end
      | None => Stuck
      end
  | OCall spec, f :: args =>
      match call_args spec args h with
      | Some (args, kws) => Ca f args kws h K
      | None => Stuck
      end
  | OFormat parts, _ => match format_parts parts vs with Some s => Rt (VStr s) h K | None => Stuck end
  | _, _ => Stuck
  end.

(** ** Calls *)

(** Parameters from positional arguments, then keywords, then defaults; None is a TypeError. *)
Fixpoint bind_params (f : string) (ps : list (string * option expr)) (args : list value)
         (kws : list (string * value)) : option env :=
  match ps, args with
  | [], [] => Some []
  | [], _ :: _ => None
  | (x, _) :: ps', v :: args' =>
      match assoc x kws with
      | Some _ => None
      | None => match bind_params f ps' args' kws with Some r => Some ((x, v) :: r) | None => None end
      end
  | (x, d) :: ps', [] =>
      match (match assoc x kws with
             | Some v => Some v
             | None => match d, assoc f (defaults_of P) with
                       | Some _, Some l => assoc x l
                       | _, _ => None
                       end
             end), bind_params f ps' [] kws with
      | Some v, Some r => Some ((x, v) :: r)
      | _, _ => None
      end
  end.
Definition known_keywords (ps : list (string * option expr)) (kws : list (string * value)) : bool :=
  if any (fun k => if any (fun p => String.eqb (fst k) (fst p)) ps then false else true) kws
  then false else true.

(** The variables that inner functions share live in the heap. *)
Fixpoint make_cells (xs : list string) (r : env) (h : heap) : env * heap :=
  match xs with
  | [] => (r, h)
  | x :: xs' =>
      let a := next_place h in
      make_cells xs' (set_var x (VCell a) r) (new h (HCell (assoc x r)))
  end.

(** The body of a function starts; [cells] are the shared variables of an inner function. *)
Definition enter (f : string) (cells : env) (args : list value) (kws : list (string * value)) (h : heap)
           (k : frame) (K : list frame) : state :=
  match assoc f (functions_of P) with
  | None => Stuck
  | Some d =>
      if known_keywords (f_params d) kws then
        match bind_params f (f_params d) args kws with
        | None => Thr TypeError h
        | Some r =>
            let (r, h) := make_cells (f_cells d) r h in
            if f_generator d
            then Rt (VIter (IGen (next_place h))) (new h (HGen (Some (f_body d, r, [])))) K
            else Ex (f_body d) (also r cells) h (k :: K)
        end
      else Thr TypeError h
  end.

(** An instance of a dataclass. *)
Fixpoint no_defaults (fields : list string) : list (string * option expr) :=
  match fields with
  | [] => []
  | x :: r => (x, None) :: no_defaults r
  end.
Definition make_data (c : string) (fields : list string) (args : list value) (kws : list (string * value))
           (h : heap) (K : list frame) : state :=
  let ps := no_defaults fields in
  if known_keywords ps kws then
    match bind_params c ps args kws with
    | Some r => Rt (VObj c r) h K
    | None => Thr TypeError h
    end
  else Thr TypeError h.

Definition make_instance (c : string) (args : list value) (kws : list (string * value)) (h : heap)
           (K : list frame) : state :=
  match exception c with
  | Some e => Rt (VExc e) h K
  | None =>
      match assoc c (classes_of P) with
      | None => Stuck
      | Some d =>
          match c_fields d with
          | Some fields => make_data c fields args kws h K
          | None =>
              let init := (c ++ ".__init__")%string in
              if c_frozen d then enter init [] (VNew c [] :: args) kws h KInit K
              else
                let a := next_place h in
                enter init [] (VRef a :: args) kws (new h (HInst c [])) (KInitRef a) K
          end
      end
  end.

(** [int(s)] for an optional minus sign and digits. *)
Definition int_of_str (s : pystr) : option Z :=
  let digits t := match t with [] => false | _ => forallb (is_digit (py_nd Y)) t end in
  match s with
  | 45 :: t => if digits t then Some (- int_of_digits (py_nd Y) t) else None
  | _ => if digits s then Some (int_of_digits (py_nd Y) s) else None
  end.

Fixpoint sum_ints (l : list value) (acc : Z) : option Z :=
  match l with
  | [] => Some acc
  | VInt z :: r => sum_ints r (acc + z)
  | _ => None
  end.

Definition call_method (v : value) (x : string) (h : heap) (K : list frame) : state :=
  match class_of v h with
  | Some c => match class_attr c x with
              | Some (f, KMethod) => Ca (VFun f) [v] [] h K
              | _ => Stuck
              end
  | None => Stuck
  end.

Definition len_step (v : value) (h : heap) (K : list frame) : state :=
  let size {A} (l : list A) := Rt (VInt (Z.of_nat (List.length l))) h K in
  match v with
  | VBytes b => size b
  | VStr s => size s
  | VTuple l | VList l => size l
  | VRef a =>
      match get h a with
      | Some (HList l) => size l
      | Some (HDict _ l) => size l
      | Some (HInst _ _) => call_method v "__len__" h K
      | _ => Stuck
      end
  | _ => Stuck
  end.

Definition str_step (v : value) (h : heap) (K : list frame) : state :=
  match v with
  | VInt z => Rt (VStr (str_of_Z z)) h K
  | VStr s => Rt v h K
  | VObj _ _ | VRef _ => call_method v "__str__" h K
  | _ => Stuck
  end.

Definition range_list (lo hi : Z) : list value :=
  map (fun k => VInt (lo + Z.of_nat k)) (seq 0 (Z.to_nat (hi - lo))).

Definition int_step (v : value) (h : heap) (K : list frame) : state :=
  match v with
  | VFloat f => finish (lift VInt (int_of_float f)) h K
  | VStr s => match int_of_str s with Some z => Rt (VInt z) h K | None => Stuck end
  | _ => Stuck
  end.

Definition builtin_step (f : string) (args : list value) (h : heap) (K : list frame) : state :=
  match f, args with
  | "isinstance"%string, [v; c] =>
      match (match c with VTuple cs => instance_of_any v cs h | _ => instance_of v c h end) with
      | Some b => Rt (VBool b) h K
      | None => Stuck
      end
  | "len"%string, [v] => len_step v h K
  | "abs"%string, [VInt z] => Rt (VInt (Z.abs z)) h K
  | "abs"%string, [v] => call_method v "__abs__" h K
  | "int"%string, [v] => int_step v h K
  | "str"%string, [v] => str_step v h K
  | "repr"%string, [v] => call_method v "__repr__" h K
  | "max"%string, [VInt a; VInt b] => Rt (VInt (imax a b)) h K
  | "min"%string, [VInt a; VInt b] => Rt (VInt (imin a b)) h K
  | "max"%string, [VFloat a; VFloat b] => Rt (VFloat (fmax a b)) h K
  | "min"%string, [VFloat a; VFloat b] => Rt (VFloat (fmin a b)) h K
  | "sum"%string, [VList l] => match sum_ints l 0 with Some z => Rt (VInt z) h K | None => Stuck end
  | "iter"%string, [v] => It v h K
  | "range"%string, [VInt hi] => Rt (VList (range_list 0 hi)) h K
  | "range"%string, [VInt lo; VInt hi] => Rt (VList (range_list lo hi)) h K
  | "zip"%string, [x; y] => It x h (KZip1 y :: K)
  | "defaultdict"%string, [VBuiltin "list"%string] => Rt (VRef (next_place h)) (new h (HDict true [])) K
  | "itemgetter"%string, [VInt n] => Rt (VGetter n) h K
  | "heapq.heappush"%string, [VRef a; v] => Push a v h K
  | "io.BytesIO"%string, [] => Rt (VRef (next_place h)) (new h (HFile [] 0)) K
  | "io.BytesIO"%string, [VBytes b] => Rt (VRef (next_place h)) (new h (HFile b 0)) K
  | "math.sqrt"%string, [VFloat x] => Rt (VFloat (py_sqrt Y x)) h K
  | "random.gauss"%string, [VFloat m; VFloat s] =>
      Rt (VFloat (py_gauss Y (h_calls h) m s)) (mkHeap (h_objs h) (S (h_calls h))) K
  | "random.randint"%string, [VInt lo; VInt hi] =>
      Rt (VInt (py_randint Y (h_calls h) lo hi)) (mkHeap (h_objs h) (S (h_calls h))) K
  | "random.choice"%string, [VRef a] =>
      match get h a with
      | Some (HList l) =>
          match nth_error l (Z.to_nat (py_randint Y (h_calls h) 0 (Z.of_nat (List.length l) - 1))) with
          | Some v => Rt v (mkHeap (h_objs h) (S (h_calls h))) K
          | None => Stuck
          end
      | _ => Stuck
      end
  | "re.compile"%string, [VStr s] => match parse_regex s with Some _ => Rt (VRegex s) h K | None => Stuck end
  | _, _ => Stuck
  end.

(** Methods of built-in types. *)
Definition to_bytes_step (z : Z) (args : list value) : outcome :=
  match args with
  | [VInt n; VStr order] =>
      if n <? 0 then Some (Err ValueError)
      else if text_eq order (lit "big") then lift VBytes (to_bytes_be z (Z.to_nat n))
      else if text_eq order (lit "little") then lift VBytes (to_bytes_le z (Z.to_nat n))
      else None
  | _ => None
  end.
Fixpoint concat_bytes (l : list value) : option bytes :=
  match l with
  | [] => Some []
  | VBytes b :: r => match concat_bytes r with Some c => Some (b ++ c) | None => None end
  | _ => None
  end.
Fixpoint texts (l : list value) : option (list pystr) :=
  match l with
  | [] => Some []
  | VStr b :: r => match texts r with Some c => Some (b :: c) | None => None end
  | _ => None
  end.

(** file.write at a position of a BytesIO. *)
Definition overwrite (data : bytes) (pos : nat) (b : bytes) : bytes :=
  firstn pos data ++ b ++ skipn (pos + List.length b) data.

Definition method_of_object (a : nat) (m : string) (args : list value) (kws : list (string * value)) (h : heap)
           (K : list frame) : state :=
  match get h a, m, args with
  | Some (HList l), "append"%string, [v] => Rt VNone (put h a (HList (l ++ [v]))) K
  | Some (HList l), "sort"%string, [] =>
      match kws with
      | [] => Sort a None h K
      | [("key"%string, VGetter n)] => Sort a (Some n) h K
      | _ => Stuck
      end
  | Some (HDict _ l), "items"%string, [] => Rt (VList (map (fun kv => VTuple [fst kv; snd kv]) l)) h K
  | Some (HDict _ l), "values"%string, [] => Rt (VList (map snd l)) h K
  | Some (HDict _ l), "get"%string, [x; d] =>
      match lookup x l with
      | Some (Some v) => Rt v h K
      | Some None => Rt d h K
      | None => Stuck
      end
  | Some (HFile data pos), "read"%string, [VInt n] =>
      if n <? 0 then Stuck
      else
        let b := firstn (Z.to_nat n) (skipn pos data) in
        Rt (VBytes b) (put h a (HFile data (pos + List.length b))) K
  | Some (HFile data pos), "write"%string, [VBytes b] =>
      Rt (VInt (Z.of_nat (List.length b)))
         (put h a (HFile (overwrite data pos b) (pos + List.length b))) K
  | Some (HFile data pos), "getbuffer"%string, [] => Rt (VBytes data) h K
  | _, _, _ => Stuck
  end.

(** The groups of a match object: those that took no part in the match are None. *)
Fixpoint text_assoc {A} (x : pystr) (l : list (pystr * A)) : option A :=
  match l with
  | [] => None
  | (y, v) :: r => if text_eq x y then Some v else text_assoc x r
  end.
Definition all_groups (p : pystr) (g : groups) : list (pystr * value) :=
  match parse_regex p with
  | Some r => map (fun x => (x, match text_assoc x g with Some s => VStr s | None => VNone end)) (group_names r)
  | None => []
  end.

Definition method_step (v : value) (m : string) (args : list value) (kws : list (string * value)) (h : heap)
           (K : list frame) : state :=
  match v, m, args with
  | VRef a, _, _ => method_of_object a m args kws h K
  | VInt z, "to_bytes"%string, _ => finish (to_bytes_step z args) h K
  | VInt z, "bit_length"%string, [] => Rt (VInt (bit_length z)) h K
  | VBuiltin "int"%string, "from_bytes"%string, [VBytes b; VStr order] =>
      if text_eq order (lit "big") then Rt (VInt (from_bytes_be b)) h K else Stuck
  | VBytes [], "join"%string, [l] =>
      match elements l h with
      | Some vs => match concat_bytes vs with Some b => Rt (VBytes b) h K | None => Stuck end
      | None => Stuck
      end
  | VBytes b, "tobytes"%string, [] => Rt (VBytes b) h K
  | VStr s, "join"%string, [l] =>
      match elements l h with
      | Some vs => match texts vs with Some ts => Rt (VStr (join s ts)) h K | None => Stuck end
      | None => Stuck
      end
  | VDict l, "items"%string, [] => Rt (VList (map (fun kv => VTuple [fst kv; snd kv]) l)) h K
  | VRegex p, "match"%string, [VStr s] =>
      match re_match (py_nd Y) p s with
      | Some None => Rt VNone h K
      | Some (Some g) => Rt (VMatch (all_groups p g)) h K
      | None => Stuck
      end
  | VMatch g, "group"%string, [VStr s] =>
      match text_assoc s g with Some v => Rt v h K | None => Stuck end
  | _, _, _ => Stuck
  end.

Definition call_step (f : value) (args : list value) (kws : list (string * value)) (h : heap)
           (K : list frame) : state :=
  match f with
  | VFun f => enter f [] args kws h KFun K
  | VClosure f cells => enter f cells args kws h KFun K
  | VBound self f => Ca (VFun f) (self :: args) kws h K
  | VClass c => make_instance c args kws h K
  | VBuiltin f => match kws with [] => builtin_step f args h K | _ => Stuck end
  | VMethod v m => method_step v m args kws h K
  | _ => Stuck
  end.

(** ** Comparison *)

Definition cmp_method (o : cmpop) : string :=
  match o with
  | CEq | CNe => "__eq__" | CLt => "__lt__" | CLe => "__le__" | CGt => "__gt__" | CGe => "__ge__" | _ => ""
  end.

(** Tuples: the first elements that are not equal decide, or else the lengths.  (Python takes the same
    object for equal without asking; melodia's values are equal to themselves.) *)
Definition compare_step (o : cmpop) (v w : value) (h : heap) (K : list frame) : state :=
  match o with
  | CIs => match w with VNone => Rt (VBool (match v with VNone => true | _ => false end)) h K | _ => Stuck end
  | CIsNot => match w with VNone => Rt (VBool (match v with VNone => false | _ => true end)) h K | _ => Stuck end
  | CIn => match contains v w h with Some b => Rt (VBool b) h K | None => Stuck end
  | CNotIn => match contains v w h with Some b => Rt (VBool (negb b)) h K | None => Stuck end
  | _ =>
      match v, w with
      | VTuple (x :: xs), VTuple (y :: ys) => Cm CEq x y h (KTuples o x y xs ys :: K)
      | VTuple xs, VTuple ys =>
          finish (match cmp_Z o (Z.of_nat (List.length xs)) (Z.of_nat (List.length ys)) with
                  | Some b => done (VBool b) | None => None end) h K
      | _, _ =>
          match class_of v h with
          | Some c =>
              match class_attr c (cmp_method o) with
              | Some (f, KMethod) => Ca (VFun f) [v; w] [] h (match o with CNe => KNot :: K | _ => K end)
              | _ => Stuck
              end
          | None => finish (match cmp_base o v w with Some r => lift VBool r | None => None end) h K
          end
      end
  end.

(** ** Iteration *)

Definition iter_step (v : value) (h : heap) (K : list frame) : state :=
  match v with
  | VTuple l | VList l => Rt (VIter (ISeq l)) h K
  | VStr s => Rt (VIter (ISeq (map (fun c => VStr [c]) s))) h K
  | VIter _ => Rt v h K
  | VRef a =>
      match get h a with
      | Some (HList _) => Rt (VIter (IRef a 0)) h K
      | Some (HInst _ _) => call_method v "__iter__" h K
      | _ => Stuck
      end
  | _ => Stuck
  end.

(** The next element and the iterator after it; [Some None]: there is none. *)
Fixpoint next (i : iter) (h : heap) : option (option (value * iter)) :=
  match i with
  | ISeq [] => Some None
  | ISeq (v :: r) => Some (Some (v, ISeq r))
  | IRef a k =>
      match get h a with
      | Some (HList l) => match nth_error l k with
                          | Some v => Some (Some (v, IRef a (S k)))
                          | None => Some None
                          end
      | _ => None
      end
  | IZip x y =>
      match next x h with
      | Some (Some (v, x')) => match next y h with
                               | Some (Some (w, y')) => Some (Some (VTuple [v; w], IZip x' y'))
                               | Some None => Some None
                               | None => None
                               end
      | Some None => Some None
      | None => None
      end
  | IGen _ => None
  end.

Definition loop_step (t : target) (b : list stmt) (i : iter) (r : env) (h : heap) (K : list frame) : state :=
  match i with
  | IGen a =>
      match get h a with
      | Some (HGen (Some (body, r', K'))) =>
          Ex body r' (put h a (HGen None)) (also K' (KGen a :: KGenFor t b i r :: K))
      | _ => Stuck
      end
  | _ =>
      match next i h with
      | Some (Some (v, i')) => As [(t, v)] b r h (KLoopF t b i' :: K)
      | Some None => Ex [] r h K
      | None => Stuck
      end
  end.

(** The variables of a comprehension. *)
Definition bind_target (t : target) (v : value) (r : env) : option env :=
  match t with
  | TName x => Some (set_var x v r)
  | TTuple [TName x; TName y] =>
      match v with
      | VTuple [a; b] => Some (set_var y b (set_var x a r))
      | _ => None
      end
  | _ => None
  end.

Definition comp_result (k : compkind) (l : list value) (h : heap) (K : list frame) : state :=
  match k with
  | CompList => Rt (VRef (next_place h)) (new h (HList l)) K
  | CompGen => Rt (VList l) h K
  | CompDict =>
      match pairs (concat (map (fun v => match v with VTuple p => p | _ => [] end) l)) with
      | Some p => match insert_all p [] with
                  | Some d => Rt (VRef (next_place h)) (new h (HDict false d)) K
                  | None => Stuck
                  end
      | None => Stuck
      end
  end.
Definition comp_next (k : compkind) (elt : expr) (t : target) (r : env) (i : iter) (acc : list value) (h : heap)
           (K : list frame) : state :=
  match next i h with
  | Some (Some (v, i')) =>
      match bind_target t v r with
      | Some r' => Ev elt r' h (KComp k elt t r i' acc :: K)
      | None => Stuck
      end
  | Some None => comp_result k (rev acc) h K
  | None => Stuck
  end.

(** ** Assignment *)

Definition assign_name (x : string) (v : value) (r : env) (h : heap) : env * heap :=
  match assoc x r with
  | Some (VCell a) => (r, put h a (HCell (Some v)))
  | _ => (set_var x v r, h)
  end.

(** Targets and elements pairwise, before other work; None if there are too many or too few elements. *)
Fixpoint unpack (ts : list target) (vs : list value) (todo : list (target * value)) : option (list (target * value)) :=
  match ts, vs with
  | [], [] => Some todo
  | t :: ts', v :: vs' => match unpack ts' vs' todo with Some l => Some ((t, v) :: l) | None => None end
  | _, _ => None
  end.

Definition assign_step (todo : list (target * value)) (rest : list stmt) (r : env) (h : heap) (K : list frame) : state :=
  match todo with
  | [] => Ex rest r h K
  | (TName x, v) :: todo' => let (r, h) := assign_name x v r h in As todo' rest r h K
  | (TTuple ts, v) :: todo' =>
      match v with
      | VTuple vs => match unpack ts vs todo' with
                     | Some todo'' => As todo'' rest r h K
                     | None => Thr ValueError h
                     end
      | _ => Stuck
      end
  | (TAttr x a, v) :: todo' =>
      match variable x r h with
      | Some (VNew c fields) => As todo' rest (set_var x (VNew c (set_var a v fields)) r) h K
      | Some (VRef p) =>
          match get h p with
          | Some (HInst c fields) => As todo' rest r (put h p (HInst c (set_var a v fields))) K
          | _ => Stuck
          end
      | _ => Stuck
      end
  | (TIndex e i, v) :: todo' => Ev (EOp OSet [e; i; EConst v]) r h (KTargets todo' rest r :: K)
  end.

(** ** One step *)

(** An object under construction may be used through its attributes only. *)
Definition name_step (x : string) (r : env) (h : heap) (K : list frame) : state :=
  match variable x r h with
  | Some v =>
      match v, K with
      | VNew _ _, KArgs (OAttr _) [] [] _ :: _ => Rt v h K
      | VNew _ _, _ => Stuck
      | _, _ => Rt v h K
      end
  | None => Stuck
  end.

Definition eval_step (e : expr) (r : env) (h : heap) (K : list frame) : state :=
  match e with
  | EConst v => Rt v h K
  | EName x => name_step x r h K
  | EOp o [] => op_step o [] h K
  | EOp o (a :: args) => Ev a r h (KArgs o [] args r :: K)
  | EAnd a b => Ev a r h (KAnd b r :: K)
  | EOr a b => Ev a r h (KOr b r :: K)
  | EIf c a b => Ev c r h (KIfE a b r :: K)
  | ECmp a [] => Ev a r h K
  | ECmp a ((o, b) :: rest) => Ev a r h (KCmp1 ((o, b) :: rest) r :: K)
  | EComp k elt t i => Ev i r h (KComp0 k elt t r :: K)
  end.

(** The shared variables of an inner function. *)
Fixpoint captured (xs : list string) (r : env) : option env :=
  match xs with
  | [] => Some []
  | x :: xs' =>
      match assoc x r, captured xs' r with
      | Some (VCell a), Some l => Some ((x, VCell a) :: l)
      | _, _ => None
      end
  end.

Definition exec_step (b : list stmt) (r : env) (h : heap) (K : list frame) : state :=
  match b with
  | SExpr e :: rest => Ev e r h (KExpr rest r :: K)
  | SAssign t e :: rest => Ev e r h (KAssign t rest r :: K)
  | SIf c a b :: rest => Ev c r h (KIf a b rest r :: K)
  | SWhile c b :: rest => Ev c r h (KWhile c b r :: KSeq rest :: K)
  | SFor t e b :: rest => Ev e r h (KFor0 t b rest r :: K)
  | SReturn e :: _ => Ev e r h (KReturn :: K)
  | SRaise e :: _ => Ev e r h (KRaise :: K)
  | SBreak :: _ => Br r h K
  | SContinue :: _ => Co r h K
  | SDef x f xs :: rest =>
      match captured xs r with
      | Some cells => As [(TName x, VClosure f cells)] rest r h K
      | None => Stuck
      end
  | SYield e :: rest => Ev e r h (KYield rest r :: K)
  | [] =>
      match K with
      | KSeq rest :: K' => Ex rest r h K'
      | KLoopW c b :: K' => Ev c r h (KWhile c b r :: K')
      | KLoopF t b i :: K' => Lp t b i r h K'
      | KFun :: K' => Rt VNone h K'
      | KInit :: K' => match assoc "self" r with
                       | Some (VNew c fields) => Rt (VObj c fields) h K'
                       | _ => Stuck
                       end
      | KInitRef a :: K' => Rt (VRef a) h K'
      | KGen _ :: KGenFor _ _ _ r' :: K' => Ex [] r' h K'
      | _ => Stuck
      end
  end.

(** The frames of a generator above its mark, and those below. *)
Fixpoint split_gen (K : list frame) : option (list frame * nat * list frame) :=
  match K with
  | [] => None
  | KGen a :: K' => Some ([], a, K')
  | k :: K' => match split_gen K' with Some (x, a, y) => Some (k :: x, a, y) | None => None end
  end.

Definition return_step (v : value) (h : heap) (K : list frame) : state :=
  match K with
  | KFun :: K' => Rt v h K'
  | KSeq _ :: K' | KLoopW _ _ :: K' | KLoopF _ _ _ :: K' => Un v h K'
  | _ => Stuck
  end.
Definition break_step (r : env) (h : heap) (K : list frame) : state :=
  match K with
  | KSeq _ :: K' => Br r h K'
  | KLoopW _ _ :: K' | KLoopF _ _ _ :: K' => Ex [] r h K'
  | _ => Stuck
  end.
Definition continue_step (r : env) (h : heap) (K : list frame) : state :=
  match K with
  | KSeq _ :: K' => Co r h K'
  | KLoopW _ _ :: _ | KLoopF _ _ _ :: _ => Ex [] r h K
  | _ => Stuck
  end.

(** A value meets the frame that awaits it. *)
Definition value_step (v : value) (h : heap) (k : frame) (K : list frame) : state :=
  let test (yes no : state) := match truthy v h with Some true => yes | Some false => no | None => Stuck end in
  match k with
  | KArgs o done [] r => op_step o (rev_append (v :: done) []) h K
  | KArgs o done (a :: todo) r => Ev a r h (KArgs o (v :: done) todo r :: K)
  | KAnd b r => test (Ev b r h K) (Rt v h K)
  | KOr b r => test (Rt v h K) (Ev b r h K)
  | KIfE a b r => test (Ev a r h K) (Ev b r h K)
  | KCmp1 [] r => Rt v h K
  | KCmp1 ((o, b) :: rest) r => Ev b r h (KCmp v o rest r :: K)
  | KCmpNext _ [] r => Rt v h K
  | KCmpNext w ((o, b) :: rest) r => test (Ev b r h (KCmp w o rest r :: K)) (Rt v h K)
  | KCmp u o [] r => Cm o u v h K
  | KCmp u o rest r => Cm o u v h (KCmpNext v rest r :: K)
  | KTuples o x y xs ys =>
      test (Cm o (VTuple xs) (VTuple ys) h K)
           (match o with
            | CEq => Rt (VBool false) h K
            | CNe => Rt (VBool true) h K
            | _ => Cm o x y h K
            end)
  | KNot => match truthy v h with Some b => Rt (VBool (negb b)) h K | None => Stuck end
  | KComp0 c elt t r => It v h (KComp1 c elt t r :: K)
  | KComp1 c elt t r => match v with VIter i => comp_next c elt t r i [] h K | _ => Stuck end
  | KComp c elt t r i acc => comp_next c elt t r i (v :: acc) h K
  | KZip1 y => match v with VIter i => It y h (KZip2 i :: K) | _ => Stuck end
  | KZip2 x => match v with VIter y => Rt (VIter (IZip x y)) h K | _ => Stuck end
  | KExpr rest r => Ex rest r h K
  | KAssign t rest r => As [(t, v)] rest r h K
  | KTargets todo rest r => As todo rest r h K
  | KIf a b rest r => test (Ex a r h (KSeq rest :: K)) (Ex b r h (KSeq rest :: K))
  | KWhile c b r => test (Ex b r h (KLoopW c b :: K)) (Ex [] r h K)
  | KFor0 t b rest r => It v h (KFor1 t b rest r :: K)
  | KFor1 t b rest r => match v with VIter i => Lp t b i r h (KSeq rest :: K) | _ => Stuck end
  | KReturn => Un v h K
  | KRaise => match v with VExc e => Thr e h | _ => Stuck end
  | KYield rest r =>
      match split_gen K with
      | Some (K1, a, KGenFor t b i r' :: K2) =>
          As [(t, v)] b r' (put h a (HGen (Some (rest, r, K1)))) (KLoopF t b i :: K2)
      | _ => Stuck
      end
  | _ => Stuck
  end.

(** One step; None when the machine stands still, at the end or because it is stuck, and for [Sort] and
    [Push], whose steps are below. *)
Definition step (s : state) : option state :=
  match s with
  | Ev e r h K => Some (eval_step e r h K)
  | Rt v h (k :: K) => Some (value_step v h k K)
  | Ex b r h K => Some (exec_step b r h K)
  | As todo rest r h K => Some (assign_step todo rest r h K)
  | Ca f args kws h K => Some (call_step f args kws h K)
  | Cm o v w h K => Some (compare_step o v w h K)
  | It v h K => Some (iter_step v h K)
  | Lp t b i r h K => Some (loop_step t b i r h K)
  | Un v h K => Some (return_step v h K)
  | Br r h K => Some (break_step r h K)
  | Co r h K => Some (continue_step r h K)
  | Rt _ _ [] | Sort _ _ _ _ | Push _ _ _ _ | Thr _ _ | Stuck => None
  end.

(** Any number of such steps. *)
Inductive steps : state -> state -> Prop :=
| steps_refl s : steps s s
| steps_more s s' t : step s = Some s' -> steps s' t -> steps s t.

(** [lt] answers [x < y] for the elements of [l] (for [key = Some n]: x[n] < y[n]) as the machine does. *)
Definition sort_key (key : option Z) (v : value) : option value :=
  match key, v with
  | None, _ => Some v
  | Some n, VTuple l => match index_list l n with Some (Ok w) => Some w | _ => None end
  | _, _ => None
  end.
Definition answers (key : option Z) (h : heap) (l : list value) (lt : value -> value -> bool) : Prop :=
  forall x y, In x l -> In y l ->
  exists u w, sort_key key x = Some u /\ sort_key key y = Some w /\
              steps (Cm CLt u w h []) (Rt (VBool (lt x y)) h []).

Inductive red : state -> state -> Prop :=
| red_step s s' : step s = Some s' -> red s s'
| red_sort a key h K l lt :
    get h a = Some (HList l) -> answers key h l lt ->
    red (Sort a key h K) (Rt VNone (put h a (HList (py_sort Y value lt l))) K)
| red_push a v h K l lt :
    get h a = Some (HList l) -> answers None h (l ++ [v]) lt ->
    red (Push a v h K) (Rt VNone (put h a (HList (heappush lt l v))) K).

Inductive runs : state -> state -> Prop :=
| runs_refl s : runs s s
| runs_more s s' t : red s s' -> runs s' t -> runs s t.

(** How a call ends: with a value, or with an exception. *)
Definition ends (r : res value) (h : heap) (K : list frame) : state :=
  match r with
  | Ok v => Rt v h K
  | Err e => Thr e h
  end.
End Machine.
