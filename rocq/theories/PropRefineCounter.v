(** The source itself does what the theorems ..._refuted say of the model, and the deterministic tests of the project
    pass (C79).

    PyCounter.v contains the syntax trees of tools/counterexamples.py: for each refuted claim a program that calls the
    library and returns True if it has seen the violation, or fails with the exception that the claim excludes.
    PyTests.v contains those of the project's tests without random numbers, with what each must end with.  All of them
    are run on the machine, with the trees of PySource.v for the library.  [always_ends Y f r]: every run of f goes on
    until it ends with r; the sqrt, gauss, randint, powers and digits of floats of Y are arbitrary. *)
From Coq Require Import ZArith List Bool String.
From Verif Require Import Py PyFloat PySort Timsort SortNatural Tone PyAst PySem PySource PyProgram PyCounter PyTests RefineBase RefineRun RefineCounter.
Import ListNotations.
Open Scope string_scope.
Open Scope list_scope.
Open Scope Z_scope.

(** C79: signatures, tones, notes and tracks. *)
Theorem C79_core :
  forall Y, cpython Y ->
  always_ends Y src_counterexamples_c03 (Ok (VBool true)) /\
  always_ends Y src_counterexamples_c10 (Ok (VBool true)) /\
  always_ends Y src_counterexamples_c16 (Ok (VBool true)) /\
  always_ends Y src_counterexamples_c19 (Ok (VBool true)) /\
  always_ends Y src_counterexamples_c21 (Ok (VBool true)) /\
  always_ends Y src_counterexamples_c21_shrinks (Ok (VBool true)) /\
  always_ends Y src_counterexamples_c22 (Ok (VBool true)) /\
  always_ends Y src_counterexamples_c25 (Ok (VBool true)) /\
  always_ends Y src_counterexamples_c26 (Ok (VBool true)).
Proof. exact c79_core. Qed.
Print Assumptions C79_core.
(** C79: the writer and the reader of MIDI files. *)
Theorem C79_midi :
  forall Y, cpython Y ->
  always_ends Y src_counterexamples_c33 (Err OverflowError) /\
  always_ends Y src_counterexamples_c40 (Ok (VBool true)) /\
  always_ends Y src_counterexamples_c41 (Ok (VBool true)) /\
  always_ends Y src_counterexamples_c42 (Err AssertionError) /\
  always_ends Y src_counterexamples_c44 (Ok (VBool true)) /\
  always_ends Y src_counterexamples_c45 (Err MIDIParsingError) /\
  always_ends Y src_counterexamples_c47 (Err ValueError) /\
  always_ends Y src_counterexamples_c48 (Ok (VBool true)) /\
  always_ends Y src_counterexamples_c52 (Ok (VBool true)) /\
  always_ends Y src_counterexamples_c53 (Ok (VBool true)).
Proof. exact c79_midi. Qed.
Print Assumptions C79_midi.
(** C79: the tests. *)
Theorem C79_tests :
  forall Y, cpython Y -> Forall (fun t => always_ends Y (fst t) (snd t)) tests.
Proof. exact tests_pass. Qed.
Print Assumptions C79_tests.

(** The program for C03, spelled out. *)
Example C79_ex (Y : python) t : cpython Y ->
  runs melodia Y (Ex
    [SAssign (TName "a") (EOp (OCall [APos; APos]) [EName "Signature"; EConst (VInt 1); EConst (VInt 2)]);
     SAssign (TName "b") (EOp (OCall [APos; APos]) [EName "Signature"; EConst (VInt 1); EConst (VInt 4)]);
     SReturn (EAnd (ECmp (EName "a") [(CLt, EName "b")])
       (EAnd (ECmp (EName "b") [(CLt, EName "a")])
       (EAnd (ECmp (EName "a") [(CLe, EName "b")])
       (EAnd (ECmp (EName "b") [(CLe, EName "a")])
             (ECmp (EName "a") [(CNe, EName "b")])))))] [] (mkHeap [] 0) [KFun]) t ->
  reaches melodia Y t (fun u => exists h, u = Rt (VBool true) h []).
Proof. intros C. exact (proj1 (C79_core Y C) t). Qed.
