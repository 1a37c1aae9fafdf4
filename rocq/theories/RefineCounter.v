(** Running the programs of PyCounter.v and PyTests.v. *)
From Coq Require Import ZArith List Bool String.
From Verif Require Import Py PyFloat PySort Timsort SortNatural Tone PyAst PySem PySource PyProgram PyCounter PyTests RefineBase RefineRun RefineTrackProps.
Import ListNotations.
Open Scope Z_scope.

(** Every run of a program, from its first statement and with nothing on the heap, goes on until it ends with [r]. *)
Definition always_ends (Y : python) (f : fundef) (r : res value) : Prop :=
  forall t, runs melodia Y (Ex (f_body f) [] (mkHeap [] 0) [KFun]) t -> reaches melodia Y t (fun u => exists h, u = ends r h []).

(** Python with CPython's sort and the digits of ASCII; the rest of [python] is arbitrary. *)
Definition cpython (Y : python) : Prop := py_sort Y = cpython_sort /\ py_nd Y = ascii_digit.

Lemma always_from (Y : python) f r : py_sort Y = cpython_sort ->
  reaches melodia Y (Ex (f_body f) [] (mkHeap [] 0) [KFun]) (fun u => exists h, u = ends r h []) -> always_ends Y f r.
Proof.
  intros E (u & R & h & ->) t R'. exists (ends r h []). split; [|eauto].
  eapply runs_through; try eassumption; [rewrite E; exact (proj1 c74_sort)|apply ends_last].
Qed.

Ltac show := lazymatch goal with |- always_ends _ ?f _ => apply always_from; [reflexivity|];
    let b := eval cbv in (f_body f) in change (f_body f) with b end;
  repeat run_part; apply reaches_here; eexists; reflexivity.

Lemma c79_core : forall Y, cpython Y ->
  always_ends Y src_counterexamples_c03 (Ok (VBool true)) /\
  always_ends Y src_counterexamples_c10 (Ok (VBool true)) /\
  always_ends Y src_counterexamples_c16 (Ok (VBool true)) /\
  always_ends Y src_counterexamples_c19 (Ok (VBool true)) /\
  always_ends Y src_counterexamples_c21 (Ok (VBool true)) /\
  always_ends Y src_counterexamples_c21_shrinks (Ok (VBool true)) /\
  always_ends Y src_counterexamples_c22 (Ok (VBool true)) /\
  always_ends Y src_counterexamples_c25 (Ok (VBool true)) /\
  always_ends Y src_counterexamples_c26 (Ok (VBool true)).
Proof.
  intros [nd d p q g i s] [E1 E2]. cbn in E1, E2. subst s nd. repeat apply conj.
  all: show.
Qed.
Lemma c79_midi : forall Y, cpython Y ->
  always_ends Y src_counterexamples_c33 (Err OverflowError) /\
  always_ends Y src_counterexamples_c40 (Ok (VBool true)) /\
  always_ends Y src_counterexamples_c41 (Ok (VBool true)) /\
  always_ends Y src_counterexamples_c42 (Err AssertionError) /\
  always_ends Y src_counterexamples_c44 (Ok (VBool true)) /\
  always_ends Y src_counterexamples_c45 (Err MIDIParsingError) /\
  always_ends Y src_counterexamples_c47 (Err ValueError) /\
  always_ends Y src_counterexamples_c48 (Ok (VBool true)) /\
  always_ends Y src_counterexamples_c52 (Ok (VBool true)) /\
  always_ends Y src_counterexamples_c53 (Ok (VBool true)).
Proof.
  intros [nd d p q g i s] [E1 E2]. cbn in E1, E2. subst s nd. repeat apply conj.
  all: show.
Qed.
Lemma tests_pass : forall Y, cpython Y -> Forall (fun t => always_ends Y (fst t) (snd t)) tests.
Proof.
  intros [nd d p q g i s] [E1 E2]. cbn in E1, E2. subst s nd. unfold tests. repeat (apply Forall_cons; [cbn [fst snd]|]); [..|apply Forall_nil].
  all: show.
Qed.
