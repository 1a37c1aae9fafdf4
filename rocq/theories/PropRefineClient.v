(** Programs that use the library, run as Python source (C81).

    As in PropRefine.v, [melodia] is the program made of the syntax trees of the library.  A [cmd] (Client.v) is a program: assignments of
    expressions, Track(), add, the readings of a track, == and != of tracks, midi.dumps, midi.loads, randomize_velocities, if, while,
    and for over a track; [compile] is its statements.  [exec Y n c st] is what the models say that [c] does to the variables and tracks
    of [st]: [Next st' T] (it goes on; something was added to the tracks [T]) or [Stop e ts] (the exception [e]; the tracks are [ts] then).
    [agrees st P r h]: the environment [r] and the heap [h] have the variables and tracks of [st], all of which are well-formed; track
    [i] is at [fst] and its list at [snd] of the [i]-th element of [P], and two tracks share nothing.  [grows P h T P' h']: only the tracks of [P] change on the heap, and
    what is new is at new addresses.  [settles]: a track to which nothing was added is unchanged or sorted.  [done] says this about the state after the
    program (RefineClient.v, RefineStore.v).  [body c x]: the statements, then return x. *)
From Coq Require Import ZArith QArith List Bool String Lia Permutation.
From Verif Require Import Py PyFloat PySort Signature Tone Note Track PyAst PySem PySource PyProgram SpecBase DecFacts SortFacts FloatFacts Show Timsort
  TrackSpec TrackProps RefineBase RefineTrack RefineTrackProps RefineDeep RefineTerm Client RefineStore RefineClient RefineClientProps.
Import ListNotations.
Open Scope string_scope.
Open Scope list_scope.
Open Scope Z_scope.

(** C81: every program, from every state. *)
Theorem C81_programs :
  forall Y dp n c st P r h rest K res, usual Y -> agrees st P r h -> exec Y n c st = Some res ->
  reaches melodia Y (Ex (compile c ++ rest) r h K) (done Y dp st P h res rest K).
Proof. exact c81_programs. Qed.
Print Assumptions C81_programs.
(** C81: the meaning does not depend on the bound. *)
Theorem C81_bound :
  forall Y n m c st res res', exec Y n c st = Some res -> exec Y m c st = Some res' -> res = res'.
Proof. exact c81_bound. Qed.
Print Assumptions C81_bound.
(** C81: a function with such a body, called with any variables. *)
Theorem C81_functions :
  forall Y n c x st0 P r h st T v K, usual Y -> agrees st0 P r h -> exec Y n c st0 = Some (Next st T) -> assoc x (s_vars st) = Some v ->
  reaches melodia Y (Ex (body c x) r h (KFun :: K)) (fun u => exists P' r' h', u = Rt (enc_item P' v) h' K /\
    agrees st P' r' h' /\ grows P h T P' h' /\ settles (py_sort Y) T (s_tracks st0) (s_tracks st)).
Proof. exact c81_functions. Qed.
Print Assumptions C81_functions.
(** x = Track(); y = x; y.add(Note(60, (1, 8), 1.0)); n = len(x), with a list on the heap: x and y are the same track. *)
Definition ex_python : python :=
  mkPython ascii_digit shortest_digits (fun _ => Err OverflowError) (fun x => x) (fun _ _ _ => f_half) (fun _ a _ => a) cpython_sort.
Lemma ex_usual : usual ex_python.
Proof.
  split; [exact ascii_digit_table|]. split; [exact (proj1 c74_sort)|]. split; [exact (proj2 c74_sort)|]. reflexivity.
Qed.
Definition ex_alias : cmd :=
  Seq (New "x" None) (Seq (Alias "y" "x") (Seq (Add "y" (New_note (Lit (OInt 60)) (App2 O_pair (Lit (OInt 1)) (Lit (OInt 8))) (Lit (OFloat f_one))) None) (Get "n" R_len "x"))).
Example C81_ex_alias K : reaches melodia ex_python (Ex (body ex_alias "n") [] (mkHeap [HList [VInt 7]] 0) (KFun :: K))
  (fun u => exists h', u = Rt (VInt 1) h' K /\ get h' 0%nat = Some (HList [VInt 7])).
Proof.
  assert (A : agrees (mkStore [] [] 0) [] [] (mkHeap [HList [VInt 7]] 0)) by exact (start (mkHeap [HList [VInt 7]] 0)).
  eapply reaches_trans; [eapply (C81_functions ex_python 9 ex_alias "n" _ [] [] _ _ _ (Val (OInt 1)) K ex_usual A); vm_compute; reflexivity|].
  intros u (P & r & h' & -> & _ & G & _). apply reaches_here. exists h'. split; [reflexivity|]. apply (g_kept _ _ _ _ _ G); [intros []|reflexivity].
Qed.
