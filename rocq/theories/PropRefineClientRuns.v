(** Every run of a program that uses the library ends as the models say (C81).

    Notation as in PropRefineClient.v: [body c x] is the statements of the program [c], then return x. *)
From Coq Require Import ZArith QArith List Bool String Lia Permutation.
From Verif Require Import Py PyFloat PySort Signature Tone Note Track PyAst PySem PySource PyProgram SpecBase DecFacts SortFacts FloatFacts Show Timsort
  TrackSpec TrackProps RefineBase RefineTrack RefineTrackProps RefineDeep RefineTerm Client RefineStore RefineClient RefineClientProps.
Import ListNotations.
Open Scope string_scope.
Open Scope list_scope.
Open Scope Z_scope.

(** C81: every run of a function without arguments gets to the value or the exception that the models say; nothing that was on the heap changes. *)
Theorem C81_result :
  forall Y n c x h st T o s, usual Y -> exec Y n c (mkStore [] [] (h_calls h)) = Some (Next st T) ->
  assoc x (s_vars st) = Some (Val o) -> runs melodia Y (Ex (body c x) [] h [KFun]) s ->
  reaches melodia Y s (fun u => exists h', u = Rt (enc_obj o) h' [] /\ h_calls h' = s_draws st /\ forall p w, get h p = Some w -> get h' p = Some w).
Proof. exact c81_result. Qed.
Print Assumptions C81_result.
Theorem C81_exception :
  forall Y n c x h e ts s, usual Y -> exec Y n c (mkStore [] [] (h_calls h)) = Some (Stop e ts) -> e <> RecursionError ->
  runs melodia Y (Ex (body c x) [] h [KFun]) s ->
  reaches melodia Y s (fun u => exists h', u = Thr e h' /\ forall p w, get h p = Some w -> get h' p = Some w).
Proof. exact c81_exception. Qed.
Print Assumptions C81_exception.
Theorem C81_recursion :
  forall Y n c x h ts d, usual Y -> exec Y n c (mkStore [] [] (h_calls h)) = Some (Stop RecursionError ts) ->
  reaches melodia Y (Ex (body c x) [] h [KFun]) (fun u => deep d u \/ exists h', u = Thr RecursionError h').
Proof. exact c81_recursion. Qed.
Print Assumptions C81_recursion.
(** Four notes added in a while loop, written to a file, read back and compared. *)
Definition ex_python : python :=
  mkPython ascii_digit shortest_digits (fun _ => Err OverflowError) (fun x => x) (fun _ _ _ => f_half) (fun _ a _ => a) cpython_sort.
Lemma ex_usual : usual ex_python.
Proof.
  split; [exact ascii_digit_table|]. split; [exact (proj1 c74_sort)|]. split; [exact (proj2 c74_sort)|]. reflexivity.
Qed.
Definition ex_note (p : term) : term := New_note p (App2 O_pair (Lit (OInt 1)) (Lit (OInt 8))) (Lit (OFloat f_one)).
Definition ex_loop : cmd :=
  Seq (New "x" None) (Seq (Let "i" (Lit (OInt 0)))
    (While (App2 (O_cmp CLt) (Var "i") (Lit (OInt 4)))
      (Seq (Add "x" (ex_note (App2 O_add (Lit (OInt 60)) (Var "i"))) None) (Let "i" (App2 O_add (Var "i") (Lit (OInt 1))))))).
Definition ex_trip : cmd := Seq ex_loop (Seq (Dumps "b" "x" None) (Seq (Loads "y" (Var "b") None) (Seq (Get "n" R_len "y") (Same "e" true "x" "y")))).
Definition value_after (n : nat) (c : cmd) (x : string) (d : nat) : option item :=
  match exec ex_python n c (mkStore [] [] d) with Some (Next st _) => assoc x (s_vars st) | _ => None end.
Lemma ex_value n c x o h s d : h_calls h = d -> value_after n c x d = Some (Val o) -> runs melodia ex_python (Ex (body c x) [] h [KFun]) s ->
  reaches melodia ex_python s (fun u => exists h', u = Rt (enc_obj o) h' []).
Proof.
  intros H E R. unfold value_after in E. subst d.
  destruct (exec ex_python n c (mkStore [] [] (h_calls h))) as [[st T|e ts]|] eqn:X; try discriminate.
  destruct (C81_result ex_python n c x h st T o s ex_usual X E R) as (u & A & h' & -> & _). exists (Rt (enc_obj o) h' []). eauto.
Qed.
Example C81_ex_trip h s : h_calls h = 0%nat ->
  (runs melodia ex_python (Ex (body ex_trip "e") [] h [KFun]) s -> reaches melodia ex_python s (fun u => exists h', u = Rt (VBool true) h' [])) /\
  (runs melodia ex_python (Ex (body ex_trip "n") [] h [KFun]) s -> reaches melodia ex_python s (fun u => exists h', u = Rt (VInt 4) h' [])).
Proof.
  intros H. split.
  - apply (ex_value 20 ex_trip "e" (OBool true) h s 0 H). vm_compute. reflexivity.
  - apply (ex_value 20 ex_trip "n" (OInt 4) h s 0 H). vm_compute. reflexivity.
Qed.
(** The notes of the loop, transposed by -12, then randomized: the velocities are 0.5. *)
Definition ex_change : cmd :=
  Seq ex_loop (Seq (derive (App2 O_transposed (Var "q") (Lit (OInt (-12))))) (Seq (Randomize "z" "y" None)
    (Seq (Let "w" (Lit (OInt 0))) (Seq (Each "p" "q" "z" (Seq (Let "w" (App2 O_add (Var "w") (App1 O_pitch (App1 O_tone (Var "q"))))) (Let "v" (App1 O_velocity (Var "q"))))) Skip)))).
Example C81_ex_change h s : h_calls h = 0%nat ->
  (runs melodia ex_python (Ex (body ex_change "w") [] h [KFun]) s -> reaches melodia ex_python s (fun u => exists h', u = Rt (VInt (48 + 49 + 50 + 51)) h' [])) /\
  (runs melodia ex_python (Ex (body ex_change "v") [] h [KFun]) s -> reaches melodia ex_python s (fun u => exists h', u = Rt (VFloat f_half) h' [])).
Proof.
  intros H. split.
  - apply (ex_value 20 ex_change "w" (OInt (48 + 49 + 50 + 51)) h s 0 H). vm_compute. reflexivity.
  - apply (ex_value 20 ex_change "v" (OFloat f_half) h s 0 H). vm_compute. reflexivity.
Qed.
(** x.add(note, where=(1, 3)) raises ValueError. *)
Example C81_ex_exception h s : h_calls h = 0%nat ->
  runs melodia ex_python (Ex (body (Seq ex_loop (Add "x" (ex_note (Lit (OInt 60))) (Some (App2 O_pair (Lit (OInt 1)) (Lit (OInt 3)))))) "x") [] h [KFun]) s ->
  reaches melodia ex_python s (fun u => exists h', u = Thr ValueError h').
Proof.
  intros H R. eapply (C81_exception ex_python 20 _ "x" h ValueError _ s ex_usual) in R; [|rewrite H; vm_compute; reflexivity|discriminate].
  destruct R as (u & A & h' & -> & _). exists (Thr ValueError h'). eauto.
Qed.
(** A file whose first event has no status byte. *)
Definition ex_file : list Z := [77; 84; 104; 100; 0; 0; 0; 6; 0; 0; 0; 1; 0; 96; 77; 84; 114; 107; 0; 0; 0; 7; 0; 60; 64; 0; 255; 47; 0].
Example C81_ex_recursion h d : h_calls h = 0%nat ->
  reaches melodia ex_python (Ex (body (Loads "x" (Lit (OBytes ex_file)) None) "x") [] h [KFun]) (fun u => deep d u \/ exists h', u = Thr RecursionError h').
Proof. intros H. eapply (C81_recursion ex_python 20 _ "x" h _ d ex_usual). rewrite H. vm_compute. reflexivity. Qed.
