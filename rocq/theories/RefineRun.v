(** Running programs on literals. *)
From Coq Require Import ZArith List Bool String.
From Verif Require Import Py PyFloat PySort PyAst PySem PySource PyProgram RefineBase.
Import ListNotations.
Open Scope Z_scope.

(** Many steps. *)
Definition many : nat := Z.to_nat 20000.
Section Run.
Variable Y : python.
Fixpoint advance (n : nat) (s : state) : state :=
  match n with
  | O => s
  | S k => match PySem.step melodia Y s with Some s' => advance k s' | None => s end
  end.
Lemma advance_steps n s : steps melodia Y s (advance n s).
Proof.
  revert s. induction n as [|n IH]; intros s; cbn [advance]; [apply steps_refl|].
  destruct (PySem.step melodia Y s) eqn:E; [econstructor; [exact E|apply IH]|apply steps_refl].
Qed.
Lemma advance_reaches n s t Q : advance n s = t -> reaches melodia Y t Q -> reaches melodia Y s Q.
Proof. intros <-. apply reaches_steps, advance_steps. Qed.

(** The answers of the machine to comparisons. *)
Definition machine_lt (key : option Z) (h : heap) (x y : value) : bool :=
  match sort_key key x, sort_key key y with
  | Some u, Some w => match advance many (Cm CLt u w h []) with Rt (VBool b) _ _ => b | _ => false end
  | _, _ => false
  end.
Definition answered (key : option Z) (h : heap) (x y : value) : Prop :=
  match sort_key key x, sort_key key y with
  | Some u, Some w => exists b, advance many (Cm CLt u w h []) = Rt (VBool b) h []
  | _, _ => False
  end.
Lemma machine_answers key h l : Forall (fun x => Forall (answered key h x) l) l -> answers melodia Y key h l (machine_lt key h).
Proof.
  intros F x y Hx Hy. rewrite Forall_forall in F. specialize (F x Hx). rewrite Forall_forall in F. specialize (F y Hy).
  unfold answered, machine_lt in *. destruct (sort_key key x) as [u|]; [|contradiction]. destruct (sort_key key y) as [w|]; [|contradiction].
  destruct F as (b & E). exists u, w. refine (conj eq_refl (conj eq_refl _)). rewrite E. rewrite <- E. apply advance_steps.
Qed.
Lemma push_reaches a v h K l Q : get h a = Some (HList l) -> Forall (fun x => Forall (answered None h x) (l ++ [v])) (l ++ [v]) ->
  reaches melodia Y (Rt VNone (put h a (HList (heappush (machine_lt None h) l v))) K) Q -> reaches melodia Y (Push a v h K) Q.
Proof. intros G A. apply reaches_red. apply red_push; [exact G|apply machine_answers; exact A]. Qed.
Lemma sort_reaches a key h K l Q : get h a = Some (HList l) -> Forall (fun x => Forall (answered key h x) l) l ->
  reaches melodia Y (Rt VNone (put h a (HList (py_sort Y value (machine_lt key h) l))) K) Q -> reaches melodia Y (Sort a key h K) Q.
Proof. intros G A. apply reaches_red. apply red_sort; [exact G|apply machine_answers; exact A]. Qed.
End Run.

Ltac answer := repeat (apply Forall_cons || apply Forall_nil); unfold answered; cbn [sort_key index_list];
  lazymatch goal with |- match ?x with _ => _ end => let u := eval vm_compute in x in change x with u; cbv iota | _ => idtac end;
  lazymatch goal with |- match ?x with _ => _ end => let u := eval vm_compute in x in change x with u; cbv iota | _ => idtac end;
  lazymatch goal with |- exists b, advance ?Y many ?s = _ =>
    let t := eval vm_compute in (advance Y many s) in
    lazymatch t with Rt (VBool ?b) _ _ => exists b; vm_cast_no_check (@eq_refl state t) end end.
Ltac run_part := lazymatch goal with
  | |- reaches _ ?Y (Push ?a ?v ?h ?K) ?Q =>
      let o := eval vm_compute in (get h a) in
      lazymatch o with Some (HList ?l) => let m := eval cbv [app] in (l ++ [v])%list in
        apply (push_reaches Y a v h K l Q); [vm_cast_no_check (@eq_refl (option obj) o)|change (l ++ [v])%list with m; answer|] end
  | |- reaches _ ?Y (Sort ?a ?k ?h ?K) ?Q =>
      let o := eval vm_compute in (get h a) in
      lazymatch o with Some (HList ?l) => apply (sort_reaches Y a k h K l Q); [vm_cast_no_check (@eq_refl (option obj) o)|answer|] end
  | |- reaches _ _ (Thr _ _) _ => fail
  | |- reaches _ _ (Rt _ _ []) _ => fail
  | |- reaches _ _ Stuck _ => fail
  | |- reaches _ ?Y ?s _ => let t := eval vm_compute in (advance Y many s) in
      apply (advance_reaches Y many s t); [vm_cast_no_check (@eq_refl state t)|]
  end.
