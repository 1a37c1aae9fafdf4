(** Importing the modules: the machine computes the module level names and the default arguments that
    PyProgram.v gives to the program. *)
From Coq Require Import ZArith List Bool String Lia.
From Verif Require Import Py PyFloat Tone MidiReader PyAst PySem PySource PyProgram SpecBase
  RefineBase RefineTone.
Import ListNotations.
Open Scope string_scope.
Open Scope list_scope.
Open Scope Z_scope.

(** The program before its modules are run: definitions only. *)
Definition definitions : program := mkProgram functions classes [] [].
Definition no_objects : heap := mkHeap [] 0.

(** The value of a name once nothing changes any more. *)
Definition settled (h : heap) (v : value) : value :=
  match v with
  | VRef a => match get h a with Some (HList l) => VList l | Some (HDict _ l) => VDict l | _ => v end
  | _ => v
  end.

Section Import.
Variable Y : python.

Fixpoint iterate (n : nat) (s : state) : state :=
  match n with
  | O => s
  | S k => match s with
           | Ex [] _ _ [] => s
           | _ => match step definitions Y s with Some s' => iterate k s' | None => s end
           end
  end.
Lemma iterate_steps n s : steps definitions Y s (iterate n s).
Proof.
  revert s. induction n as [|n IH]; intros s; cbn [iterate]; [apply steps_refl|].
  assert (G : steps definitions Y s match step definitions Y s with Some s' => iterate n s' | None => s end).
  { destruct (step definitions Y s) eqn:E; [econstructor; [exact E|apply IH]|apply steps_refl]. }
  destruct s as [| |[|? ?] ? ? [|? ?]| | | | | | | | | | | |]; try exact G. apply steps_refl.
Qed.
Lemma iterate_to n s t : iterate n s = t -> steps definitions Y s t.
Proof. intros <-. apply iterate_steps. Qed.

Lemma import_tone : exists r h,
  steps definitions Y (Ex src_module_tone [] no_objects []) (Ex [] r h []) /\
  map (fun b => (fst b, settled h (snd b))) r = firstn 3 globals.
Proof. eexists _, _. split; [apply (iterate_to 400); vm_compute; reflexivity|vm_compute; reflexivity]. Qed.
Lemma import_midi : exists r h v,
  steps definitions Y (Ex src_module_midi [] no_objects []) (Ex [] r h []) /\
  assoc "_event_lengths" r = Some v /\ skipn 3 globals = [("_event_lengths", settled h v)].
Proof.
  eexists _, _, _. split; [apply (iterate_to 4000); vm_compute; reflexivity|].
  split; [vm_compute; reflexivity|vm_compute; reflexivity].
Qed.

(** Parameters and their defaults. *)
Definition default_ok (f : string) (p : string * option expr) : Prop :=
  let d := match assoc f defaults with Some l => assoc (fst p) l | None => None end in
  match snd p with
  | Some e => exists v, d = Some v /\ forall h K, steps melodia Y (Ev e [] h K) (Rt v h K)
  | None => d = None
  end.
Lemma middle_c (N : digit_table (py_nd Y)) : from_notation (py_nd Y) (lit "C3") = Ok (mkTone 36).
Proof.
  assert (N3 : py_nd Y 51 = Some 3) by (rewrite (proj1 N); [reflexivity|lia]).
  unfold from_notation, notation_match, is_digit. change (lit "C3") with [67; 51]. cbn. unfold is_digit.
  rewrite N3. cbn. unfold int_of_digits. cbn. rewrite N3. reflexivity.
Qed.
Lemma middle_c_runs (N : digit_table (py_nd Y)) h K :
  steps melodia Y (Ca (VBound (VClass "Tone") "Tone.from_notation") [VStr (lit "C3")] [] h K) (Rt (v_tone 36) h K).
Proof. pose proof (from_notation_method_runs Y (lit "C3") h K N) as R. rewrite (middle_c N) in R. exact R. Qed.
Lemma defaults_ok : digit_table (py_nd Y) -> Forall (fun f => Forall (default_ok (fst f)) (f_params (snd f))) functions.
Proof.
  intros N.
  repeat constructor; cbv beta iota zeta delta [default_ok snd fst];
  try reflexivity; (eexists; split; [reflexivity|]; intros;
   repeat (first [apply steps_refl | eapply steps_trans; [eapply (middle_c_runs N)|] | adv])).
Qed.
End Import.
