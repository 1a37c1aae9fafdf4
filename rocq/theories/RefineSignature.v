(** Running the source of core/signature.py gives what the model in Signature.v says. *)
From Coq Require Import ZArith List Bool String Lia.
From Verif Require Import Py PyFloat Signature PyAst PySem PySource PyProgram RefineBase.
Import ListNotations.
Open Scope string_scope.
Open Scope Z_scope.

Definition enc_sig (s : sig) : value := v_signature (nominator s) (denominator s).

Lemma sig_new_ok n d s : sig_new n d = Ok s -> s = mkSig n d.
Proof. unfold sig_new; destruct (negb _); congruence. Qed.

Section Signature.
Variable Y : python.
Notation steps := (steps melodia Y).

Lemma new_runs n d h K :
  steps (Ca (VClass "Signature") [VInt n; VInt d] [] h K) (ends (outcome_of enc_sig (sig_new n d)) h K).
Proof. go; unfold sig_new; finish_with. Qed.

(** A Signature is made. *)
Ltac signature :=
  eapply steps_trans; [eapply new_runs|];
  match goal with
  | |- PySem.steps _ _ (ends (outcome_of _ ?m) _ _) _ =>
      let E := fresh "E" in let s := fresh "s" in
      destruct m as [s|?] eqn:E; [pose proof (sig_new_ok _ _ _ E); subst s|]
  end;
  unfold enc_sig at 1; cbv [nominator denominator]; plain.

Lemma to_runs n d x h K : d <> 0 ->
  steps (Ca (VFun "Signature.to") [v_signature n d; VInt x] [] h K)
        (ends (outcome_of enc_sig (sig_to (mkSig n d) x)) h K).
Proof.
  intros D. assert (D0 : (d =? 0) = false) by lia.
  go_with signature; unfold sig_to; finish_with.
Qed.

Definition common_value (r : Z * Z * Z) : value :=
  let '(a, b, d) := r in VTuple [VInt a; VInt b; VInt d].
Lemma common_runs n d n' d' h K : d <> 0 -> d' <> 0 ->
  steps (Ca (VFun "Signature._to_common_denominator") [v_signature n d; v_signature n' d'] [] h K)
        (Rt (common_value (to_common_denominator (mkSig n d) (mkSig n' d'))) h K).
Proof.
  intros D D'. assert (D0 : (d =? 0) = false) by lia. assert (D0' : (d' =? 0) = false) by lia.
  go; unfold to_common_denominator, common_value; finish_with.
Qed.
Ltac common :=
  eapply steps_trans; [eapply common_runs; assumption|];
  match goal with |- context [common_value ?r] => destruct r as [[? ?] ?] eqn:?E end;
  unfold common_value.

Lemma nominator_runs n d h K :
  steps (Ca (VFun "Signature.nominator") [v_signature n d] [] h K) (Rt (VInt n) h K).
Proof. go; apply steps_refl. Qed.
Lemma denominator_runs n d h K :
  steps (Ca (VFun "Signature.denominator") [v_signature n d] [] h K) (Rt (VInt d) h K).
Proof. go; apply steps_refl. Qed.
Lemma str_runs n d h K :
  steps (Ca (VFun "Signature.__str__") [v_signature n d] [] h K) (Rt (VStr (sig_str (mkSig n d))) h K).
Proof.
  go. unfold sig_str. cbn [nominator denominator]. rewrite app_nil_r. apply steps_refl.
Qed.
Lemma repr_runs n d h K :
  steps (Ca (VFun "Signature.__repr__") [v_signature n d] [] h K) (Rt (VStr (sig_repr (mkSig n d))) h K).
Proof.
  go. unfold sig_repr. cbn [nominator denominator]. rewrite app_nil_r. apply steps_refl.
Qed.
Lemma eq_runs n d n' d' h K : d <> 0 -> d' <> 0 ->
  steps (Ca (VFun "Signature.__eq__") [v_signature n d; v_signature n' d'] [] h K)
        (Rt (VBool (sig_eq (mkSig n d) (mkSig n' d'))) h K).
Proof. intros D D'. go_with common; unfold sig_eq; finish_with. Qed.
Lemma le_runs n d n' d' h K : d <> 0 -> d' <> 0 ->
  steps (Ca (VFun "Signature.__le__") [v_signature n d; v_signature n' d'] [] h K)
        (Rt (VBool (sig_le (mkSig n d) (mkSig n' d'))) h K).
Proof. intros D D'. go_with common; unfold sig_le; finish_with. Qed.
Lemma lt_runs n d n' d' h K : d <> 0 -> d' <> 0 ->
  steps (Ca (VFun "Signature.__lt__") [v_signature n d; v_signature n' d'] [] h K)
        (Rt (VBool (sig_lt (mkSig n d) (mkSig n' d'))) h K).
Proof. intros D D'. go_with common; unfold sig_lt; finish_with. Qed.
Lemma ge_runs n d n' d' h K : d <> 0 -> d' <> 0 ->
  steps (Ca (VFun "Signature.__ge__") [v_signature n d; v_signature n' d'] [] h K)
        (Rt (VBool (sig_ge (mkSig n d) (mkSig n' d'))) h K).
Proof. intros D D'. go_with common; unfold sig_ge; finish_with. Qed.
Lemma gt_runs n d n' d' h K : d <> 0 -> d' <> 0 ->
  steps (Ca (VFun "Signature.__gt__") [v_signature n d; v_signature n' d'] [] h K)
        (Rt (VBool (sig_gt (mkSig n d) (mkSig n' d'))) h K).
Proof. intros D D'. go_with common; unfold sig_gt; finish_with. Qed.
Lemma add_runs n d n' d' h K : d <> 0 -> d' <> 0 ->
  steps (Ca (VFun "Signature.__add__") [v_signature n d; v_signature n' d'] [] h K)
        (ends (outcome_of enc_sig (sig_add (mkSig n d) (mkSig n' d'))) h K).
Proof. intros D D'. go_with ltac:(first [common|signature]); unfold sig_add; finish_with. Qed.
Lemma mul_runs n d n' d' h K :
  steps (Ca (VFun "Signature.__mul__") [v_signature n d; v_signature n' d'] [] h K)
        (ends (outcome_of enc_sig (sig_mul (mkSig n d) (mkSig n' d'))) h K).
Proof. go_with signature; unfold sig_mul; finish_with. Qed.
Lemma abs_runs n d h K :
  steps (Ca (VFun "Signature.__abs__") [v_signature n d] [] h K)
        (ends (outcome_of enc_sig (sig_abs (mkSig n d))) h K).
Proof. go_with signature; unfold sig_abs; finish_with. Qed.

(** normalized: the loop. *)
Definition norm_env (n0 d0 n d : Z) : env := [("self", v_signature n0 d0); ("n", VInt n); ("d", VInt d)].
Definition norm_test : expr :=
  EAnd (ECmp (EOp (OBin BitAnd) [EName "n"; EConst (VInt 1)]) [(CEq, EConst (VInt 0))])
       (ECmp (EName "d") [(CGt, EConst (VInt 1))]).
Definition norm_body : list stmt :=
  [SAssign (TName "n") (EOp (OBin RShift) [EName "n"; EConst (VInt 1)]);
   SAssign (TName "d") (EOp (OBin RShift) [EName "d"; EConst (VInt 1)])].
Definition norm_rest : list stmt :=
  [SReturn (EOp (OCall [APos; APos]) [EName "Signature"; EName "n"; EName "d"])].

Ltac at_while K tac :=
  lazymatch goal with |- PySem.steps _ _ (Ev _ _ _ (KWhile _ _ _ :: K)) _ => tac end.

Lemma norm_loop_runs fuel n0 d0 n d n' d' h K :
  norm_loop fuel n d = Ok (n', d') ->
  steps (Ev norm_test (norm_env n0 d0 n d) h (KWhile norm_test norm_body (norm_env n0 d0 n d) :: K))
        (Ex [] (norm_env n0 d0 n' d') h K).
Proof.
  revert n d. induction fuel as [|k IH]; intros n d E; cbn [norm_loop] in E;
    destruct (Z.land n 1 =? 0) eqn:A; cbn [andb] in E; try destruct (d >? 1) eqn:B; try discriminate;
    try (assert (n = n' /\ d = d') as [-> ->] by (split; congruence); go; apply steps_refl).
  do 2 adv. go_with ltac:(idtac; at_while K ltac:(exact (IH _ _ E))).
Qed.

Lemma normalized_runs n d h K s :
  sig_normalized (mkSig n d) = Ok s ->
  steps (Ca (VFun "Signature.normalized") [v_signature n d] [] h K) (Rt (enc_sig s) h K).
Proof.
  unfold sig_normalized. cbn [nominator denominator]. intros E.
  destruct (norm_loop _ n d) as [[n' d']|] eqn:L; cbn [bind] in E; [|discriminate].
  pose proof (sig_new_ok _ _ _ E); subst s.
  go_with ltac:(idtac; lazymatch goal with |- PySem.steps _ _ (Ev _ _ _ (KWhile _ _ _ :: KSeq _ :: KFun :: K)) _ =>
    eapply steps_trans; [exact (norm_loop_runs _ n d n d n' d' _ _ L)|]
    | _ => signature end); finish_with; congruence.
Qed.
End Signature.
