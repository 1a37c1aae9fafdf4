(** Running the source of core/note.py gives what the model in Note.v and Show.v says. *)
From Coq Require Import ZArith List Bool String Lia.
From Verif Require Import Py PyFloat Signature Tone Note Show PyAst PySem PySource PyProgram SpecBase
  RefineBase RefineSignature RefineTone.
Import ListNotations.
Open Scope string_scope.
Open Scope list_scope.
Open Scope Z_scope.

(** ** Arguments *)

(** Values that are not a Tone, an integer or a string; that cannot be compared with an integer; that are
    not a Signature and not iterable. *)
Inductive tone_value : tone_arg -> value -> Prop :=
| tv_tone t : tone_value (TA_tone t) (enc_tone t)
| tv_int z : tone_value (TA_int z) (VInt z)
| tv_str s : tone_value (TA_str s) (VStr s)
| tv_none : tone_value TA_other VNone
| tv_float f : tone_value TA_other (VFloat f)
| tv_bytes b : tone_value TA_other (VBytes b)
| tv_tuple l : tone_value TA_other (VTuple l)
| tv_sig s : tone_value TA_other (enc_sig s).

Inductive elem_value : elem -> value -> Prop :=
| ev_int z : elem_value (EInt z) (VInt z)
| ev_none : elem_value EOther VNone
| ev_str s : elem_value EOther (VStr s)
| ev_bytes b : elem_value EOther (VBytes b)
| ev_tuple l : elem_value EOther (VTuple l).

Inductive sig_value (h : heap) : sig_arg -> value -> Prop :=
| sv_sig s : sig_value h (SA_sig s) (enc_sig s)
| sv_tuple l vs : Forall2 elem_value l vs -> sig_value h (SA_iter l) (VTuple vs)
| sv_list a l vs : get h a = Some (HList vs) -> Forall2 elem_value l vs -> sig_value h (SA_iter l) (VRef a)
| sv_str s : sig_value h (SA_iter (map (fun _ => EOther) s)) (VStr s)
| sv_bytes s : sig_value h (SA_iter (map EInt s)) (VBytes s)
| sv_none : sig_value h SA_other VNone
| sv_int z : sig_value h SA_other (VInt z)
| sv_float f : sig_value h SA_other (VFloat f)
| sv_tone t : sig_value h SA_other (enc_tone t).

Definition enc_note (n : note) : value :=
  VObj "Note" [("_tone", enc_tone (n_tone n)); ("_duration", enc_sig (n_duration n)); ("_velocity", VFloat (n_velocity n))].

(** A note by its parts. *)
Ltac parts n :=
  destruct n as [[?p] [?a ?b] ?v]; unfold enc_note, enc_tone, enc_sig;
  cbn [n_tone n_duration n_velocity pitch nominator denominator].

Section Note.
Variable Y : python.
Notation steps := (steps melodia Y).
Notation nd := (py_nd Y).

Lemma also_nil {A} (l : list A) : also l [] = l.
Proof. induction l; cbn; congruence. Qed.

Lemma star_runs l vs h K : Forall2 elem_value l vs ->
  steps (Ca (VClass "Signature") vs [] h K) (ends (outcome_of enc_sig (sig_star l)) h K).
Proof.
  intros F. destruct F as [|x v l vs X F]; [go; apply steps_refl|].
  destruct F as [|y w l vs Y' F]; [destruct X; go; apply steps_refl|].
  destruct F as [|z u l vs Z' F].
  - destruct X, Y'; cbn [sig_star]; try solve [apply new_runs | go; finish_with].
  - destruct X; cbn [sig_star]; [destruct Y'; cbn [sig_star]|..]; go; apply steps_refl.
Qed.

Lemma star_also_runs l vs h K : Forall2 elem_value l vs ->
  steps (Ca (VClass "Signature") (also vs []) [] h K) (ends (outcome_of enc_sig (sig_star l)) h K).
Proof. intros F. rewrite also_nil. apply star_runs; auto. Qed.
Lemma chars_elems s : Forall2 elem_value (map (fun _ => EOther) s) (map (fun c => VStr [c]) s).
Proof. induction s; constructor; auto. constructor. Qed.
Lemma bytes_elems s : Forall2 elem_value (map EInt s) (map VInt s).
Proof. induction s; constructor; auto. constructor. Qed.

Ltac note_calls :=
  idtac; lazymatch goal with
  | |- PySem.steps _ _ (Ca (VFun "Tone.from_notation") _ _ _ _) _ =>
      eapply steps_trans; [apply from_notation_runs; assumption|]; outcome
  | |- PySem.steps _ _ (Ca (VClass "Signature") (_ :: _) _ _ _) _ => fail
  | |- PySem.steps _ _ (Ca (VClass "Signature") _ _ _ _) _ =>
      eapply steps_trans;
      [apply star_also_runs; first [eassumption | apply chars_elems | apply bytes_elems]|]; outcome
  end.

(** The end of __init__, after the tone. *)
Definition init_rest : list stmt := Eval calc in match f_body src_Note___init__ with _ :: l => l | [] => [] end.
Definition init_env (t a b v : value) : env :=
  [("self", VNew "Note" [("_tone", t)]); ("tone", a); ("duration", b); ("velocity", v)].
Lemma init_rest_runs t da v a b h K : sig_value h da b ->
  steps (Ex init_rest (init_env (enc_tone t) a b (VFloat v)) h (KInit :: K))
        (ends (outcome_of enc_note (let! d := sig_of_arg da in note_init t d v)) h K).
Proof.
  intros B. destruct B; cbn [sig_of_arg bind];
    try match goal with |- context [sig_star ?l] => destruct (sig_star l) as [sg|?] eqn:S; cbn [bind] end;
    cbv delta [note_init f_zero f_one]; go_with note_calls; finish_with.
Qed.

Ltac note_rest B :=
  idtac; lazymatch goal with
  | |- PySem.steps _ _ (Ex [SIf _ _ _; SIf _ _ _; SAssign _ _] _ _ (KInit :: _)) _ =>
      first [eapply init_rest_runs; exact B | eapply (init_rest_runs (tone_new _)); exact B]
  | _ => note_calls
  end.
Lemma note_new_runs ta da v a b h K : digit_table nd -> tone_value ta a -> sig_value h da b ->
  steps (Ca (VClass "Note") [a; b; VFloat v] [] h K) (ends (outcome_of enc_note (note_new nd ta da v)) h K).
Proof.
  intros N A B. unfold note_new.
  destruct A; cbn [tone_of_arg bind].
  4-8: go; apply steps_refl.
  3: destruct (from_notation nd s) as [t|e] eqn:T; cbn [bind].
  4: go_with note_calls; apply steps_refl.
  all: go_with ltac:(note_rest B).
Qed.

(** A tone that is an object already, and a duration as well. *)
Lemma note_init_arg_runs t da v b h K : sig_value h da b ->
  steps (Ca (VClass "Note") [enc_tone t; b; VFloat v] [] h K)
        (ends (outcome_of enc_note (let! d := sig_of_arg da in note_init t d v)) h K).
Proof. intros B. go_with ltac:(note_rest B). Qed.
Lemma note_init_runs t d v h K :
  steps (Ca (VClass "Note") [enc_tone t; enc_sig d; VFloat v] [] h K) (ends (outcome_of enc_note (note_init t d v)) h K).
Proof. cbv delta [note_init f_zero f_one]; go; finish_with. Qed.
Lemma note_init_kw_runs p n d v h K :
  steps (Ca (VClass "Note") [] [("tone", v_tone p); ("duration", v_signature n d); ("velocity", VFloat v)] h K)
        (ends (outcome_of enc_note (note_init (mkTone p) (mkSig n d) v)) h K).
Proof. eapply same_call; [|apply (note_init_runs (mkTone p) (mkSig n d))]. reflexivity. Qed.

Lemma note_tone_runs n h K : steps (Ca (VFun "Note.tone") [enc_note n] [] h K) (Rt (enc_tone (n_tone n)) h K).
Proof. go. apply steps_refl. Qed.
Lemma note_duration_runs n h K : steps (Ca (VFun "Note.duration") [enc_note n] [] h K) (Rt (enc_sig (n_duration n)) h K).
Proof. go. apply steps_refl. Qed.
Lemma note_velocity_runs n h K : steps (Ca (VFun "Note.velocity") [enc_note n] [] h K) (Rt (VFloat (n_velocity n)) h K).
Proof. go. apply steps_refl. Qed.

Ltac note_made :=
  idtac; lazymatch goal with
  | |- PySem.steps _ _ (Ca (VClass "Note") _ _ _ _) _ => eapply steps_trans; [eapply note_init_kw_runs|]; outcome
  end.
Lemma note_transposed_runs n k h K :
  steps (Ca (VFun "Note.transposed") [enc_note n; VInt k] [] h K)
        (ends (outcome_of enc_note (note_transposed n k)) h K).
Proof.
  parts n. unfold note_transposed, tone_transposed, tone_new. cbn [n_tone n_duration n_velocity pitch].
  go_with note_made; finish_with.
Qed.
Lemma with_velocity_runs n v h K :
  steps (Ca (VFun "Note.with_velocity") [enc_note n; VFloat v] [] h K)
        (ends (outcome_of enc_note (with_velocity n v)) h K).
Proof. parts n. unfold with_velocity. cbn [n_tone n_duration]. go_with note_made; finish_with. Qed.
Lemma note_repr_runs n h K :
  steps (Ca (VFun "Note.__repr__") [enc_note n] [] h K) (Rt (VStr (note_repr (py_digits Y) n)) h K).
Proof.
  parts n. go. unfold note_repr. cbn [n_tone n_duration n_velocity pitch nominator denominator].
  text_result.
Qed.
Ltac known_str :=
  idtac; lazymatch goal with
  | |- PySem.steps _ _ (Ca (VFun "Tone.__str__") _ _ _ _) _ =>
      eapply steps_trans; [eapply tone_str_runs|]; outcome
  end.
Lemma note_str_runs n h K :
  steps (Ca (VFun "Note.__str__") [enc_note n] [] h K) (ends (outcome_of VStr (note_str n)) h K).
Proof.
  parts n. unfold note_str, sig_str. cbn [n_tone n_duration n_velocity pitch nominator denominator].
  go_with known_str; finish_with.
  text_result.
Qed.

Ltac comparisons :=
  idtac; lazymatch goal with
  | |- PySem.steps _ _ (Ca (VFun "Signature.__eq__") _ _ _ _) _ => eapply steps_trans; [eapply eq_runs; assumption|]
  | |- PySem.steps _ _ (Ca (VFun "Signature.__le__") _ _ _ _) _ => eapply steps_trans; [eapply le_runs; assumption|]
  | |- PySem.steps _ _ (Ca (VFun "Signature.__lt__") _ _ _ _) _ => eapply steps_trans; [eapply lt_runs; assumption|]
  | |- PySem.steps _ _ (Ca (VFun "Signature.__ge__") _ _ _ _) _ => eapply steps_trans; [eapply ge_runs; assumption|]
  | |- PySem.steps _ _ (Ca (VFun "Signature.__gt__") _ _ _ _) _ => eapply steps_trans; [eapply gt_runs; assumption|]
  end.
Definition good_note (n : note) : Prop := denominator (n_duration n) <> 0.
Lemma note_eq_runs m n h K : good_note m -> good_note n ->
  steps (Ca (VFun "Note.__eq__") [enc_note m; enc_note n] [] h K) (Rt (VBool (note_eq m n)) h K).
Proof.
  unfold good_note. parts m. parts n. intros D D'.
  unfold note_eq, tone_eq. cbn [n_tone n_duration n_velocity pitch].
  go_with comparisons; finish_with.
Qed.
Lemma note_lt_runs m n h K : good_note m -> good_note n ->
  steps (Ca (VFun "Note.__lt__") [enc_note m; enc_note n] [] h K) (Rt (VBool (note_lt m n)) h K).
Proof.
  unfold good_note. parts m. parts n. intros D D'.
  unfold note_lt, triplet_cmp, tone_eq, tone_lt. cbn [n_tone n_duration n_velocity pitch].
  go_with comparisons; finish_with.
Qed.
Lemma note_le_runs m n h K : good_note m -> good_note n ->
  steps (Ca (VFun "Note.__le__") [enc_note m; enc_note n] [] h K) (Rt (VBool (note_le m n)) h K).
Proof.
  unfold good_note. parts m. parts n. intros D D'.
  unfold note_le, triplet_cmp, tone_eq, tone_le. cbn [n_tone n_duration n_velocity pitch].
  go_with comparisons; finish_with.
Qed.
Lemma note_ge_runs m n h K : good_note m -> good_note n ->
  steps (Ca (VFun "Note.__ge__") [enc_note m; enc_note n] [] h K) (Rt (VBool (note_ge m n)) h K).
Proof.
  unfold good_note. parts m. parts n. intros D D'.
  unfold note_ge, triplet_cmp, tone_eq, tone_ge. cbn [n_tone n_duration n_velocity pitch].
  go_with comparisons; finish_with.
Qed.
Lemma note_gt_runs m n h K : good_note m -> good_note n ->
  steps (Ca (VFun "Note.__gt__") [enc_note m; enc_note n] [] h K) (Rt (VBool (note_gt m n)) h K).
Proof.
  unfold good_note. parts m. parts n. intros D D'.
  unfold note_gt, triplet_cmp, tone_eq, tone_gt. cbn [n_tone n_duration n_velocity pitch].
  go_with comparisons; finish_with.
Qed.
Lemma with_duration_runs n da b h K : sig_value h da b ->
  steps (Ca (VFun "Note.with_duration") [enc_note n; b] [] h K)
        (ends (outcome_of enc_note (with_duration n da)) h K).
Proof.
  intros B. unfold with_duration. parts n.
  assert (C : forall K, steps (Ca (VClass "Note") [] [("tone", v_tone p); ("duration", b); ("velocity", VFloat v)] h K)
    (ends (outcome_of enc_note (let! d := sig_of_arg da in note_init (mkTone p) d v)) h K)).
  { intros K'. eapply same_call; [|apply (note_init_arg_runs (mkTone p) da v b h K' B)]. reflexivity. }
  generalize dependent (let! d := sig_of_arg da in note_init (mkTone p) d v). intros m C.
  destruct B; go_with ltac:(idtac; lazymatch goal with
    |- PySem.steps _ _ (Ca (VClass "Note") _ _ _ _) _ => eapply steps_trans; [exact (C _)|]; outcome end); finish_with.
Qed.
End Note.
