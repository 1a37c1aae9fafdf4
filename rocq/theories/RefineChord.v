(** Running the source of music/chord.py gives what the model in Chord.v says. *)
From Coq Require Import ZArith List Bool String Lia.
From Verif Require Import Py PyFloat Signature Tone Note Chord ChordSpec ChordProps PyAst PySem PySource PyProgram SpecBase
  RefineBase RefineSignature RefineTone RefineNote.
Import ListNotations.
Open Scope string_scope.
Open Scope list_scope.
Open Scope Z_scope.

(** ** Arguments *)
Inductive base_value : base_arg -> value -> Prop :=
| bv_int z : base_value (BA_int z) (VInt z)
| bv_str s : base_value (BA_str s) (VStr s)
| bv_tone t : base_value (BA_tone t) (enc_tone t)
| bv_note n : base_value (BA_note n) (enc_note n)
| bv_none : base_value BA_other VNone
| bv_float f : base_value BA_other (VFloat f)
| bv_bytes b : base_value BA_other (VBytes b)
| bv_tuple l : base_value BA_other (VTuple l)
| bv_sig s : base_value BA_other (enc_sig s).
Inductive duration_value (h : heap) : option sig_arg -> value -> Prop :=
| dv_none : duration_value h None VNone
| dv_some d v : sig_value h d v -> v <> VNone -> duration_value h (Some d) v.
Inductive velocity_value : option float -> value -> Prop :=
| vv_none : velocity_value None VNone
| vv_some f : velocity_value (Some f) (VFloat f).

Section Chord.
Variable Y : python.
Notation steps := (steps melodia Y).
Notation nd := (py_nd Y).

Lemma quarter_runs h K : steps (Ca (VClass "Signature") [VInt 1; VInt 4] [] h K) (Rt (v_signature 1 4) h K).
Proof. exact (new_runs Y 1 4 h K). Qed.
Ltac callees :=
  idtac; lazymatch goal with
  | |- PySem.steps _ _ (Ca (VClass "Tone") _ _ _ _) _ => call tone_new_runs; plain
  | |- PySem.steps _ _ (Ca (VClass "Signature") _ _ _ _) _ => call quarter_runs; plain
  | |- PySem.steps _ _ (Ca (VBound (VClass "Tone") "Tone.from_notation") _ _ _ _) _ =>
      eapply steps_trans; [eapply from_notation_method_runs; assumption|]; outcome
  end.

Definition value_of_parameters (t : tone) (b : value) (v : float) : value := VTuple [enc_tone t; b; VFloat v].

(** The parts for duration and velocity. *)
Definition duration_of (base : base_arg) (d : option sig_arg) : sig_arg :=
  match d with
  | None => match base with BA_note n => SA_sig (n_duration n) | _ => SA_sig (mkSig 1 4) end
  | Some d => d
  end.
Definition velocity_of (base : base_arg) (v : option float) : float :=
  match v with
  | None => match base with BA_note n => n_velocity n | _ => f_three_quarters end
  | Some v => v
  end.
Definition velocity_part : list stmt :=
  Eval calc in match f_body src_chord__get_parameters with _ :: _ :: l => l | _ => [] end.
Definition duration_part : list stmt :=
  Eval calc in match f_body src_chord__get_parameters with _ :: l => l | _ => [] end.

(** A variable whose value is that of an argument. *)
Lemma name_runs x r v h K : assoc x r = Some v -> plain_value v = true ->
  steps (Ev (EName x) r h K) (Rt v h K).
Proof.
  intros A P. econstructor; [|constructor]. cbn. unfold name_step, variable. rewrite A.
  destruct v; try discriminate; reflexivity.
Qed.
Lemma sig_value_plain h d v : sig_value h d v -> plain_value v = true.
Proof. destruct 1; reflexivity. Qed.
Ltac names :=
  idtac; match goal with
  | H : plain_value ?v = true |- PySem.steps _ _ (Ev (EName ?x) ?r ?h ?K) _ =>
      is_var v; eapply steps_trans; [refine (name_runs x r v h K eq_refl H)|]
  end.
Lemma velocity_runs base v bv dv vv t b h K : base_value base bv -> velocity_value v vv -> plain_value b = true ->
  steps (Ex velocity_part [("base", bv); ("duration", dv); ("velocity", vv); ("base_tone", enc_tone t); ("base_duration", b)] h (KFun :: K))
        (Rt (value_of_parameters t b (velocity_of base v)) h K).
Proof.
  intros B V P. destruct t as [p]. unfold value_of_parameters, enc_tone at 2. cbn [pitch].
  destruct B, V; unfold enc_note, enc_sig, enc_tone, v_tone, v_signature; cbn [pitch]; unfold velocity_of; go_with ltac:(first [names|callees]); apply steps_refl.
Qed.
Lemma is_none_runs v h K : v <> VNone -> steps (Cm CIs v VNone h K) (Rt (VBool false) h K).
Proof. intros N. econstructor; [|constructor]. destruct v; try reflexivity. congruence. Qed.
Ltac not_none :=
  idtac; lazymatch goal with
  | N : ?v <> VNone |- PySem.steps _ _ (Cm CIs ?v VNone _ _) _ => eapply steps_trans; [eapply is_none_runs; exact N|]
  end.
Ltac to_velocity B V :=
  idtac; lazymatch goal with
  | |- PySem.steps _ _ (Ex [SIf (ECmp (EName "velocity") _) _ _; _] _ _ (KFun :: _)) _ =>
      refine (velocity_runs _ _ _ _ _ (mkTone _) _ _ _ B V _)
  end.
Lemma duration_runs base d v bv dv vv t h K : base_value base bv -> duration_value h d dv -> velocity_value v vv ->
  exists b, sig_value h (duration_of base d) b /\
  steps (Ex duration_part [("base", bv); ("duration", dv); ("velocity", vv); ("base_tone", enc_tone t)] h (KFun :: K))
        (Rt (value_of_parameters t b (velocity_of base v)) h K).
Proof.
  intros B D V. destruct t as [p]. unfold value_of_parameters, enc_tone. cbn [pitch].
  destruct D as [|da dv S N].
  - exists (enc_sig (match base with BA_note n => n_duration n | _ => mkSig 1 4 end)). split.
    { destruct base; constructor. }
    pose proof B as B'. destruct B'; unfold enc_note, enc_sig, enc_tone, v_tone, v_signature in B |- *; cbn [pitch nominator denominator] in B |- *;
    go_with ltac:(first [callees|to_velocity B V]); reflexivity.
  - exists dv. pose proof (sig_value_plain _ _ _ S) as P. split; [exact S|].
    pose proof B as B'. destruct B'; unfold enc_note, enc_sig, enc_tone, v_tone, v_signature in B |- *; cbn [pitch] in B |- *;
    go_with ltac:(first [not_none|names|callees|to_velocity B V]); assumption.
Qed.

Ltac to_duration B D V t :=
  idtac; lazymatch goal with
  | |- PySem.steps _ _ (Ex [SIf (ECmp (EName "duration") _) _ _; _; _] _ _ (KFun :: _)) _ =>
      let b := fresh "b" in let S := fresh "S" in let R := fresh "R" in
      destruct (duration_runs _ _ _ _ _ _ t _ _ B D V) as (b & S & R);
      exact R
  end.

Lemma get_parameters_runs base d v bv dv vv h K : digit_table nd ->
  base_value base bv -> duration_value h d dv -> velocity_value v vv ->
  match get_parameters nd base d v with
  | Ok (t, da, x) => exists b, sig_value h da b /\
      steps (Ca (VFun "chord._get_parameters") [bv; dv; vv] [] h K) (Rt (value_of_parameters t b x) h K)
  | Err e => steps (Ca (VFun "chord._get_parameters") [bv; dv; vv] [] h K) (Thr e h)
  end.
Proof.
  intros N B D V.
  set (m := match base with
    | BA_int z => Ok (tone_new z) | BA_str s => from_notation nd s | BA_tone t => Ok t
    | BA_note n => Ok (n_tone n) | BA_other => Err ValueError end).
  change (get_parameters nd base d v) with (let! t := m in Ok (t, duration_of base d, velocity_of base v)).
  assert (R : match m with
    | Ok t => steps (Ca (VFun "chord._get_parameters") [bv; dv; vv] [] h K)
                (Ex duration_part [("base", bv); ("duration", dv); ("velocity", vv); ("base_tone", enc_tone t)] h (KFun :: K))
    | Err e => steps (Ca (VFun "chord._get_parameters") [bv; dv; vv] [] h K) (Thr e h) end).
  { subst m. destruct B; try destruct (from_notation nd s) as [[p]|e] eqn:F; unfold enc_note, enc_sig, enc_tone, v_tone, v_signature, tone_new; cbn [pitch nominator denominator];
    repeat (lazymatch goal with |- PySem.steps _ _ (Ex [SIf (ECmp (EName "duration") _) _ _; _; _] _ _ (KFun :: _)) _ => fail | _ => idtac end; first [progress callees|adv]); apply steps_refl. }
  destruct m as [t|e]; cbn [bind]; [|exact R].
  destruct (duration_runs _ _ _ _ _ _ t _ K B D V) as (b & S & R').
  exists b. split; [exact S|]. exact (steps_trans _ _ _ _ R R').
Qed.

(** ** The chords *)
Definition note_expr (c : chord_note) : expr :=
  EOp (OCall [APos; APos; APos])
    [EName "Note";
     match c with
     | CBase => EName "base_tone"
     | CTransposed k => EOp (OCall [APos]) [EOp (OAttr "transposed") [EName "base_tone"]; EOp OPos [EConst (VInt k)]]
     end;
     EName "base_duration"; EName "base_velocity"].
Definition chord_fun (name : string) (shape : list chord_note) : fundef :=
  mkFun name
    [("base", None); ("duration", Some (EConst VNone)); ("velocity", Some (EConst VNone))]
    [] false
    [SAssign (TTuple [TName "base_tone"; TName "base_duration"; TName "base_velocity"])
       (EOp (OCall [APos; APos; APos])
          [EName "chord._get_parameters"; EName "base"; EName "duration"; EName "velocity"]);
     SReturn (EOp OTuple (map note_expr shape))].

(** All functions of the table are such. *)
Lemma chord_source :
  Forall (fun row => assoc ("chord." ++ fst row) functions = Some (chord_fun ("chord." ++ fst row) (to_shape (snd row)))) chord_table.
Proof. repeat constructor. Qed.

Definition chord_env (bv dv vv : value) (t : tone) (b : value) (v : float) : env :=
  [("base", bv); ("duration", dv); ("velocity", vv); ("base_tone", enc_tone t); ("base_duration", b); ("base_velocity", VFloat v)].
Definition shifted (t : tone) (c : chord_note) : tone :=
  match c with CBase => t | CTransposed k => tone_transposed t k end.
Definition tuple_state (d : list value) (r : res (list note)) (h : heap) (K : list frame) : state :=
  match r with Ok ns => Rt (VTuple (rev_append d (map enc_note ns))) h K | Err e => Thr e h end.

Lemma note_expr_runs c bv dv vv t da b v h K : digit_table nd -> sig_value h da b ->
  steps (Ev (note_expr c) (chord_env bv dv vv t b v) h K)
        (ends (outcome_of enc_note (note_new nd (TA_tone (shifted t c)) da v)) h K).
Proof.
  intros N S. pose proof (sig_value_plain _ _ _ S) as P. destruct t as [p].
  destruct c; unfold note_expr, chord_env, enc_tone, v_tone; cbn [pitch shifted]; do 30 (
  first [lazymatch goal with
     | |- PySem.steps _ _ (Ca (VClass "Note") _ _ _ _) _ => fail
     | |- PySem.steps _ _ (Ca (VFun "Tone.transposed") _ _ _ _) _ => call transposed_runs; unfold enc_tone, v_tone
     end | names | (lazymatch goal with |- PySem.steps _ _ (Ca (VClass "Note") _ _ _ _) _ => fail | _ => idtac end; adv) | idtac]).
  - exact (note_new_runs Y _ _ _ _ _ _ _ N (tv_tone (mkTone p)) S).
  - exact (note_new_runs Y _ _ _ _ _ _ _ N (tv_tone (tone_transposed (mkTone p) k)) S).
Qed.

Lemma tuple_runs cs bv dv vv t da b v h K : digit_table nd -> sig_value h da b -> forall c d,
  steps (Ev (note_expr c) (chord_env bv dv vv t b v) h (KArgs OTuple d (map note_expr cs) (chord_env bv dv vv t b v) :: K))
        (tuple_state d (map_res (fun c => note_new nd (TA_tone (shifted t c)) da v) (c :: cs)) h K).
Proof.
  intros N S. induction cs as [|c' cs IH]; intros c d; (eapply steps_trans; [eapply note_expr_runs; eassumption|]);
    cbn [map_res]; destruct (note_new nd (TA_tone (shifted t c)) da v) as [n|e]; cbn [bind outcome_of ends]; try apply steps_refl.
  - econstructor; [reflexivity|]. apply steps_refl.
  - econstructor; [reflexivity|]. cbn [map]. eapply steps_trans; [apply IH|].
    cbn [map_res]. destruct (note_new nd _ da v); cbn [bind]; [|apply steps_refl].
    destruct (map_res _ cs); cbn [bind]; apply steps_refl.
Qed.

Definition enc_notes (l : list note) : value := VTuple (map enc_note l).

Lemma chord_fun_runs name c cs base d v bv dv vv h K :
  assoc name functions = Some (chord_fun name (c :: cs)) -> digit_table nd ->
  base_value base bv -> duration_value h d dv -> velocity_value v vv ->
  steps (Ca (VFun name) [bv; dv; vv] [] h K)
        (ends (outcome_of enc_notes (build_chord nd (c :: cs) base d v)) h K).
Proof.
  intros A N B D V.
  assert (PB : plain_value bv = true) by (destruct B; reflexivity).
  assert (PD : plain_value dv = true) by (destruct D; [reflexivity|eapply sig_value_plain; eassumption]).
  assert (PV : plain_value vv = true) by (destruct V; reflexivity).
  eapply (steps_more _ _ _ (Ex (f_body (chord_fun name (c :: cs))) [("base", bv); ("duration", dv); ("velocity", vv)] h (KFun :: K))).
  { unfold step, call_step, enter. change (functions_of melodia) with functions. rewrite A. reflexivity. }
  unfold build_chord.
  set (K0 := KAssign (TTuple [TName "base_tone"; TName "base_duration"; TName "base_velocity"]) 
     [SReturn (EOp OTuple (map note_expr (c :: cs)))] [("base", bv); ("duration", dv); ("velocity", vv)] :: KFun :: K).
  eapply (steps_trans _ _ (Ca (VFun "chord._get_parameters") [bv; dv; vv] [] h K0)).
  { unfold chord_fun, f_body. do 20 (first [names | lazymatch goal with |- PySem.steps _ _ (Ca _ _ _ _ _) _ => fail | _ => idtac end; adv | idtac]). apply steps_refl. }
  pose proof (get_parameters_runs base d v bv dv vv h K0 N B D V) as G.
  destruct (get_parameters nd base d v) as [[[t da] x]|e]; cbn [bind]; [|exact G].
  destruct G as (b & S & G). eapply steps_trans; [exact G|]. subst K0. unfold value_of_parameters.
  eapply (steps_trans _ _ (Ev (note_expr c) (chord_env bv dv vv t b x) h (KArgs OTuple [] (map note_expr cs) (chord_env bv dv vv t b x) :: KReturn :: KFun :: K))).
  { pose proof (sig_value_plain _ _ _ S) as P. cbn [map]. unfold chord_env. generalize (note_expr c) (map note_expr cs) (enc_tone t).
    intros. repeat (first [apply steps_refl | econstructor; [reflexivity|]]). }
  eapply steps_trans; [eapply tuple_runs; eassumption|].
  unfold shifted. destruct (map_res _ (c :: cs)) as [ns|e]; [|apply steps_refl].
  unfold tuple_state, rev_append. cbn [outcome_of ends]. econstructor; [reflexivity|]. econstructor; [reflexivity|]. apply steps_refl.
Qed.

(** Every function of the module. *)
Lemma chord_runs name f base d v bv dv vv h K : digit_table nd -> In (name, f) (chord_functions nd) ->
  base_value base bv -> duration_value h d dv -> velocity_value v vv ->
  steps (Ca (VFun ("chord." ++ name)) [bv; dv; vv] [] h K) (ends (outcome_of enc_notes (f base d v)) h K).
Proof.
  intros N I B D V. destruct (function_row nd name f I) as (l & T & ->).
  pose proof (proj1 (Forall_forall _ _) chord_source _ T) as A. cbn [fst snd] in A.
  destruct (table_row _ _ T) as (_ & _ & NE). destruct (to_shape l) as [|c cs]; [congruence|].
  apply chord_fun_runs; assumption.
Qed.

(** The names of the module. *)
Lemma chord_names : Forall (fun row => global melodia ("chord." ++ fst row) = Some (VFun ("chord." ++ fst row))) chord_table.
Proof. repeat constructor. Qed.

(** Without the optional arguments. *)
Lemma chord_defaults : Forall (fun row => assoc ("chord." ++ fst row) defaults = Some [("duration", VNone); ("velocity", VNone)]) chord_table.
Proof. repeat constructor. Qed.
Lemma chord_base_runs name f base bv h K : digit_table nd -> In (name, f) (chord_functions nd) ->
  base_value base bv ->
  steps (Ca (VFun ("chord." ++ name)) [bv] [] h K) (ends (outcome_of enc_notes (f base None None)) h K).
Proof.
  intros N I B. eapply same_call; [|eapply chord_runs; [exact N|exact I|exact B|constructor|constructor]].
  destruct (function_row nd name f I) as (l & T & ->).
  pose proof (proj1 (Forall_forall _ _) chord_source _ T) as A. cbn [fst snd] in A.
  pose proof (proj1 (Forall_forall _ _) chord_defaults _ T) as E. cbn [fst snd] in E.
  unfold step, call_step, enter. change (functions_of melodia) with functions. rewrite A.
  cbn [f_params chord_fun bind_params]. change (defaults_of melodia) with defaults. rewrite E. reflexivity.
Qed.
End Chord.
