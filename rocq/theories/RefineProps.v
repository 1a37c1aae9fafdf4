(** Proofs that the source computes what the models say (C69-C73). *)
From Coq Require Import ZArith List Bool String Lia.
From Verif Require Import Py PyFloat Signature Tone Frequency FrequencyFloat Note Show Chord PyAst PySem PySource PyProgram SpecBase SigFacts
  RefineBase RefineSignature RefineTone RefineNote RefineChord RefineImport RefineSpec.
Import ListNotations.
Open Scope string_scope.
Open Scope list_scope.
Open Scope Z_scope.

(** ** The machine *)
Lemma steps_last Y s t u : steps melodia Y s t -> steps melodia Y s u -> step melodia Y t = None -> steps melodia Y u t.
Proof.
  induction 1 as [|s s' t E S IH]; intros U N.
  - inversion U; subst; [constructor|congruence].
  - inversion U; subst; [econstructor; eassumption|]. apply IH; [|exact N].
    rewrite E in H. injection H as ->. assumption.
Qed.
Lemma final_ends Y r h : step melodia Y (ends r h []) = None.
Proof. destruct r; reflexivity. Qed.
Lemma c69_deterministic : forall Y h vars e r r',
  evaluates Y h vars e r -> evaluates Y h vars e r' -> r = r'.
Proof.
  intros Y h vars e r r' A B. specialize (A []). specialize (B []).
  pose proof (steps_last Y _ _ _ A B (final_ends Y r h)) as S. inversion S; subst.
  - destruct r, r'; cbn in *; congruence.
  - rewrite final_ends in H. discriminate.
Qed.
Lemma c69_import : forall Y, digit_table (py_nd Y) ->
  (exists r h, steps definitions Y (Ex src_module_tone [] no_objects []) (Ex [] r h []) /\
     map (fun b => (fst b, settled h (snd b))) r = firstn 3 globals) /\
  (exists r h v, steps definitions Y (Ex src_module_midi [] no_objects []) (Ex [] r h []) /\
     assoc "_event_lengths" r = Some v /\ skipn 3 globals = [("_event_lengths", settled h v)]) /\
  Forall (fun f => Forall (fun p =>
    let d := match assoc (fst f) defaults with Some l => assoc (fst p) l | None => None end in
    match snd p with
    | Some e => exists v, d = Some v /\ forall h, evaluates Y h [] e (Ok v)
    | None => d = None
    end) (f_params (snd f))) functions.
Proof.
  intros Y N. split; [apply import_tone|]. split; [apply import_midi|]. exact (defaults_ok Y N).
Qed.

(** ** core/signature.py *)
Ltac start := unfold evaluates, a_sig, a_tone, a_note, a_chord, a_text, an_int, a_bool; intros;
  unfold meth, call, attr, binary, compare, name; cbn [List.map].
Ltac until tac := repeat (first [tac | adv]); try apply steps_refl.

Lemma valid_denominator s : valid_sig s -> denominator s <> 0.
Proof. intros [_ (k & K0 & ->)]. pose proof (Z.pow_pos_nonneg 2 k). lia. Qed.

Lemma c70_new : forall Y h n d, evaluates Y h [("n", VInt n); ("d", VInt d)]
  (call (name "Signature") [name "n"; name "d"]) (a_sig (sig_new n d)).
Proof. start. until ltac:(apply new_runs). Qed.
Lemma c70_methods : forall Y h s t x, valid_sig s -> valid_sig t ->
  let vars := [("s", enc_sig s); ("t", enc_sig t); ("x", VInt x)] in
  evaluates Y h vars (attr (name "s") "nominator") (an_int (nominator s)) /\
  evaluates Y h vars (attr (name "s") "denominator") (an_int (denominator s)) /\
  evaluates Y h vars (meth (name "s") "to" [name "x"]) (a_sig (sig_to s x)) /\
  evaluates Y h vars (meth (name "s") "normalized" []) (a_sig (sig_normalized s)) /\
  evaluates Y h vars (call (name "abs") [name "s"]) (a_sig (sig_abs s)) /\
  evaluates Y h vars (call (name "str") [name "s"]) (a_text (Ok (sig_str s))) /\
  evaluates Y h vars (call (name "repr") [name "s"]) (a_text (Ok (sig_repr s))) /\
  evaluates Y h vars (binary Add (name "s") (name "t")) (a_sig (sig_add s t)) /\
  evaluates Y h vars (binary Mult (name "s") (name "t")) (a_sig (sig_mul s t)).
Proof.
  intros Y h s t x S T. pose proof (valid_denominator s S) as D. pose proof (valid_denominator t T) as D'.
  destruct (sig_normalized_spec s S) as (s' & N & _). destruct s as [n d], t as [n' d'].
  unfold enc_sig in *. cbn [nominator denominator] in *. cbv zeta.
  repeat split; start; unfold v_signature.
  - until ltac:(apply nominator_runs).
  - until ltac:(apply denominator_runs).
  - until ltac:(apply to_runs; assumption).
  - rewrite N. until ltac:(apply normalized_runs; assumption).
  - until ltac:(apply abs_runs).
  - until ltac:(apply str_runs).
  - until ltac:(apply repr_runs).
  - until ltac:(apply add_runs; assumption).
  - until ltac:(apply mul_runs).
Qed.
Lemma c70_comparisons : forall Y h s t, valid_sig s -> valid_sig t ->
  let vars := [("s", enc_sig s); ("t", enc_sig t)] in
  evaluates Y h vars (compare CEq (name "s") (name "t")) (a_bool (sig_eq s t)) /\
  evaluates Y h vars (compare CNe (name "s") (name "t")) (a_bool (negb (sig_eq s t))) /\
  evaluates Y h vars (compare CLt (name "s") (name "t")) (a_bool (sig_lt s t)) /\
  evaluates Y h vars (compare CLe (name "s") (name "t")) (a_bool (sig_le s t)) /\
  evaluates Y h vars (compare CGt (name "s") (name "t")) (a_bool (sig_gt s t)) /\
  evaluates Y h vars (compare CGe (name "s") (name "t")) (a_bool (sig_ge s t)).
Proof.
  intros Y h s t S T. pose proof (valid_denominator s S) as D. pose proof (valid_denominator t T) as D'.
  destruct s as [n d], t as [n' d']. unfold enc_sig in *. cbn [nominator denominator] in *. cbv zeta.
  repeat split; start; unfold v_signature.
  - until ltac:(apply eq_runs; assumption).
  - until ltac:(eapply steps_trans; [apply eq_runs; assumption|]).
  - until ltac:(apply lt_runs; assumption).
  - until ltac:(apply le_runs; assumption).
  - until ltac:(apply gt_runs; assumption).
  - until ltac:(apply ge_runs; assumption).
Qed.

(** ** core/tone.py *)
Lemma c71_new : forall Y h p, evaluates Y h [("p", VInt p)] (call (name "Tone") [name "p"]) (a_tone (Ok (tone_new p))).
Proof. start. until ltac:(apply tone_new_runs). Qed.
Lemma c71_from_notation : forall Y h s, digit_table (py_nd Y) ->
  evaluates Y h [("s", VStr s)] (meth (name "Tone") "from_notation" [name "s"]) (a_tone (from_notation (py_nd Y) s)).
Proof. start. until ltac:(apply from_notation_method_runs; assumption). Qed.
Lemma c71_methods : forall Y h t x b f,
  let vars := [("t", enc_tone t); ("x", VInt x); ("b", VBool b); ("f", VFloat f)] in
  evaluates Y h vars (attr (name "t") "pitch") (an_int (pitch t)) /\
  evaluates Y h vars (attr (name "t") "octave") (an_int (tone_octave t)) /\
  evaluates Y h vars (meth (name "t") "transposed" [name "x"]) (a_tone (Ok (tone_transposed t x))) /\
  evaluates Y h vars (meth (name "t") "to_notation" [name "b"]) (a_text (to_notation t b)) /\
  evaluates Y h vars (meth (name "t") "to_notation" []) (a_text (to_notation t false)) /\
  evaluates Y h vars (meth (name "t") "to_frequency" [name "f"]) (outcome_of VFloat (to_frequency_float (py_pow2 Y) t f)) /\
  evaluates Y h vars (call (name "str") [name "t"]) (a_text (tone_str t)) /\
  evaluates Y h vars (call (name "repr") [name "t"]) (a_text (Ok (tone_repr t))).
Proof.
  intros Y h t x b f. destruct t as [p]. unfold enc_tone. cbn [pitch]. cbv zeta.
  repeat split; start; unfold v_tone.
  - until ltac:(apply pitch_runs).
  - until ltac:(apply octave_runs).
  - until ltac:(apply transposed_runs).
  - until ltac:(apply to_notation_runs).
  - until ltac:(apply to_notation_default_runs).
  - until ltac:(apply to_frequency_runs).
  - until ltac:(apply tone_str_runs).
  - until ltac:(apply tone_repr_runs).
Qed.
Lemma c71_comparisons : forall Y h s t,
  let vars := [("s", enc_tone s); ("t", enc_tone t)] in
  evaluates Y h vars (compare CEq (name "s") (name "t")) (a_bool (tone_eq s t)) /\
  evaluates Y h vars (compare CNe (name "s") (name "t")) (a_bool (negb (tone_eq s t))) /\
  evaluates Y h vars (compare CLt (name "s") (name "t")) (a_bool (tone_lt s t)) /\
  evaluates Y h vars (compare CLe (name "s") (name "t")) (a_bool (tone_le s t)) /\
  evaluates Y h vars (compare CGt (name "s") (name "t")) (a_bool (tone_gt s t)) /\
  evaluates Y h vars (compare CGe (name "s") (name "t")) (a_bool (tone_ge s t)).
Proof.
  intros Y h [p] [q]. unfold enc_tone. cbn [pitch]. cbv zeta. repeat split; start; unfold v_tone.
  - until ltac:(apply tone_eq_runs).
  - until ltac:(eapply steps_trans; [apply tone_eq_runs|]).
  - until ltac:(apply tone_lt_runs).
  - until ltac:(apply tone_le_runs).
  - until ltac:(apply tone_gt_runs).
  - until ltac:(apply tone_ge_runs).
Qed.

(** ** core/note.py *)
Lemma tone_plain a v : tone_value a v -> plain_value v = true.
Proof. destruct 1; reflexivity. Qed.
Ltac names :=
  idtac; match goal with
  | H : plain_value ?v = true |- PySem.steps _ _ (Ev (EName ?x) ?r ?h ?K) _ =>
      eapply steps_trans; [refine (name_runs _ x r v h K eq_refl H)|]
  end.
Lemma c72_new : forall Y h t d v t' d', digit_table (py_nd Y) -> tone_value t t' -> sig_value h d d' ->
  let vars := [("t", t'); ("d", d'); ("v", VFloat v)] in
  evaluates Y h vars (call (name "Note") [name "t"; name "d"; name "v"]) (a_note (note_new (py_nd Y) t d v)) /\
  evaluates Y h vars (call (name "Note") [name "t"; name "d"]) (a_note (note_new (py_nd Y) t d default_velocity)) /\
  evaluates Y h vars (call (name "Note") [name "t"]) (a_note (note_new (py_nd Y) t (SA_sig default_duration) default_velocity)).
Proof.
  intros Y h t d v t' d' N T D. pose proof (tone_plain _ _ T) as PT. pose proof (sig_value_plain _ _ _ D) as PD. cbv zeta.
  repeat split; start.
  - until ltac:(first [apply note_new_runs; assumption | names]).
  - until ltac:(first [eapply same_call; [|apply (note_new_runs Y t d default_velocity t' d'); assumption]; reflexivity | names]).
  - until ltac:(first [eapply same_call; [|apply (note_new_runs Y t (SA_sig default_duration) default_velocity t' (v_signature 1 4)); [assumption|assumption|apply (sv_sig h (mkSig 1 4))]]; reflexivity | names]).
Qed.
Lemma c72_methods : forall Y h n x v d d', sig_value h d d' ->
  let vars := [("n", enc_note n); ("x", VInt x); ("v", VFloat v); ("d", d')] in
  evaluates Y h vars (attr (name "n") "tone") (a_tone (Ok (n_tone n))) /\
  evaluates Y h vars (attr (name "n") "duration") (a_sig (Ok (n_duration n))) /\
  evaluates Y h vars (attr (name "n") "velocity") (Ok (VFloat (n_velocity n))) /\
  evaluates Y h vars (meth (name "n") "transposed" [name "x"]) (a_note (note_transposed n x)) /\
  evaluates Y h vars (meth (name "n") "with_duration" [name "d"]) (a_note (with_duration n d)) /\
  evaluates Y h vars (meth (name "n") "with_velocity" [name "v"]) (a_note (with_velocity n v)) /\
  evaluates Y h vars (call (name "str") [name "n"]) (a_text (note_str n)) /\
  evaluates Y h vars (call (name "repr") [name "n"]) (a_text (Ok (note_repr (py_digits Y) n))).
Proof.
  intros Y h n x v d d' D. pose proof (sig_value_plain _ _ _ D) as PD. cbv zeta. repeat split; start; unfold enc_note, enc_tone, v_tone, enc_sig, v_signature.
  - until ltac:(apply (note_tone_runs Y n)).
  - until ltac:(apply (note_duration_runs Y n)).
  - until ltac:(apply (note_velocity_runs Y n)).
  - until ltac:(apply (note_transposed_runs Y n)).
  - until ltac:(first [apply (with_duration_runs Y n); assumption | names]).
  - until ltac:(apply (with_velocity_runs Y n)).
  - until ltac:(apply (note_str_runs Y n)).
  - until ltac:(apply (note_repr_runs Y n)).
Qed.
Lemma c72_comparisons : forall Y h m n, valid_sig (n_duration m) -> valid_sig (n_duration n) ->
  let vars := [("m", enc_note m); ("n", enc_note n)] in
  evaluates Y h vars (compare CEq (name "m") (name "n")) (a_bool (note_eq m n)) /\
  evaluates Y h vars (compare CNe (name "m") (name "n")) (a_bool (negb (note_eq m n))) /\
  evaluates Y h vars (compare CLt (name "m") (name "n")) (a_bool (note_lt m n)) /\
  evaluates Y h vars (compare CLe (name "m") (name "n")) (a_bool (note_le m n)) /\
  evaluates Y h vars (compare CGt (name "m") (name "n")) (a_bool (note_gt m n)) /\
  evaluates Y h vars (compare CGe (name "m") (name "n")) (a_bool (note_ge m n)).
Proof.
  intros Y h m n M N. pose proof (valid_denominator _ M) as D. pose proof (valid_denominator _ N) as D'.
  cbv zeta. repeat split; start; unfold enc_note, enc_tone, v_tone, enc_sig, v_signature.
  - until ltac:(apply (note_eq_runs Y m n); assumption).
  - until ltac:(eapply steps_trans; [apply (note_eq_runs Y m n); assumption|]).
  - until ltac:(apply (note_lt_runs Y m n); assumption).
  - until ltac:(apply (note_le_runs Y m n); assumption).
  - until ltac:(apply (note_gt_runs Y m n); assumption).
  - until ltac:(apply (note_ge_runs Y m n); assumption).
Qed.

(** ** music/chord.py *)
Lemma c73_chords : forall Y h x f base d v base' d' v', digit_table (py_nd Y) ->
  In (x, f) (chord_functions (py_nd Y)) -> base_value base base' -> duration_value h d d' -> velocity_value v v' ->
  let vars := [("base", base'); ("duration", d'); ("velocity", v')] in
  evaluates Y h vars (call (name ("chord." ++ x)) [name "base"; name "duration"; name "velocity"]) (a_chord (f base d v)) /\
  evaluates Y h vars (call (name ("chord." ++ x)) [name "base"]) (a_chord (f base None None)).
Proof.
  intros Y h x f base d v base' d' v' N I B D V.
  assert (PB : plain_value base' = true) by (destruct B; reflexivity).
  assert (PD : plain_value d' = true) by (destruct D; [reflexivity|eapply sig_value_plain; eassumption]).
  assert (PV : plain_value v' = true) by (destruct V; reflexivity).
  assert (G : forall vars K, vars = [("base", base'); ("duration", d'); ("velocity", v')] ->
     steps melodia Y (Ev (EName ("chord." ++ x)) vars h K) (Rt (VFun ("chord." ++ x)) h K)).
  { intros vars K ->. destruct (ChordProps.function_row _ x f I) as (l & T & _).
    pose proof (proj1 (Forall_forall _ _) chord_names _ T) as A. cbn [fst] in A.
    econstructor; [|constructor]. cbn [step eval_step]. unfold name_step, variable.
    change (assoc ("chord." ++ x) [("base", base'); ("duration", d'); ("velocity", v')]) with (@None value).
    rewrite A. reflexivity. }
  cbv zeta. split; start; adv; (eapply steps_trans; [apply G; reflexivity|]).
  - until ltac:(first [apply chord_runs; assumption | names]).
  - until ltac:(first [apply chord_base_runs; assumption | names]).
Qed.
