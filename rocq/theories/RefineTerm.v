(** Expressions of any depth made of the operations on signatures, tones and notes. *)
From Coq Require Import ZArith List Bool String Lia.
From Verif Require Import Py PyFloat Signature Tone Frequency FrequencyFloat Note Show PyAst PySem PySource PyProgram SpecBase SigFacts
  FloatFacts MidiSpec Chord ChordSpec ChordProps RefineBase RefineSignature RefineTone RefineNote RefineChord RefineSpec RefineProps.
Import ListNotations.
Open Scope string_scope.
Open Scope list_scope.
Open Scope Z_scope.

(** ** Values *)
Inductive obj : Type :=
| OInt (z : Z) | OBool (b : bool) | OFloat (f : float) | OText (s : pystr)
| OBytes (b : list Z) | OPair (n d : Z)
| OSig (s : sig) | OTone (t : tone) | ONote (n : note) | ONotes (l : list note).
Definition enc_obj (o : obj) : value :=
  match o with
  | OInt z => VInt z | OBool b => VBool b | OFloat f => VFloat f | OText s => VStr s
  | OBytes b => VBytes b | OPair n d => VTuple [VInt n; VInt d]
  | OSig s => enc_sig s | OTone t => enc_tone t | ONote n => enc_note n | ONotes l => enc_notes l
  end.
Definition valid_obj (o : obj) : Prop :=
  match o with
  | OSig s => valid_sig s
  | ONote n => valid_note n
  | ONotes l => Forall valid_note l
  | _ => True
  end.

(** ** Expressions *)
Inductive op1 : Type :=
| O_nominator | O_denominator | O_normalized | O_pitch | O_octave | O_to_notation | O_tone | O_duration | O_velocity
| O_abs | O_str | O_repr | O_Tone | O_from_notation | O_neg | O_chord (x : string).
Inductive op2 : Type :=
| O_add | O_mul | O_cmp (o : cmpop) | O_to | O_transposed | O_notation | O_frequency | O_with_duration | O_with_velocity | O_Signature | O_pair.
Inductive term : Type :=
| Var (x : string)
| Lit (o : obj)
| App1 (o : op1) (a : term)
| App2 (o : op2) (a b : term)
| New_note (a b c : term).

Definition code1 (o : op1) (a : expr) : expr :=
  match o with
  | O_nominator => attr a "nominator" | O_denominator => attr a "denominator"
  | O_normalized => meth a "normalized" []
  | O_pitch => attr a "pitch" | O_octave => attr a "octave" | O_to_notation => meth a "to_notation" []
  | O_tone => attr a "tone" | O_duration => attr a "duration" | O_velocity => attr a "velocity"
  | O_abs => call (name "abs") [a] | O_str => call (name "str") [a] | O_repr => call (name "repr") [a]
  | O_Tone => call (name "Tone") [a]
  | O_from_notation => meth (name "Tone") "from_notation" [a]
  | O_neg => EOp ONeg [a]
  | O_chord x => call (name ("chord." ++ x)) [a]
  end.
Definition code2 (o : op2) (a b : expr) : expr :=
  match o with
  | O_add => binary Add a b | O_mul => binary Mult a b | O_cmp c => compare c a b
  | O_to => meth a "to" [b] | O_transposed => meth a "transposed" [b]
  | O_notation => meth a "to_notation" [b] | O_frequency => meth a "to_frequency" [b]
  | O_with_duration => meth a "with_duration" [b] | O_with_velocity => meth a "with_velocity" [b]
  | O_Signature => call (name "Signature") [a; b]
  | O_pair => EOp OTuple [a; b]
  end.
Fixpoint code (t : term) : expr :=
  match t with
  | Var x => name x
  | Lit o => EConst (enc_obj o)
  | App1 o a => code1 o (code a)
  | App2 o a b => code2 o (code a) (code b)
  | New_note a b c => call (name "Note") [code a; code b; code c]
  end.

(** ** Meaning, by the models; [None] if the operands are not of the types of the operation. *)
Definition answer {A} (f : A -> obj) (r : res A) : res obj := let! x := r in Ok (f x).
Definition compare_by {A} (eq lt le gt ge : A -> A -> bool) (o : cmpop) (a b : A) : option (res obj) :=
  match o with
  | CEq => Some (Ok (OBool (eq a b))) | CNe => Some (Ok (OBool (negb (eq a b))))
  | CLt => Some (Ok (OBool (lt a b))) | CLe => Some (Ok (OBool (le a b)))
  | CGt => Some (Ok (OBool (gt a b))) | CGe => Some (Ok (OBool (ge a b)))
  | _ => None
  end.
(** Objects that can be written down, arguments of chords, positions and durations. *)
Definition literal (o : obj) : bool := match o with OInt _ | OBool _ | OFloat _ | OText _ | OBytes _ => true | _ => false end.
Definition base_of (o : obj) : option base_arg :=
  match o with
  | OInt z => Some (BA_int z) | OText s => Some (BA_str s) | OTone t => Some (BA_tone t) | ONote n => Some (BA_note n) | _ => None
  end.
Definition tone_arg_of (o : obj) : option tone_arg :=
  match o with
  | OTone t => Some (TA_tone t) | OInt z => Some (TA_int z) | OText s => Some (TA_str s) | _ => None
  end.
Definition sig_arg_of (o : obj) : option sig_arg :=
  match o with
  | OSig s => Some (SA_sig s) | OPair n d => Some (SA_iter [EInt n; EInt d])
  | OText s => Some (SA_iter (map (fun _ => EOther) s)) | OBytes b => Some (SA_iter (map EInt b))
  | OInt _ | OFloat _ | OTone _ => Some SA_other
  | _ => None
  end.
Definition same_text (a b : list Z) : bool := if list_eq_dec Z.eq_dec a b then true else false.
Definition compare_texts (o : cmpop) (a b : list Z) : option (res obj) :=
  match o with
  | CEq => Some (Ok (OBool (same_text a b))) | CNe => Some (Ok (OBool (negb (same_text a b)))) | _ => None
  end.
Definition mean1 (Y : python) (o : op1) (a : obj) : option (res obj) :=
  match o, a with
  | O_nominator, OSig s => Some (Ok (OInt (nominator s)))
  | O_denominator, OSig s => Some (Ok (OInt (denominator s)))
  | O_normalized, OSig s => Some (answer OSig (sig_normalized s))
  | O_abs, OSig s => Some (answer OSig (sig_abs s))
  | O_str, OSig s => Some (Ok (OText (sig_str s)))
  | O_repr, OSig s => Some (Ok (OText (sig_repr s)))
  | O_pitch, OTone t => Some (Ok (OInt (pitch t)))
  | O_octave, OTone t => Some (Ok (OInt (tone_octave t)))
  | O_to_notation, OTone t => Some (answer OText (to_notation t false))
  | O_str, OTone t => Some (answer OText (tone_str t))
  | O_repr, OTone t => Some (Ok (OText (tone_repr t)))
  | O_Tone, OInt z => Some (Ok (OTone (tone_new z)))
  | O_from_notation, OText s => Some (answer OTone (from_notation (py_nd Y) s))
  | O_tone, ONote n => Some (Ok (OTone (n_tone n)))
  | O_duration, ONote n => Some (Ok (OSig (n_duration n)))
  | O_velocity, ONote n => Some (Ok (OFloat (n_velocity n)))
  | O_str, ONote n => Some (answer OText (note_str n))
  | O_repr, ONote n => Some (Ok (OText (note_repr (py_digits Y) n)))
  | O_neg, OInt z => Some (Ok (OInt (- z)))
  | O_chord x, a =>
      match assoc x (chord_functions (py_nd Y)), base_of a with
      | Some f, Some b => Some (answer ONotes (f b None None))
      | _, _ => None
      end
  | _, _ => None
  end.
Definition mean2 (Y : python) (o : op2) (a b : obj) : option (res obj) :=
  match o, a, b with
  | O_add, OInt x, OInt y => Some (Ok (OInt (x + y)))
  | O_mul, OInt x, OInt y => Some (Ok (OInt (x * y)))
  | O_cmp c, OInt x, OInt y => compare_by Z.eqb Z.ltb Z.leb Z.gtb Z.geb c x y
  | O_add, OSig s, OSig t => Some (answer OSig (sig_add s t))
  | O_mul, OSig s, OSig t => Some (answer OSig (sig_mul s t))
  | O_cmp c, OSig s, OSig t => compare_by sig_eq sig_lt sig_le sig_gt sig_ge c s t
  | O_cmp c, OTone s, OTone t => compare_by tone_eq tone_lt tone_le tone_gt tone_ge c s t
  | O_cmp c, ONote s, ONote t => compare_by note_eq note_lt note_le note_gt note_ge c s t
  | O_to, OSig s, OInt x => Some (answer OSig (sig_to s x))
  | O_transposed, OTone t, OInt x => Some (Ok (OTone (tone_transposed t x)))
  | O_transposed, ONote n, OInt x => Some (answer ONote (note_transposed n x))
  | O_notation, OTone t, OBool b => Some (answer OText (to_notation t b))
  | O_frequency, OTone t, OFloat f => Some (answer OFloat (to_frequency_float (py_pow2 Y) t f))
  | O_with_duration, ONote n, b => match sig_arg_of b with Some d => Some (answer ONote (with_duration n d)) | None => None end
  | O_with_velocity, ONote n, OFloat f => if is_float f then Some (answer ONote (with_velocity n f)) else None
  | O_Signature, OInt n, OInt d => Some (answer OSig (sig_new n d))
  | O_pair, OInt n, OInt d => Some (Ok (OPair n d))
  | O_cmp c, OText a, OText b | O_cmp c, OBytes a, OBytes b => compare_texts c a b
  | _, _, _ => None
  end.
(** The names of the chords. *)
Definition known (Y : python) (o : op1) : bool :=
  match o with
  | O_chord x => match assoc x (chord_functions (py_nd Y)) with Some _ => true | None => false end
  | _ => true
  end.
(** The method of the first operand is looked up before the second operand is evaluated. *)
Definition has (o : op2) (a : obj) : bool :=
  match o, a with
  | O_to, OSig _ | O_transposed, OTone _ | O_transposed, ONote _ | O_notation, OTone _ | O_frequency, OTone _
  | O_with_duration, ONote _ | O_with_velocity, ONote _
  | O_add, _ | O_mul, _ | O_cmp _, _ | O_Signature, _ | O_pair, _ => true
  | _, _ => false
  end.
Fixpoint mean (Y : python) (vars : list (string * obj)) (t : term) : option (res obj) :=
  match t with
  | Var x => match assoc x vars with Some o => Some (Ok o) | None => None end
  | Lit o => if literal o then Some (Ok o) else None
  | App1 o a =>
      if known Y o then
        match mean Y vars a with
        | Some (Ok a) => mean1 Y o a
        | other => other
        end
      else None
  | App2 o a b =>
      match mean Y vars a with
      | Some (Ok a) =>
          if has o a then
            match mean Y vars b with
            | Some (Ok b) => mean2 Y o a b
            | other => other
            end
          else None
      | other => other
      end
  | New_note a b c =>
      match mean Y vars a with
      | Some (Ok a) =>
          match mean Y vars b with
          | Some (Ok b) =>
              match mean Y vars c with
              | Some (Ok c) =>
                  match tone_arg_of a, sig_arg_of b, c with
                  | Some a, Some d, OFloat v => if is_float v then Some (answer ONote (note_new (py_nd Y) a d v)) else None
                  | _, _, _ => None
                  end
              | other => other
              end
          | other => other
          end
      | other => other
      end
  end.

(** Variables do not have the names of functions, classes and other globals. *)
Definition env_of (vars : list (string * obj)) : env := map (fun v => (fst v, enc_obj (snd v))) vars.
Definition unshadowed (names : list string) : Prop := Forall (fun x => global melodia x = None) names.

(** ** Proof *)
Lemma answer_outcome {A} (f : A -> obj) enc (r : res A) : (forall x, enc_obj (f x) = enc x) -> outcome_of enc_obj (answer f r) = outcome_of enc r.
Proof. intros E. destruct r; cbn; rewrite ?E; reflexivity. Qed.
Lemma assoc_env vars x : assoc x (env_of vars) = match assoc x vars with Some o => Some (enc_obj o) | None => None end.
Proof. induction vars as [|[y o] vars IH]; [reflexivity|]. cbn. destruct (x =? y)%string; [reflexivity|exact IH]. Qed.
Lemma assoc_in {A} x (v : A) l : assoc x l = Some v -> In (x, v) l.
Proof. induction l as [|[y w] l IH]; [discriminate|]. cbn. destruct (String.eqb_spec x y) as [->|]; [intros [= ->]; left; reflexivity|right; auto]. Qed.
Lemma text_eq_same a : forall b, text_eq a b = same_text a b.
Proof.
  unfold same_text. induction a as [|x a IH]; intros [|y b]; try reflexivity. cbn [text_eq]. rewrite IH.
  destruct (list_eq_dec Z.eq_dec a b) as [->|N], (Z.eqb_spec x y) as [->|M], (list_eq_dec Z.eq_dec _ _) as [E|E]; try reflexivity; congruence.
Qed.
Lemma obj_plain o : plain_value (enc_obj o) = true.
Proof. destruct o; reflexivity. Qed.

Section Terms.
Variable Y : python.
Hypothesis digits : digit_table (py_nd Y).
Notation steps := (steps melodia Y).

Lemma init_valid t d v n : valid_sig d -> is_float v = true -> note_init t d v = Ok n -> valid_note n.
Proof.
  unfold note_init. intros D F. destruct (_ && _) eqn:U; [|discriminate]. intros [= <-]. split; [exact D|]. apply unit_test; assumption.
Qed.
Lemma arg_duration o d s : valid_obj o -> sig_arg_of o = Some d -> sig_of_arg d = Ok s -> valid_sig s.
Proof.
  intros V E M. assert (ST : forall l, sig_star l = Ok s -> valid_sig s).
  { intros l L. unfold sig_star in L. destruct l as [|[x|] [|[y|] [|? ?]]]; try discriminate; [eapply sig_new_valid; exact L|]. destruct (x >=? 0); discriminate. }
  destruct o; try discriminate; injection E as <-; unfold sig_of_arg in M; try discriminate; first [eapply ST; exact M|injection M as <-; exact V].
Qed.
Lemma new_note_valid ta o d v n : valid_obj o -> sig_arg_of o = Some d -> is_float v = true -> note_new (py_nd Y) ta d v = Ok n -> valid_note n.
Proof.
  intros V E F M. unfold note_new in M. destruct (tone_of_arg _ _) as [t|]; cbn in M; [|discriminate].
  destruct (sig_of_arg d) as [s|] eqn:S; cbn in M; [|discriminate]. eapply init_valid; [|exact F|exact M]. eapply arg_duration; eassumption.
Qed.
Lemma chord_valid x f a b l : valid_obj a -> assoc x (chord_functions (py_nd Y)) = Some f -> base_of a = Some b -> f b None None = Ok l ->
  Forall valid_note l.
Proof.
  intros V F B E. assert (S : exists shape, f = build_chord (py_nd Y) shape).
  { apply (assoc_in x f) in F. destruct (function_row _ _ _ F) as (r & _ & ->). eauto. }
  destruct S as (shape & ->). unfold build_chord in E.
  destruct (get_parameters _ _ _ _) as [[[t d] v]|] eqn:G; cbn [bind] in E; [|discriminate].
  assert (D : is_float v = true /\ exists o, valid_obj o /\ sig_arg_of o = Some d).
  { assert (Q : forall d', d' = SA_sig (mkSig 1 4) -> exists o, valid_obj o /\ sig_arg_of o = Some d').
    { intros d' ->. exists (OSig (mkSig 1 4)). split; [|reflexivity]. split; [cbn; lia|exists 2; split; [lia|reflexivity]]. }
    unfold get_parameters in G. destruct a; try discriminate; injection B as <-; cbn in G.
    - injection G as _ <- <-. split; [reflexivity|apply Q; reflexivity].
    - destruct (from_notation _ _); cbn in G; [|discriminate]. injection G as _ <- <-. split; [reflexivity|apply Q; reflexivity].
    - injection G as _ <- <-. split; [reflexivity|apply Q; reflexivity].
    - injection G as _ <- <-. split; [apply (proj2 V)|]. exists (OSig (n_duration n)). split; [exact (proj1 V)|reflexivity]. }
  destruct D as (VF & o & VO & D). clear F G. revert l E. induction shape as [|c shape IH]; intros l E; cbn [map_res] in E; [injection E as <-; constructor|].
  destruct (note_new (py_nd Y) _ _ _) as [n|] eqn:N in E; cbn [bind] in E; [|discriminate]. destruct (map_res _ shape) as [l'|] eqn:R in E; cbn in E; [|discriminate]. injection E as <-.
  constructor; [eapply new_note_valid; eassumption|apply IH; exact R].
Qed.
Ltac answered E M := unfold answer in E; match type of E with Some (let! x := ?m in _) = _ => destruct m as [?|] eqn:M end; cbn in E; try discriminate; injection E as <-.
Lemma mean1_valid o a r : valid_obj a -> mean1 Y o a = Some (Ok r) -> valid_obj r.
Proof.
  intros V E. destruct o. 16:{ cbn [mean1] in E. destruct (assoc x _) as [f|] eqn:F; [|discriminate]. destruct (base_of a) as [b|] eqn:B; [|discriminate]. answered E M. eapply chord_valid; eassumption. }
  all: destruct a; cbn in E; try discriminate; try (injection E as <-; first [exact Logic.I|exact V|exact (proj1 V)]).
  all: answered E M; try exact Logic.I.
  - destruct (sig_normalized_spec s V) as (s' & N & VS & _). rewrite N in M. injection M as <-. exact VS.
  - rewrite sig_abs_val in M by exact V. injection M as <-. exact V.
Qed.
Lemma mean2_valid o a b r : valid_obj a -> valid_obj b -> mean2 Y o a b = Some (Ok r) -> valid_obj r.
Proof.
  intros V W E. destruct o.
  3:{ assert (B : forall A (eq lt le gt ge : A -> A -> bool) x y, compare_by eq lt le gt ge o x y = Some (Ok r) -> valid_obj r).
      { intros A eq lt le gt ge x y F. destruct o; try discriminate; injection F as <-; exact Logic.I. }
      assert (T : forall x y, compare_texts o x y = Some (Ok r) -> valid_obj r).
      { intros x y F. destruct o; try discriminate; injection F as <-; exact Logic.I. }
      destruct a, b; try discriminate; first [eapply B; exact E|eapply T; exact E]. }
  7:{ destruct a; try discriminate. cbn in E. destruct (sig_arg_of b) as [d|] eqn:S; [|discriminate]. answered E M.
      unfold with_duration in M. destruct (sig_of_arg d) as [s|] eqn:SD; cbn in M; [|discriminate]. eapply init_valid; [|apply (proj2 V)|exact M]. eapply arg_duration; eassumption. }
  all: destruct a; try discriminate; destruct b; try discriminate; cbn -[is_float] in E; try (injection E as <-; exact Logic.I || exact V).
  all: try (match type of E with (if is_float ?f then _ else _) = _ => destruct (is_float f) eqn:FF; [|discriminate] end).
  all: answered E M; try exact Logic.I.
  - destruct (sig_add_val _ _ V W) as (u & A & VU & _). rewrite A in M. injection M as <-. exact VU.
  - destruct (sig_mul_val _ _ V W) as (u & A & VU & _). rewrite A in M. injection M as <-. exact VU.
  - unfold sig_to in M. repeat match type of M with context [if ?b then _ else _] => destruct b; try discriminate end; eapply sig_new_valid; exact M.
  - unfold note_transposed in M. eapply init_valid; [apply V|apply (proj2 V)|exact M].
  - unfold with_velocity in M. eapply init_valid; [apply V|exact FF|exact M].
  - eapply sig_new_valid; exact M.
Qed.
Lemma mean_valid vars t : Forall (fun v => valid_obj (snd v)) vars -> forall r, mean Y vars t = Some (Ok r) -> valid_obj r.
Proof.
  intros VV. induction t as [x|o|o a IA|o a IA b IB|a IA b IB c IC]; cbn [mean]; intros r E.
  - destruct (assoc x vars) as [o|] eqn:A; [|discriminate]. injection E as <-. apply assoc_in in A.
    apply (proj1 (Forall_forall _ _) VV _ A).
  - destruct o; try discriminate; injection E as <-; exact Logic.I.
  - destruct (known Y o); [|discriminate]. destruct (mean Y vars a) as [[x|x]|]; try discriminate. eapply mean1_valid; [apply IA; reflexivity|exact E].
  - destruct (mean Y vars a) as [[x|x]|]; try discriminate. destruct (has o x); [|discriminate]. destruct (mean Y vars b) as [[y|y]|]; try discriminate.
    eapply mean2_valid; [apply IA; reflexivity|apply IB; reflexivity|exact E].
  - destruct (mean Y vars a) as [[x|x]|]; try discriminate. destruct (mean Y vars b) as [[y|y]|]; try discriminate.
    destruct (mean Y vars c) as [[z|z]|]; try discriminate. destruct (tone_arg_of x) as [ta|]; [|discriminate].
    destruct (sig_arg_of y) as [d|] eqn:S; [|discriminate]. destruct z; try discriminate. destruct (is_float f) eqn:FF; [|discriminate]. answered E M.
    eapply new_note_valid; [apply IB; reflexivity|exact S|exact FF|exact M].
Qed.

Variable h : heap.
Variable vars : list (string * obj).
Hypothesis vars_valid : Forall (fun v => valid_obj (snd v)) vars.
Variable r0 : env.
Hypothesis vars_agree : forall x o, assoc x vars = Some o -> assoc x r0 = Some (enc_obj o).
Hypothesis vars_names : forall x v, global melodia x = Some v -> assoc x r0 = None.

Lemma builtin_name x v K : global melodia x = Some v -> plain_value v = true -> step melodia Y (Ev (EName x) r0 h K) = Some (Rt v h K).
Proof.
  intros G PV. cbn. unfold name_step, variable. rewrite (vars_names x v G). cbn in G. rewrite G. destruct v; try discriminate; reflexivity.
Qed.

(** A subexpression [e], or the name of a function. *)
Ltac part IH := idtac;
  lazymatch goal with
  | |- PySem.steps _ _ (Ev (EName ?x) r0 _ _) _ =>
      let g := eval vm_compute in (PySem.global melodia x) in
      lazymatch g with Some ?v => eapply steps_more; [apply (builtin_name x v); [vm_compute; reflexivity|reflexivity]|] end
  | |- PySem.steps _ _ (Ev _ r0 _ _) _ => eapply steps_trans; [apply IH|]; plain
  end.
Ltac open_code := unfold meth, call, attr, binary, compare, name; cbn [List.map].

Lemma op1_runs o a r K e : valid_obj a -> mean1 Y o a = Some r ->
  (forall K, steps (Ev e r0 h K) (Rt (enc_obj a) h K)) ->
  steps (Ev (code1 o e) r0 h K) (ends (outcome_of enc_obj r) h K).
Proof.
  intros V E IH. destruct o.
  16:{ cbn [mean1] in E. destruct (assoc x _) as [f|] eqn:F; [|discriminate]. destruct (base_of a) as [b|] eqn:B; [|discriminate]. injection E as <-.
    rewrite (answer_outcome ONotes enc_notes) by reflexivity. apply assoc_in in F. destruct (function_row _ _ _ F) as (row & T & _).
    pose proof (proj1 (Forall_forall _ _) chord_names _ T) as G. cbn [fst] in G.
    assert (BV : base_value b (enc_obj a)) by (destruct a; try discriminate; injection B as <-; constructor).
    unfold code1. open_code. adv. eapply steps_more; [apply (builtin_name _ _ _ G); reflexivity|]. until ltac:(first [part IH|apply chord_base_runs; assumption]). }
  all: destruct a; cbn in E; try discriminate; injection E as <-.
  all: rewrite ?(answer_outcome OSig enc_sig), ?(answer_outcome OText VStr), ?(answer_outcome OTone enc_tone) by reflexivity.
  all: unfold code1; open_code; cbn [enc_obj outcome_of] in *.
  all: try (pose proof (valid_denominator s V) as D); try (destruct (sig_normalized_spec s V) as (s' & N & _)).
  all: try (destruct s as [n d]); try (destruct t as [p]); unfold enc_note, enc_sig, enc_tone, v_signature, v_tone in *; cbn [pitch nominator denominator] in *.
  - until ltac:(first [part IH|apply nominator_runs]).
  - until ltac:(first [part IH|apply denominator_runs]).
  - rewrite N. until ltac:(first [part IH|apply normalized_runs; assumption]).
  - until ltac:(first [part IH|apply pitch_runs]).
  - until ltac:(first [part IH|apply octave_runs]).
  - until ltac:(first [part IH|apply to_notation_default_runs]).
  - until ltac:(first [part IH|apply (note_tone_runs Y n)]).
  - until ltac:(first [part IH|apply (note_duration_runs Y n)]).
  - until ltac:(first [part IH|apply (note_velocity_runs Y n)]).
  - until ltac:(first [part IH|apply abs_runs]).
  - until ltac:(first [part IH|apply str_runs]).
  - until ltac:(first [part IH|apply tone_str_runs]).
  - until ltac:(first [part IH|apply (note_str_runs Y n)]).
  - until ltac:(first [part IH|apply repr_runs]).
  - until ltac:(first [part IH|apply tone_repr_runs]).
  - until ltac:(first [part IH|apply (note_repr_runs Y n)]).
  - until ltac:(first [part IH|apply tone_new_runs]).
  - until ltac:(first [part IH|apply from_notation_method_runs; assumption]).
  - until ltac:(part IH).
Qed.

Lemma compare_runs {A} (enc : A -> value) eq lt le gt ge c a b r K : compare_by eq lt le gt ge c a b = Some r ->
  (forall K, steps (Cm CEq (enc a) (enc b) h K) (Rt (VBool (eq a b)) h K)) ->
  (forall K, steps (Cm CNe (enc a) (enc b) h K) (Rt (VBool (negb (eq a b))) h K)) ->
  (forall K, steps (Cm CLt (enc a) (enc b) h K) (Rt (VBool (lt a b)) h K)) ->
  (forall K, steps (Cm CLe (enc a) (enc b) h K) (Rt (VBool (le a b)) h K)) ->
  (forall K, steps (Cm CGt (enc a) (enc b) h K) (Rt (VBool (gt a b)) h K)) ->
  (forall K, steps (Cm CGe (enc a) (enc b) h K) (Rt (VBool (ge a b)) h K)) ->
  steps (Cm c (enc a) (enc b) h K) (ends (outcome_of enc_obj r) h K).
Proof. intros E. destruct c; try discriminate; injection E as <-; intros; cbn [outcome_of enc_obj ends]; auto. Qed.

Lemma cmp_runs c a b r K : valid_obj a -> valid_obj b -> mean2 Y (O_cmp c) a b = Some r ->
  steps (Cm c (enc_obj a) (enc_obj b) h K) (ends (outcome_of enc_obj r) h K).
Proof.
  intros V W E. assert (T : forall x y, compare_texts c x y = Some r -> outcome_of enc_obj r = Ok (VBool (match c with CEq => text_eq x y | _ => negb (text_eq x y) end)) /\ (c = CEq \/ c = CNe)).
  { intros x y F. rewrite text_eq_same. destruct c; try discriminate; injection F as <-; auto. }
  destruct a, b; cbn in E; try discriminate; cbn [enc_obj].
  - eapply (compare_runs VInt); [exact E|..]; intros; until fail.
  - destruct (T _ _ E) as [-> [-> | ->]]; until fail.
  - destruct (T _ _ E) as [-> [-> | ->]]; until fail.
  - pose proof (valid_denominator s V) as D. pose proof (valid_denominator s0 W) as D'. destruct s as [n d], s0 as [n' d']. cbn [denominator] in *.
    eapply (compare_runs enc_sig); [exact E|..]; intros; unfold enc_sig, v_signature; cbn [nominator denominator].
    + until ltac:(apply eq_runs; assumption).
    + until ltac:(eapply steps_trans; [apply eq_runs; assumption|]).
    + until ltac:(apply lt_runs; assumption).
    + until ltac:(apply le_runs; assumption).
    + until ltac:(apply gt_runs; assumption).
    + until ltac:(apply ge_runs; assumption).
  - destruct t as [p], t0 as [q].
    eapply (compare_runs enc_tone); [exact E|..]; intros; unfold enc_tone, v_tone; cbn [pitch].
    + until ltac:(apply tone_eq_runs).
    + until ltac:(eapply steps_trans; [apply tone_eq_runs|]).
    + until ltac:(apply tone_lt_runs).
    + until ltac:(apply tone_le_runs).
    + until ltac:(apply tone_gt_runs).
    + until ltac:(apply tone_ge_runs).
  - pose proof (valid_denominator _ (proj1 V)) as D. pose proof (valid_denominator _ (proj1 W)) as D'.
    eapply (compare_runs enc_note); [exact E|..]; intros; unfold enc_note, enc_tone, v_tone, enc_sig, v_signature.
    + until ltac:(apply (note_eq_runs Y n n0); assumption).
    + until ltac:(eapply steps_trans; [apply (note_eq_runs Y n n0); assumption|]).
    + until ltac:(apply (note_lt_runs Y n n0); assumption).
    + until ltac:(apply (note_le_runs Y n n0); assumption).
    + until ltac:(apply (note_gt_runs Y n n0); assumption).
    + until ltac:(apply (note_ge_runs Y n n0); assumption).
Qed.

Lemma op2_runs o a b r K e f : has o a = true -> valid_obj a ->
  (forall K, steps (Ev e r0 h K) (Rt (enc_obj a) h K)) ->
  (forall K, steps (Ev f r0 h K) (ends (outcome_of enc_obj b) h K)) ->
  match b with Ok b => valid_obj b /\ mean2 Y o a b = Some r | Err _ => r = b end ->
  steps (Ev (code2 o e f) r0 h K) (ends (outcome_of enc_obj r) h K).
Proof.
  intros H V IH JH E. destruct b as [b|x].
  - destruct E as [W E]. assert (JH' : forall K, steps (Ev f r0 h K) (Rt (enc_obj b) h K)) by exact JH. clear JH.
    destruct o. 3:{ open_code. unfold code2. open_code. adv. part IH. adv. part JH'. adv. apply cmp_runs; assumption. }
    7:{ destruct a; try discriminate. cbn in E. destruct (sig_arg_of b) as [d|] eqn:S; [|discriminate]. injection E as <-.
      assert (SV : sig_value h d (enc_obj b)) by (destruct b; try discriminate; injection S as <-; repeat constructor).
      rewrite (answer_outcome ONote enc_note) by reflexivity.
      unfold code2; open_code. cbn [enc_obj] in IH. unfold enc_note, enc_tone, enc_sig, v_signature, v_tone in IH.
      until ltac:(first [part IH|part JH'|apply (with_duration_runs Y n d _ h); exact SV]). }
    all: destruct a; cbn -[is_float] in H, E; try discriminate; destruct b; try discriminate; try (match type of E with (if is_float ?f then _ else _) = _ => destruct (is_float f); [|discriminate] end); injection E as <-.
    all: rewrite ?(answer_outcome OSig enc_sig), ?(answer_outcome OText VStr), ?(answer_outcome ONote enc_note), ?(answer_outcome OFloat VFloat) by reflexivity.
    all: unfold code2; open_code; cbn [enc_obj outcome_of] in *.
    all: try (pose proof (valid_denominator s V) as D); try (pose proof (valid_denominator s0 W) as D').
    all: try (destruct s as [n1 d1]); try (destruct s0 as [n2 d2]); try (destruct t as [p]); unfold enc_note, enc_sig, enc_tone, v_signature, v_tone in *; cbn [pitch nominator denominator] in *.
    + until ltac:(first [part IH|part JH']).
    + until ltac:(first [part IH|part JH'|apply add_runs; assumption]).
    + until ltac:(first [part IH|part JH']).
    + until ltac:(first [part IH|part JH'|apply mul_runs; assumption]).
    + until ltac:(first [part IH|part JH'|apply to_runs; assumption]).
    + until ltac:(first [part IH|part JH'|apply transposed_runs; assumption]).
    + until ltac:(first [part IH|part JH'|apply (note_transposed_runs Y n)]).
    + until ltac:(first [part IH|part JH'|apply to_notation_runs; assumption]).
    + until ltac:(first [part IH|part JH'|apply to_frequency_runs; assumption]).
    + until ltac:(first [part IH|part JH'|apply (with_velocity_runs Y n)]).
    + until ltac:(first [part IH|part JH'|apply new_runs; assumption]).
    + until ltac:(first [part IH|part JH']).
  - subst r. cbn [outcome_of ends] in *.
    assert (JH' : forall K, steps (Ev f r0 h K) (Thr x h)) by exact JH. clear JH.
    destruct o, a; try discriminate H; unfold code2; open_code; cbn [enc_obj outcome_of] in *; unfold enc_note, enc_sig, enc_tone, v_signature, v_tone in *.
    all: until ltac:(first [part IH|apply JH']).
Qed.

Lemma term_runs t : forall r K, mean Y vars t = Some r -> steps (Ev (code t) r0 h K) (ends (outcome_of enc_obj r) h K).
Proof.
  induction t as [x|z|o a IA|o a IA b IB|a IA b IB c IC]; cbn [mean code]; intros r K E.
  - destruct (assoc x vars) as [o|] eqn:A; [|discriminate]. injection E as <-. econstructor; [|constructor].
    apply name_known; [apply vars_agree, A|apply obj_plain].
  - destruct (literal z) eqn:L; [|discriminate]. injection E as <-. destruct z; try discriminate; until fail.
  - destruct (known Y o) eqn:KN; [|discriminate]. destruct (mean Y vars a) as [[x|x]|] eqn:MA; try discriminate.
    + eapply op1_runs; [eapply mean_valid; eassumption|exact E|]. intros K'. apply (IA (Ok x) K' eq_refl).
    + injection E as <-. specialize (IA (Err x)). cbn [outcome_of ends] in *.
      destruct o; unfold code1; open_code; try solve [until ltac:(first [part IH|apply IA; reflexivity])].
      cbn [known] in KN. destruct (assoc x0 _) as [f|] eqn:F; [|discriminate]. apply assoc_in in F. destruct (function_row _ _ _ F) as (row & T & _).
      pose proof (proj1 (Forall_forall _ _) chord_names _ T) as G. cbn [fst] in G.
      adv. eapply steps_more; [apply (builtin_name _ _ _ G); reflexivity|]. until ltac:(apply IA; reflexivity).
  - destruct (mean Y vars a) as [[x|x]|] eqn:MA; try discriminate.
    + destruct (has o x) eqn:H; [|discriminate]. 
      destruct (mean Y vars b) as [y|] eqn:MB; [|discriminate].
      eapply (op2_runs o x y); [exact H|eapply mean_valid; eassumption|intros K'; apply (IA (Ok x) K' eq_refl)|intros K'; apply (IB y K' eq_refl)|].
      destruct y as [y|y]; [split; [eapply mean_valid; eassumption|exact E]|congruence].
    + injection E as <-. specialize (IA (Err x)). cbn [outcome_of ends] in *.
      destruct o; unfold code2; open_code; until ltac:(first [apply IA; reflexivity|part IH]).
  - open_code. destruct (mean Y vars a) as [[x|x]|] eqn:MA; try discriminate.
    2:{ injection E as <-. specialize (IA (Err x)). cbn [outcome_of ends] in *. until ltac:(first [apply IA; reflexivity|part IH]). }
    assert (IA' : forall K, steps (Ev (code a) r0 h K) (Rt (enc_obj x) h K)) by (intros; apply (IA (Ok x)); reflexivity). clear IA.
    destruct (mean Y vars b) as [[y|y]|] eqn:MB; try discriminate.
    2:{ injection E as <-. specialize (IB (Err y)). cbn [outcome_of ends] in *. until ltac:(first [apply IB; reflexivity|part IA']). }
    assert (IB' : forall K, steps (Ev (code b) r0 h K) (Rt (enc_obj y) h K)) by (intros; apply (IB (Ok y)); reflexivity). clear IB.
    destruct (mean Y vars c) as [[w|w]|] eqn:MC; try discriminate.
    2:{ injection E as <-. specialize (IC (Err w)). cbn [outcome_of ends] in *. until ltac:(first [apply IC; reflexivity|part IA'|part IB']). }
    assert (IC' : forall K, steps (Ev (code c) r0 h K) (Rt (enc_obj w) h K)) by (intros; apply (IC (Ok w)); reflexivity). clear IC.
    destruct (tone_arg_of x) as [ta|] eqn:T; [|discriminate]. destruct (sig_arg_of y) as [d|] eqn:S; [|discriminate]. destruct w as [| |v| | | | | | |]; try discriminate. destruct (is_float v); [|discriminate]. injection E as <-.
    rewrite (answer_outcome ONote enc_note) by reflexivity.
    assert (TV : tone_value ta (enc_obj x)) by (destruct x; try discriminate; injection T as <-; constructor).
    assert (SV : sig_value h d (enc_obj y)) by (destruct y; try discriminate; injection S as <-; repeat constructor).
    cbn [enc_obj] in IC'.
    until ltac:(first [part IA'|part IB'|part IC'|apply note_new_runs; assumption]).
Qed.
End Terms.
