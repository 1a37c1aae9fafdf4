(** The source code itself computes what the models say (C69-C73).

    [PySource] holds the syntax trees of the modules, [PySem] a machine for the part of Python they use,
    [melodia] the program made of them.  [evaluates Y h vars e r] says that, with the given values of
    variables, the expression [e] runs to the result [r] (a value, or an exception) without changing
    an object; [Y] is what is left open about Python (RefineSpec.v).  [enc_sig], [enc_tone] and [enc_note] are
    the objects of Signature, Tone and Note; [tone_value], [sig_value], [base_value], [duration_value] and
    [velocity_value] relate the arguments of the models to Python values. *)
From Coq Require Import ZArith List Bool String Lia.
From Verif Require Import Py PyFloat Signature Tone Frequency FrequencyFloat Note Show Chord PyAst PySem PySource PyProgram SpecBase DecFacts
  RefineBase RefineSignature RefineTone RefineNote RefineChord RefineImport RefineSpec RefineProps.
Import ListNotations.
Open Scope string_scope.
Open Scope list_scope.
Open Scope Z_scope.

(** C69: an expression has at most one result. *)
Theorem C69_deterministic :
  forall Y h vars e r r',
  evaluates Y h vars e r -> evaluates Y h vars e r' -> r = r'.
Proof. exact c69_deterministic. Qed.
Print Assumptions C69_deterministic.
(** C69: running the modules gives the module level names and default arguments of [melodia]. *)
Theorem C69_import :
  forall Y, digit_table (py_nd Y) ->
  (exists r h, steps definitions Y (Ex src_module_tone [] no_objects []) (Ex [] r h []) /\
     map (fun b => (fst b, settled h (snd b))) r = firstn 3 globals) /\
  (exists r h v, steps definitions Y (Ex src_module_midi [] no_objects []) (Ex [] r h []) /\
     assoc "_event_lengths" r = Some v /\ skipn 3 globals = [("_event_lengths", settled h v)]) /\
  Forall (fun f => Forall (fun p =>
    let d := match assoc (fst f) defaults with Some l => assoc (fst p) l | None => None end in
    match snd p with
    | Some e => exists v, d = Some v /\ forall h, evaluates Y h [] e (Ok v)
    | None => d = None
    end) (f_params (snd f))) functions.
Proof. exact c69_import. Qed.
Print Assumptions C69_import.

(** C70: core/signature.py. *)
Theorem C70_new :
  forall Y h n d, evaluates Y h [("n", VInt n); ("d", VInt d)]
  (call (name "Signature") [name "n"; name "d"]) (a_sig (sig_new n d)).
Proof. exact c70_new. Qed.
Print Assumptions C70_new.
Theorem C70_methods :
  forall Y h s t x, valid_sig s -> valid_sig t ->
  let vars := [("s", enc_sig s); ("t", enc_sig t); ("x", VInt x)] in
  evaluates Y h vars (attr (name "s") "nominator") (an_int (nominator s)) /\
  evaluates Y h vars (attr (name "s") "denominator") (an_int (denominator s)) /\
  evaluates Y h vars (meth (name "s") "to" [name "x"]) (a_sig (sig_to s x)) /\
  evaluates Y h vars (meth (name "s") "normalized" []) (a_sig (sig_normalized s)) /\
  evaluates Y h vars (call (name "abs") [name "s"]) (a_sig (sig_abs s)) /\
  evaluates Y h vars (call (name "str") [name "s"]) (a_text (Ok (sig_str s))) /\
  evaluates Y h vars (call (name "repr") [name "s"]) (a_text (Ok (sig_repr s))) /\
  evaluates Y h vars (binary Add (name "s") (name "t")) (a_sig (sig_add s t)) /\
  evaluates Y h vars (binary Mult (name "s") (name "t")) (a_sig (sig_mul s t)).
Proof. exact c70_methods. Qed.
Print Assumptions C70_methods.
Theorem C70_comparisons :
  forall Y h s t, valid_sig s -> valid_sig t ->
  let vars := [("s", enc_sig s); ("t", enc_sig t)] in
  evaluates Y h vars (compare CEq (name "s") (name "t")) (a_bool (sig_eq s t)) /\
  evaluates Y h vars (compare CNe (name "s") (name "t")) (a_bool (negb (sig_eq s t))) /\
  evaluates Y h vars (compare CLt (name "s") (name "t")) (a_bool (sig_lt s t)) /\
  evaluates Y h vars (compare CLe (name "s") (name "t")) (a_bool (sig_le s t)) /\
  evaluates Y h vars (compare CGt (name "s") (name "t")) (a_bool (sig_gt s t)) /\
  evaluates Y h vars (compare CGe (name "s") (name "t")) (a_bool (sig_ge s t)).
Proof. exact c70_comparisons. Qed.
Print Assumptions C70_comparisons.

(** C71: core/tone.py. *)
Theorem C71_new :
  forall Y h p, evaluates Y h [("p", VInt p)] (call (name "Tone") [name "p"]) (a_tone (Ok (tone_new p))).
Proof. exact c71_new. Qed.
Print Assumptions C71_new.
Theorem C71_from_notation :
  forall Y h s, digit_table (py_nd Y) ->
  evaluates Y h [("s", VStr s)] (meth (name "Tone") "from_notation" [name "s"]) (a_tone (from_notation (py_nd Y) s)).
Proof. exact c71_from_notation. Qed.
Print Assumptions C71_from_notation.
Theorem C71_methods :
  forall Y h t x b f,
  let vars := [("t", enc_tone t); ("x", VInt x); ("b", VBool b); ("f", VFloat f)] in
  evaluates Y h vars (attr (name "t") "pitch") (an_int (pitch t)) /\
  evaluates Y h vars (attr (name "t") "octave") (an_int (tone_octave t)) /\
  evaluates Y h vars (meth (name "t") "transposed" [name "x"]) (a_tone (Ok (tone_transposed t x))) /\
  evaluates Y h vars (meth (name "t") "to_notation" [name "b"]) (a_text (to_notation t b)) /\
  evaluates Y h vars (meth (name "t") "to_notation" []) (a_text (to_notation t false)) /\
  evaluates Y h vars (meth (name "t") "to_frequency" [name "f"]) (outcome_of VFloat (to_frequency_float (py_pow2 Y) t f)) /\
  evaluates Y h vars (call (name "str") [name "t"]) (a_text (tone_str t)) /\
  evaluates Y h vars (call (name "repr") [name "t"]) (a_text (Ok (tone_repr t))).
Proof. exact c71_methods. Qed.
Print Assumptions C71_methods.
Theorem C71_comparisons :
  forall Y h s t,
  let vars := [("s", enc_tone s); ("t", enc_tone t)] in
  evaluates Y h vars (compare CEq (name "s") (name "t")) (a_bool (tone_eq s t)) /\
  evaluates Y h vars (compare CNe (name "s") (name "t")) (a_bool (negb (tone_eq s t))) /\
  evaluates Y h vars (compare CLt (name "s") (name "t")) (a_bool (tone_lt s t)) /\
  evaluates Y h vars (compare CLe (name "s") (name "t")) (a_bool (tone_le s t)) /\
  evaluates Y h vars (compare CGt (name "s") (name "t")) (a_bool (tone_gt s t)) /\
  evaluates Y h vars (compare CGe (name "s") (name "t")) (a_bool (tone_ge s t)).
Proof. exact c71_comparisons. Qed.
Print Assumptions C71_comparisons.

(** C72: core/note.py. *)
Theorem C72_new :
  forall Y h t d v t' d', digit_table (py_nd Y) -> tone_value t t' -> sig_value h d d' ->
  let vars := [("t", t'); ("d", d'); ("v", VFloat v)] in
  evaluates Y h vars (call (name "Note") [name "t"; name "d"; name "v"]) (a_note (note_new (py_nd Y) t d v)) /\
  evaluates Y h vars (call (name "Note") [name "t"; name "d"]) (a_note (note_new (py_nd Y) t d default_velocity)) /\
  evaluates Y h vars (call (name "Note") [name "t"]) (a_note (note_new (py_nd Y) t (SA_sig default_duration) default_velocity)).
Proof. exact c72_new. Qed.
Print Assumptions C72_new.
Theorem C72_methods :
  forall Y h n x v d d', sig_value h d d' ->
  let vars := [("n", enc_note n); ("x", VInt x); ("v", VFloat v); ("d", d')] in
  evaluates Y h vars (attr (name "n") "tone") (a_tone (Ok (n_tone n))) /\
  evaluates Y h vars (attr (name "n") "duration") (a_sig (Ok (n_duration n))) /\
  evaluates Y h vars (attr (name "n") "velocity") (Ok (VFloat (n_velocity n))) /\
  evaluates Y h vars (meth (name "n") "transposed" [name "x"]) (a_note (note_transposed n x)) /\
  evaluates Y h vars (meth (name "n") "with_duration" [name "d"]) (a_note (with_duration n d)) /\
  evaluates Y h vars (meth (name "n") "with_velocity" [name "v"]) (a_note (with_velocity n v)) /\
  evaluates Y h vars (call (name "str") [name "n"]) (a_text (note_str n)) /\
  evaluates Y h vars (call (name "repr") [name "n"]) (a_text (Ok (note_repr (py_digits Y) n))).
Proof. exact c72_methods. Qed.
Print Assumptions C72_methods.
Theorem C72_comparisons :
  forall Y h m n, valid_sig (n_duration m) -> valid_sig (n_duration n) ->
  let vars := [("m", enc_note m); ("n", enc_note n)] in
  evaluates Y h vars (compare CEq (name "m") (name "n")) (a_bool (note_eq m n)) /\
  evaluates Y h vars (compare CNe (name "m") (name "n")) (a_bool (negb (note_eq m n))) /\
  evaluates Y h vars (compare CLt (name "m") (name "n")) (a_bool (note_lt m n)) /\
  evaluates Y h vars (compare CLe (name "m") (name "n")) (a_bool (note_le m n)) /\
  evaluates Y h vars (compare CGt (name "m") (name "n")) (a_bool (note_gt m n)) /\
  evaluates Y h vars (compare CGe (name "m") (name "n")) (a_bool (note_ge m n)).
Proof. exact c72_comparisons. Qed.
Print Assumptions C72_comparisons.

(** C73: music/chord.py. *)
Theorem C73_chords :
  forall Y h x f base d v base' d' v', digit_table (py_nd Y) ->
  In (x, f) (chord_functions (py_nd Y)) -> base_value base base' -> duration_value h d d' -> velocity_value v v' ->
  let vars := [("base", base'); ("duration", d'); ("velocity", v')] in
  evaluates Y h vars (call (name ("chord." ++ x)) [name "base"; name "duration"; name "velocity"]) (a_chord (f base d v)) /\
  evaluates Y h vars (call (name ("chord." ++ x)) [name "base"]) (a_chord (f base None None)).
Proof. exact c73_chords. Qed.
Print Assumptions C73_chords.

(** 3/4 + 1/8 = 7/8, and 1/3 is refused. *)
Example C70_ex_add Y h :
  evaluates Y h [("s", v_signature 3 4); ("t", v_signature 1 8); ("x", VInt 0)] (binary Add (name "s") (name "t")) (Ok (v_signature 7 8)).
Proof.
  assert (A : valid_sig (mkSig 3 4)) by (split; cbn; [lia|exists 2; split; [lia|reflexivity]]).
  assert (B : valid_sig (mkSig 1 8)) by (split; cbn; [lia|exists 3; split; [lia|reflexivity]]).
  exact (proj1 (proj2 (proj2 (proj2 (proj2 (proj2 (proj2 (proj2 (C70_methods Y h _ _ 0 A B))))))))).
Qed.
Example C70_ex_refused Y h : evaluates Y h [("n", VInt 1); ("d", VInt 3)] (call (name "Signature") [name "n"; name "d"]) (Err ValueError).
Proof. exact (C70_new Y h 1 3). Qed.

(** "Bb-1xyz" is pitch -2, "H" is refused. *)
Example C71_ex Y h : py_nd Y = ascii_digit ->
  evaluates Y h [("s", VStr (lit "Bb-1xyz"))] (meth (name "Tone") "from_notation" [name "s"]) (Ok (v_tone (-2))) /\
  evaluates Y h [("s", VStr (lit "H"))] (meth (name "Tone") "from_notation" [name "s"]) (Err ValueError).
Proof.
  intros E. assert (N : digit_table (py_nd Y)) by (rewrite E; exact ascii_digit_table).
  split; intros K; [pose proof (C71_from_notation Y h (lit "Bb-1xyz") N K) as A|pose proof (C71_from_notation Y h (lit "H") N K) as A];
    rewrite E in A; exact A.
Qed.

(** Note("A", [3, 8]) with a list, and Note(1.5). *)
Example C72_ex Y : py_nd Y = ascii_digit -> let h := mkHeap [HList [VInt 3; VInt 8]] 0 in
  evaluates Y h [("t", VStr (lit "A")); ("d", VRef 0); ("v", VFloat f_one)] (call (name "Note") [name "t"; name "d"; name "v"])
    (Ok (VObj "Note" [("_tone", v_tone 9); ("_duration", v_signature 3 8); ("_velocity", VFloat f_one)])) /\
  evaluates Y h [("t", VFloat f_one); ("d", VRef 0); ("v", VFloat f_one)] (call (name "Note") [name "t"]) (Err TypeError).
Proof.
  intros E h. assert (N : digit_table (py_nd Y)) by (rewrite E; exact ascii_digit_table).
  assert (D : sig_value h (SA_iter [EInt 3; EInt 8]) (VRef 0)) by (apply (sv_list h 0 _ [VInt 3; VInt 8]); [reflexivity|repeat constructor]).
  split; intros K; [pose proof (proj1 (C72_new Y h _ _ f_one _ _ N (tv_str (lit "A")) D) K) as A
                   |pose proof (proj2 (proj2 (C72_new Y h _ _ f_one _ _ N (tv_float f_one) D)) K) as A];
    rewrite E in A; exact A.
Qed.

(** minor7 on a note keeps its duration and velocity. *)
Example C73_ex Y h : py_nd Y = ascii_digit -> let n := mkNote (mkTone 9) (mkSig 1 2) f_one in
  evaluates Y h [("base", enc_note n); ("duration", VNone); ("velocity", VNone)] (call (name "chord.min7") [name "base"])
    (Ok (VTuple [enc_note n; enc_note (mkNote (mkTone 12) (mkSig 1 2) f_one);
                 enc_note (mkNote (mkTone 16) (mkSig 1 2) f_one); enc_note (mkNote (mkTone 19) (mkSig 1 2) f_one)])).
Proof.
  intros E n K. assert (N : digit_table (py_nd Y)) by (rewrite E; exact ascii_digit_table).
  assert (I : In ("min7", chord_min7 (py_nd Y)) (chord_functions (py_nd Y))) by (unfold chord_functions; cbn [In]; tauto).
  pose proof (proj2 (C73_chords Y h "min7" _ _ None None _ _ _ N I (bv_note n) (dv_none h) vv_none) K) as A.
  exact A.
Qed.
