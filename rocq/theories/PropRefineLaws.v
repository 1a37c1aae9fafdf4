(** Laws that hold when the source is run (C80).

    As in PropRefine.v, [melodia] is the program made of the syntax trees of the library.  A [term] is an expression of any depth made of the
    operations on numbers, signatures, tones, notes and chords; [code] is its syntax tree and [mean] what the models say that
    it gives ([None] if an operand has a type that the operation is not for).  [evaluates Y h vars e r]: with
    the variables [vars], on the heap [h], the expression [e] gives the value or the exception [r], whatever is done with it.
    [always Y vars e]: [e] is True on every heap.  [unshadowed]: no variable has the name of a function or class. *)
From Coq Require Import ZArith List Bool String Lia.
From Verif Require Import Py PyFloat Signature Tone Note Show PyAst PySem PySource PyProgram SpecBase DecFacts
  RefineBase RefineSignature RefineTone RefineNote RefineSpec RefineProps RefineTerm RefineLaws.
Import ListNotations.
Open Scope string_scope.
Open Scope list_scope.
Open Scope Z_scope.

(** C80: expressions of any depth. *)
Theorem C80_terms :
  forall Y h vars t r, digit_table (py_nd Y) ->
  Forall (fun v => valid_obj (snd v)) vars -> unshadowed (map fst vars) -> mean Y vars t = Some r ->
  evaluates Y h (env_of vars) (code t) (outcome_of enc_obj r).
Proof. exact c80_terms. Qed.
Print Assumptions C80_terms.
(** C80: + and * of signatures are commutative and associative, * distributes over +, normalized() and abs() do not change the value. *)
Theorem C80_signature :
  forall Y a b c, digit_table (py_nd Y) -> valid_sig a -> valid_sig b -> valid_sig c ->
  let vars := [("a", enc_sig a); ("b", enc_sig b); ("c", enc_sig c)] in
  let a := name "a" in let b := name "b" in let c := name "c" in
  always Y vars (equal (plus a b) (plus b a)) /\
  always Y vars (equal (plus (plus a b) c) (plus a (plus b c))) /\
  always Y vars (equal (times a b) (times b a)) /\
  always Y vars (equal (times (times a b) c) (times a (times b c))) /\
  always Y vars (equal (times a (plus b c)) (plus (times a b) (times a c))) /\
  always Y vars (equal (meth a "normalized" []) a) /\
  always Y vars (equal (call (name "abs") [a]) a).
Proof. exact c80_signature. Qed.
Print Assumptions C80_signature.
(** C80: what +, *, ==, to and normalized compute, without the model: [v_signature n d] is the object Signature(n, d). *)
Theorem C80_signature_values :
  forall Y h n d n' d' x, digit_table (py_nd Y) -> 0 <= n -> pow2 d -> 0 <= n' -> pow2 d' ->
  let vars := [("a", v_signature n d); ("b", v_signature n' d'); ("x", VInt x)] in
  let a := name "a" in let b := name "b" in
  (exists m, evaluates Y h vars (plus a b) (Ok (v_signature m (Z.max d d'))) /\ m * (d * d') = (n * d' + n' * d) * Z.max d d') /\
  evaluates Y h vars (times a b) (Ok (v_signature (n * n') (d * d'))) /\
  evaluates Y h vars (equal a b) (Ok (VBool (n * d' =? n' * d))) /\
  (pow2 x -> d <= x -> evaluates Y h vars (meth a "to" [name "x"]) (Ok (v_signature (n * (x / d)) x)) /\ x = x / d * d) /\
  (~ (pow2 x /\ d <= x) -> evaluates Y h vars (meth a "to" [name "x"]) (Err ValueError)) /\
  evaluates Y h vars (meth a "normalized" []) (Ok (v_signature (n / Z.gcd n d) (d / Z.gcd n d))).
Proof. exact c80_signature_values. Qed.
Print Assumptions C80_signature_values.
(** C80: Signature(n, d) is made exactly if n is not negative and d is a power of two. *)
Theorem C80_signature_new :
  forall Y h n d, digit_table (py_nd Y) ->
  let e := call (name "Signature") [name "n"; name "d"] in
  (0 <= n /\ pow2 d -> evaluates Y h [("n", VInt n); ("d", VInt d)] e (Ok (v_signature n d))) /\
  (~ (0 <= n /\ pow2 d) -> evaluates Y h [("n", VInt n); ("d", VInt d)] e (Err ValueError)).
Proof. exact c80_signature_new. Qed.
Print Assumptions C80_signature_new.
(** C80: tones: from_notation undoes to_notation, transpositions add up, the octave has twelve tones, the order is that of the pitches. *)
Theorem C80_tone :
  forall Y p q i j f, digit_table (py_nd Y) ->
  let vars := [("t", v_tone p); ("u", v_tone q); ("i", VInt i); ("j", VInt j); ("f", VBool f)] in
  let t := name "t" in let u := name "u" in
  always Y vars (equal (meth (name "Tone") "from_notation" [meth t "to_notation" [name "f"]]) t) /\
  always Y vars (equal (meth (name "Tone") "from_notation" [meth t "to_notation" []]) t) /\
  always Y vars (equal (meth (meth t "transposed" [name "i"]) "transposed" [name "j"]) (meth t "transposed" [plus (name "i") (name "j")])) /\
  always Y vars (equal (meth (meth t "transposed" [name "i"]) "transposed" [EOp ONeg [name "i"]]) t) /\
  always Y vars (equal (call (name "Tone") [attr t "pitch"]) t) /\
  always Y vars (compare CLe (times (int 12) (attr t "octave")) (attr t "pitch")) /\
  always Y vars (compare CLt (attr t "pitch") (times (int 12) (plus (attr t "octave") (int 1)))) /\
  (forall h, evaluates Y h vars (equal t u) (Ok (VBool (p =? q))) /\ evaluates Y h vars (compare CLt t u) (Ok (VBool (p <? q))) /\
     evaluates Y h vars (compare CLe t u) (Ok (VBool (p <=? q)))).
Proof. exact c80_tone. Qed.
Print Assumptions C80_tone.
(** C80: notes. *)
Theorem C80_note :
  forall Y n i j d v, digit_table (py_nd Y) -> valid_note n -> valid_sig d -> valid_velocity v ->
  let vars := [("n", enc_note n); ("i", VInt i); ("j", VInt j); ("d", enc_sig d); ("v", VFloat v)] in
  let n := name "n" in
  always Y vars (equal (meth (meth n "transposed" [name "i"]) "transposed" [name "j"]) (meth n "transposed" [plus (name "i") (name "j")])) /\
  always Y vars (equal (meth (meth n "transposed" [name "i"]) "transposed" [EOp ONeg [name "i"]]) n) /\
  always Y vars (equal (attr (meth n "transposed" [name "i"]) "tone") (meth (attr n "tone") "transposed" [name "i"])) /\
  always Y vars (equal (call (name "Note") [attr n "tone"; attr n "duration"; attr n "velocity"]) n) /\
  always Y vars (equal (attr (meth n "with_duration" [name "d"]) "duration") (name "d")) /\
  always Y vars (equal (meth (meth n "with_duration" [name "d"]) "with_duration" [attr n "duration"]) n) /\
  always Y vars (equal (meth (meth n "with_velocity" [name "v"]) "with_velocity" [attr n "velocity"]) n) /\
  (forall h, evaluates Y h vars (attr (meth n "with_velocity" [name "v"]) "velocity") (Ok (VFloat v))).
Proof. exact c80_note. Qed.
Print Assumptions C80_note.

(** (1/4 + 1/8) * 2/4 == 3/16 and Signature(1, 4) + Signature(1, 3) raises ValueError. *)
Definition ex_term : term :=
  App2 (O_cmp CEq) (App2 O_mul (App2 O_add (Var "a") (Var "b")) (Var "c")) (App2 O_Signature (Lit (OInt 3)) (Lit (OInt 16))).
Definition ex_vars : list (string * RefineTerm.obj) := [("a", OSig (mkSig 1 4)); ("b", OSig (mkSig 1 8)); ("c", OSig (mkSig 2 4))].
Lemma ex_valid : Forall (fun v => valid_obj (snd v)) ex_vars.
Proof.
  repeat apply Forall_cons; [| | |apply Forall_nil]; cbn; (split; [cbn; lia|]);
    [exists 2|exists 3|exists 2]; (split; [lia|reflexivity]).
Qed.
Lemma ex_unshadowed : unshadowed (map fst ex_vars).
Proof. repeat constructor. Qed.
Example C80_ex_terms Y h : digit_table (py_nd Y) ->
  evaluates Y h (env_of ex_vars) (code ex_term) (Ok (VBool true)) /\
  evaluates Y h (env_of ex_vars) (code (App2 O_add (Var "a") (App2 O_Signature (Lit (OInt 1)) (Lit (OInt 3))))) (Err ValueError).
Proof.
  intros D. split.
  - exact (C80_terms Y h ex_vars ex_term (Ok (OBool true)) D ex_valid ex_unshadowed eq_refl).
  - exact (C80_terms Y h ex_vars (App2 O_add (Var "a") (App2 O_Signature (Lit (OInt 1)) (Lit (OInt 3)))) (Err ValueError) D ex_valid ex_unshadowed eq_refl).
Qed.
(** chord.major("C4") is the notes 48, 52 and 55 (the tone 48 is 4 * 12). *)
Example C80_ex_chord Y h : py_nd Y = ascii_digit ->
  evaluates Y h [] (code (App1 (O_chord "major") (Lit (OText (lit "C4"))))) (Ok (VTuple (map (fun p => enc_note (mkNote (mkTone p) (mkSig 1 4) f_three_quarters)) [48; 52; 55]))).
Proof.
  intros E. assert (D : digit_table (py_nd Y)) by (rewrite E; exact ascii_digit_table).
  apply (C80_terms Y h [] _ (Ok (ONotes (map (fun p => mkNote (mkTone p) (mkSig 1 4) f_three_quarters) [48; 52; 55]))) D); [constructor|constructor|].
  cbn [mean known mean1 literal]. rewrite E. vm_compute. reflexivity.
Qed.
Example C80_ex_values Y h : digit_table (py_nd Y) ->
  evaluates Y h [("a", v_signature 3 8); ("b", v_signature 2 4); ("x", VInt 32)] (times (name "a") (name "b")) (Ok (v_signature 6 32)) /\
  evaluates Y h [("a", v_signature 3 8); ("b", v_signature 2 4); ("x", VInt 32)] (meth (name "a") "to" [name "x"]) (Ok (v_signature 12 32)).
Proof.
  intros D. assert (P : pow2 8 /\ pow2 4 /\ pow2 32) by (repeat split; [exists 3|exists 2|exists 5]; (split; [lia|reflexivity])).
  destruct (C80_signature_values Y h 3 8 2 4 32 D ltac:(lia) (proj1 P) ltac:(lia) (proj1 (proj2 P))) as (_ & M & _ & T & _).
  split; [exact M|]. exact (proj1 (T (proj2 (proj2 P)) ltac:(lia))).
Qed.
