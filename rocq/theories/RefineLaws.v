(** Laws that hold when the source is run (C80). *)
From Coq Require Import ZArith QArith List Bool String Lia Lqa.
From Verif Require Import Py PyFloat Signature Tone Frequency FrequencyFloat Note Show PyAst PySem PySource PyProgram SpecBase SigFacts
  ToneProps NoteProps RefineBase RefineSignature RefineTone RefineNote RefineSpec RefineProps RefineTerm.
Import ListNotations.
Open Scope string_scope.
Open Scope list_scope.
Open Scope Z_scope.

Lemma c80_terms : forall Y h vars t r, digit_table (py_nd Y) ->
  Forall (fun v => valid_obj (snd v)) vars -> unshadowed (map fst vars) -> mean Y vars t = Some r ->
  evaluates Y h (env_of vars) (code t) (outcome_of enc_obj r).
Proof.
  intros Y h vars t r D V U M K. eapply term_runs; try eassumption.
  - intros x o A. rewrite assoc_env, A. reflexivity.
  - intros x v G. rewrite assoc_env. destruct (assoc x vars) as [o|] eqn:A; [|reflexivity]. apply assoc_in, (in_map fst) in A.
    pose proof (proj1 (Forall_forall _ _) U _ A) as E. cbn [fst] in E. congruence.
Qed.

(** The expression is True, whatever is on the heap. *)
Definition always (Y : python) (vars : env) (e : expr) : Prop := forall h, evaluates Y h vars e (Ok (VBool true)).
Definition equal (a b : expr) : expr := compare CEq a b.
Definition plus (a b : expr) : expr := binary Add a b.
Definition times (a b : expr) : expr := binary Mult a b.
Definition int (z : Z) : expr := EConst (VInt z).

Lemma by_term Y vars t e v : digit_table (py_nd Y) -> Forall (fun v => valid_obj (snd v)) vars -> unshadowed (map fst vars) ->
  code t = e -> env_of vars = v -> mean Y vars t = Some (Ok (OBool true)) -> always Y v e.
Proof. intros D V U <- <- M h. apply (c80_terms Y h vars t _ D V U M). Qed.

Ltac value_of :=
  match goal with
  | |- context [sig_add ?a ?b] => let s := fresh "s" in let E := fresh "E" in let W := fresh "W" in let Q := fresh "Q" in
      destruct (sig_add_val a b) as (s & E & W & _ & Q); [assumption|assumption|]; rewrite E
  | |- context [sig_mul ?a ?b] => let s := fresh "s" in let E := fresh "E" in let W := fresh "W" in let Q := fresh "Q" in
      destruct (sig_mul_val a b) as (s & E & W & _ & _ & Q); [assumption|assumption|]; rewrite E
  | |- context [sig_normalized ?a] => let s := fresh "s" in let E := fresh "E" in let W := fresh "W" in let Q := fresh "Q" in
      destruct (sig_normalized_spec a) as (s & E & W & Q & _); [assumption|]; rewrite E
  | |- context [sig_abs ?a] => rewrite (sig_abs_val a) by assumption
  end; cbn.
Ltac valids := repeat (apply Forall_cons; [cbn; first [assumption|exact Logic.I]|]); apply Forall_nil.
Ltac law vars t := eapply (by_term _ vars t); [assumption|valids|repeat constructor|reflexivity|reflexivity|]; cbn [mean assoc String.eqb Ascii.eqb Bool.eqb fst snd mean1 mean2 known literal has answer].
Ltac sig_law t :=
  lazymatch goal with |- always _ [(_, enc_sig ?a); (_, enc_sig ?b); (_, enc_sig ?c)] _ => law [("a", OSig a); ("b", OSig b); ("c", OSig c)] t end;
  cbn; repeat value_of; do 3 f_equal; apply sig_eq_sval; [assumption|assumption|].

Lemma c80_signature : forall Y a b c, digit_table (py_nd Y) -> valid_sig a -> valid_sig b -> valid_sig c ->
  let vars := [("a", enc_sig a); ("b", enc_sig b); ("c", enc_sig c)] in
  let a := name "a" in let b := name "b" in let c := name "c" in
  always Y vars (equal (plus a b) (plus b a)) /\
  always Y vars (equal (plus (plus a b) c) (plus a (plus b c))) /\
  always Y vars (equal (times a b) (times b a)) /\
  always Y vars (equal (times (times a b) c) (times a (times b c))) /\
  always Y vars (equal (times a (plus b c)) (plus (times a b) (times a c))) /\
  always Y vars (equal (meth a "normalized" []) a) /\
  always Y vars (equal (call (name "abs") [a]) a).
Proof.
  intros Y a b c D A B C. cbv zeta. repeat apply conj.
  - sig_law (App2 (O_cmp CEq) (App2 O_add (Var "a") (Var "b")) (App2 O_add (Var "b") (Var "a"))). lra.
  - sig_law (App2 (O_cmp CEq) (App2 O_add (App2 O_add (Var "a") (Var "b")) (Var "c")) (App2 O_add (Var "a") (App2 O_add (Var "b") (Var "c")))). lra.
  - sig_law (App2 (O_cmp CEq) (App2 O_mul (Var "a") (Var "b")) (App2 O_mul (Var "b") (Var "a"))). lra.
  - sig_law (App2 (O_cmp CEq) (App2 O_mul (App2 O_mul (Var "a") (Var "b")) (Var "c")) (App2 O_mul (Var "a") (App2 O_mul (Var "b") (Var "c")))).
    rewrite Q0, Q2, Q, Q1. ring.
  - sig_law (App2 (O_cmp CEq) (App2 O_mul (Var "a") (App2 O_add (Var "b") (Var "c"))) (App2 O_add (App2 O_mul (Var "a") (Var "b")) (App2 O_mul (Var "a") (Var "c")))).
    rewrite Q0, Q, Q3, Q1, Q2. ring.
  - sig_law (App2 (O_cmp CEq) (App1 O_normalized (Var "a")) (Var "a")). assumption.
  - sig_law (App2 (O_cmp CEq) (App1 O_abs (Var "a")) (Var "a")). reflexivity.
Qed.

(** What the source computes, without the models: [v_signature n d] is the object Signature(n, d). *)
Lemma by_value Y h vars t e v r r' : digit_table (py_nd Y) -> Forall (fun v => valid_obj (snd v)) vars -> unshadowed (map fst vars) ->
  code t = e -> env_of vars = v -> mean Y vars t = Some r -> outcome_of enc_obj r = r' -> evaluates Y h v e r'.
Proof. intros D V U <- <- M <-. exact (c80_terms Y h vars t _ D V U M). Qed.
Ltac valued vars t := eapply (by_value _ _ vars t); [assumption|valids|repeat constructor|reflexivity|reflexivity|cbn; reflexivity|].

Lemma eq_cross_bool a b : valid_sig a -> valid_sig b -> sig_eq a b = (nominator a * denominator b =? nominator b * denominator a).
Proof. intros A B. apply eq_true_iff_eq. rewrite sig_eq_sval, sval_eq, Z.eqb_eq by assumption. reflexivity. Qed.

Lemma c80_signature_values : forall Y h n d n' d' x, digit_table (py_nd Y) -> 0 <= n -> pow2 d -> 0 <= n' -> pow2 d' ->
  let vars := [("a", v_signature n d); ("b", v_signature n' d'); ("x", VInt x)] in
  let a := name "a" in let b := name "b" in
  (exists m, evaluates Y h vars (plus a b) (Ok (v_signature m (Z.max d d'))) /\ m * (d * d') = (n * d' + n' * d) * Z.max d d') /\
  evaluates Y h vars (times a b) (Ok (v_signature (n * n') (d * d'))) /\
  evaluates Y h vars (equal a b) (Ok (VBool (n * d' =? n' * d))) /\
  (pow2 x -> d <= x -> evaluates Y h vars (meth a "to" [name "x"]) (Ok (v_signature (n * (x / d)) x)) /\ x = x / d * d) /\
  (~ (pow2 x /\ d <= x) -> evaluates Y h vars (meth a "to" [name "x"]) (Err ValueError)) /\
  evaluates Y h vars (meth a "normalized" []) (Ok (v_signature (n / Z.gcd n d) (d / Z.gcd n d))).
Proof.
  intros Y h n d n' d' x D N P N' P'. cbv zeta. pose proof (pow2_pos _ P) as D0. pose proof (pow2_pos _ P') as D0'.
  assert (V : valid_sig (mkSig n d)) by (split; assumption). assert (V' : valid_sig (mkSig n' d')) by (split; assumption).
  pose (vs := [("a", OSig (mkSig n d)); ("b", OSig (mkSig n' d')); ("x", OInt x)]). repeat apply conj.
  - destruct (sig_add_spec _ _ V V') as (s & E & W & F & G). exists (nominator s). cbn [denominator nominator] in *. rewrite F in G. split; [|exact G].
    valued vs (App2 O_add (Var "a") (Var "b")). cbn in E |- *. rewrite E. cbn. unfold enc_sig. rewrite F. reflexivity.
  - destruct (sig_mul_val _ _ V V') as (s & E & W & F & G & _). valued vs (App2 O_mul (Var "a") (Var "b")). rewrite E. cbn in *. unfold enc_sig. rewrite F, G. reflexivity.
  - valued vs (App2 (O_cmp CEq) (Var "a") (Var "b")). cbn [outcome_of enc_obj]. rewrite eq_cross_bool by assumption. reflexivity.
  - intros PX L. destruct (sig_to_ok (mkSig n d) x V PX L) as (s & E & W & F & G). apply sval_eq in G; [|exact W|exact V]. rewrite F in G. cbn [denominator nominator] in *.
    assert (X : x = x / d * d).
    { destruct P as (k & K & ->), PX as (j & J & ->). assert (k <= j) by (apply (Z.pow_le_mono_r_iff 2); lia).
      replace j with (j - k + k) by lia. rewrite Z.pow_add_r, Z.div_mul; lia. }
    split; [|exact X]. valued vs (App2 O_to (Var "a") (Var "x")). rewrite E. cbn. unfold enc_sig. rewrite F. do 2 f_equal. nia.
  - intros NX. valued vs (App2 O_to (Var "a") (Var "x")). rewrite (sig_to_err (mkSig n d) x V NX). reflexivity.
  - destruct (sig_normalized_spec _ V) as (s & E & W & _ & G & q & Q & F1 & F2). cbn [denominator nominator] in *.
    apply (pow2_odd_coprime _ _ (proj2 W)) in G. assert (GC : Z.gcd n d = q) by (rewrite F1, F2, Z.gcd_mul_mono_r_nonneg, G by lia; lia).
    valued vs (App1 O_normalized (Var "a")). rewrite E, GC. cbn. unfold enc_sig. rewrite F1, F2, !Z.div_mul by lia. reflexivity.
Qed.
Lemma c80_signature_new : forall Y h n d, digit_table (py_nd Y) ->
  let e := call (name "Signature") [name "n"; name "d"] in
  (0 <= n /\ pow2 d -> evaluates Y h [("n", VInt n); ("d", VInt d)] e (Ok (v_signature n d))) /\
  (~ (0 <= n /\ pow2 d) -> evaluates Y h [("n", VInt n); ("d", VInt d)] e (Err ValueError)).
Proof.
  intros Y h n d D. cbv zeta. split; intros C.
  - valued [("n", OInt n); ("d", OInt d)] (App2 O_Signature (Var "n") (Var "d")). destruct C. rewrite SigFacts.sig_new_ok by assumption. reflexivity.
  - valued [("n", OInt n); ("d", OInt d)] (App2 O_Signature (Var "n") (Var "d")). rewrite SigFacts.sig_new_err by assumption. reflexivity.
Qed.

(** Tones: [v_tone p] is the object Tone(p). *)
Lemma c80_tone : forall Y p q i j f, digit_table (py_nd Y) ->
  let vars := [("t", v_tone p); ("u", v_tone q); ("i", VInt i); ("j", VInt j); ("f", VBool f)] in
  let t := name "t" in let u := name "u" in
  always Y vars (equal (meth (name "Tone") "from_notation" [meth t "to_notation" [name "f"]]) t) /\
  always Y vars (equal (meth (name "Tone") "from_notation" [meth t "to_notation" []]) t) /\
  always Y vars (equal (meth (meth t "transposed" [name "i"]) "transposed" [name "j"]) (meth t "transposed" [plus (name "i") (name "j")])) /\
  always Y vars (equal (meth (meth t "transposed" [name "i"]) "transposed" [EOp ONeg [name "i"]]) t) /\
  always Y vars (equal (call (name "Tone") [attr t "pitch"]) t) /\
  always Y vars (compare CLe (times (int 12) (attr t "octave")) (attr t "pitch")) /\
  always Y vars (compare CLt (attr t "pitch") (times (int 12) (plus (attr t "octave") (int 1)))) /\
  (forall h, evaluates Y h vars (equal t u) (Ok (VBool (p =? q))) /\ evaluates Y h vars (compare CLt t u) (Ok (VBool (p <? q))) /\
     evaluates Y h vars (compare CLe t u) (Ok (VBool (p <=? q)))).
Proof.
  intros Y p q i j f D. cbv zeta. pose (vs := [("t", OTone (mkTone p)); ("u", OTone (mkTone q)); ("i", OInt i); ("j", OInt j); ("f", OBool f)]).
  refine (conj _ (conj _ (conj _ (conj _ (conj _ (conj _ (conj _ (fun h => conj _ (conj _ _))))))))).
  - destruct (c08_round_trip (py_nd Y) p f D) as (s & E & F).
    law vs (App2 (O_cmp CEq) (App1 O_from_notation (App2 O_notation (Var "t") (Var "f"))) (Var "t")). cbn. unfold tone_new in *. rewrite E. cbn. rewrite F. cbn. do 3 f_equal. unfold tone_eq. cbn. lia.
  - destruct (c08_round_trip (py_nd Y) p false D) as (s & E & F).
    law vs (App2 (O_cmp CEq) (App1 O_from_notation (App1 O_to_notation (Var "t"))) (Var "t")). cbn. unfold tone_new in *. rewrite E. cbn. rewrite F. cbn. do 3 f_equal. unfold tone_eq. cbn. lia.
  - law vs (App2 (O_cmp CEq) (App2 O_transposed (App2 O_transposed (Var "t") (Var "i")) (Var "j")) (App2 O_transposed (Var "t") (App2 O_add (Var "i") (Var "j")))).
    cbn. do 3 f_equal. unfold tone_eq. cbn. lia.
  - law vs (App2 (O_cmp CEq) (App2 O_transposed (App2 O_transposed (Var "t") (Var "i")) (App1 O_neg (Var "i"))) (Var "t")).
    cbn. do 3 f_equal. unfold tone_eq. cbn. lia.
  - law vs (App2 (O_cmp CEq) (App1 O_Tone (App1 O_pitch (Var "t"))) (Var "t")). cbn. do 3 f_equal. unfold tone_eq. cbn. lia.
  - law vs (App2 (O_cmp CLe) (App2 O_mul (Lit (OInt 12)) (App1 O_octave (Var "t"))) (App1 O_pitch (Var "t"))).
    cbn -[Z.mul]. do 3 f_equal. pose proof (proj1 (c11_octave p)). unfold tone_new in *. lia.
  - law vs (App2 (O_cmp CLt) (App1 O_pitch (Var "t")) (App2 O_mul (Lit (OInt 12)) (App2 O_add (App1 O_octave (Var "t")) (Lit (OInt 1))))).
    cbn -[Z.mul]. do 3 f_equal. pose proof (proj1 (c11_octave p)). unfold tone_new in *. lia.
  - valued vs (App2 (O_cmp CEq) (Var "t") (Var "u")). reflexivity.
  - valued vs (App2 (O_cmp CLt) (Var "t") (Var "u")). reflexivity.
  - valued vs (App2 (O_cmp CLe) (Var "t") (Var "u")). reflexivity.
Qed.

(** Notes. *)
Lemma note_eq_self n : valid_note n -> note_eq n n = true.
Proof. intros V. exact (proj1 (proj2 (c16_equality n n n V V V))). Qed.
Lemma c80_note : forall Y n i j d v, digit_table (py_nd Y) -> valid_note n -> valid_sig d -> valid_velocity v ->
  let vars := [("n", enc_note n); ("i", VInt i); ("j", VInt j); ("d", enc_sig d); ("v", VFloat v)] in
  let n := name "n" in
  always Y vars (equal (meth (meth n "transposed" [name "i"]) "transposed" [name "j"]) (meth n "transposed" [plus (name "i") (name "j")])) /\
  always Y vars (equal (meth (meth n "transposed" [name "i"]) "transposed" [EOp ONeg [name "i"]]) n) /\
  always Y vars (equal (attr (meth n "transposed" [name "i"]) "tone") (meth (attr n "tone") "transposed" [name "i"])) /\
  always Y vars (equal (call (name "Note") [attr n "tone"; attr n "duration"; attr n "velocity"]) n) /\
  always Y vars (equal (attr (meth n "with_duration" [name "d"]) "duration") (name "d")) /\
  always Y vars (equal (meth (meth n "with_duration" [name "d"]) "with_duration" [attr n "duration"]) n) /\
  always Y vars (equal (meth (meth n "with_velocity" [name "v"]) "with_velocity" [attr n "velocity"]) n) /\
  (forall h, evaluates Y h vars (attr (meth n "with_velocity" [name "v"]) "velocity") (Ok (VFloat v))).
Proof.
  intros Y n i j d v D V S U. pose proof (proj1 V) as VD. cbv zeta.
  pose (vs := [("n", ONote n); ("i", OInt i); ("j", OInt j); ("d", OSig d); ("v", OFloat v)]).
  assert (I : forall t s w, valid_sig s -> valid_velocity w -> note_init t s w = Ok (mkNote t s w)).
  { intros t s w A B. destruct (proj1 (c14_note (py_nd Y) (TA_tone t) (SA_sig s) w D (proj1 B)) t s) as (m & E & <- & <- & <-); [constructor|constructor; exact A|exact B|].
    destruct m. exact E. }
  assert (E : mkNote (n_tone n) (n_duration n) (n_velocity n) = n) by (destruct n; reflexivity).
  assert (VV : valid_velocity (n_velocity n)) by apply V. assert (FV : is_float v = true) by apply U. assert (FN : is_float (n_velocity n) = true) by apply V.
  refine (conj _ (conj _ (conj _ (conj _ (conj _ (conj _ (conj _ (fun h => _)))))))).
  - law vs (App2 (O_cmp CEq) (App2 O_transposed (App2 O_transposed (Var "n") (Var "i")) (Var "j")) (App2 O_transposed (Var "n") (App2 O_add (Var "i") (Var "j")))).
    cbn -[note_eq is_float]. unfold note_transposed. rewrite I by assumption. cbn -[note_eq is_float]. rewrite !I by assumption. cbn -[note_eq is_float]. unfold tone_transposed, tone_new. cbn -[note_eq is_float].
    rewrite <- Z.add_assoc, note_eq_self; [reflexivity|split; assumption].
  - law vs (App2 (O_cmp CEq) (App2 O_transposed (App2 O_transposed (Var "n") (Var "i")) (App1 O_neg (Var "i"))) (Var "n")).
    cbn -[note_eq is_float]. unfold note_transposed. rewrite I by assumption. cbn -[note_eq is_float]. rewrite !I by assumption. cbn -[note_eq is_float]. unfold tone_transposed, tone_new. cbn -[note_eq is_float].
    replace (pitch (n_tone n) + i + - i) with (pitch (n_tone n)) by lia. destruct n as [[p] s w]. cbn -[note_eq is_float]. rewrite note_eq_self; [reflexivity|exact V].
  - law vs (App2 (O_cmp CEq) (App1 O_tone (App2 O_transposed (Var "n") (Var "i"))) (App2 O_transposed (App1 O_tone (Var "n")) (Var "i"))).
    cbn -[note_eq is_float]. unfold note_transposed. rewrite I by assumption. cbn. do 3 f_equal. unfold tone_eq. cbn. lia.
  - law vs (App2 (O_cmp CEq) (New_note (App1 O_tone (Var "n")) (App1 O_duration (Var "n")) (App1 O_velocity (Var "n"))) (Var "n")).
    cbn -[note_eq is_float]. rewrite FN. unfold note_new. cbn -[note_eq is_float]. rewrite I by assumption. cbn -[note_eq is_float]. rewrite E, note_eq_self by exact V. reflexivity.
  - law vs (App2 (O_cmp CEq) (App1 O_duration (App2 O_with_duration (Var "n") (Var "d"))) (Var "d")).
    cbn -[note_eq sig_eq is_float]. rewrite I by assumption. cbn -[sig_eq]. rewrite sig_eq_refl. reflexivity.
  - law vs (App2 (O_cmp CEq) (App2 O_with_duration (App2 O_with_duration (Var "n") (Var "d")) (App1 O_duration (Var "n"))) (Var "n")).
    cbn -[note_eq is_float]. rewrite I by assumption. cbn -[note_eq is_float]. rewrite I by assumption. cbn -[note_eq is_float]. rewrite E, note_eq_self by exact V. reflexivity.
  - law vs (App2 (O_cmp CEq) (App2 O_with_velocity (App2 O_with_velocity (Var "n") (Var "v")) (App1 O_velocity (Var "n"))) (Var "n")).
    cbn -[note_eq is_float]. rewrite FV. unfold with_velocity. cbn -[note_eq is_float]. rewrite I by assumption. cbn -[note_eq is_float]. rewrite FN. cbn -[note_eq is_float]. rewrite I by assumption. cbn -[note_eq is_float]. rewrite E, note_eq_self by exact V. reflexivity.
  - eapply (by_value _ _ vs (App1 O_velocity (App2 O_with_velocity (Var "n") (Var "v")))); [assumption|valids|repeat constructor|reflexivity|reflexivity| |].
    + cbn -[is_float]. rewrite FV. unfold with_velocity. cbn -[is_float]. rewrite I by assumption. cbn. reflexivity.
    + reflexivity.
Qed.
