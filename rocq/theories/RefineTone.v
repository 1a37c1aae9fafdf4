(** Running the source of core/tone.py gives what the model in Tone.v and FrequencyFloat.v says. *)
From Coq Require Import ZArith List Bool String Lia.
From Verif Require Import Py PyFloat Tone FrequencyFloat PyRegex PyAst PySem PySource PyProgram SpecBase RefineBase.
Import ListNotations.
Open Scope string_scope.
Open Scope list_scope.
Open Scope Z_scope.

Definition enc_tone (t : tone) : value := v_tone (pitch t).

(** ** The regular expression *)
Definition tree : regex :=
  RSeq [RGroup (lit "tone") (RSeq [RClass [65; 66; 67; 68; 69; 70; 71]]);
        RGroup (lit "transposition") (RSeq [RStar (RClass [35; 98])]);
        ROpt (RGroup (lit "octave") (RSeq [ROpt (RClass [45]); RPlus RDigit]))].
Lemma pattern_tree : parse_regex pattern = Some tree.
Proof. reflexivity. Qed.

Lemma span_app f s : s = fst (span f s) ++ snd (span f s).
Proof.
  induction s as [|c s IH]; auto. cbn. destruct (f c); auto. destruct (span f s); cbn in *. congruence.
Qed.
Lemma firstn_span f s : firstn (List.length s - List.length (snd (span f s))) s = fst (span f s).
Proof.
  set (a := fst (span f s)). set (b := snd (span f s)).
  assert (E : s = a ++ b) by apply span_app. clearbody a b. subst.
  rewrite app_length, Nat.add_sub, firstn_app, firstn_all, Nat.sub_diag. cbn. apply app_nil_r.
Qed.
Lemma loop_span f n : forall s k, (List.length s <= n)%nat -> (forall s', k s' <> None) ->
  loop n (one f) s k = k (snd (span f s)).
Proof.
  induction n as [|n IH]; intros s k L T; destruct s as [|c s]; cbn in *; try lia; auto.
  destruct (f c) eqn:F; auto.
  rewrite IH by (auto; lia). destruct (span f s) eqn:S. cbn. destruct (k p0) eqn:Q; auto. exfalso; eapply T; eauto.
Qed.

Lemma one_ext f g s k : (forall c, f c = g c) -> one f s k = one g s k.
Proof. intros E; destruct s; cbn; auto. rewrite E; auto. Qed.
Lemma loop_ext f g n : (forall c, f c = g c) -> forall s k, loop n (one f) s k = loop n (one g) s k.
Proof.
  intros E. induction n as [|n IH]; intros s k; cbn [loop]; auto.
  rewrite (one_ext f g) by auto. destruct s; cbn; auto. destruct (g z); auto. rewrite IH; auto.
Qed.

Lemma class_letter c : existsb (Z.eqb c) [65; 66; 67; 68; 69; 70; 71] = is_letter c.
Proof. cbn. unfold is_letter. lia. Qed.
Lemma class_accidental c : existsb (Z.eqb c) [35; 98] = is_accidental c.
Proof. cbn. unfold is_accidental. lia. Qed.

Section Tone.
Variable Y : python.
Notation steps := (steps melodia Y).
Notation nd := (py_nd Y).

(** The text of the group octave. *)
Definition octave_text (o : option (bool * pystr)) : value :=
  match o with
  | None => VNone
  | Some (neg, ds) => VStr (if neg then 45 :: ds else ds)
  end.

Definition plus_digits (s : pystr) (k : pystr -> option groups) : option groups :=
  match fst (span (is_digit nd) s) with [] => None | _ => k (snd (span (is_digit nd) s)) end.
Lemma plus_span s k : (forall s', k s' <> None) -> matches nd (RPlus RDigit) s k = plus_digits s k.
Proof.
  intros T. cbn [matches]. unfold plus_digits.
  destruct s as [|c s]; cbn; auto. change (match nd c with Some _ => true | None => false end) with (is_digit nd c).
  destruct (is_digit nd c) eqn:D; cbn; auto.
  change (loop (List.length s) (one (is_digit nd)) s k = 
    match fst (let (a, b) := span (is_digit nd) s in (c :: a, b)) with [] => None | _ => k (snd (let (a, b) := span (is_digit nd) s in (c :: a, b))) end).
  rewrite loop_span by (auto; lia). destruct (span (is_digit nd) s); auto.
Qed.

Definition group_list (r : Z * pystr * option (bool * pystr)) : groups :=
  let '(c, acc, o) := r in
  (lit "tone", [c]) :: (lit "transposition", acc) ::
  match o with None => [] | Some (neg, ds) => [(lit "octave", if neg then 45 :: ds else ds)] end.

Definition octave_of (r1 : pystr) : option (bool * pystr) :=
  let (neg, r2) := match r1 with 45 :: r2 => (true, r2) | _ => (false, r1) end in
  let (ds, _) := span (is_digit nd) r2 in
  match ds with [] => None | _ :: _ => Some (neg, ds) end.

Lemma octave_of_other c r : c <> 45 ->
  octave_of (c :: r) = match fst (span (is_digit nd) (c :: r)) with [] => None | d :: ds => Some (false, d :: ds) end.
Proof.
  intros C. assert (E : octave_of (c :: r) = let (ds, _) := span (is_digit nd) (c :: r) in
                         match ds with [] => None | _ :: _ => Some (false, ds) end).
  { unfold octave_of. destruct c as [|p|p]; auto. do 6 (destruct p; auto). congruence. }
  rewrite E. destruct (span _ _) as [[|d ds] r3]; auto.
Qed.

Lemma octave_matches r1 : digit_table nd ->
  matches nd (ROpt (RGroup (lit "octave") (RSeq [ROpt (RClass [45]); RPlus RDigit]))) r1 (fun _ => Some [])
  = Some (match octave_of r1 with None => [] | Some (neg, ds) => [(lit "octave", if neg then 45 :: ds else ds)] end).
Proof.
  intros N.
  assert (D45 : is_digit nd 45 = false) by (unfold is_digit; destruct N as [N _]; rewrite N by lia; reflexivity).
  set (kg := fun s' : pystr => Some [(lit "octave", firstn (List.length r1 - List.length s') r1)]).
  assert (T : forall s', kg s' <> None) by (intros; discriminate).
  assert (E : matches nd (ROpt (RGroup (lit "octave") (RSeq [ROpt (RClass [45]); RPlus RDigit]))) r1 (fun _ => Some [])
              = match (match one (fun c => (c =? 45) || false) r1 (fun s => matches nd (RPlus RDigit) s kg) with
                       | Some g => Some g | None => matches nd (RPlus RDigit) r1 kg end) with
                | Some g => Some g | None => Some [] end) by reflexivity.
  rewrite E. clear E.
  destruct r1 as [|c r]; [reflexivity|].
  cbn [one]. destruct (c =? 45) eqn:C.
  - apply Z.eqb_eq in C. subst c. unfold octave_of. cbn [orb]. rewrite !plus_span by auto. unfold plus_digits.
    pose proof (firstn_span (is_digit nd) r) as F. pose proof (span_app (is_digit nd) r) as A.
    cbn [span]. rewrite D45. cbn [fst].
    destruct (span (is_digit nd) r) as [ds r3] eqn:S. cbn [fst snd] in *.
    destruct ds as [|d ds]; auto. unfold kg. do 4 f_equal.
    rewrite A at 1 2. rewrite app_comm_cons, (app_length (45 :: d :: ds)), Nat.add_sub.
    rewrite firstn_app, firstn_all, Nat.sub_diag. cbn. rewrite app_nil_r; auto.
  - cbn [orb]. rewrite plus_span by auto. unfold plus_digits.
    rewrite octave_of_other by lia. pose proof (firstn_span (is_digit nd) (c :: r)) as F.
    destruct (span (is_digit nd) (c :: r)) as [ds r3] eqn:S. cbn [fst snd] in *.
    destruct ds as [|d ds]; auto. unfold kg. rewrite F. reflexivity.
Qed.

Lemma notation_matches s : digit_table nd ->
  re_match nd pattern s = Some (match notation_match nd s with None => None | Some r => Some (group_list r) end).
Proof.
  intros N. unfold re_match. rewrite pattern_tree. f_equal. unfold tree.
  destruct s as [|c s]; [reflexivity|].
  set (OCT := ROpt (RGroup (lit "octave") (RSeq [ROpt (RClass [45]); RPlus RDigit]))).
  set (k := fun r1 : pystr => match matches nd OCT r1 (fun _ => Some []) with
                      | Some g => Some ((lit "transposition", firstn (List.length s - List.length r1) s) :: g)
                      | None => None end).
  assert (E : matches nd (RSeq [RGroup (lit "tone") (RSeq [RClass [65; 66; 67; 68; 69; 70; 71]]);
        RGroup (lit "transposition") (RSeq [RStar (RClass [35; 98])]); OCT]) (c :: s) (fun _ => Some [])
    = if existsb (Z.eqb c) [65; 66; 67; 68; 69; 70; 71] then
        match loop (List.length s) (one (fun c => existsb (Z.eqb c) [35; 98])) s k with
        | Some g => Some ((lit "tone", firstn (S (List.length s) - List.length s) (c :: s)) :: g)
        | None => None end else None) by reflexivity.
  rewrite E. clear E. rewrite class_letter. cbn [notation_match]. destruct (is_letter c); auto.
  assert (T : forall s', k s' <> None) by (intros s'; unfold k, OCT; rewrite octave_matches by auto; discriminate).
  rewrite (loop_ext _ is_accidental) by apply class_accidental.
  rewrite loop_span by auto.
  replace (S (List.length s) - List.length s)%nat with 1%nat by lia. cbn [firstn].
  unfold k, OCT. rewrite octave_matches by auto. rewrite firstn_span.
  destruct (span is_accidental s) as [acc r1]. cbn [fst snd]. unfold octave_of.
  destruct (match r1 with 45 :: r2 => (true, r2) | _ => (false, r1) end) as [neg r2].
  destruct (span (is_digit nd) r2) as [ds r3]. destruct ds; reflexivity.
Qed.

Lemma groups_value r : all_groups pattern (group_list r) =
  let '(c, acc, o) := r in
  [(lit "tone", VStr [c]); (lit "transposition", VStr acc); (lit "octave", octave_text o)].
Proof. destruct r as [[c acc] [[neg ds]|]]; reflexivity. Qed.

Lemma span_all f s : forallb f (fst (span f s)) = true.
Proof.
  induction s as [|c s IH]; cbn; auto. destruct (f c) eqn:F; auto. destruct (span f s). cbn in *. rewrite F, IH; auto.
Qed.
Lemma octave_int s c acc neg ds : digit_table nd -> notation_match nd s = Some (c, acc, Some (neg, ds)) ->
  int_of_str Y (if neg then 45 :: ds else ds) = Some (if neg then - int_of_digits nd ds else int_of_digits nd ds)
  /\ ds <> [].
Proof.
  intros N. destruct s as [|x s]; [discriminate|]. cbn [notation_match]. destruct (is_letter x); [|discriminate].
  destruct (span is_accidental s) as [a r1].
  destruct (match r1 with 45 :: r2 => (true, r2) | _ => (false, r1) end) as [ng r2] eqn:Q.
  pose proof (span_all (is_digit nd) r2) as A. pose proof (span_app (is_digit nd) r2) as P.
  destruct (span (is_digit nd) r2) as [d r3] eqn:S. cbn [fst snd] in *.
  destruct d as [|d0 d]; [discriminate|].
  intros E. assert (neg = ng /\ ds = d0 :: d) as [-> ->] by (split; congruence). split; [|discriminate].
  unfold int_of_str. destruct ng.
  - rewrite A. auto.
  - assert (D45 : d0 <> 45).
    { intros ->. assert (is_digit nd 45 = true) by (cbn in A; destruct (is_digit nd 45); auto).
      destruct N as [N _]. unfold is_digit in H. rewrite N in H by lia. discriminate. }
    destruct d0 as [|p|p]; try (rewrite A; reflexivity).
    do 6 (try (destruct p; try (rewrite A; reflexivity))). lia.
Qed.

(** ** The methods *)
Lemma tone_new_runs p h K :
  steps (Ca (VClass "Tone") [VInt p] [] h K) (Rt (v_tone p) h K).
Proof. go; apply steps_refl. Qed.
Lemma tone_new_kw_runs p h K :
  steps (Ca (VClass "Tone") [] [("pitch", VInt p)] h K) (Rt (v_tone p) h K).
Proof. go; apply steps_refl. Qed.
Lemma pitch_runs p h K : steps (Ca (VFun "Tone.pitch") [v_tone p] [] h K) (Rt (VInt p) h K).
Proof. go; apply steps_refl. Qed.
Lemma octave_runs p h K : steps (Ca (VFun "Tone.octave") [v_tone p] [] h K) (Rt (VInt (tone_octave (mkTone p))) h K).
Proof. go; apply steps_refl. Qed.
Lemma transposed_runs p k h K :
  steps (Ca (VFun "Tone.transposed") [v_tone p; VInt k] [] h K) (Rt (enc_tone (tone_transposed (mkTone p) k)) h K).
Proof. go; apply steps_refl. Qed.
Lemma tone_repr_runs p h K :
  steps (Ca (VFun "Tone.__repr__") [v_tone p] [] h K) (Rt (VStr (tone_repr (mkTone p))) h K).
Proof. go. apply steps_refl. Qed.
Lemma tone_eq_runs p q h K :
  steps (Ca (VFun "Tone.__eq__") [v_tone p; v_tone q] [] h K) (Rt (VBool (tone_eq (mkTone p) (mkTone q))) h K).
Proof. go. apply steps_refl. Qed.
Lemma tone_le_runs p q h K :
  steps (Ca (VFun "Tone.__le__") [v_tone p; v_tone q] [] h K) (Rt (VBool (tone_le (mkTone p) (mkTone q))) h K).
Proof. go. apply steps_refl. Qed.
Lemma tone_lt_runs p q h K :
  steps (Ca (VFun "Tone.__lt__") [v_tone p; v_tone q] [] h K) (Rt (VBool (tone_lt (mkTone p) (mkTone q))) h K).
Proof. go. apply steps_refl. Qed.
Lemma tone_ge_runs p q h K :
  steps (Ca (VFun "Tone.__ge__") [v_tone p; v_tone q] [] h K) (Rt (VBool (tone_ge (mkTone p) (mkTone q))) h K).
Proof. go. apply steps_refl. Qed.
Lemma tone_gt_runs p q h K :
  steps (Ca (VFun "Tone.__gt__") [v_tone p; v_tone q] [] h K) (Rt (VBool (tone_gt (mkTone p) (mkTone q))) h K).
Proof. go. apply steps_refl. Qed.
Lemma to_frequency_runs p base h K :
  steps (Ca (VFun "Tone.to_frequency") [v_tone p; VFloat base] [] h K)
        (ends (outcome_of VFloat (to_frequency_float (py_pow2 Y) (mkTone p) base)) h K).
Proof.
  unfold to_frequency_float. cbn [pitch].
  destruct (int_truediv (p - 57) 12) as [y|e] eqn:A; cbn [bind]; [destruct (py_pow2 Y y) as [x|e] eqn:B; cbn [bind]|].
  all: go; apply steps_refl.
Qed.

Lemma to_notation_runs p down h K :
  steps (Ca (VFun "Tone.to_notation") [v_tone p; VBool down] [] h K)
        (ends (outcome_of VStr (to_notation (mkTone p) down)) h K).
Proof.
  unfold to_notation. cbn [pitch].
  assert (B : 0 <= p mod 12 < 12) by (apply Z.mod_pos_bound; lia).
  assert (C : p mod 12 = 0 \/ p mod 12 = 1 \/ p mod 12 = 2 \/ p mod 12 = 3 \/ p mod 12 = 4 \/ p mod 12 = 5 \/
              p mod 12 = 6 \/ p mod 12 = 7 \/ p mod 12 = 8 \/ p mod 12 = 9 \/ p mod 12 = 10 \/ p mod 12 = 11) by lia.
  destruct C as [C|[C|[C|[C|[C|[C|[C|[C|[C|[C|[C|C]]]]]]]]]]]; rewrite C; destruct down;
    match type of C with ?P => change (fact P) in C end.
  all: go; rewrite app_nil_r; apply steps_refl.
Qed.
Lemma to_notation_default_runs p h K :
  steps (Ca (VFun "Tone.to_notation") [v_tone p] [] h K)
        (ends (outcome_of VStr (to_notation (mkTone p) false)) h K).
Proof. eapply same_call; [|apply (to_notation_runs p false)]. reflexivity. Qed.
Lemma tone_str_runs p h K :
  steps (Ca (VFun "Tone.__str__") [v_tone p] [] h K)
        (ends (outcome_of VStr (tone_str (mkTone p))) h K).
Proof.
  go_with ltac:(idtac; lazymatch goal with |- PySem.steps _ _ (Ca (VFun "Tone.to_notation") _ _ _ _) _ => call to_notation_default_runs end).
  unfold tone_str. destruct (to_notation _ _); cbn [outcome_of ends]; go; apply steps_refl.
Qed.

(** The sum over the signs. *)
Definition sign_expr : expr :=
  EIf (ECmp (EName "t") [(CEq, EConst (VStr (lit "#")))]) (EOp OPos [EConst (VInt 1)]) (EOp ONeg [EConst (VInt 1)]).
Definition sign_value (x : Z) : value := VInt (if x =? 35 then 1 else -1).
Definition sign_env (c n m b : value) : env := [("cls", c); ("notation", n); ("match", m); ("base_pitch", b)].
Definition one_text (c : Z) : value := VStr [c].
Lemma accidental_cases x : is_accidental x = true -> x = 35 \/ x = 98.
Proof. unfold is_accidental. lia. Qed.
Lemma signs_loop c n m b h K : forall acc d v, forallb is_accidental acc = true ->
  steps (Rt v h (KComp CompGen sign_expr (TName "t") (sign_env c n m b) (ISeq (map one_text acc)) d :: K))
        (Rt (VList (rev d ++ v :: map sign_value acc)) h K).
Proof.
  induction acc as [|x acc IH]; intros d v A; cbn [map].
  - adv. cbn [rev]. apply steps_refl.
  - cbn [forallb] in A. apply andb_prop in A. destruct A as [A1 A2].
    replace (rev d ++ v :: sign_value x :: map sign_value acc) with (rev (v :: d) ++ sign_value x :: map sign_value acc)
      by (cbn [rev]; rewrite <- app_assoc; reflexivity).
    destruct (accidental_cases x A1); subst x;
    go_with ltac:(idtac; lazymatch goal with
       |- PySem.steps _ _ (Rt _ _ (KComp _ _ _ _ (ISeq (map _ acc)) _ :: K)) _ => exact (IH _ _ A2) end).
Qed.
Lemma signs_run c n m b h K acc : forallb is_accidental acc = true ->
  steps (Rt (VIter (ISeq (map one_text acc))) h (KComp1 CompGen sign_expr (TName "t") (sign_env c n m b) :: K))
        (Rt (VList (map sign_value acc)) h K).
Proof.
  destruct acc as [|x acc]; intros A; cbn [map].
  - adv. apply steps_refl.
  - cbn [forallb] in A. apply andb_prop in A. destruct A as [A1 A2].
    destruct (accidental_cases x A1); subst x;
    go_with ltac:(idtac; lazymatch goal with
       |- PySem.steps _ _ (Rt _ _ (KComp _ _ _ _ (ISeq (map _ acc)) _ :: K)) _ => exact (signs_loop _ _ _ _ _ _ _ _ _ A2) end).
Qed.
Lemma sum_signs acc : forall a, sum_ints (map sign_value acc) a
  = Some (fold_left (fun a x => a + (if x =? 35 then 1 else -1)) acc a).
Proof. induction acc as [|x acc IH]; intros a; cbn; auto. Qed.

Lemma letter_cases c : is_letter c = true -> c = 65 \/ c = 66 \/ c = 67 \/ c = 68 \/ c = 69 \/ c = 70 \/ c = 71.
Proof. unfold is_letter. lia. Qed.
Lemma letter_lookup c : is_letter c = true ->
  match dict_get tone_mapping c with
  | Some base => lookup (VStr [c]) [(VStr (lit "C"), VInt 0); (VStr (lit "D"), VInt 2); (VStr (lit "E"), VInt 4);
                   (VStr (lit "F"), VInt 5); (VStr (lit "G"), VInt 7); (VStr (lit "A"), VInt 9);
                   (VStr (lit "B"), VInt 11)] = Some (Some (VInt base))
  | None => False
  end.
Proof. intros L. destruct (letter_cases c L) as [C|[C|[C|[C|[C|[C|C]]]]]]; subst c; reflexivity. Qed.
Lemma match_shape s c acc o : notation_match nd s = Some (c, acc, o) ->
  is_letter c = true /\ forallb is_accidental acc = true.
Proof.
  destruct s as [|x s]; [discriminate|]. cbn [notation_match]. destruct (is_letter x) eqn:L; [|discriminate].
  pose proof (span_all is_accidental s) as A. destruct (span is_accidental s) as [a r1].
  destruct (match r1 with 45 :: r2 => (true, r2) | _ => (false, r1) end) as [ng r2].
  destruct (span (is_digit nd) r2) as [d r3]. intros E.
  assert (x = c /\ a = acc) as [-> ->] by (split; congruence). auto.
Qed.

Lemma from_notation_runs s h K : digit_table nd ->
  steps (Ca (VFun "Tone.from_notation") [VClass "Tone"; VStr s] [] h K)
        (ends (outcome_of enc_tone (from_notation nd s)) h K).
Proof.
  intros N. unfold from_notation. pose proof (notation_matches s N) as M.
  destruct (notation_match nd s) as [[[c acc] o]|] eqn:Q.
  - pose proof (match_shape _ _ _ _ Q) as [L A].
    assert (G : fact (all_groups pattern (group_list (c, acc, o)) =
      [(lit "tone", VStr [c]); (lit "transposition", VStr acc); (lit "octave", octave_text o)])) by apply groups_value.
    pose proof (sum_signs acc 0) as SS. unfold sign_value in SS.
    set (tr := fold_left _ acc 0) in *.
    assert (O : match o with Some (neg, ds) => exists d ds', ds = d :: ds' /\
        int_of_str Y (if neg then 45 :: ds else ds) = Some (if neg then - int_of_digits nd ds else int_of_digits nd ds)
        | None => True end).
    { destruct o as [[neg ds]|]; auto. destruct (octave_int _ _ _ _ _ N Q) as [I D].
      destruct ds as [|d ds]; [congruence|]. exists d, ds. auto. }
    clearbody tr. generalize dependent (group_list (c, acc, o)). intros gl M G. clear N Q.
    destruct o as [[[|] ds]|]; [destruct O as (d & ds' & -> & I)..|]; cbv iota in *; clear O || idtac;
    (pose proof (letter_lookup c L) as T; destruct (dict_get tone_mapping c) as [base|]; [|contradiction]);
    cbv [octave_text] in *; clear L.
    all: go_with ltac:(idtac; lazymatch goal with
       |- PySem.steps _ _ (Rt _ _ (KComp1 _ _ _ _ :: _)) _ =>  call signs_run; [exact A|] end); apply steps_refl.
  - go; apply steps_refl.
Qed.
Lemma from_notation_method_runs s h K : digit_table nd ->
  steps (Ca (VBound (VClass "Tone") "Tone.from_notation") [VStr s] [] h K)
        (ends (outcome_of enc_tone (from_notation nd s)) h K).
Proof. intros N. eapply steps_more; [reflexivity|]. apply from_notation_runs; auto. Qed.
End Tone.
