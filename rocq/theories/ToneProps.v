(** Proofs of the tone properties (C08-C12) and of printing (C54). *)
From Coq Require Import ZArith Lia List Bool String ZifyBool.
From Verif Require Import Py Signature Tone SpecBase DecFacts ToneFacts.
Import ListNotations.
Open Scope Z_scope.
Ltac Zify.zify_post_hook ::= Z.div_mod_to_equations.

Lemma c08_round_trip : forall nd p flag, digit_table nd ->
  exists s, to_notation (tone_new p) flag = Ok s /\ from_notation nd s = Ok (tone_new p).
Proof.
  intros nd p flag Hnd. destruct (to_notation_text nd (tone_new p) flag Hnd) as (c & acc & E & _ & T).
  eexists. split; [exact E|]. apply from_notation_text; assumption.
Qed.

Lemma c08_distinct : forall p q f g s,
  to_notation (tone_new p) f = Ok s -> to_notation (tone_new q) g = Ok s -> p = q.
Proof.
  intros p q f g s Hp Hq.
  destruct (c08_round_trip ascii_digit p f ascii_digit_table) as (s1 & E1 & F1).
  destruct (c08_round_trip ascii_digit q g ascii_digit_table) as (s2 & E2 & F2).
  assert (s1 = s) by congruence. assert (s2 = s) by congruence. subst.
  rewrite F1 in F2. injection F2 as ->. reflexivity.
Qed.

Lemma c09_meaning : forall nd s p, digit_table nd -> notation_text nd s p ->
  from_notation nd s = Ok (mkTone p).
Proof. intros nd s p Hnd H. apply from_notation_text; assumption. Qed.

(** The full statement of C10, which the code violates. *)
Definition rejects_other_strings (nd : Z -> option Z) : Prop :=
  forall s, (forall p, ~ notation_text nd s p) -> from_notation nd s = Err ValueError.

Lemma C4x_not_notation nd p : digit_table nd -> ~ notation_text nd [67; 52; 120] p.
Proof.
  intros Hnd H. remember [67; 52; 120] as s0 eqn:Es.
  destruct H as [c base acc oct o Hc Hacc Hoct]. injection Es as -> E.
  assert (H120 : nd 120 = None) by (rewrite (proj1 Hnd) by lia; reflexivity).
  assert (H52 : nd 52 = Some 4) by (rewrite (proj1 Hnd) by lia; reflexivity).
  destruct acc as [|a acc].
  - cbn in E. subst oct. inversion Hoct as [E'|s ds Hne HF E'|s ds Hne HF E']; subst; try discriminate.
    inversion HF as [|? ? ? ? _ HF2]; subst. inversion HF2 as [|? ? ? ? Hx]; subst. congruence.
  - cbn in E. injection E as Ea _. subst a.
    inversion Hacc as [|x1 x2 [Hx|Hx] _]; discriminate.
Qed.

Lemma c10_refuted : forall nd, digit_table nd ->
  (exists s t, (forall p, ~ notation_text nd s p) /\ from_notation nd s = Ok t) /\
  ~ rejects_other_strings nd.
Proof.
  intros nd Hnd. assert (Hacc : from_notation nd [67; 52; 120] = Ok (mkTone 48)).
  { assert (H120 : nd 120 = None) by (rewrite (proj1 Hnd) by lia; reflexivity).
    assert (H52 : nd 52 = Some 4) by (rewrite (proj1 Hnd) by lia; reflexivity).
    unfold from_notation, notation_match, is_digit, int_of_digits. cbn. unfold is_digit.
    rewrite H52. cbn. unfold is_digit. rewrite H120. cbn. rewrite H52. reflexivity. }
  split.
  - exists [67; 52; 120], (mkTone 48). split; [|exact Hacc].
    intros p. apply C4x_not_notation; assumption.
  - intros H. rewrite (H [67; 52; 120]) in Hacc; [discriminate|].
    intros p. apply C4x_not_notation; assumption.
Qed.

Lemma c10_partial : forall nd s, digit_table nd ->
  ((forall c base r, In (c, base) letters -> s <> c :: r) -> from_notation nd s = Err ValueError) /\
  (forall c base r, In (c, base) letters -> s = c :: r ->
     exists prefix rest p, s = prefix ++ rest /\ notation_text nd prefix p /\
       (forall prefix' rest' p', s = prefix' ++ rest' -> notation_text nd prefix' p' ->
          (length prefix' <= length prefix)%nat) /\
       from_notation nd s = Ok (mkTone p)).
Proof.
  intros nd s Hnd. split.
  - intros H. apply from_notation_no_letter. destruct s as [|c r]; [exact I|].
    destruct (is_letter c) eqn:E; [|reflexivity].
    destruct (is_letter_letters c E) as (base & Hb). exfalso. eapply H; [exact Hb|reflexivity].
  - intros c base r Hc ->. apply from_notation_prefix; [assumption|].
    eapply letters_letter; eassumption.
Qed.

Lemma c11_octave : forall p,
  12 * tone_octave (tone_new p) <= p < 12 * tone_octave (tone_new p) + 12 /\
  (forall o, 12 * o <= p < 12 * o + 12 -> o = tone_octave (tone_new p)).
Proof. intros p. unfold tone_octave. cbn [pitch tone_new]. split; [|intros o]; lia. Qed.

Lemma c11_parsed : forall nd c base oct o, digit_table nd -> In (c, base) letters ->
  octave_text nd oct o -> oct <> [] ->
  exists t, from_notation nd (c :: oct) = Ok t /\ tone_octave t = o.
Proof.
  intros nd c base oct o Hnd Hc Ho _.
  eexists. split.
  - apply from_notation_text; [assumption|].
    apply (notation_intro nd c base [] oct o); [assumption|constructor|assumption].
  - unfold tone_octave, occurrences. cbn [pitch count_occ].
    assert (0 <= base < 12).
    { unfold letters in Hc. cbn in Hc. repeat destruct Hc as [Hc|Hc]; try contradiction;
        injection Hc as <- <-; lia. }
    cbn [Z.of_nat]. lia.
Qed.

Lemma c11_printed : forall t flag, exists c acc,
  to_notation t flag = Ok (c :: acc ++ str_of_Z (tone_octave t)) /\
  (acc = [] \/ acc = [sharp] \/ acc = [flat]).
Proof.
  intros t flag. destruct (to_notation_text ascii_digit t flag ascii_digit_table) as (c & acc & E & H & _).
  exists c, acc. split; assumption.
Qed.

Lemma c12_transposition : forall t a b,
  tone_transposed (tone_transposed t a) b = tone_transposed t (a + b) /\
  tone_transposed t 0 = t /\
  tone_transposed (tone_transposed t a) (- a) = t /\
  pitch (tone_transposed t a) = pitch t + a /\
  tone_octave (tone_transposed t (12 * a)) = tone_octave t + a.
Proof.
  intros [p] a b. unfold tone_transposed, tone_octave, tone_new. cbn [pitch].
  repeat split; try (f_equal; lia); lia.
Qed.

Lemma c12_order : forall x y z k,
  (tone_eq x y = true <-> x = y) /\
  (tone_lt x y = true <-> pitch x < pitch y) /\
  (tone_le x y = true <-> tone_lt x y = true \/ x = y) /\
  tone_gt x y = tone_lt y x /\ tone_ge x y = tone_le y x /\
  tone_lt x x = false /\
  (tone_lt x y = true -> tone_lt y z = true -> tone_lt x z = true) /\
  (tone_lt x y = true \/ x = y \/ tone_lt y x = true) /\
  tone_lt (tone_transposed x k) (tone_transposed y k) = tone_lt x y /\
  tone_le (tone_transposed x k) (tone_transposed y k) = tone_le x y /\
  tone_eq (tone_transposed x k) (tone_transposed y k) = tone_eq x y.
Proof.
  intros [x] [y] [z] k.
  unfold tone_eq, tone_lt, tone_le, tone_gt, tone_ge, tone_transposed, tone_new. cbn [pitch].
  assert (Hxy : mkTone x = mkTone y <-> x = y) by (split; [intros H; injection H; auto|intros ->; reflexivity]).
  rewrite !Hxy. repeat split; lia.
Qed.

(** ** Printing *)

Lemma split_at (sep : Z) : forall a a' b b' : list Z, ~ In sep a -> ~ In sep a' ->
  a ++ sep :: b = a' ++ sep :: b' -> a = a' /\ b = b'.
Proof.
  induction a as [|x a IH]; intros [|x' a'] b b' Ha Ha' H; cbn in *.
  - injection H as ->. split; reflexivity.
  - injection H as -> H. exfalso. apply Ha'. left; reflexivity.
  - injection H as <- H. exfalso. apply Ha. left; reflexivity.
  - injection H as <- H. destruct (IH a' b b') as [-> ->]; [tauto|tauto|assumption|].
    split; reflexivity.
Qed.

Lemma str_no_sep sep n : sep <> 45 -> ~ (48 <= sep <= 57) -> ~ In sep (str_of_Z n).
Proof.
  intros H1 H2 HIn. pose proof (str_of_Z_chars n) as HF. rewrite Forall_forall in HF.
  apply HF in HIn. lia.
Qed.

Lemma c54_decimal : forall nd n m, digit_table nd ->
  octave_text nd (str_of_Z n) n /\ (octave_text nd (str_of_Z n) m -> m = n) /\
  (str_of_Z n = str_of_Z m -> n = m).
Proof.
  intros nd n m Hnd. split; [apply str_octave; assumption|]. split; [|apply str_of_Z_inj].
  intros H. eapply octave_text_fun; [eassumption|eassumption|apply str_octave; assumption].
Qed.

Lemma c54_signatures : forall a b,
  (sig_str a = sig_str b -> a = b) /\ (sig_repr a = sig_repr b -> a = b).
Proof.
  intros [n1 d1] [n2 d2]. unfold sig_str, sig_repr. cbn [nominator denominator]. split; intros H.
  - apply (split_at 47) in H; [|apply str_no_sep; lia..].
    destruct H as [H1 H2]. apply str_of_Z_inj in H1, H2. subst; reflexivity.
  - apply app_inv_head in H.
    change (lit ", ") with (44 :: [32]) in H. cbn [app] in H.
    apply (split_at 44) in H; [|apply str_no_sep; lia..].
    destruct H as [H1 H2]. injection H2 as H2.
    apply app_inv_tail in H2. apply str_of_Z_inj in H1, H2. subst; reflexivity.
Qed.

Lemma c54_tones : forall a b,
  (tone_str a = tone_str b -> a = b) /\ (tone_repr a = tone_repr b -> a = b).
Proof.
  intros [p] [q]. split; intros H.
  - unfold tone_str in H.
    destruct (c08_round_trip ascii_digit p false ascii_digit_table) as (s & E & _).
    f_equal. eapply c08_distinct; [exact E|]. rewrite <- E. symmetry. exact H.
  - unfold tone_repr in H. apply app_inv_head in H. apply app_inv_tail in H.
    apply str_of_Z_inj in H. cbn in H. subst; reflexivity.
Qed.
