From Coq Require Import ZArith Lia List Bool ZifyBool.
From Verif Require Import Py Tone SpecBase DecFacts.
Import ListNotations.
Open Scope Z_scope.

Lemma span_app f p r : Forall (fun c => f c = true) p ->
  match r with [] => True | c :: _ => f c = false end -> span f (p ++ r) = (p, r).
Proof.
  intros Hp Hr. induction Hp as [|c p Hc Hp IH]; cbn [app span].
  - destruct r as [|c r]; [reflexivity|]. cbn [span]. rewrite Hr. reflexivity.
  - rewrite Hc, IH. reflexivity.
Qed.

Lemma span_spec f s : exists p r, s = p ++ r /\ span f s = (p, r) /\
  Forall (fun c => f c = true) p /\ match r with [] => True | c :: _ => f c = false end.
Proof.
  induction s as [|c s (p & r & -> & E & Hp & Hr)].
  - exists [], []. repeat split; constructor.
  - cbn [span]. destruct (f c) eqn:Ec.
    + exists (c :: p), r. rewrite E. repeat split; [constructor; assumption|assumption].
    + exists [], (c :: p ++ r). repeat split; [constructor|assumption].
Qed.

Section ND.
Variable nd : Z -> option Z.
Hypothesis Hnd : digit_table nd.

Lemma digits_is_digit s ds : Forall2 (fun c d => nd c = Some d) s ds ->
  Forall (fun c => is_digit nd c = true) s.
Proof.
  induction 1 as [|c d s ds H HF IH]; constructor; [|assumption].
  unfold is_digit. rewrite H. reflexivity.
Qed.

Lemma int_of_digits_acc s ds : Forall2 (fun c d => nd c = Some d) s ds -> forall a,
  fold_left (fun acc c => acc * 10 + match nd c with Some v => v | None => 0 end) s a
  = a * 10 ^ Z.of_nat (length ds) + decimal ds.
Proof.
  induction 1 as [|c d s ds H HF IH]; intros a.
  - cbn. lia.
  - cbn [fold_left decimal length]. rewrite IH, H, Nat2Z.inj_succ, Z.pow_succ_r by lia. ring.
Qed.

Lemma int_of_digits_val s ds : Forall2 (fun c d => nd c = Some d) s ds ->
  int_of_digits nd s = decimal ds.
Proof. intros H. unfold int_of_digits. rewrite (int_of_digits_acc s ds H). lia. Qed.

Lemma acc_fold acc : Forall (fun x => x = sharp \/ x = flat) acc -> forall a,
  fold_left (fun a x => a + (if x =? 35 then 1 else -1)) acc a
  = a + occurrences sharp acc - occurrences flat acc.
Proof.
  induction 1 as [|x acc Hx HF IH]; intros a.
  - unfold occurrences. cbn. lia.
  - cbn [fold_left]. rewrite IH. unfold occurrences, sharp, flat in *. cbn [count_occ].
    destruct Hx as [-> | ->]; cbn [Z.eqb Z.eq_dec];
      repeat (destruct (Z.eq_dec _ _); try lia);
      rewrite ?Nat2Z.inj_succ; cbn; lia.
Qed.

Lemma acc_is_accidental acc : Forall (fun x => x = sharp \/ x = flat) acc ->
  Forall (fun c => is_accidental c = true) acc.
Proof. apply Forall_impl. intros c [-> | ->]; reflexivity. Qed.

Lemma nd_none c : 0 <= c < 128 -> ~ (48 <= c <= 57) -> nd c = None.
Proof.
  intros H H'. rewrite (proj1 Hnd) by assumption.
  replace ((48 <=? c) && (c <=? 57)) with false by lia. reflexivity.
Qed.

Lemma nd_not_acc c v : nd c = Some v -> is_accidental c = false.
Proof.
  intros H. unfold is_accidental.
  destruct (c =? 35) eqn:E1; [rewrite nd_none in H by lia; discriminate|].
  destruct (c =? 98) eqn:E2; [rewrite nd_none in H by lia; discriminate|reflexivity].
Qed.

Lemma letters_letter c base : In (c, base) letters ->
  is_letter c = true /\ dict_get tone_mapping c = Some base.
Proof.
  unfold letters. cbn [In].
  intros H. repeat destruct H as [H|H]; try contradiction; injection H as <- <-;
    split; reflexivity.
Qed.

(** The rest of the octave text after the sign; the text after is arbitrary if it does not start
    with a digit. *)
Definition stops (r : list Z) : Prop :=
  match r with [] => True | c :: _ => is_digit nd c = false end.

Lemma no_dash (r1 : pystr) : (forall r2, r1 <> 45 :: r2) ->
  match r1 with 45 :: r2 => (true, r2) | _ => (false, r1) end = (false, r1).
Proof.
  intros H. destruct r1 as [|c r2]; [reflexivity|].
  destruct (Z.eq_dec c 45) as [->|Hc]; [exfalso; eapply H; reflexivity|].
  destruct c as [|q|q]; try reflexivity.
  do 6 (destruct q as [q|q|]; try reflexivity; try (exfalso; apply Hc; reflexivity)).
Qed.

Lemma from_notation_text s0 p : notation_text nd s0 p -> from_notation nd s0 = Ok (mkTone p).
Proof.
  intros H. destruct H as [c base acc oct o Hc Hacc Hoct]. unfold from_notation, notation_match.
  destruct (letters_letter c base Hc) as [Hl Hm]. rewrite Hl.
  assert (Hs : span is_accidental (acc ++ oct) = (acc, oct)).
  { apply span_app; [apply acc_is_accidental; assumption|].
    destruct Hoct as [|s ds Hne HF|s ds Hne HF]; [exact I| |reflexivity].
    destruct HF as [|c' d s' ds' Hc' HF]; [exact I|]. eapply nd_not_acc; eassumption. }
  rewrite Hs. destruct Hoct as [|s ds Hne HF|s ds Hne HF].
  - cbn [span]. rewrite Hm, acc_fold by assumption. unfold tone_new. do 2 f_equal. lia.
  - rewrite (no_dash s).
    2:{ intros r2 ->. inversion HF as [|x1 x2 x3 x4 Hx]; subst. rewrite nd_none in Hx by lia. discriminate. }
    assert (Hsp : span (is_digit nd) s = (s, [])).
    { rewrite <- (app_nil_r s) at 1. apply span_app; [eapply digits_is_digit; eassumption|exact I]. }
    rewrite Hsp. rewrite Hm, acc_fold by assumption.
    destruct s as [|c' s]; [inversion HF; subst; contradiction|].
    rewrite (int_of_digits_val _ _ HF). unfold tone_new. do 2 f_equal. lia.
  - unfold minus. 
    assert (Hsp : span (is_digit nd) s = (s, [])).
    { rewrite <- (app_nil_r s) at 1. apply span_app; [eapply digits_is_digit; eassumption|exact I]. }
    rewrite Hsp. rewrite Hm, acc_fold by assumption.
    destruct s as [|c' s]; [inversion HF; subst; contradiction|].
    rewrite (int_of_digits_val _ _ HF). unfold tone_new. do 2 f_equal. lia.
Qed.

Lemma is_letter_letters c : is_letter c = true -> exists base, In (c, base) letters.
Proof.
  unfold is_letter, letters. intros H.
  assert (Hc : c = 65 \/ c = 66 \/ c = 67 \/ c = 68 \/ c = 69 \/ c = 70 \/ c = 71) by lia.
  cbn [In].
  repeat destruct Hc as [-> | Hc]; [exists 9|exists 11|exists 0|exists 2|exists 4|exists 5|subst; exists 7];
    tauto.
Qed.

Lemma digits_Forall2 s : Forall (fun c => is_digit nd c = true) s ->
  exists ds, Forall2 (fun c d => nd c = Some d) s ds.
Proof.
  induction 1 as [|c s Hc HF (ds & IH)]; [exists []; constructor|].
  unfold is_digit in Hc. destruct (nd c) as [v|] eqn:E; [|discriminate].
  exists (v :: ds). constructor; assumption.
Qed.

Lemma dashb (r1 : list Z) : {r2 | r1 = 45 :: r2} + {forall r2, r1 <> 45 :: r2}.
Proof.
  destruct r1 as [|c r2]; [right; discriminate|].
  destruct (Z.eq_dec c 45) as [->|H]; [left; exists r2; reflexivity|].
  right. intros r3 E. congruence.
Qed.

(** A prefix of characters satisfying [f] is no longer than the greedy one. *)
Lemma greedy_longest (f : Z -> bool) : forall p r s x,
  Forall (fun c => f c = true) s -> s ++ x = p ++ r ->
  match r with [] => True | c :: _ => f c = false end -> (length s <= length p)%nat.
Proof.
  induction p as [|a p IH]; intros r s x Hs E Hr.
  - destruct s as [|b s]; [cbn; lia|]. cbn in E. subst r. inversion Hs; congruence.
  - destruct s as [|b s]; [cbn; lia|]. cbn in E. injection E as -> E.
    inversion Hs; subst. cbn [length]. apply le_n_S. eapply IH; eassumption.
Qed.

(** Every string that starts with a letter is accepted, with the meaning of its longest prefix
    that is a notation. *)
Lemma from_notation_prefix c r : is_letter c = true ->
  exists s rest p, c :: r = s ++ rest /\ notation_text nd s p /\
    (forall s' rest' p', c :: r = s' ++ rest' -> notation_text nd s' p' -> (length s' <= length s)%nat) /\
    from_notation nd (c :: r) = Ok (mkTone p).
Proof.
  intros Hl. destruct (is_letter_letters c Hl) as (base & Hb).
  destruct (letters_letter c base Hb) as [_ Hm].
  destruct (span_spec is_accidental r) as (acc & r1 & Er & Es & Hacc & Hr1).
  assert (Hacc' : Forall (fun x => x = sharp \/ x = flat) acc).
  { eapply Forall_impl; [|exact Hacc]. unfold is_accidental, sharp, flat. cbv beta. lia. }
  unfold from_notation, notation_match. rewrite Hl, Es.
  (* any notation that is a prefix *)
  assert (Hlong : forall oct, (forall oct' rest' o', oct' ++ rest' = r1 -> octave_text nd oct' o' ->
                    (length oct' <= length oct)%nat) ->
            forall s' rest' p', c :: r = s' ++ rest' -> notation_text nd s' p' ->
            (length s' <= length (c :: acc ++ oct))%nat).
  { intros oct Hoct s' rest' p' E H. destruct H as [c' base' acc' oct' o' Hc' Ha' Ho'].
    cbn [app] in E. injection E as <- E. rewrite <- app_assoc, Er in E. symmetry in E.
    pose proof (greedy_longest is_accidental _ _ _ _ (acc_is_accidental _ Ha') E Hr1) as Hle.
    cbn [length]. apply le_n_S. rewrite !app_length.
    destruct (Nat.eq_dec (length acc') (length acc)) as [Heq|Hneq].
    - assert (acc' = acc /\ oct' ++ rest' = r1) as [-> E2].
      { apply app_eq_app in E. destruct E as (l & [[E1 E2]|[E1 E2]]).
        - subst acc'. rewrite app_length in Heq. destruct l as [|z l]; [|cbn in Heq; lia].
          rewrite app_nil_r. split; [reflexivity|]. symmetry. exact E2.
        - subst acc. rewrite app_length in Heq. destruct l as [|z l]; [|cbn in Heq; lia].
          rewrite app_nil_r. split; [reflexivity|]. exact E2. }
      pose proof (Hoct _ _ _ E2 Ho'). lia.
    - assert (oct' = []) as ->; [|cbn; lia].
      apply app_eq_app in E. destruct E as (l & [[E1 E2]|[E1 E2]]).
      + subst acc'. rewrite app_length in Hle, Hneq. lia.
      + destruct l as [|z l]; [subst acc; rewrite app_nil_r in Hneq; lia|].
        assert (Hz : is_accidental z = true).
        { subst acc. apply Forall_app in Hacc. destruct Hacc as [_ Hz]. inversion Hz; assumption. }
        destruct Ho' as [|s ds Hne HF|s ds Hne HF].
        * reflexivity.
        * destruct HF as [|x y s ds Hx HF]; [contradiction|]. cbn in E2. injection E2 as -> _.
          rewrite (nd_not_acc _ _ Hx) in Hz. discriminate.
        * cbn in E2. injection E2 as <- _. discriminate. }
  destruct (dashb r1) as [[r2 E2]|Hnd2].
  - subst r1. destruct (span_spec (is_digit nd) r2) as (ds & r3 & E3 & Es3 & Hd & Hr3).
    assert (Hd' : forall oct' rest' o', oct' ++ rest' = 45 :: r2 -> octave_text nd oct' o' ->
              (length oct' <= match ds with [] => 0 | _ => S (length ds) end)%nat).
    { intros oct' rest' o' E H. destruct H as [|s vs Hne HF|s vs Hne HF].
      - cbn; lia.
      - destruct HF as [|x y s vs Hx HF]; [contradiction|]. cbn in E. injection E as -> _.
        rewrite nd_none in Hx by lia. discriminate.
      - cbn in E. injection E as E. rewrite E3 in E.
        pose proof (greedy_longest _ _ _ _ _ (digits_is_digit _ _ HF) E Hr3) as Hle.
        destruct ds as [|d0 ds]; [|cbn [length] in *; lia].
        destruct HF; [contradiction|cbn in Hle; lia]. }
    rewrite Es3, Hm. rewrite acc_fold by assumption.
    destruct ds as [|d0 ds0].
    + exists (c :: acc ++ []), (45 :: r2). eexists. split; [rewrite Er, app_nil_r; reflexivity|].
      split; [apply notation_intro with (base := base) (o := 0); [assumption..|constructor]|].
      split; [apply Hlong; exact Hd'|].
      unfold tone_new. do 2 f_equal. lia.
    + destruct (digits_Forall2 _ Hd) as (vs & HF).
      exists (c :: acc ++ minus :: d0 :: ds0), r3. eexists.
      split; [rewrite Er, E3; cbn [app]; rewrite <- app_assoc; reflexivity|].
      split; [apply notation_intro with (base := base); [assumption..|apply octave_neg; [|exact HF]]|].
      { inversion HF; discriminate. }
      split; [apply Hlong; exact Hd'|].
      rewrite (int_of_digits_val _ _ HF). unfold tone_new. do 2 f_equal. lia.
  - rewrite (no_dash r1 Hnd2).
    destruct (span_spec (is_digit nd) r1) as (ds & r3 & E3 & Es3 & Hd & Hr3).
    assert (Hd' : forall oct' rest' o', oct' ++ rest' = r1 -> octave_text nd oct' o' ->
              (length oct' <= length ds)%nat).
    { intros oct' rest' o' E H. destruct H as [|s vs Hne HF|s vs Hne HF].
      - cbn; lia.
      - rewrite E3 in E. exact (greedy_longest _ _ _ _ _ (digits_is_digit _ _ HF) E Hr3).
      - exfalso. eapply Hnd2. symmetry. exact E. }
    rewrite Es3, Hm. rewrite acc_fold by assumption.
    destruct ds as [|d0 ds0].
    + exists (c :: acc ++ []), r1. eexists. split; [rewrite Er, app_nil_r; reflexivity|].
      split; [apply notation_intro with (base := base) (o := 0); [assumption..|constructor]|].
      split; [apply Hlong; exact Hd'|].
      unfold tone_new. do 2 f_equal. lia.
    + destruct (digits_Forall2 _ Hd) as (vs & HF).
      exists (c :: acc ++ d0 :: ds0), r3. eexists.
      split; [rewrite Er, E3; cbn [app]; rewrite <- app_assoc; reflexivity|].
      split; [apply notation_intro with (base := base); [assumption..|apply octave_pos; [|exact HF]]|].
      { inversion HF; discriminate. }
      split; [apply Hlong; exact Hd'|].
      rewrite (int_of_digits_val _ _ HF). unfold tone_new. do 2 f_equal. lia.
Qed.

Lemma from_notation_no_letter s :
  match s with [] => True | c :: _ => is_letter c = false end ->
  from_notation nd s = Err ValueError.
Proof.
  destruct s as [|c r]; [reflexivity|]. intros H.
  unfold from_notation, notation_match. rewrite H. reflexivity.
Qed.
End ND.

(** to_notation: a letter, perhaps one accidental, and the octave. *)
Lemma to_notation_text nd t flag : digit_table nd ->
  exists c acc, to_notation t flag = Ok (c :: acc ++ str_of_Z (pitch t / 12)) /\
    (acc = [] \/ acc = [sharp] \/ acc = [flat]) /\
    notation_text nd (c :: acc ++ str_of_Z (pitch t / 12)) (pitch t).
Proof.
  intros Hnd. set (o := pitch t / 12).
  pose proof (Z.mod_pos_bound (pitch t) 12 ltac:(lia)) as Hm.
  pose proof (Z.div_mod (pitch t) 12 ltac:(lia)) as Hp. fold o in Hp.
  assert (Hin : forall c base acc, In (c, base) letters -> Forall (fun x => x = sharp \/ x = flat) acc ->
            pitch t mod 12 = base + occurrences sharp acc - occurrences flat acc ->
            notation_text nd (c :: acc ++ str_of_Z o) (pitch t)).
  { intros c base acc Hc Ha He.
    replace (pitch t) with (12 * o + base + occurrences sharp acc - occurrences flat acc) by lia.
    apply notation_intro; [assumption..|apply str_octave; assumption]. }
  assert (F1 : Forall (fun x => x = sharp \/ x = flat) [sharp]) by (repeat constructor).
  assert (F2 : Forall (fun x => x = sharp \/ x = flat) [flat]) by (repeat constructor; right; reflexivity).
  assert (F0 : Forall (fun x => x = sharp \/ x = flat) []) by constructor.
  unfold to_notation. fold o.
  assert (Hc : exists r, pitch t mod 12 = r /\ In r [0;1;2;3;4;5;6;7;8;9;10;11])
    by (eexists; split; [reflexivity|cbn [In]; lia]).
  destruct Hc as (r & Er & Hr). rewrite Er in *. unfold letters in Hin.
  cbn [In] in Hr.
  repeat (destruct Hr as [<- | Hr]; [
    cbn [dict_get dict_index reverse_tone_mapping tone_mapping map fst snd Z.eqb Z.add Z.sub Z.opp
         Z.pos_sub Pos.eqb Pos.add Pos.succ Pos.pred_double bind];
    first
    [ eexists _, []; split; [reflexivity|]; split; [auto|]; eapply Hin; [cbn; tauto|exact F0|reflexivity]
    | destruct flag;
      [ eexists _, [flat]; split; [reflexivity|]; split; [auto|];
        eapply Hin; [cbn; tauto|exact F2|reflexivity]
      | eexists _, [sharp]; split; [reflexivity|]; split; [auto|];
        eapply Hin; [cbn; tauto|exact F1|reflexivity] ] ] |]).
  contradiction.
Qed.
