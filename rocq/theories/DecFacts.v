(** Decimal printing and parsing. *)
From Coq Require Import ZArith Lia List Bool ZifyBool.
From Verif Require Import Py Tone SpecBase.
Import ListNotations.
Open Scope Z_scope.
Ltac Zify.zify_post_hook ::= Z.div_mod_to_equations.

Definition digits_ok (ds : list Z) : Prop := Forall (fun d => 0 <= d <= 9) ds.

Lemma decimal_app ds es : decimal (ds ++ es) = decimal ds * 10 ^ Z.of_nat (length es) + decimal es.
Proof.
  induction ds as [|d ds IH]; [reflexivity|].
  cbn [decimal app]. rewrite IH, app_length, Nat2Z.inj_add, Z.pow_add_r by lia. ring.
Qed.

(** What [dec_digits] produces. *)
Lemma dec_digits_spec : forall fuel n acc, 0 <= n -> n < 10 ^ Z.of_nat (S fuel) ->
  exists ds, dec_digits (S fuel) n acc = map (fun d => 48 + d) ds ++ acc /\
    ds <> [] /\ digits_ok ds /\ decimal ds = n /\
    (hd 0 ds <> 0 \/ ds = [0]).
Proof.
  induction fuel as [|fuel IH]; intros n acc Hn Hlt.
  - change (10 ^ Z.of_nat 1) with 10 in Hlt. exists [n mod 10].
    cbn [dec_digits]. replace (n / 10 =? 0) with true by lia.
    split; [reflexivity|]. split; [discriminate|]. split; [constructor; [lia|constructor]|].
    cbn [decimal length hd]. change (10 ^ Z.of_nat 0) with 1.
    split; [lia|]. destruct (Z.eq_dec (n mod 10) 0) as [->|E]; [right; reflexivity|left; lia].
  - cbn [dec_digits]. destruct (n / 10 =? 0) eqn:E.
    + exists [n mod 10]. split; [reflexivity|]. split; [discriminate|].
      split; [constructor; [lia|constructor]|].
      cbn [decimal length hd]. change (10 ^ Z.of_nat 0) with 1.
      split; [lia|]. destruct (Z.eq_dec (n mod 10) 0) as [->|E']; [right; reflexivity|left; lia].
    + rewrite Nat2Z.inj_succ, Z.pow_succ_r in Hlt by lia.
      destruct (IH (n / 10) ((48 + n mod 10) :: acc)) as (ds & Hd & Hne & Hok & Hv & Hh); [lia|lia|].
      cbn [dec_digits] in Hd. exists (ds ++ [n mod 10]).
      split; [|split; [|split; [|split]]].
      * rewrite Hd, map_app, <- app_assoc. reflexivity.
      * destruct ds; discriminate.
      * apply Forall_app; split; [assumption|constructor; [lia|constructor]].
      * rewrite decimal_app, Hv. cbn [decimal length]. change (10 ^ Z.of_nat 1) with 10.
        change (10 ^ Z.of_nat 0) with 1. lia.
      * left. destruct Hh as [Hh| ->].
        -- destruct ds as [|d ds]; [contradiction|]. exact Hh.
        -- cbn in Hv. lia.
Qed.

Lemma log2_fuel n : 0 <= n -> n < 10 ^ Z.of_nat (S (Z.to_nat (Z.log2 n))).
Proof.
  intros Hn. rewrite Nat2Z.inj_succ, Z2Nat.id by apply Z.log2_nonneg.
  destruct (Z.eq_dec n 0) as [->|Hne]; [reflexivity|].
  apply Z.lt_le_trans with (2 ^ Z.succ (Z.log2 n)); [apply Z.log2_spec; lia|].
  apply Z.pow_le_mono_l. lia.
Qed.

(** [str(n)]: sign and digits. *)
Lemma str_of_Z_spec n : exists ds, ds <> [] /\ digits_ok ds /\ decimal ds = Z.abs n /\
  (hd 0 ds <> 0 \/ ds = [0]) /\
  str_of_Z n = (if n <? 0 then [45] else []) ++ map (fun d => 48 + d) ds.
Proof.
  unfold str_of_Z.
  destruct (dec_digits_spec _ (Z.abs n) [] (Z.abs_nonneg n) (log2_fuel _ (Z.abs_nonneg n)))
    as (ds & Hd & Hne & Hok & Hv & Hh).
  exists ds. repeat (split; [assumption|]). rewrite Hd, app_nil_r.
  destruct (n <? 0); reflexivity.
Qed.

Lemma digits_chars nd ds : digit_table nd -> digits_ok ds ->
  Forall2 (fun c d => nd c = Some d) (map (fun d => 48 + d) ds) ds.
Proof.
  intros [Hnd _] Hok. induction Hok as [|d ds Hd Hok IH]; [constructor|].
  cbn [map]. constructor; [|assumption]. rewrite Hnd by lia.
  replace ((48 <=? 48 + d) && (48 + d <=? 57))%bool with true by lia. f_equal. lia.
Qed.

(** [str(n)] is a way of writing the octave n. *)
Lemma str_octave nd n : digit_table nd -> octave_text nd (str_of_Z n) n.
Proof.
  intros Hnd. destruct (str_of_Z_spec n) as (ds & Hne & Hok & Hv & _ & ->).
  pose proof (digits_chars nd ds Hnd Hok) as HF.
  destruct (n <? 0) eqn:E; cbn [app].
  - replace n with (- decimal ds) at 1 by lia. apply octave_neg; assumption.
  - replace n with (decimal ds) at 1 by lia. apply octave_pos; assumption.
Qed.

Lemma Forall2_nd_fun (nd : Z -> option Z) s ds es : Forall2 (fun c d => nd c = Some d) s ds ->
  Forall2 (fun c d => nd c = Some d) s es -> ds = es.
Proof.
  intros H. revert es. induction H; intros es H'; inversion H'; subst; [reflexivity|].
  f_equal; [congruence|auto].
Qed.

(** A text denotes one octave only. *)
Lemma octave_text_fun nd s a b : digit_table nd ->
  octave_text nd s a -> octave_text nd s b -> a = b.
Proof.
  intros Hnd Ha Hb.
  assert (Hm : nd minus = None) by (rewrite (proj1 Hnd) by (unfold minus; lia); reflexivity).
  destruct Ha as [|s ds Hne HF|s ds Hne HF]; inversion Hb as [E|s' es Hne' HF' E|s' es Hne' HF' E]; subst.
  - reflexivity.
  - inversion HF'; subst. contradiction.
  - inversion HF; subst. contradiction.
  - f_equal. eapply Forall2_nd_fun; eassumption.
  - inversion HF; subst. congruence.
  - inversion HF'; subst. congruence.
  - f_equal. f_equal. eapply Forall2_nd_fun; eassumption.
Qed.

Lemma ascii_digit_table : digit_table ascii_digit.
Proof.
  split.
  - reflexivity.
  - unfold ascii_digit. intros c v. destruct (_ && _)%bool eqn:E; [|discriminate].
    intros H; injection H as <-. lia.
Qed.

Lemma str_of_Z_inj a b : str_of_Z a = str_of_Z b -> a = b.
Proof.
  intros H. eapply octave_text_fun; [apply ascii_digit_table|apply str_octave, ascii_digit_table|].
  rewrite H. apply str_octave, ascii_digit_table.
Qed.

(** Characters of [str(n)]. *)
Lemma str_of_Z_chars n : Forall (fun c => c = 45 \/ 48 <= c <= 57) (str_of_Z n).
Proof.
  destruct (str_of_Z_spec n) as (ds & _ & Hok & _ & _ & ->).
  apply Forall_app; split.
  - destruct (n <? 0); constructor; auto.
  - apply Forall_map. eapply Forall_impl; [|exact Hok]. cbv beta. lia.
Qed.
