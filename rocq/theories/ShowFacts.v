(** Reading printed notes and tracks. *)
From Coq Require Import ZArith QArith Qpower Qabs Lia List Bool String Permutation ZifyBool.
From Verif Require Import Py PyFloat PySort Signature Tone Note Track Show SpecBase ShowSpec DecFacts FloatFacts SigFacts SigProps NoteProps.
Import ListNotations.
Open Scope Z_scope.

Notation chars := (map (fun d => 48 + d)).

(** What comes next is not a digit. *)
Definition stops (s : pystr) : Prop := match s with c :: _ => is_digit c = false | [] => True end.

Lemma digit_run_spec : forall ds v n s, digits_ok ds -> stops s ->
  digit_run v n (chars ds ++ s) = (v * 10 ^ Z.of_nat (List.length ds) + decimal ds, (n + List.length ds)%nat, s).
Proof.
  induction ds as [|d ds IH]; intros v n s Hd Hs.
  - cbn [map app List.length decimal]. change (10 ^ Z.of_nat 0) with 1.
    destruct s as [|c s]; cbn [digit_run]; [|cbn in Hs; rewrite Hs]; (f_equal; f_equal; [ring|lia]).
  - inversion Hd as [|? ? H1 H2]; subst. cbn [map app digit_run decimal List.length]. unfold is_digit.
    replace ((48 <=? 48 + d) && (48 + d <=? 57))%bool with true by lia. rewrite (IH _ _ _ H2 Hs).
    replace (48 + d - 48) with d by lia. rewrite Nat2Z.inj_succ, Z.pow_succ_r by lia. f_equal; f_equal; [ring|lia].
Qed.

Lemma skip_digit ds s : ds <> [] -> digits_ok ds -> skip (chars ds ++ s) = chars ds ++ s.
Proof.
  intros H0 H. destruct ds as [|d ds]; [congruence|]. inversion H; subst. cbn [map app].
  assert (E : 48 + d <> 32) by lia. destruct (48 + d) as [|p|p]; try lia; try reflexivity.
  cbn [skip]. do 6 (destruct p as [p|p|]; try reflexivity; try (exfalso; apply E; reflexivity)).
Qed.

Lemma hd_chars ds s : ds <> [] -> hd 0 (chars ds ++ s) = 48 + hd 0 ds.
Proof. destruct ds; [congruence|reflexivity]. Qed.

Lemma sign_digit ds s : ds <> [] -> digits_ok ds -> sign_of (chars ds ++ s) = (false, chars ds ++ s).
Proof.
  intros H0 H. destruct ds as [|d ds]; [congruence|]. inversion H; subst. cbn [map app].
  assert (E : 48 + d <> 45) by lia. unfold sign_of. destruct (48 + d) as [|p|p]; try lia; try reflexivity.
  do 6 (destruct p as [p|p|]; try reflexivity; try (exfalso; apply E; reflexivity)).
Qed.

Lemma p_int_spec z s : stops s -> p_int (str_of_Z z ++ s) = Some (z, s).
Proof.
  intros Hs. destruct (str_of_Z_spec z) as (ds & H0 & Hd & Hv & Hh & ->). unfold p_int.
  assert (HR : digit_run 0 0 (chars ds ++ s) = (Z.abs z, List.length ds, s)).
  { rewrite digit_run_spec by assumption. rewrite Hv. reflexivity. }
  assert (HL : exists n, List.length ds = S n) by (destruct ds as [|d ds]; [congruence|eexists; reflexivity]).
  destruct HL as [n HL]. assert (HZ : (Nat.ltb 0 n && (hd 0 (chars ds ++ s) =? 48))%bool = false).
  { rewrite hd_chars by exact H0. destruct Hh as [Hh| ->]; [|cbn in HL; injection HL as <-; reflexivity].
    inversion Hd; subst; [congruence|]. cbn [hd] in *. rewrite andb_false_iff. right. lia. }
  destruct (Z.ltb_spec z 0).
  - cbn [app skip]. cbn [sign_of]. rewrite HR, HL, HZ. do 2 f_equal. lia.
  - cbn [app]. rewrite skip_digit, sign_digit, HR, HL, HZ by assumption. do 2 f_equal. lia.
Qed.

Lemma p_int_space z s : stops s -> p_int (32 :: str_of_Z z ++ s) = Some (z, s).
Proof. intros H. rewrite <- (p_int_spec z s H). reflexivity. Qed.

Ltac text :=
  repeat match goal with |- context [lit ?w] => let x := eval vm_compute in (lit w) in change (lit w) with x end;
  repeat rewrite <- app_assoc; cbn [app].
Ltac token := unfold tok at 1; text; cbn [skip after Z.eqb Pos.eqb].

Lemma p_pair_spec a b s :
  p_pair (lit "(" ++ str_of_Z a ++ lit ", " ++ str_of_Z b ++ lit ")" ++ s) = Some ((a, b), s).
Proof.
  text. unfold p_pair. token.
  rewrite p_int_spec by reflexivity. token.
  rewrite p_int_space by reflexivity. token. reflexivity.
Qed.

(** ** Floating point literals *)

Lemma zeros_chars n : zeros n = chars (repeat 0 (Z.to_nat n)).
Proof. unfold zeros. induction (Z.to_nat n) as [|k IH]; [reflexivity|]. cbn [repeat map]. rewrite <- IH. reflexivity. Qed.

Lemma zeros_digits k : digits_ok (repeat 0 k).
Proof. apply Forall_forall. intros x H. apply repeat_spec in H. subst. lia. Qed.

Lemma zeros_value k : decimal (repeat 0 k) = 0.
Proof. induction k; [reflexivity|]. cbn [repeat decimal]. lia. Qed.

Lemma digits_app a b : digits_ok a -> digits_ok b -> digits_ok (a ++ b).
Proof. intros. apply Forall_app. split; assumption. Qed.

Lemma ten_neq : ~ (10 == 0)%Q.
Proof. discriminate. Qed.

Lemma inject_pow10 k : 0 <= k -> (inject_Z (10 ^ k) == 10 ^ k)%Q.
Proof. intros H. change 10%Q with (inject_Z 10). apply Zpower_Qpower. exact H. Qed.

Lemma digits_firstn k ds : digits_ok ds -> digits_ok (firstn k ds).
Proof. intros H. rewrite <- (firstn_skipn k ds) in H. apply Forall_app in H. apply H. Qed.

Lemma digits_skipn k ds : digits_ok ds -> digits_ok (skipn k ds).
Proof. intros H. rewrite <- (firstn_skipn k ds) in H. apply Forall_app in H. apply H. Qed.

Lemma same_literal (a a' b b' : Z) (r : pystr) : a = a' -> b = b' -> Some (false, a, b, r) = Some (false, a', b', r).
Proof. intros -> ->. reflexivity. Qed.

Lemma p_float_spec D j s : 0 < D ->
  exists M E, p_float (repr_decimal D j ++ 41 :: s) = Some (false, M, E, 41 :: s) /\
    (inject_Z M * 10 ^ E == inject_Z D * 10 ^ j)%Q.
Proof.
  intros HD. unfold repr_decimal. destruct (str_of_Z_spec D) as (ds & H0 & Hd & Hv & Hh & ->).
  replace (D <? 0) with false by lia. cbn [app]. rewrite Z.abs_eq in Hv by lia. rewrite map_length.
  set (n := List.length ds). set (p := Z.of_nat n + j). cbv zeta.
  assert (Hn : (0 < n)%nat) by (subst n; destruct ds; [congruence|cbn; lia]).
  assert (HR : forall es v k r, digits_ok es -> stops r ->
    digit_run v k (chars es ++ r) = (v * 10 ^ Z.of_nat (List.length es) + decimal es, (k + List.length es)%nat, r))
    by (intros; apply digit_run_spec; assumption).
  destruct (((-4 <? p) && (p <=? 16))%bool) eqn:Ep; [destruct (Z.leb_spec p 0) as [Hp|Hp]; [|destruct (Z.leb_spec (Z.of_nat n) p) as [Hnp|Hnp]]|].
  - exists D, j. split; [|reflexivity]. unfold p_float. text. cbn [skip sign_of].
    change (48 :: 46 :: ?x) with (chars [0] ++ 46 :: x). rewrite HR; [|repeat constructor; lia|reflexivity].
    cbn [List.length Nat.add decimal]. change (0 * 10 ^ Z.of_nat 1 + (0 * 10 ^ Z.of_nat 0 + 0)) with 0. cbv beta iota.
    rewrite zeros_chars. rewrite app_assoc, <- map_app. rewrite HR; [|apply digits_app; [apply zeros_digits|exact Hd]|reflexivity].
    cbv beta iota. rewrite decimal_app, zeros_value, Hv, app_length, repeat_length. fold n. apply same_literal; lia.
  - exists (10 * (D * 10 ^ j)), (-1). split.
    + unfold p_float. text. rewrite zeros_chars, app_assoc, <- map_app.
      assert (HA : digits_ok (ds ++ repeat 0 (Z.to_nat (p - Z.of_nat n)))) by (apply digits_app; [exact Hd|apply zeros_digits]).
      assert (HB : ds ++ repeat 0 (Z.to_nat (p - Z.of_nat n)) <> []) by (destruct ds; [congruence|discriminate]).
      rewrite skip_digit, sign_digit, HR by (assumption || reflexivity).
      rewrite app_length, repeat_length. fold n. destruct (0 + (n + _))%nat eqn:EL; [lia|].
      change (48 :: 41 :: s) with (chars [0] ++ 41 :: s). rewrite HR; [|repeat constructor; lia|reflexivity].
      cbn [List.length Nat.add decimal]. change (10 ^ Z.of_nat 0) with 1. change (10 ^ Z.of_nat 1) with 10.
      rewrite decimal_app, zeros_value, Hv, repeat_length. replace (Z.of_nat (Z.to_nat (p - Z.of_nat n))) with j by lia.
      apply same_literal; lia.
    + rewrite !inject_Z_mult, inject_pow10 by lia. change (10 ^ (-1))%Q with (/ 10)%Q. field.
  - exists D, j. split; [|reflexivity]. unfold p_float. text. rewrite firstn_map, skipn_map.
    assert (HF : digits_ok (firstn (Z.to_nat p) ds)) by (apply digits_firstn; exact Hd).
    assert (HS : digits_ok (skipn (Z.to_nat p) ds)) by (apply digits_skipn; exact Hd).
    assert (LF : List.length (firstn (Z.to_nat p) ds) = Z.to_nat p) by (apply firstn_length_le; fold n; lia).
    assert (LS : List.length (skipn (Z.to_nat p) ds) = (n - Z.to_nat p)%nat) by (apply skipn_length).
    assert (HB : firstn (Z.to_nat p) ds <> []) by (intros E; rewrite E in LF; cbn in LF; lia).
    rewrite skip_digit, sign_digit, HR by (assumption || reflexivity).
    rewrite LF. destruct (0 + Z.to_nat p)%nat eqn:EL; [lia|]. rewrite HR by (assumption || reflexivity).
    rewrite LS. cbv beta iota. pose proof (decimal_app (firstn (Z.to_nat p) ds) (skipn (Z.to_nat p) ds)) as HV.
    rewrite firstn_skipn, LS, Hv in HV. rewrite HV. apply same_literal; lia.
  - exists D, j. split; [|reflexivity]. unfold p_float.
    set (sg := (if p - 1 <? 0 then 45 else 43)).
    replace (lit (if p - 1 <? 0 then "-" else "+")) with [sg] by (subst sg; destruct (p - 1 <? 0); reflexivity).
    text.
    destruct (str_of_Z_spec (Z.abs (p - 1))) as (es & G0 & Gd & Gv & _ & ->).
    replace (Z.abs (p - 1) <? 0) with false by lia. cbn [app]. rewrite Z.abs_eq in Gv by lia.
    assert (HX : exists zs, digits_ok zs /\ zs <> [] /\ decimal zs = Z.abs (p - 1) /\
      (if Z.abs (p - 1) <? 10 then [48] else []) ++ chars es ++ 41 :: s = chars zs ++ 41 :: s).
    { destruct (Z.abs (p - 1) <? 10); [exists (0 :: es)|exists es]; repeat split; try assumption; try discriminate.
      constructor; [lia|exact Gd]. }
    destruct HX as (zs & Z0 & Z1 & Z2 & Z3).
    assert (HF : digits_ok (firstn 1 ds)) by (apply digits_firstn; exact Hd).
    assert (HS : digits_ok (skipn 1 ds)) by (apply digits_skipn; exact Hd).
    assert (LF : List.length (firstn 1 ds) = 1%nat) by (apply firstn_length_le; fold n; lia).
    assert (LS : List.length (skipn 1 ds) = (n - 1)%nat) by (apply skipn_length).
    assert (HB : firstn 1 ds <> []) by (intros E; rewrite E in LF; cbn in LF; lia).
    pose proof (decimal_app (firstn 1 ds) (skipn 1 ds)) as HV. rewrite firstn_skipn, LS, Hv in HV.
    assert (HE : forall (v : Z) k (point : bool), (match digit_run 0 0 (chars zs ++ 41 :: s) with
                 | (x, O, _) => None
                 | (x, S _, r) => Some (false, v, (if sg =? 45 then - x else x) - Z.of_nat k, r)
                 end) = Some (false, v, p - 1 - Z.of_nat k, 41 :: s) /\ ((sg =? 43) || (sg =? 45))%bool = true /\ point = (point : bool)).
    { intros v k pt. rewrite HR by (assumption || reflexivity). destruct zs as [|z zs]; [congruence|]. cbn [List.length Nat.add].
      rewrite Z2. subst sg. destruct (Z.ltb_spec (p - 1) 0); cbn [Z.eqb Pos.eqb orb]; repeat split; apply same_literal; lia. }
    cbn [app]. replace (if Z.abs (p - 1) <? 10 then lit "0" else []) with (if Z.abs (p - 1) <? 10 then [48] else []) by reflexivity.
    rewrite <- ?app_assoc. rewrite ?Z3. rewrite firstn_map, skipn_map.
    rewrite skip_digit, sign_digit, HR; try assumption; [|destruct (1 <? Z.of_nat n); reflexivity].
    rewrite LF. cbn [Nat.add]. change (10 ^ Z.of_nat 1) with 10. rewrite Z.mul_0_l, Z.add_0_l.
    destruct (Z.ltb_spec 1 (Z.of_nat n)).
    + text. rewrite HR by (assumption || reflexivity). rewrite LS. cbv beta iota.
      destruct (HE (decimal (firstn 1 ds) * 10 ^ Z.of_nat (n - 1) + decimal (skipn 1 ds)) (0 + (n - 1))%nat true) as (E1 & E2 & _).
      rewrite E2, E1, <- HV. apply same_literal; lia.
    + cbn [app]. destruct (HE (decimal (firstn 1 ds)) 0%nat true) as (E1 & E2 & _).
      rewrite E2, E1. replace (n - 1)%nat with 0%nat in * by lia.
      assert (ES : skipn 1 ds = []) by (destruct (skipn 1 ds); [reflexivity|discriminate]).
      rewrite ES in HV. cbn [decimal] in HV. change (10 ^ Z.of_nat 0) with 1 in HV.
      apply same_literal; lia.
Qed.

(** ** Floats are determined by their values *)

Lemma fval_inj v w : is_float v = true -> finite v -> is_float w = true -> finite w -> (fval v == fval w)%Q ->
  v = w \/ (exists a, v = S754_zero a) /\ (exists b, w = S754_zero b).
Proof.
  intros Hv Fv Hw Fw E. rewrite (scaled_val v Hv), (scaled_val w Hw) in E.
  assert (ES : scaled v = scaled w) by (unfold Qeq in E; cbn [Qnum Qden] in E; pose proof (Pos2Z.is_pos big); nia).
  assert (Hpos : forall m e, bounded prec emax m e = true -> 0 < Z.pos m * 2 ^ (e + 1074)).
  { intros m e H. apply bounded_spec in H. pose proof (Z.pow_pos_nonneg 2 (e + 1074)). lia. }
  destruct v as [a|a| |a m e], w as [b|b| |b m' e']; try contradiction; cbn [scaled] in ES.
  - right. split; eexists; reflexivity.
  - pose proof (Hpos _ _ Hw). destruct b; lia.
  - pose proof (Hpos _ _ Hv). destruct a; lia.
  - pose proof (Hpos _ _ Hv). pose proof (Hpos _ _ Hw). left.
    assert (EA : Z.pos m * 2 ^ (e + 1074) = Z.pos m' * 2 ^ (e' + 1074) /\ a = b) by (destruct a, b; split; try reflexivity; try lia).
    destruct EA as [EA ->]. assert (e = e').
    { destruct (Z.lt_trichotomy e e') as [L|[L|L]]; [|exact L|].
      - pose proof (scaled_lt_exp _ _ _ _ Hv Hw L). lia.
      - pose proof (scaled_lt_exp _ _ _ _ Hw Hv L). lia. }
    subst e'. apply bounded_spec in Hv. pose proof (Z.pow_pos_nonneg 2 (e + 1074)). f_equal. nia.
Qed.

Lemma literal_unique q v w : float_literal q v -> float_literal q w -> v = w.
Proof.
  intros [[E ->]|[N ((Iv & Fv & Hv) & Zv)]] [[E' ->]|[N' ((Iw & Fw & Hw) & Zw)]]; try contradiction; [reflexivity|].
  destruct (Qeq_dec (fval v) (fval w)) as [E|E].
  - destruct (fval_inj v w Iv Fv Iw Fw E) as [H|[[a ->] [b ->]]]; [exact H|]. destruct a, b; congruence.
  - exfalso. assert (E' : ~ (fval w == fval v)%Q) by (intros H; apply E; symmetry; exact H).
    specialize (Hv w Iw Fw E'). specialize (Hw v Iv Fv E). exact (Qlt_not_le _ _ Hv (Qlt_le_weak _ _ Hw)).
Qed.

Lemma literal_proper q r v : (q == r)%Q -> float_literal q v -> float_literal r v.
Proof.
  intros E [[H ->]|[N ((Iv & Fv & Hv) & Zv)]]; [left; rewrite <- E; auto|right].
  split; [rewrite <- E; exact N|]. split; [|exact Zv]. split; [exact Iv|]. split; [exact Fv|]. intros g Ig Fg Ng.
  rewrite <- E. exact (Hv g Ig Fg Ng).
Qed.

Section Print.
Variable digits : positive -> Z -> Z * Z.
Hypothesis HD : digits_contract digits.

Lemma p_velocity v s : valid_velocity v ->
  exists x, p_float (repr_float digits v ++ 41 :: s) = Some (x, 41 :: s) /\ forall w, velocity_is x w <-> w = v.
Proof.
  intros HV. assert (HZ : forall b, exists x, p_float (repr_float digits (S754_zero b) ++ 41 :: s) = Some (x, 41 :: s) /\ forall w, velocity_is x w <-> w = S754_zero b).
  { intros b. exists (b, 0, -1). split; [destruct b; reflexivity|]. intros w. unfold velocity_is. split.
    - intros (u & [[_ ->]|[N _]] & ->); [destruct b; reflexivity|]. exfalso. apply N. reflexivity.
    - intros ->. exists (S754_zero false). split; [left; split; reflexivity|]. destruct b; reflexivity. }
  destruct v as [b|b| |b m e]; [apply HZ|destruct HV as (_ & [] & _)|destruct HV as (_ & [] & _)|]. clear HZ.
  assert (b = false).
  { destruct b; [|reflexivity]. exfalso. destruct HV as (_ & _ & H & _). cbn [fval] in H.
    apply (Qle_not_lt _ _ H). setoid_replace 0%Q with (0 * 2 ^ e)%Q by ring. apply Qmult_lt_compat_r; [|reflexivity].
    apply Qpower_0_lt. reflexivity. }
  subst b. destruct (HD m e HV) as [Dp DN]. cbn [repr_float]. destruct (digits m e) as [D j]. cbn [fst snd] in *.
  destruct (p_float_spec D j s Dp) as (M & E & HP & HQ). exists (false, M, E). split; [exact HP|].
  assert (HL : float_literal (inject_Z M * 10 ^ E)%Q (S754_finite false m e)).
  { apply literal_proper with (inject_Z D * 10 ^ j)%Q; [symmetry; exact HQ|]. right. split; [|split; [exact DN|discriminate]].
    intros H. apply Qmult_integral in H. destruct H as [H|H].
    - unfold Qeq in H. cbn in H. lia.
    - revert H. apply Qpower_not_0. discriminate. }
  intros w. unfold velocity_is. split.
  - intros (u & Hu & ->). eapply literal_unique; eassumption.
  - intros ->. exists (S754_finite false m e). split; [exact HL|reflexivity].
Qed.

(** ** Notes *)

(** What the text of a note is read as. *)
Definition reads_as (nd : Z -> option Z) (x : note_expr) (n : note) : Prop :=
  forall n', note_is nd x n' <-> n' = n.

Lemma p_note_spec nd n s : valid_note n ->
  exists x, p_note (note_repr digits n ++ s) = Some (x, 32 :: s) /\ reads_as nd x n.
Proof.
  intros [Hd Hv]. destruct (p_velocity (n_velocity n) (32 :: s) Hv) as (x & Hx & HW).
  exists (mkNE (pitch (n_tone n)) (nominator (n_duration n), denominator (n_duration n)) x). split.
  - unfold note_repr, p_note. text. do 4 token. rewrite p_int_spec by reflexivity. do 3 token.
    pose proof (p_pair_spec (nominator (n_duration n)) (denominator (n_duration n))) as HP.
    revert HP. text. intros HP. rewrite HP. do 3 token. rewrite Hx. token. reflexivity.
  - intros n'. unfold note_is, pair_arg. cbn [ne_tone ne_duration ne_velocity fst snd].
    assert (HN : forall v, valid_velocity v -> note_new nd (TA_int (pitch (n_tone n))) (SA_iter [EInt (nominator (n_duration n)); EInt (denominator (n_duration n))]) v = Ok (mkNote (n_tone n) (n_duration n) v)).
    { intros v Vv. unfold note_new. cbn [tone_of_arg bind sig_of_arg sig_star].
      rewrite sig_new_ok by apply Hd. cbn [bind]. rewrite note_init_ok by exact Vv. destruct n as [[p] [a b] u]; reflexivity. }
    split.
    + intros (v & H & E). apply HW in H. subst v. rewrite HN in E by exact Hv. injection E as <-. destruct n; reflexivity.
    + intros ->. exists (n_velocity n). split; [apply HW; reflexivity|]. rewrite HN by exact Hv. destruct n; reflexivity.
Qed.

(** ** Tracks *)
Definition reads_entry (nd : Z -> option Z) (x : note_expr * (Z * Z)) (e : entry) : Prop :=
  reads_as nd (fst x) (snd e) /\ snd x = (nominator (fst e), denominator (fst e)).

Lemma p_entry_spec nd (e : entry) s : valid_note (snd e) ->
  exists x, p_entry (entry_repr digits e ++ s) = Some (x, s) /\ reads_entry nd x e.
Proof.
  intros H. destruct (p_note_spec nd (snd e) (lit ", (" ++ str_of_Z (nominator (fst e)) ++ lit ", " ++ str_of_Z (denominator (fst e)) ++ lit "))" ++ s) H)
    as (x & Hx & HR). exists (x, (nominator (fst e), denominator (fst e))). split; [|split; [exact HR|reflexivity]].
  unfold entry_repr, p_entry. remember (note_repr digits (snd e)) as txt. clear Heqtxt. revert Hx. text. intros Hx. token. rewrite Hx. token.
  pose proof (p_pair_spec (nominator (fst e)) (denominator (fst e))) as HP. revert HP. text. intros HP.
  assert (HS : forall r, p_pair (32 :: r) = p_pair r) by reflexivity. rewrite HS, HP. token. reflexivity.
Qed.

Lemma entry_repr_len (e : entry) : (1 <= List.length (entry_repr digits e))%nat.
Proof. unfold entry_repr. rewrite app_length. cbn [lit List.length]. lia. Qed.

Lemma p_entry_space s : p_entry (32 :: s) = p_entry s.
Proof. reflexivity. Qed.

Lemma p_entries_spec nd s : forall (l : list entry) fuel, l <> [] -> Forall (fun e : entry => valid_note (snd e)) l -> (List.length l <= fuel)%nat ->
  exists xs, p_entries fuel (join (lit ", ") (map (entry_repr digits) l) ++ 93 :: s) = Some (xs, s) /\ Forall2 (reads_entry nd) xs l.
Proof.
  induction l as [|e l IH]; intros fuel N H L; [congruence|]. inversion H as [|? ? He Hl]; subst. destruct fuel as [|f]; [cbn in L; lia|].
  destruct l as [|e' l].
  - cbn [map join p_entries]. destruct (p_entry_spec nd e (93 :: s) He) as (x & Hx & HR). rewrite Hx. token. cbn [after]. token.
    exists [x]. split; [reflexivity|]. constructor; [exact HR|constructor].
  - destruct (IH f) as (xs & HX & HF); [discriminate|exact Hl|cbn [List.length] in *; lia|].
    change (map (entry_repr digits) (e :: e' :: l)) with (entry_repr digits e :: map (entry_repr digits) (e' :: l)).
    change (join (lit ", ") (entry_repr digits e :: map (entry_repr digits) (e' :: l)))
      with (entry_repr digits e ++ lit ", " ++ join (lit ", ") (map (entry_repr digits) (e' :: l))).
    remember (map (entry_repr digits) (e' :: l)) as ms. rewrite <- !app_assoc.
    destruct (p_entry_spec nd e (lit ", " ++ join (lit ", ") ms ++ 93 :: s) He) as (x & Hx & HR).
    cbn [p_entries]. rewrite Hx. clear Hx. remember (join (lit ", ") ms ++ 93 :: s) as rest. token.
    exists (x :: xs). split; [|constructor; assumption]. 
    assert (HS : p_entries f (32 :: rest) = p_entries f rest) by (destruct f; [reflexivity|]; cbn [p_entries]; rewrite p_entry_space; reflexivity).
    rewrite HS, HX. reflexivity.
Qed.

Lemma join_length sep : forall ms : list pystr, Forall (fun m => (1 <= List.length m)%nat) ms -> (List.length ms <= List.length (join sep ms))%nat.
Proof.
  induction ms as [|m ms IH]; intros H; [cbn; lia|]. inversion H as [|? ? Hm Hms]; subst. specialize (IH Hms).
  destruct ms as [|m' ms]; [cbn [join List.length]; lia|].
  change (join sep (m :: m' :: ms)) with (m ++ sep ++ join sep (m' :: ms)). rewrite !app_length. cbn [List.length] in *. lia.
Qed.

Lemma p_list_spec nd (l : list entry) s : Forall (fun e : entry => valid_note (snd e)) l ->
  exists xs, p_list (lit "[" ++ join (lit ", ") (map (entry_repr digits) l) ++ lit "]" ++ s) = Some (xs, s) /\ Forall2 (reads_entry nd) xs l.
Proof.
  intros H. destruct l as [|e l].
  - exists []. split; [|constructor]. reflexivity.
  - destruct (p_entries_spec nd s (e :: l) (List.length (join (lit ", ") (map (entry_repr digits) (e :: l)) ++ 93 :: s))) as (xs & HX & HF); [discriminate|exact H| |].
    + rewrite app_length. pose proof (join_length (lit ", ") (map (entry_repr digits) (e :: l))) as HL. rewrite map_length in HL.
      enough (List.length (e :: l) <= List.length (join (lit ", ") (map (entry_repr digits) (e :: l))))%nat by (cbn [List.length] in *; lia).
      apply HL. apply Forall_map, Forall_forall. intros x _. apply entry_repr_len.
    + exists xs. split; [|exact HF]. revert HX. remember (join (lit ", ") (map (entry_repr digits) (e :: l))) as j eqn:EJ.
      assert (HJ : exists r, j = 40 :: r).
      { subst j. cbn [map join]. destruct (map (entry_repr digits) l); eexists; reflexivity. }
      clear EJ. unfold p_list. text. intros HX. token. destruct HJ as [r ->]. cbn [app] in *.
      change (tok "]" (40 :: r ++ 93 :: s)) with (@None (unit * pystr)). cbv iota. exact HX.
Qed.

Lemma p_track_spec nd sort t : Forall (fun e : entry => valid_note (snd e)) (snd (track_iter sort t)) ->
  exists xs, p_track (snd (track_repr digits sort t)) = Some ((nominator (t_signature t), denominator (t_signature t)), xs, []) /\
    Forall2 (reads_entry nd) xs (snd (track_iter sort t)).
Proof.
  intros H. unfold track_repr. destruct (track_iter sort t) as [t' l]. cbn [snd] in *.
  destruct (p_list_spec nd l (lit ")") H) as (xs & HX & HF). exists xs. split; [|exact HF].
  remember (join (lit ", ") (map (entry_repr digits) l)) as j eqn:EJ. clear EJ. unfold p_track.
  pose proof (p_pair_spec (nominator (t_signature t)) (denominator (t_signature t))) as HP. revert HX HP. text. intros HX HP.
  do 4 token. rewrite HP. do 3 token. rewrite HX. token. reflexivity.
Qed.
End Print.
