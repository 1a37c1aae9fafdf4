(** Variable-length quantities (C30, C31), and reading from a known position. *)
From Coq Require Import ZArith QArith List Bool Lia ZifyBool.
From Verif Require Import Py PyFloat PySort Signature Tone Note Track MidiWriter MidiReader
  SpecBase MidiSpec.
Import ListNotations.
Open Scope Z_scope.

(** ** Bytes *)
Lemma le_digits_length : forall k n, length (le_digits k n) = k.
Proof. induction k as [|k IH]; intros n; cbn [le_digits length]; [reflexivity|]. rewrite IH. reflexivity. Qed.
Lemma le_digits_byte : forall k n, Forall is_byte (le_digits k n).
Proof.
  induction k as [|k IH]; intros n; cbn [le_digits]; constructor; [|apply IH].
  unfold is_byte. pose proof (Z.mod_pos_bound n 256). lia.
Qed.

Lemma to_bytes_be_ok n len : 0 <= n < 256 ^ Z.of_nat len -> to_bytes_be n len = Ok (rev (le_digits len n)).
Proof.
  intros H. unfold to_bytes_be, to_bytes_le. replace ((n <? 0) || (256 ^ Z.of_nat len <=? n)) with false by lia.
  reflexivity.
Qed.
Lemma to_bytes_be_err n len : ~ (0 <= n < 256 ^ Z.of_nat len) -> to_bytes_be n len = Err OverflowError.
Proof.
  intros H. unfold to_bytes_be, to_bytes_le. replace ((n <? 0) || (256 ^ Z.of_nat len <=? n)) with true by lia.
  reflexivity.
Qed.
Lemma to_bytes_be_inv n len b : to_bytes_be n len = Ok b ->
  0 <= n < 256 ^ Z.of_nat len /\ b = rev (le_digits len n).
Proof.
  unfold to_bytes_be, to_bytes_le. destruct ((n <? 0) || (256 ^ Z.of_nat len <=? n)) eqn:E; [discriminate|].
  cbn [bind]. intros H. injection H as <-. split; [lia|reflexivity].
Qed.
Lemma to_bytes_1 n : 0 <= n < 256 -> to_bytes_be n 1 = Ok [n].
Proof.
  intros H. rewrite to_bytes_be_ok by (change (256 ^ Z.of_nat 1) with 256; lia).
  cbn. rewrite Z.mod_small by lia. reflexivity.
Qed.

Lemma from_bytes_app a b : from_bytes_be (a ++ b) = fold_left (fun acc x => acc * 256 + x) b (from_bytes_be a).
Proof. unfold from_bytes_be. apply fold_left_app. Qed.
Lemma from_bytes_snoc a x : from_bytes_be (a ++ [x]) = from_bytes_be a * 256 + x.
Proof. rewrite from_bytes_app. reflexivity. Qed.

Lemma from_bytes_rev_le : forall k n, 0 <= n < 256 ^ Z.of_nat k -> from_bytes_be (rev (le_digits k n)) = n.
Proof.
  induction k as [|k IH]; intros n H.
  - change (256 ^ Z.of_nat 0) with 1 in H. cbn. lia.
  - rewrite Nat2Z.inj_succ, Z.pow_succ_r in H by lia.
    cbn [le_digits rev]. rewrite from_bytes_snoc. rewrite IH.
    + pose proof (Z.div_mod n 256). lia.
    + split; [apply Z.div_pos; lia|]. apply Z.div_lt_upper_bound; lia.
Qed.

Lemma from_bytes_bound : forall b, Forall is_byte b -> 0 <= from_bytes_be b < 256 ^ Z.of_nat (length b).
Proof.
  induction b as [|x b IH] using rev_ind; intros H; [cbn; lia|].
  apply Forall_app in H. destruct H as [H1 H2]. inversion H2 as [|? ? Hx _]; subst.
  specialize (IH H1). unfold is_byte in Hx. rewrite from_bytes_snoc, app_length. cbn [length].
  rewrite Nat2Z.inj_add, Z.pow_add_r by lia. change (256 ^ Z.of_nat 1) with 256. nia.
Qed.

(** ** Reading at a known place *)
Definition at_ (pre rest : bytes) : reader := mkReader (pre ++ rest) (Z.of_nat (length pre)).

Lemma reader_new_at data : reader_new data = at_ [] data.
Proof. reflexivity. Qed.

Lemma read_ok pre b rest n : Z.of_nat (length b) = n ->
  read n (at_ pre (b ++ rest)) = (at_ (pre ++ b) rest, Ok b).
Proof.
  intros <-. unfold read, at_. cbn [rd_data rd_idx]. rewrite !app_length.
  replace (Z.of_nat (length pre + (length b + length rest)) - Z.of_nat (length pre) <? Z.of_nat (length b)) with false by lia.
  f_equal.
  - f_equal; [rewrite app_assoc; reflexivity|lia].
  - rewrite !Nat2Z.id. rewrite skipn_app, skipn_all, Nat.sub_diag. cbn [skipn app].
    rewrite firstn_app, firstn_all, Nat.sub_diag. cbn [firstn]. rewrite app_nil_r. reflexivity.
Qed.

Lemma read_short pre rest n : Z.of_nat (length rest) < n ->
  snd (read n (at_ pre rest)) = Err MIDIParsingError.
Proof.
  intros H. unfold read, at_. cbn [rd_data rd_idx]. rewrite app_length.
  replace (Z.of_nat (length pre + length rest) - Z.of_nat (length pre) <? n) with true by lia. reflexivity.
Qed.

Lemma read_8_ok pre x rest : read_8 (at_ pre (x :: rest)) = (at_ (pre ++ [x]) rest, Ok x).
Proof.
  unfold read_8, rbind. change (x :: rest) with ([x] ++ rest). rewrite read_ok by reflexivity.
  unfold ret. cbn. reflexivity.
Qed.
Lemma read_8_short pre : snd (read_8 (at_ pre [])) = Err MIDIParsingError.
Proof.
  unfold read_8, rbind. destruct (read 1 (at_ pre [])) as [r o] eqn:E.
  pose proof (read_short pre [] 1 ltac:(cbn; lia)) as H. rewrite E in H. cbn in H. subst o. reflexivity.
Qed.
Lemma shift_back pre x rest : shift (-1) (at_ (pre ++ [x]) rest) = (at_ pre (x :: rest), Ok tt).
Proof.
  unfold shift, at_. cbn [rd_data rd_idx]. rewrite app_length. cbn [length]. rewrite <- app_assoc. cbn [app].
  f_equal. f_equal. lia.
Qed.

Lemma rbind_ok {A B} (m : R A) (k : A -> R B) r r' a : m r = (r', Ok a) -> rbind m k r = k a r'.
Proof. intros H. unfold rbind. rewrite H. reflexivity. Qed.
Lemma rbind_err {A B} (m : R A) (k : A -> R B) r e : snd (m r) = Err e -> snd (rbind m k r) = Err e.
Proof. intros H. unfold rbind. destruct (m r) as [r' [a|e']]; cbn in *; congruence. Qed.

(** ** Reading variable-length quantities *)
Lemma land_127 x : 0 <= x -> Z.land x 127 = x mod 128.
Proof. intros H. change 127 with (Z.ones 7). rewrite Z.land_ones by lia. reflexivity. Qed.

Lemma land_128_byte x : is_byte x -> (Z.land x 128 =? 0) = (x <? 128).
Proof.
  intros H. assert (HC : forallb (fun k => Bool.eqb (Z.land (Z.of_nat k) 128 =? 0) (Z.of_nat k <? 128)) (seq 0 256) = true)
    by (vm_compute; reflexivity).
  rewrite forallb_forall in HC. specialize (HC (Z.to_nat x)). unfold is_byte in H.
  rewrite Z2Nat.id in HC by lia. apply eqb_prop. apply HC. apply in_seq. lia.
Qed.

Lemma land_128_hi d : is_digit d -> (Z.land (d + 128) 128 =? 0) = false /\ Z.land (d + 128) 127 = d.
Proof.
  intros H. unfold is_digit in H. split; [rewrite land_128_byte by (unfold is_byte; lia); lia|].
  rewrite land_127 by lia. replace (d + 128) with (d + 1 * 128) by lia. rewrite Z.mod_add by lia. apply Z.mod_small. lia.
Qed.
Lemma land_128_lo d : is_digit d -> (Z.land d 128 =? 0) = true /\ Z.land d 127 = d.
Proof.
  intros H. unfold is_digit in H. split; [rewrite land_128_byte by (unfold is_byte; lia); lia|].
  rewrite land_127 by lia. apply Z.mod_small. lia.
Qed.

Lemma with_bit7_cons d e r : with_bit7 (d :: e :: r) = (d + 128) :: with_bit7 (e :: r).
Proof. reflexivity. Qed.

Lemma with_bit7_length : forall ds, length (with_bit7 ds) = length ds.
Proof.
  induction ds as [|d [|e r] IH]; [reflexivity..|]. rewrite with_bit7_cons. cbn [length] in *. rewrite IH. reflexivity.
Qed.

Lemma var_len_rest_ok : forall ds fuel acc pre rest, ds <> [] -> Forall is_digit ds -> (length ds <= fuel)%nat ->
  var_len_rest fuel acc (at_ pre (with_bit7 ds ++ rest)) =
  (at_ (pre ++ with_bit7 ds) rest, Ok (fold_left (fun a d => a * 128 + d) ds acc)).
Proof.
  induction ds as [|d r IH]; intros fuel acc pre rest Hne Hd Hf; [congruence|].
  inversion Hd as [|? ? Hd1 Hd2]; subst. destruct fuel as [|fuel]; [cbn in Hf; lia|].
  destruct r as [|e r].
  - cbn [with_bit7 app var_len_rest]. erewrite rbind_ok; [|apply read_8_ok]. cbn zeta.
    destruct (land_128_lo d Hd1) as [-> ->]. rewrite Z.shiftl_mul_pow2 by lia. reflexivity.
  - rewrite with_bit7_cons. cbn [app var_len_rest]. erewrite rbind_ok; [|apply read_8_ok]. cbn zeta.
    destruct (land_128_hi d Hd1) as [-> ->]. rewrite Z.shiftl_mul_pow2 by lia.
    rewrite IH; [|discriminate|exact Hd2|cbn in *; lia].
    rewrite <- app_assoc. reflexivity.
Qed.

Lemma read_var_len_ok pre bs n rest : vlq_of bs n ->
  read_var_len (at_ pre (bs ++ rest)) = (at_ (pre ++ bs) rest, Ok n).
Proof.
  intros (ds & Hne & Hd & -> & <-). unfold read_var_len.
  destruct ds as [|d r]; [congruence|]. inversion Hd as [|? ? Hd1 Hd2]; subst. destruct r as [|e r].
  - cbn [with_bit7 app]. erewrite rbind_ok; [|apply read_8_ok]. destruct (land_128_lo d Hd1) as [-> _]. reflexivity.
  - rewrite with_bit7_cons. cbn [app]. erewrite rbind_ok; [|apply read_8_ok].
    destruct (land_128_hi d Hd1) as [-> ->]. rewrite var_len_rest_ok; [|discriminate|exact Hd2|].
    + rewrite <- app_assoc. reflexivity.
    + cbn [rd_data at_]. rewrite app_length. cbn [length]. rewrite app_length, with_bit7_length. cbn [length]. lia.
Qed.

(** A proper beginning of a variable-length quantity is not accepted. *)
Lemma var_len_rest_short : forall ds fuel acc pre k, Forall is_digit ds -> (k < length ds)%nat -> (length ds <= fuel)%nat ->
  snd (var_len_rest fuel acc (at_ pre (firstn k (with_bit7 ds)))) = Err MIDIParsingError.
Proof.
  induction ds as [|d r IH]; intros fuel acc pre k Hd Hk Hf; [cbn in Hk; lia|].
  inversion Hd as [|? ? Hd1 Hd2]; subst. destruct fuel as [|fuel]; [cbn in Hf; lia|].
  destruct k as [|k].
  - cbn [firstn var_len_rest]. apply rbind_err. apply read_8_short.
  - destruct r as [|e r]; [cbn in Hk; lia|].
    rewrite with_bit7_cons. cbn [firstn var_len_rest]. erewrite rbind_ok; [|apply read_8_ok]. cbn zeta.
    destruct (land_128_hi d Hd1) as [-> _]. apply IH; [exact Hd2|cbn in *; lia|cbn in *; lia].
Qed.
Lemma var_len_rest_cut : forall ds fuel acc pre k, Forall is_digit ds -> (k < length ds)%nat -> (k < fuel)%nat ->
  snd (var_len_rest fuel acc (at_ pre (firstn k (with_bit7 ds)))) = Err MIDIParsingError.
Proof.
  induction ds as [|d r IH]; intros fuel acc pre k Hd Hk Hf; [cbn in Hk; lia|].
  inversion Hd as [|? ? Hd1 Hd2]; subst. destruct fuel as [|fuel]; [cbn in Hf; lia|].
  destruct k as [|k].
  - cbn [firstn var_len_rest]. apply rbind_err. apply read_8_short.
  - destruct r as [|e r]; [cbn in Hk; lia|].
    rewrite with_bit7_cons. cbn [firstn var_len_rest]. erewrite rbind_ok; [|apply read_8_ok]. cbn zeta.
    destruct (land_128_hi d Hd1) as [-> _]. apply IH; [exact Hd2|cbn in *; lia|cbn in *; lia].
Qed.

Lemma read_var_len_cut pre bs n k : vlq_of bs n -> (k < length bs)%nat ->
  snd (read_var_len (at_ pre (firstn k bs))) = Err MIDIParsingError.
Proof.
  intros (ds & Hne & Hd & -> & _) Hk. rewrite with_bit7_length in Hk. unfold read_var_len.
  destruct k as [|k]; [cbn [firstn]; apply rbind_err, read_8_short|].
  destruct ds as [|d r]; [congruence|]. inversion Hd as [|? ? Hd1 Hd2]; subst.
  destruct r as [|e r]; [cbn in Hk; lia|].
  rewrite with_bit7_cons. cbn [firstn]. erewrite rbind_ok; [|apply read_8_ok].
  destruct (land_128_hi d Hd1) as [-> _]. apply var_len_rest_cut; [exact Hd2|cbn in *; lia|].
  unfold at_. cbn [rd_data]. rewrite app_length. cbn [length]. rewrite firstn_length, with_bit7_length. cbn in *. lia.
Qed.

(** ** Writing variable-length quantities *)
Fixpoint ledig (fuel : nat) (x : Z) : list Z :=
  match fuel with
  | O => []
  | S k => if x >? 0 then (x mod 128) :: ledig k (x / 128) else []
  end.

Definition push (b d : Z) : Z := b * 256 + (128 + d).

Lemma loop_body b x : 0 <= b -> 0 <= x ->
  Z.lor (Z.shiftl b 8) 128 + Z.land x 127 = push b (x mod 128).
Proof.
  intros Hb Hx. rewrite land_127 by exact Hx. unfold push. rewrite Z.shiftl_mul_pow2 by lia.
  assert (E : Z.lor (b * 2 ^ 8) 128 = b * 256 + 128).
  { rewrite <- Z.shiftl_mul_pow2 by lia. change 128 with (Z.shiftl 1 7).
    replace (Z.shiftl b 8) with (Z.shiftl (Z.shiftl b 1) 7) by (rewrite Z.shiftl_shiftl by lia; reflexivity).
    rewrite <- Z.shiftl_lor. rewrite (Z.shiftl_mul_pow2 (Z.lor (Z.shiftl b 1) 1)) by lia.
    assert (Z.lor (Z.shiftl b 1) 1 = 2 * b + 1) as ->.
    { rewrite Z.shiftl_mul_pow2 by lia. change (2 ^ 1) with 2. rewrite Z.mul_comm.
      destruct b as [|p|p]; try reflexivity; lia. }
    change (2 ^ 7) with 128. change (1 * 2 ^ 7) with 128. change (Z.shiftl 1 7) with 128. lia. }
  rewrite E. lia.
Qed.

Definition pushes (b : Z) (l : list Z) : Z := fold_left push l b.

Lemma loop_ledig : forall fuel b x, 0 <= b -> 0 <= x -> x < 128 ^ Z.of_nat fuel ->
  var_len_loop fuel b x = Ok (pushes b (ledig fuel x)).
Proof.
  induction fuel as [|fuel IH]; intros b x Hb Hx Hf.
  - change (128 ^ Z.of_nat 0) with 1 in Hf. cbn [var_len_loop ledig].
    replace (x >? 0) with false by lia. reflexivity.
  - rewrite Nat2Z.inj_succ, Z.pow_succ_r in Hf by lia. cbn [var_len_loop ledig].
    destruct (x >? 0) eqn:E; [|reflexivity]. cbn zeta.
    rewrite loop_body by assumption. rewrite Z.shiftr_div_pow2 by lia. change (2 ^ 7) with 128.
    rewrite IH; [reflexivity| | |].
    + unfold push. pose proof (Z.mod_pos_bound x 128). lia.
    + apply Z.div_pos; lia.
    + apply Z.div_lt_upper_bound; lia.
Qed.

Lemma ledig_digit : forall fuel x, Forall is_digit (ledig fuel x).
Proof.
  induction fuel as [|fuel IH]; intros x; cbn [ledig]; [constructor|].
  destruct (x >? 0); [|constructor]. constructor; [|apply IH].
  unfold is_digit. apply Z.mod_pos_bound. lia.
Qed.

Lemma le_digits_pushes : forall l b m, Forall is_digit l -> 0 <= b ->
  le_digits (length l + m) (pushes b l) = rev (map (fun d => d + 128) l) ++ le_digits m b.
Proof.
  induction l as [|d l IH] using rev_ind; intros b m Hl Hb; [reflexivity|].
  apply Forall_app in Hl. destruct Hl as [H1 H2]. inversion H2 as [|? ? Hd _]; subst. unfold is_digit in Hd.
  unfold pushes. rewrite fold_left_app. cbn [fold_left]. fold (pushes b l).
  rewrite app_length. cbn [length]. replace (length l + 1 + m)%nat with (S (length l + m))%nat by lia.
  cbn [le_digits]. rewrite map_app, rev_app_distr. cbn [map rev app].
  unfold push at 1 2.
  replace (pushes b l * 256 + (128 + d)) with ((d + 128) + pushes b l * 256) by lia.
  rewrite Z.mod_add, Z.mod_small by lia.
  rewrite Z.div_add, Z.div_small by lia. rewrite Z.add_0_l. rewrite IH by assumption. reflexivity.
Qed.

Lemma bit_length_push b d : 0 <= b -> is_digit d ->
  bit_length (push b d) = (if b =? 0 then 8 else bit_length b + 8).
Proof.
  intros Hb Hd. unfold is_digit in Hd. unfold push, bit_length.
  replace (b * 256 + (128 + d) =? 0) with false by lia.
  rewrite Z.abs_eq by lia. destruct (b =? 0) eqn:E.
  - apply Z.eqb_eq in E. subst b. rewrite (Z.log2_unique _ 7); lia.
  - rewrite Z.abs_eq by lia. rewrite (Z.log2_unique _ (Z.log2 b + 8)); [lia| |].
    + pose proof (Z.log2_nonneg b). lia.
    + pose proof (Z.log2_spec b ltac:(lia)) as [H1 H2]. pose proof (Z.log2_nonneg b).
      rewrite Z.pow_succ_r by lia. rewrite !Z.pow_add_r by lia. change (2 ^ 8) with 256.
      rewrite Z.pow_succ_r in H2 by lia. lia.
Qed.

Lemma bit_length_pushes : forall l b, 0 <= b -> Forall is_digit l -> 0 < b ->
  bit_length (pushes b l) = bit_length b + 8 * Z.of_nat (length l).
Proof.
  induction l as [|d l IH]; intros b Hb Hl Hp; [cbn [pushes fold_left length]; unfold pushes; cbn; lia|].
  inversion Hl; subst. unfold pushes. cbn [fold_left]. fold (pushes (push b d) l).
  assert (0 < push b d) by (unfold push, is_digit in *; lia).
  rewrite IH; [|lia|assumption|lia]. rewrite bit_length_push by assumption.
  replace (b =? 0) with false by lia. cbn [length]. lia.
Qed.

Lemma bit_length_small b : 0 <= b < 128 -> 0 <= bit_length b <= 7.
Proof.
  intros H. unfold bit_length. destruct (b =? 0) eqn:E; [lia|]. rewrite Z.abs_eq by lia.
  pose proof (Z.log2_nonneg b). assert (Z.log2 b < 7) by (apply Z.log2_lt_pow2; lia). lia.
Qed.

Lemma buffer_bytes b l : 0 <= b < 128 -> Forall is_digit l ->
  Z.to_nat (bit_length (pushes b l) / 8 + 1) = (length l + 1)%nat.
Proof.
  intros Hb Hl.
  assert (E : bit_length (pushes b l) / 8 = Z.of_nat (length l)).
  { destruct (Z.eq_dec b 0) as [->|Hn].
    - destruct l as [|d l]; [reflexivity|]. inversion Hl; subst.
      unfold pushes. cbn [fold_left]. fold (pushes (push 0 d) l).
      assert (0 < push 0 d) by (unfold push, is_digit in *; lia).
      rewrite bit_length_pushes; [|lia|assumption|lia]. rewrite bit_length_push by (assumption || lia).
      cbn [Z.eqb length]. replace (8 + 8 * Z.of_nat (length l)) with (0 + (Z.of_nat (S (length l))) * 8) by lia.
      rewrite Z.div_add by lia. reflexivity.
    - rewrite bit_length_pushes; [|lia|assumption|lia]. pose proof (bit_length_small b Hb).
      rewrite (Z.mul_comm 8), Z.div_add by lia. rewrite Z.div_small by lia. reflexivity. }
  rewrite E. lia.
Qed.

Lemma pushes_nonneg : forall l b, 0 <= b -> Forall is_digit l -> 0 <= pushes b l.
Proof.
  induction l as [|d l IH]; intros b Hb Hl; [exact Hb|]. inversion Hl; subst.
  unfold pushes. cbn [fold_left]. apply IH; [unfold push, is_digit in *; lia|assumption].
Qed.
Lemma pushes_bound : forall l b, 0 <= b < 256 -> Forall is_digit l ->
  pushes b l < 256 ^ Z.of_nat (length l + 1).
Proof.
  induction l as [|d l IH] using rev_ind; intros b Hb Hl; [change (256 ^ Z.of_nat (length (@nil Z) + 1)) with 256; cbn; lia|].
  apply Forall_app in Hl. destruct Hl as [H1 H2]. inversion H2 as [|? ? Hd _]; subst.
  unfold pushes. rewrite fold_left_app. cbn [fold_left]. fold (pushes b l).
  specialize (IH b Hb H1). rewrite app_length. cbn [length].
  replace (length l + 1 + 1)%nat with (S (length l + 1)) by lia. rewrite Nat2Z.inj_succ, Z.pow_succ_r by lia.
  unfold push, is_digit in *. lia.
Qed.

Lemma with_bit7_snoc : forall ds d, with_bit7 (ds ++ [d]) = map (fun x => x + 128) ds ++ [d].
Proof.
  induction ds as [|e r IH]; intros d; [reflexivity|].
  destruct r as [|f r]; [reflexivity|].
  cbn [app]. rewrite with_bit7_cons. change (f :: r ++ [d]) with ((f :: r) ++ [d]). rewrite IH. reflexivity.
Qed.

Lemma value128_snoc ds d : value128 (ds ++ [d]) = value128 ds * 128 + d.
Proof. unfold value128. rewrite fold_left_app. reflexivity. Qed.

Lemma ledig_value : forall fuel x, 0 <= x -> x < 128 ^ Z.of_nat fuel -> value128 (rev (ledig fuel x)) = x.
Proof.
  induction fuel as [|fuel IH]; intros x Hx Hf.
  - change (128 ^ Z.of_nat 0) with 1 in Hf. cbn. lia.
  - rewrite Nat2Z.inj_succ, Z.pow_succ_r in Hf by lia. cbn [ledig].
    destruct (x >? 0) eqn:E; [|cbn; lia]. cbn [rev]. rewrite value128_snoc, IH.
    + pose proof (Z.div_mod x 128). lia.
    + apply Z.div_pos; lia.
    + apply Z.div_lt_upper_bound; lia.
Qed.

Lemma ledig_last : forall fuel x, 0 <= x -> x < 128 ^ Z.of_nat fuel ->
  match rev (ledig fuel x) with [] => x = 0 | d :: _ => d <> 0 end.
Proof.
  induction fuel as [|fuel IH]; intros x Hx Hf.
  - change (128 ^ Z.of_nat 0) with 1 in Hf. cbn. lia.
  - rewrite Nat2Z.inj_succ, Z.pow_succ_r in Hf by lia. cbn [ledig].
    destruct (x >? 0) eqn:E; [|cbn; lia]. cbn [rev].
    assert (H1 : 0 <= x / 128) by (apply Z.div_pos; lia).
    assert (H2 : x / 128 < 128 ^ Z.of_nat fuel) by (apply Z.div_lt_upper_bound; lia).
    specialize (IH (x / 128) H1 H2). destruct (rev (ledig fuel (x / 128))) as [|d r]; cbn [app]; [|exact IH].
    pose proof (Z.div_mod x 128). lia.
Qed.

(** The digits of [n], most significant first, without leading zeros. *)
Definition canonical (ds : list Z) (n : Z) : Prop :=
  Forall is_digit ds /\ value128 ds = n /\ (ds = [0] \/ exists d r, ds = d :: r /\ d <> 0).

Lemma format_var_len_digits n : 0 <= n -> exists ds, format_var_len n = Ok (with_bit7 ds) /\ canonical ds n.
Proof.
  intros Hn. unfold format_var_len. rewrite Z.shiftr_div_pow2 by lia. change (2 ^ 7) with 128.
  rewrite land_127 by exact Hn.
  set (k := S (Z.to_nat (Z.log2 n))).
  assert (Hd0 : 0 <= n mod 128 < 128) by (apply Z.mod_pos_bound; lia).
  assert (H1 : 0 <= n / 128) by (apply Z.div_pos; lia).
  assert (H2 : n / 128 < 128 ^ Z.of_nat k).
  { apply Z.div_lt_upper_bound; [lia|]. apply Z.lt_le_trans with (128 ^ Z.of_nat k); [|pose proof (Z.pow_pos_nonneg 128 (Z.of_nat k)); lia].
    destruct (Z.eq_dec n 0) as [->|Hp]; [apply Z.pow_pos_nonneg; lia|].
    pose proof (Z.log2_spec n ltac:(lia)) as [_ H]. apply Z.lt_le_trans with (1 := H).
    assert (Z.of_nat k = Z.succ (Z.log2 n)) as -> by (unfold k; pose proof (Z.log2_nonneg n); lia).
    apply Z.pow_le_mono_l. lia. }
  rewrite loop_ledig by lia. cbn [bind].
  pose proof (ledig_digit k (n / 128)) as Hl. pose proof (ledig_value k _ H1 H2) as Hv. pose proof (ledig_last k _ H1 H2) as Hz.
  set (l := ledig k (n / 128)) in *.
  rewrite buffer_bytes by assumption. unfold to_bytes_le.
  pose proof (pushes_nonneg l (n mod 128) ltac:(lia) Hl). pose proof (pushes_bound l (n mod 128) ltac:(lia) Hl).
  replace (_ || _) with false by lia. rewrite le_digits_pushes by (assumption || lia).
  exists (rev l ++ [n mod 128]). split.
  - rewrite with_bit7_snoc, <- map_rev. cbn [le_digits]. rewrite Z.mod_small by lia. reflexivity.
  - split; [|split].
    + apply Forall_app. split; [apply Forall_rev; exact Hl|]. repeat constructor; lia.
    + rewrite value128_snoc, Hv. pose proof (Z.div_mod n 128). lia.
    + destruct (rev l) as [|d r]; cbn [app].
      * assert (E : n mod 128 = n) by (apply Z.mod_small; pose proof (Z.div_mod n 128); lia). rewrite E.
        destruct (Z.eq_dec n 0) as [->|Hp]; [left; reflexivity|right; exists n, []; auto].
      * right. exists d, (r ++ [n mod 128]). auto.
Qed.

Lemma format_var_len_vlq n : 0 <= n -> exists bs, format_var_len n = Ok bs /\ vlq_of bs n.
Proof.
  intros Hn. destruct (format_var_len_digits n Hn) as (ds & E & Hd & Hv & Hc). exists (with_bit7 ds). split; [exact E|].
  exists ds. repeat split; try assumption. destruct Hc as [->|(d & r & -> & _)]; discriminate.
Qed.

Lemma value128_acc : forall ds acc, fold_left (fun a d => a * 128 + d) ds acc = acc * 128 ^ Z.of_nat (length ds) + value128 ds.
Proof.
  induction ds as [|d ds IH] using rev_ind; intros acc; [cbn; lia|].
  rewrite fold_left_app. cbn [fold_left]. rewrite IH, value128_snoc, app_length. cbn [length].
  rewrite Nat2Z.inj_add, Z.pow_add_r by lia. change (128 ^ Z.of_nat 1) with 128. lia.
Qed.
Lemma value128_cons d ds : value128 (d :: ds) = d * 128 ^ Z.of_nat (length ds) + value128 ds.
Proof. unfold value128 at 1. cbn [fold_left]. rewrite value128_acc. lia. Qed.
Lemma value128_bound : forall ds, Forall is_digit ds -> 0 <= value128 ds < 128 ^ Z.of_nat (length ds).
Proof.
  induction ds as [|d ds IH]; intros H; [cbn; lia|]. inversion H as [|? ? Hd Hds]; subst. specialize (IH Hds).
  rewrite value128_cons. cbn [length]. rewrite Nat2Z.inj_succ, Z.pow_succ_r by lia. unfold is_digit in Hd. nia.
Qed.

(** A number below 128^k needs at most k digits, and conversely. *)
Lemma canonical_length ds n k : canonical ds n -> (1 <= k)%nat -> ((length ds <= k)%nat <-> n < 128 ^ Z.of_nat k).
Proof.
  intros (Hd & Hv & Hc) Hk. pose proof (value128_bound ds Hd) as Hb. split; intros H.
  - apply Z.lt_le_trans with (128 ^ Z.of_nat (length ds)); [lia|]. apply Z.pow_le_mono_r; lia.
  - destruct Hc as [->|(d & r & -> & Hnz)]; [cbn; lia|].
    inversion Hd as [|? ? Hd1 Hd2]; subst. rewrite value128_cons in H. pose proof (value128_bound r Hd2).
    unfold is_digit in Hd1. cbn [length].
    assert (Hlt : 128 ^ Z.of_nat (length r) < 128 ^ Z.of_nat k) by nia.
    apply Z.pow_lt_mono_r_iff in Hlt; lia.
Qed.

(** C30 and C31. *)
Lemma c30_round_trip : forall n suffix, 0 <= n -> exists bs, format_var_len n = Ok bs /\
  read_var_len (reader_new (bs ++ suffix)) =
    (mkReader (bs ++ suffix) (Z.of_nat (length bs)), Ok n).
Proof.
  intros n suffix Hn. destruct (format_var_len_vlq n Hn) as (bs & E & H). exists bs. split; [exact E|].
  rewrite reader_new_at. rewrite (read_var_len_ok [] bs n suffix H). reflexivity.
Qed.

Lemma c31_encoding : forall n, 0 <= n -> exists ds,
  format_var_len n = Ok (with_bit7 ds) /\ Forall is_digit ds /\ value128 ds = n /\
  (ds = [0] \/ exists d r, ds = d :: r /\ d <> 0) /\
  ((length (with_bit7 ds) <= 4)%nat <-> n < 2 ^ 28).
Proof.
  intros n Hn. destruct (format_var_len_digits n Hn) as (ds & E & H). exists ds. destruct H as (Hd & Hv & Hc).
  repeat (split; [assumption|]). rewrite with_bit7_length. change (2 ^ 28) with (128 ^ Z.of_nat 4).
  apply canonical_length; [repeat split; assumption|lia].
Qed.
