(** The parser on arbitrary bytes: two runs, one with checked primitives and perhaps more data
    (C42, C43, C55). *)
From Coq Require Import ZArith QArith List Bool Lia ZifyBool Sorted.
From Verif Require Import Py PyFloat PySort Signature Tone Note Track MidiWriter MidiReader
  SpecBase MidiSpec ReaderSpec SigFacts SigProps VarLenFacts StreamFacts.
Import ListNotations.
Open Scope Z_scope.

Lemma parse_loop_with_model : parse_loop_with read shift = parse_loop.
Proof. reflexivity. Qed.
Lemma parse_header_with_model : parse_header_with read = parse_header.
Proof. reflexivity. Qed.

(** ** The primitives *)
Lemma bytes_eqb_refl : forall b, bytes_eqb b b = true.
Proof. induction b as [|x b IH]; [reflexivity|]. cbn. rewrite Z.eqb_refl. exact IH. Qed.
Lemma bytes_eqb_eq : forall a b, bytes_eqb a b = true <-> a = b.
Proof.
  induction a as [|x a IH]; intros [|y b]; cbn; split; intros H; try reflexivity; try discriminate.
  - apply andb_true_iff in H. destruct H as [H1 H2]. apply IH in H2. subst b. f_equal. lia.
  - injection H as -> ->. rewrite Z.eqb_refl, bytes_eqb_refl. reflexivity.
Qed.

Lemma slice_at pre rest n : (n <= length rest)%nat ->
  slice (pre ++ rest) (Z.of_nat (length pre)) (Z.of_nat n) = firstn n rest.
Proof.
  intros Hn. unfold slice. rewrite !Nat2Z.id.
  transitivity (map (fun k => nth k rest (-1)) (seq 0 n)).
  { apply map_ext. intros k. rewrite app_nth2_plus. reflexivity. }
  revert rest Hn. induction n as [|n IH]; intros rest Hn; [reflexivity|].
  destruct rest as [|x rest]; [cbn in Hn; lia|]. cbn [seq map firstn nth]. f_equal.
  rewrite <- seq_shift, map_map. apply IH. cbn in Hn. lia.
Qed.

Lemma read_at n pre rest : 0 <= n ->
  read n (at_ pre rest) =
  if n <=? Z.of_nat (length rest)
  then (at_ (pre ++ firstn (Z.to_nat n) rest) (skipn (Z.to_nat n) rest), Ok (firstn (Z.to_nat n) rest))
  else (at_ (pre ++ rest) [], Err MIDIParsingError).
Proof.
  intros Hn. destruct (Z.leb_spec n (Z.of_nat (length rest))) as [H|H].
  - rewrite <- (firstn_skipn (Z.to_nat n) rest) at 1. apply read_ok. rewrite firstn_length. lia.
  - unfold read, at_. cbn [rd_data rd_idx]. rewrite app_length, app_nil_r.
    replace (Z.of_nat (length pre + length rest) - Z.of_nat (length pre) <? n) with true by lia.
    reflexivity.
Qed.

Lemma checked_read_at n pre rest : 0 <= n -> checked_read n (at_ pre rest) = read n (at_ pre rest).
Proof.
  intros Hn. unfold checked_read. rewrite read_at by exact Hn. unfold at_ at 1 2 3 4. cbn [rd_data rd_idx]. rewrite app_length.
  replace ((0 <=? n) && (0 <=? Z.of_nat (length pre)) && (Z.of_nat (length pre) <=? Z.of_nat (length pre + length rest))) with true by lia.
  destruct (Z.leb_spec n (Z.of_nat (length rest))) as [H|H].
  - unfold at_. cbn [rd_data rd_idx].
    assert (E : slice (pre ++ rest) (Z.of_nat (length pre)) n = firstn (Z.to_nat n) rest).
    { rewrite <- (Z2Nat.id n) at 1 by exact Hn. apply slice_at. lia. }
    rewrite E, bytes_eqb_refl, !app_length, firstn_length, <- app_assoc, firstn_skipn, bytes_eqb_refl.
    replace (Z.of_nat (length pre) + n <=? Z.of_nat (length pre + length rest)) with true by lia.
    replace (Z.of_nat (length pre + Nat.min (Z.to_nat n) (length rest)) =? Z.of_nat (length pre) + n) with true by lia.
    reflexivity.
  - unfold at_. cbn [rd_data rd_idx]. rewrite app_nil_r, bytes_eqb_refl, app_length.
    replace (Z.of_nat (length pre + length rest) <? Z.of_nat (length pre) + n) with true by lia.
    replace (0 <=? Z.of_nat (length pre + length rest)) with true by lia.
    replace (Z.of_nat (length pre + length rest) <=? Z.of_nat (length pre + length rest)) with true by lia. reflexivity.
Qed.

(** ** Two runs *)
Definition tracks {A} (x pre rest : bytes) (o1 o2 : reader * res A)
  (Q : bytes -> bytes -> A -> Prop) (E : err -> Prop) : Prop :=
  exists pre' rest', pre' ++ rest' = pre ++ rest /\ fst o1 = at_ pre' rest' /\
  match snd o1 with
  | Ok a => o2 = (at_ pre' (rest' ++ x), Ok a) /\ Q pre' rest' a
  | Err MIDIParsingError => x = [] -> o2 = (at_ pre' rest', Err MIDIParsingError)
  | Err e => o2 = (at_ pre' (rest' ++ x), Err e) /\ E e
  end.

Lemma tracks_bind {A B} x pre rest (m m' : R A) (k k' : A -> R B) Q E Q' :
  tracks x pre rest (m (at_ pre rest)) (m' (at_ pre (rest ++ x))) Q E ->
  (forall pre1 rest1 a, pre1 ++ rest1 = pre ++ rest -> Q pre1 rest1 a ->
     tracks x pre1 rest1 (k a (at_ pre1 rest1)) (k' a (at_ pre1 (rest1 ++ x))) Q' E) ->
  tracks x pre rest (rbind m k (at_ pre rest)) (rbind m' k' (at_ pre (rest ++ x))) Q' E.
Proof.
  intros (pre1 & rest1 & H1 & H2 & H3) Hk. unfold rbind. destruct (m (at_ pre rest)) as [r1 [a|e]] eqn:Em; cbn [fst snd] in *; subst r1.
  - destruct H3 as [-> HQ]. destruct (Hk pre1 rest1 a H1 HQ) as (pre2 & rest2 & G1 & G2 & G3).
    exists pre2, rest2. split; [congruence|]. split; [exact G2|exact G3].
  - exists pre1, rest1. split; [exact H1|]. split; [reflexivity|]. cbn [snd].
    destruct e; match type of H3 with _ /\ _ => destruct H3 as [-> HE]; split; [reflexivity|exact HE] | _ => idtac end.
    intros Hx. rewrite (H3 Hx). reflexivity.
Qed.

Lemma tracks_weaken {A} x pre rest (o1 o2 : reader * res A) Q (E : err -> Prop) (Q' : bytes -> bytes -> A -> Prop) (E' : err -> Prop) :
  tracks x pre rest o1 o2 Q E -> (forall p r a, p ++ r = pre ++ rest -> Q p r a -> Q' p r a) -> (forall e, E e -> E' e) ->
  tracks x pre rest o1 o2 Q' E'.
Proof.
  intros (p & r & H1 & H2 & H3) HQ HE. exists p, r. split; [exact H1|]. split; [exact H2|].
  destruct (snd o1) as [a|e]; [|destruct e]; match type of H3 with _ /\ _ => destruct H3 as [H3 H4]; split; auto | _ => exact H3 end.
Qed.

Lemma tracks_ret {A} x pre rest (a : A) (Q : bytes -> bytes -> A -> Prop) E : Q pre rest a ->
  tracks x pre rest (ret a (at_ pre rest)) (ret a (at_ pre (rest ++ x))) Q E.
Proof. intros H. exists pre, rest. repeat split. exact H. Qed.

Lemma tracks_parsing_error {A} x pre rest (Q : bytes -> bytes -> A -> Prop) E :
  tracks x pre rest (raise MIDIParsingError (at_ pre rest)) (raise MIDIParsingError (at_ pre (rest ++ x))) Q E.
Proof. exists pre, rest. repeat split. cbn. intros ->. rewrite app_nil_r. reflexivity. Qed.

Lemma tracks_raise {A} x pre rest e (Q : bytes -> bytes -> A -> Prop) (E : err -> Prop) : E e ->
  tracks x pre rest (raise e (at_ pre rest)) (raise e (at_ pre (rest ++ x))) Q E.
Proof.
  intros H. exists pre, rest. repeat split. cbn. destruct e; try (split; [reflexivity|exact H]). intros ->. rewrite app_nil_r. reflexivity.
Qed.

Lemma tracks_read x pre rest n (E : err -> Prop) : 0 <= n ->
  tracks x pre rest (read n (at_ pre rest)) (checked_read n (at_ pre (rest ++ x)))
    (fun pre1 rest1 b => rest = b ++ rest1 /\ pre1 = pre ++ b /\ Z.of_nat (length b) = n) E.
Proof.
  intros Hn. rewrite checked_read_at by exact Hn. rewrite !read_at by exact Hn. rewrite app_length.
  destruct (Z.leb_spec n (Z.of_nat (length rest))) as [H|H].
  - replace (n <=? Z.of_nat (length rest + length x)) with true by lia.
    exists (pre ++ firstn (Z.to_nat n) rest), (skipn (Z.to_nat n) rest). cbn [fst snd].
    split; [rewrite <- app_assoc, firstn_skipn; reflexivity|]. split; [reflexivity|]. split.
    + rewrite firstn_app, skipn_app. replace (Z.to_nat n - length rest)%nat with 0%nat by lia. cbn [firstn skipn].
      rewrite app_nil_r. reflexivity.
    + split; [rewrite firstn_skipn; reflexivity|]. split; [reflexivity|]. rewrite firstn_length. lia.
  - exists (pre ++ rest), []. cbn [fst snd]. rewrite app_nil_r. split; [reflexivity|]. split; [reflexivity|].
    intros ->. cbn [length]. replace (n <=? Z.of_nat (length rest + 0)) with false by lia. rewrite app_nil_r. reflexivity.
Qed.

Lemma tracks_read_8 x pre rest (E : err -> Prop) : Forall is_byte (pre ++ rest) ->
  tracks x pre rest (read_8 (at_ pre rest)) (read_8_with checked_read (at_ pre (rest ++ x)))
    (fun pre1 rest1 b => rest = b :: rest1 /\ pre1 = pre ++ [b] /\ is_byte b) E.
Proof.
  intros HB. unfold read_8, read_8_with. eapply tracks_bind; [apply tracks_read; lia|].
  intros pre1 rest1 b H1 (H2 & H3 & H4). destruct b as [|b [|? ?]]; cbn in H4; try lia. apply tracks_ret.
  change (from_bytes_be [b]) with (0 * 256 + b). rewrite Z.mul_0_l, Z.add_0_l. repeat split; try assumption.
  - subst. apply Forall_app in HB. destruct HB as [_ HB]. inversion HB; subst. unfold is_byte in *. lia.
  - subst. apply Forall_app in HB. destruct HB as [_ HB]. inversion HB; subst. unfold is_byte in *. lia.
Qed.

(** ** Variable-length quantities *)
Lemma tracks_var_len_rest x (E : err -> Prop) : forall f1 f2 acc pre rest, Forall is_byte (pre ++ rest) -> 0 <= acc ->
  (length rest < f1)%nat -> (f1 <= f2)%nat ->
  tracks x pre rest (var_len_rest f1 acc (at_ pre rest)) (var_len_rest_with checked_read f2 acc (at_ pre (rest ++ x)))
    (fun pre1 rest1 n => exists ds, ds <> [] /\ Forall is_digit ds /\ rest = with_bit7 ds ++ rest1 /\ pre1 = pre ++ with_bit7 ds /\
       n = fold_left (fun a d => a * 128 + d) ds acc) E.
Proof.
  induction f1 as [|f1 IH]; intros f2 acc pre rest HB Ha Hf1 Hf2; [lia|]. destruct f2 as [|f2]; [lia|].
  cbn [var_len_rest var_len_rest_with]. eapply tracks_bind; [apply tracks_read_8, HB|].
  intros pre1 rest1 b H1 (H2 & H3 & H4). subst rest pre1. cbn zeta.
  rewrite land_128_byte by exact H4. rewrite Z.shiftl_mul_pow2 by lia. rewrite land_127 by (unfold is_byte in H4; lia).
  destruct (Z.ltb_spec b 128) as [L|L].
  - apply tracks_ret. exists [b]. split; [discriminate|]. split; [constructor; [unfold is_digit, is_byte in *; lia|constructor]|].
    split; [reflexivity|]. split; [reflexivity|]. cbn [fold_left]. rewrite Z.mod_small by (unfold is_byte in *; lia). reflexivity.
  - eapply tracks_weaken; [apply IH|intros p r n _ (ds & D1 & D2 & D3 & D4 & D5)|intros e He; exact He].
    + rewrite <- app_assoc. exact HB.
    + pose proof (Z.mod_pos_bound b 128). lia.
    + cbn in Hf1. lia.
    + lia.
    + assert (Eb : b mod 128 = b - 128).
      { replace b with ((b - 128) + 1 * 128) at 1 by lia. rewrite Z.mod_add by lia. apply Z.mod_small. unfold is_byte in H4. lia. }
      exists (b - 128 :: ds). split; [discriminate|]. split; [constructor; [unfold is_digit, is_byte in *; lia|exact D2]|].
      destruct ds as [|d ds]; [congruence|]. rewrite with_bit7_cons. subst.
      replace (b - 128 + 128) with b by lia. split; [reflexivity|]. split; [rewrite <- app_assoc; reflexivity|].
      rewrite Eb. reflexivity.
Qed.

Lemma tracks_var_len x (E : err -> Prop) pre rest : Forall is_byte (pre ++ rest) ->
  tracks x pre rest (read_var_len (at_ pre rest)) (read_var_len_with checked_read (at_ pre (rest ++ x)))
    (fun pre1 rest1 n => exists d, vlq_of d n /\ rest = d ++ rest1 /\ pre1 = pre ++ d /\ 0 <= n) E.
Proof.
  intros HB. unfold read_var_len, read_var_len_with. eapply tracks_bind; [apply tracks_read_8, HB|].
  intros pre1 rest1 b H1 (H2 & H3 & H4). subst rest pre1.
  rewrite land_128_byte by exact H4. rewrite land_127 by (unfold is_byte in H4; lia).
  destruct (Z.ltb_spec b 128) as [L|L].
  - apply tracks_ret. exists [b]. assert (Hd : is_digit b) by (unfold is_digit, is_byte in *; lia).
    split; [exists [b]; repeat split; [discriminate|constructor; [exact Hd|constructor]]|]. unfold is_byte in H4. repeat split; lia.
  - eapply tracks_weaken; [apply tracks_var_len_rest|intros p r n _ (ds & D1 & D2 & D3 & D4 & D5)|intros e He; exact He].
    + rewrite <- app_assoc. exact HB.
    + pose proof (Z.mod_pos_bound b 128). lia.
    + unfold at_. cbn [rd_data]. rewrite app_length. cbn [length]. lia.
    + unfold at_. cbn [rd_data]. rewrite !app_length. cbn [length app]. rewrite ?app_length. lia.
    + assert (Eb : b mod 128 = b - 128).
      { replace b with ((b - 128) + 1 * 128) at 1 by lia. rewrite Z.mod_add by lia. apply Z.mod_small. unfold is_byte in H4. lia. }
      assert (Hall : Forall is_digit (b - 128 :: ds)) by (constructor; [unfold is_digit, is_byte in *; lia|exact D2]).
      exists (with_bit7 (b - 128 :: ds)). split; [exists (b - 128 :: ds); split; [discriminate|]; split; [exact Hall|]; split; [reflexivity|]|].
      * rewrite D5, Eb. reflexivity.
      * destruct ds as [|d ds]; [congruence|]. rewrite with_bit7_cons. replace (b - 128 + 128) with b by lia. subst.
        split; [reflexivity|]. split; [rewrite <- app_assoc; reflexivity|].
        rewrite Eb. pose proof (value128_bound _ Hall) as HV. unfold value128 in HV. cbn [fold_left] in *.
        rewrite Z.mul_0_l, Z.add_0_l in HV. lia.
Qed.

(** ** System exclusive messages: the loop only ends with the data. *)
Lemma tracks_sysex x (E : err -> Prop) (Q : bytes -> bytes -> unit -> Prop) : forall f1 f2 v pre rest, sysex_continues v = true ->
  (length rest < f1)%nat -> (f1 <= f2)%nat -> (x = [] -> (length rest < f2)%nat) ->
  tracks x pre rest (sysex_loop f1 v (at_ pre rest)) (sysex_loop_with checked_read f2 v (at_ pre (rest ++ x))) Q E.
Proof.
  induction f1 as [|f1 IH]; intros f2 v pre rest Hv Hf1 Hf2 Hx; [lia|]. destruct f2 as [|f2]; [lia|].
  cbn [sysex_loop sysex_loop_with]. rewrite Hv. eapply tracks_bind; [apply tracks_read; lia|].
  intros pre1 rest1 b H1 (H2 & H3 & H4). apply IH; [reflexivity| |lia|].
  - subst rest. rewrite app_length in Hf1. lia.
  - intros. subst rest. rewrite app_length in Hf1. lia.
Qed.

(** ** Events *)
Definition status_ok (p : option Z) : Prop := match p with None => True | Some s => 128 <= s <= 255 end.

Lemma event_lengths_len : length event_lengths = 255%nat.
Proof. vm_compute. reflexivity. Qed.

(** The event [e] was read: its bytes [b] after an optional status byte. *)
Definition payload_post (s : Z) (pre rest pre1 rest1 : bytes) (a : event * option Z) : Prop :=
  exists e b, rest = b ++ rest1 /\ pre1 = pre ++ b /\ event_ok e /\ status_of e = s /\ payload e b /\ a = (to_event e, Some s).

Lemma nibble s : 128 <= s < 256 -> Z.shiftr s 4 = s / 16 /\ Z.land s 15 = s mod 16.
Proof.
  intros H. split; [rewrite Z.shiftr_div_pow2 by lia; reflexivity|].
  change 15 with (Z.ones 4). rewrite Z.land_ones by lia. reflexivity.
Qed.

Lemma bytes_part (pre rest b r : bytes) : Forall is_byte (pre ++ rest) -> rest = b ++ r -> Forall is_byte b.
Proof. intros H ->. apply Forall_app in H. destruct H as [_ H]. apply Forall_app in H. apply H. Qed.

(** An event whose status byte is known. *)
Lemma tracks_event_status x E : forall d s previous pre rest, Forall is_byte (pre ++ rest) -> 128 <= s <= 255 ->
  tracks x pre rest (read_event (S d) (Some s) previous (at_ pre rest))
    (read_event_with checked_read checked_shift (S d) (Some s) previous (at_ pre (rest ++ x)))
    (payload_post s pre rest) E.
Proof.
  intros d s previous pre rest HB Hs. cbn [read_event read_event_with].
  eapply tracks_bind with (Q := fun p r v => p = pre /\ r = rest /\ v = s); [apply tracks_ret; auto|].
  intros pre0 rest0 s0 _ (-> & -> & ->).
  assert (Sub : forall p1 r1, p1 ++ r1 = pre ++ rest -> Forall is_byte (p1 ++ r1)) by (intros p1 r1 ->; exact HB).
  destruct (s =? 255) eqn:Es.
  - assert (s = 255) by lia. subst s. clear Es Hs. cbn zeta.
    eapply tracks_bind; [apply tracks_read_8, HB|]. intros p1 r1 kind H1 (H2 & H3 & H4).
    eapply tracks_bind; [apply tracks_var_len, Sub, H1|]. intros p2 r2 n G1 (dd & D1 & D2 & D3 & D4).
    assert (G2 : p2 ++ r2 = pre ++ rest) by congruence.
    assert (Fin : forall e p3 r3 data, r2 = data ++ r3 -> p3 = p2 ++ data -> meta_of e = Some (kind, data) -> n = Z.of_nat (length data) ->
              event_ok e -> payload_post 255 pre rest p3 r3 (to_event e, Some 255)).
    { intros e p3 r3 data F1 F2 F3 F4 F5. exists e, (kind :: dd ++ data). subst. split; [cbn; rewrite <- app_assoc; reflexivity|].
      split; [rewrite <- !app_assoc; reflexivity|]. split; [exact F5|].
      split; [destruct e; try discriminate; reflexivity|]. split; [|reflexivity]. eapply P_meta; eassumption. }
    destruct (kind =? 47) eqn:E47.
    { destruct (n =? 0) eqn:En; cbn [negb]; [apply tracks_ret|apply tracks_parsing_error].
      apply (Fin MEndOfTrack p2 r2 []); [reflexivity|rewrite app_nil_r; reflexivity|cbn; f_equal; f_equal; lia|cbn; lia|exact I]. }
    destruct (kind =? 32) eqn:E32.
    { destruct (n =? 1) eqn:En; cbn [negb]; [|apply tracks_parsing_error].
      eapply tracks_bind; [apply tracks_read_8, Sub, G2|]. intros p3 r3 ch H5 (H6 & H7 & H8). apply tracks_ret.
      apply (Fin (MChannelPrefix ch) p3 r3 [ch]); [exact H6|exact H7|cbn; f_equal; f_equal; lia|cbn; lia|exact H8]. }
    destruct (kind =? 88) eqn:E88.
    { destruct (n =? 4) eqn:En; cbn [negb]; [|apply tracks_parsing_error].
      eapply tracks_bind; [apply tracks_read_8, Sub, G2|]. intros p3 r3 b3 I1 (I2 & I3 & I4).
      eapply tracks_bind; [apply tracks_read_8, Sub; congruence|]. intros p4 r4 b4 J1 (J2 & J3 & J4).
      eapply tracks_bind; [apply tracks_read_8, Sub; congruence|]. intros p5 r5 b5 K1 (K2 & K3 & K4).
      eapply tracks_bind; [apply tracks_read_8, Sub; congruence|]. intros p6 r6 b6 L1 (L2 & L3 & L4).
      apply tracks_ret. apply (Fin (MTimeSignature b3 b4 b5 b6) p6 r6 [b3; b4; b5; b6]).
      - rewrite I2, J2, K2, L2. reflexivity.
      - rewrite L3, K3, J3, I3, <- !app_assoc. reflexivity.
      - cbn. f_equal. f_equal. lia.
      - cbn. lia.
      - cbn. auto. }
    eapply tracks_bind; [apply tracks_read, D4|]. intros p3 r3 b3 I1 (I2 & I3 & I4). apply tracks_ret.
    apply (Fin (MMeta kind b3) p3 r3 b3); [exact I2|exact I3|reflexivity|lia|].
    cbn [event_ok]. repeat split; try lia; [apply H4|apply H4|]. eapply bytes_part; [apply Sub, G2|exact I2].
  - replace (s >=? 128) with true by lia. cbn zeta. destruct (nibble s ltac:(lia)) as [-> ->].
    pose proof (Z.div_mod s 16 ltac:(lia)) as Hdm. pose proof (Z.mod_pos_bound s 16 ltac:(lia)) as Hmod.
    destruct (s / 16 =? 8) eqn:E8.
    { eapply tracks_bind; [apply tracks_read_8, HB|]. intros p1 r1 b1 I1 (I2 & I3 & I4).
      eapply tracks_bind; [apply tracks_read_8, Sub, I1|]. intros p2 r2 b2 J1 (J2 & J3 & J4).
      apply tracks_ret. exists (MNoteOff (s mod 16) b1 b2), [b1; b2].
      split; [rewrite I2, J2; reflexivity|]. split; [rewrite J3, I3, <- app_assoc; reflexivity|].
      split; [cbn; auto|]. split; [cbn [status_of]; lia|]. split; [constructor|reflexivity]. }
    destruct (s / 16 =? 9) eqn:E9.
    { eapply tracks_bind; [apply tracks_read_8, HB|]. intros p1 r1 b1 I1 (I2 & I3 & I4).
      eapply tracks_bind; [apply tracks_read_8, Sub, I1|]. intros p2 r2 b2 J1 (J2 & J3 & J4).
      assert (HP : payload_post s pre rest p2 r2 (to_event (MNoteOn (s mod 16) b1 b2), Some s)).
      { exists (MNoteOn (s mod 16) b1 b2), [b1; b2].
        split; [rewrite I2, J2; reflexivity|]. split; [rewrite J3, I3, <- app_assoc; reflexivity|].
        split; [cbn; auto|]. split; [cbn [status_of]; lia|]. split; [constructor|reflexivity]. }
      cbn [to_event] in HP. destruct (b2 =? 0); apply tracks_ret, HP. }
    destruct (s =? 240) eqn:E240.
    { eapply tracks_bind with (Q := fun _ _ _ => False); [|intros ? ? ? ? []].
      apply tracks_sysex; [reflexivity| | |]; unfold at_; cbn [rd_data]; rewrite !app_length; lia. }
    rewrite event_lengths_spec by lia. destruct (message_length s) as [n|] eqn:En.
    + replace (Z.of_nat n =? -1) with false by lia.
      eapply tracks_bind; [apply tracks_read; lia|]. intros p1 r1 b1 I1 (I2 & I3 & I4). apply tracks_ret.
      exists (MOther s b1), b1. split; [exact I2|]. split; [exact I3|]. split.
      * cbn [event_ok]. split; [rewrite En; f_equal; lia|]. split; [unfold is_note_status; lia|]. eapply bytes_part; [exact HB|exact I2].
      * split; [reflexivity|]. split; [constructor|reflexivity].
    + change (-1 =? -1) with true. cbv iota. apply tracks_parsing_error.
Qed.

Lemma tracks_shift_back x E pre b rest : tracks x (pre ++ [b]) rest (shift (-1) (at_ (pre ++ [b]) rest))
  (checked_shift (-1) (at_ (pre ++ [b]) (rest ++ x))) (fun p r _ => p = pre /\ r = b :: rest) E.
Proof.
  unfold checked_shift. rewrite !shift_back. unfold at_ at 2 3 4. cbn [rd_data rd_idx]. rewrite !app_length. cbn [length].
  replace ((0 <=? Z.of_nat (length pre + 1) + -1) && (Z.of_nat (length pre + 1) + -1 <=? Z.of_nat (length pre + 1 + (length rest + length x)))) with true by lia.
  exists pre, (b :: rest). cbn [fst snd]. split; [rewrite <- app_assoc; reflexivity|]. auto.
Qed.

(** No status byte and no previous event: the recursion never gets anywhere. *)
Lemma tracks_no_status x (E : err -> Prop) Q : E RecursionError -> forall d pre b rest, Forall is_byte (pre ++ b :: rest) -> b < 128 ->
  tracks x pre (b :: rest) (read_event d None None (at_ pre (b :: rest)))
    (read_event_with checked_read checked_shift d None None (at_ pre ((b :: rest) ++ x))) Q E.
Proof.
  intros HE. induction d as [|d IH]; intros pre b rest HB Hb.
  - cbn [read_event read_event_with]. apply tracks_raise, HE.
  - cbn [read_event read_event_with]. eapply tracks_bind; [apply tracks_read_8, HB|].
    intros p1 r1 s H1 (H2 & H3 & H4). injection H2 as <- <-. subst p1.
    replace (b =? 255) with false by lia. replace (b >=? 128) with false by lia.
    eapply tracks_bind; [apply tracks_shift_back|]. intros p2 r2 u G1 (-> & ->). apply IH; assumption.
Qed.

Definition event_post (previous : option Z) (pre rest pre1 rest1 : bytes) (a : event * option Z) : Prop :=
  exists e b, rest = b ++ rest1 /\ pre1 = pre ++ b /\ event_ok e /\ event_read previous e b rest1 /\
    a = (to_event e, Some (status_of e)).

Lemma tracks_event x previous pre rest : Forall is_byte (pre ++ rest) -> status_ok previous ->
  tracks x pre rest (read_event recursion_limit None previous (at_ pre rest))
    (read_event_with checked_read checked_shift recursion_limit None previous (at_ pre (rest ++ x)))
    (event_post previous pre rest)
    (fun e => e = RecursionError /\ previous = None /\ exists b r, rest = b :: r /\ 0 <= b < 128).
Proof.
  intros HB Hp. change recursion_limit with (S (S 998)). generalize 998%nat as d. intros d.
  destruct rest as [|b rest].
  { cbn [read_event read_event_with]. eapply tracks_bind; [apply tracks_read_8, HB|].
    intros p1 r1 s H1 (H2 & _). discriminate. }
  assert (Hb : is_byte b) by (apply Forall_app in HB; destruct HB as [_ HB]; inversion HB; assumption).
  destruct (Z.lt_ge_cases b 128) as [L|L].
  - destruct previous as [s|].
    + cbn [status_ok] in Hp.
      pose proof (tracks_event_status x (fun e => e = RecursionError /\ Some s = None /\ exists b0 r, b :: rest = b0 :: r /\ 0 <= b0 < 128)
        d s (Some s) pre (b :: rest) HB Hp) as T.
      eapply tracks_weaken with (Q' := event_post (Some s) pre (b :: rest)) in T; [| |intros e He; exact He].
      * remember (S d) as d' eqn:Ed. cbn [read_event read_event_with].
        eapply tracks_bind; [apply tracks_read_8, HB|].
        intros p1 r1 v H1 (H2 & H3 & H4). injection H2 as <- <-. subst p1.
        replace (b =? 255) with false by lia. replace (b >=? 128) with false by lia.
        eapply tracks_bind; [apply tracks_shift_back|]. intros p2 r2 u G1 (-> & ->). exact T.
      * intros p r a _ (e & c & A1 & A2 & A3 & A4 & A5 & A6). exists e, c. split; [exact A1|]. split; [exact A2|]. split; [exact A3|].
        subst s. split; [|exact A6]. destruct c as [|y c].
        -- right. split; [reflexivity|]. split; [exact A5|]. split; [reflexivity|]. exists b, rest. auto.
        -- left. injection A1 as <- A1. apply B_running; [exact A5|reflexivity|exact L].
    + eapply tracks_no_status; [|exact HB|exact L]. split; [reflexivity|]. split; [reflexivity|]. exists b, rest.
      unfold is_byte in Hb. split; [reflexivity|lia].
  - pose proof (tracks_event_status x (fun e => e = RecursionError /\ previous = None /\ exists b0 r, b :: rest = b0 :: r /\ 0 <= b0 < 128)
      (S d) b previous (pre ++ [b]) rest ltac:(rewrite <- app_assoc; exact HB) ltac:(unfold is_byte in Hb; lia)) as T.
    rewrite read_event_explicit by exact L.
    assert (E2 : read_event_with checked_read checked_shift (S (S d)) None previous (at_ pre ((b :: rest) ++ x)) =
                 read_event_with checked_read checked_shift (S (S d)) (Some b) previous (at_ (pre ++ [b]) (rest ++ x))).
    { remember (S d) as d' eqn:Ed. cbn [read_event_with]. erewrite rbind_ok.
      2:{ unfold read_8_with. erewrite rbind_ok; [|rewrite checked_read_at by lia; change ((b :: rest) ++ x) with ([b] ++ rest ++ x); apply read_ok; reflexivity].
          reflexivity. }
      change (from_bytes_be [b]) with b. erewrite (rbind_ok (ret b)); [|reflexivity].
      replace (b >=? 128) with true by lia. reflexivity. }
    rewrite E2. destruct T as (p & r & T1 & T2 & T3). exists p, r. split; [rewrite T1, <- app_assoc; reflexivity|]. split; [exact T2|].
    destruct (snd (read_event (S (S d)) (Some b) previous (at_ (pre ++ [b]) rest))) as [a|e]; [|exact T3].
    destruct T3 as [T3 (e & c & A1 & A2 & A3 & A4 & A5 & A6)]. split; [exact T3|]. exists e, (b :: c).
    subst b. split; [cbn; congruence|]. split; [rewrite A2, <- app_assoc; reflexivity|]. split; [exact A3|].
    split; [left; apply B_explicit, A5|exact A6].
Qed.

(** ** The main loop *)
Definition loop_post (s : parse_state) (pre rest pre1 rest1 : bytes) (a : parse_state) : Prop :=
  exists evs dt b, rest = b ++ rest1 /\ pre1 = pre ++ b /\
    Forall (fun te => event_ok (snd te)) evs /\ Forall not_end evs /\ Forall (fun te => 0 <= fst te) evs /\
    stream_read (ps_previous s) (evs ++ [(dt, MEndOfTrack)]) b rest1 /\ 0 <= dt /\
    a = next_state (fold_left next_state evs s) (dt, MEndOfTrack).

Definition loop_err (s : parse_state) (rest : bytes) (e : err) : Prop :=
  e = RecursionError /\ ps_previous s = None /\
  exists d n b r, rest = d ++ b :: r /\ vlq_of d n /\ 0 <= b < 128.

Lemma tracks_loop x : forall f1 f2 s pre rest, Forall is_byte (pre ++ rest) -> status_ok (ps_previous s) ->
  (length rest < f1)%nat -> (f1 <= f2)%nat ->
  tracks x pre rest (parse_loop f1 s (at_ pre rest))
    (parse_loop_with checked_read checked_shift f2 s (at_ pre (rest ++ x))) (loop_post s pre rest) (loop_err s rest).
Proof.
  induction f1 as [|f1 IH]; intros f2 s pre rest HB Hp Hf1 Hf2; [lia|]. destruct f2 as [|f2]; [lia|].
  cbn [parse_loop parse_loop_with].
  eapply tracks_bind; [apply tracks_var_len, HB|]. intros p1 r1 dt H1 (d & D1 & D2 & D3 & D4). cbn zeta.
  eapply tracks_bind.
  { eapply tracks_weaken; [apply tracks_event; [rewrite H1; exact HB|exact Hp]|intros p r a _ Ha; exact Ha|].
    intros e (E1 & E2 & b & r & E3 & E4). split; [exact E1|]. split; [exact E2|].
    exists d, dt, b, r. split; [congruence|]. auto. }
  intros p2 r2 a H2 (e & b & A1 & A2 & A3 & A4 & A5). subst a.
  assert (Hlen : (length r2 < length rest)%nat).
  { rewrite D2, A1, !app_length. apply vlq_nonempty in D1. lia. }
  assert (Next : e <> MEndOfTrack ->
    tracks x p2 r2 (parse_loop f1 (next_state s (dt, e)) (at_ p2 r2))
      (parse_loop_with checked_read checked_shift f2 (next_state s (dt, e)) (at_ p2 (r2 ++ x)))
      (loop_post s pre rest) (loop_err s rest)).
  { intros Hne. eapply tracks_weaken; [apply IH| |].
    - rewrite H2, H1. exact HB.
    - rewrite next_state_previous. cbn [snd status_ok]. apply status_of_range, A3.
    - lia.
    - lia.
    - intros p3 r3 a _ (evs & dt' & b' & B1 & B2 & B3 & B4 & B5 & B6 & B7 & B8).
      exists ((dt, e) :: evs), dt', (d ++ b ++ b'). split; [rewrite D2, A1, B1, <- !app_assoc; reflexivity|].
      split; [rewrite B2, A2, D3, <- !app_assoc; reflexivity|].
      split; [constructor; assumption|]. split; [constructor; assumption|]. split; [constructor; assumption|].
      split; [|split; [exact B7|exact B8]]. cbn [app]. constructor; [exact D1|rewrite <- B1; exact A4|].
      rewrite next_state_previous in B6. exact B6.
    - intros e' (_ & E2 & _). rewrite next_state_previous in E2. discriminate. }
  destruct e; cbn [to_event].
  - apply Next. discriminate.
  - specialize (Next ltac:(discriminate)). unfold next_state in Next. cbn [fst snd to_event] in Next. destruct (velocity =? 0); exact Next.
  - apply Next. discriminate.
  - specialize (Next ltac:(discriminate)). destruct A3 as (N1 & N2 & _). rewrite sig_new_event by assumption. exact Next.
  - apply Next. discriminate.
  - apply tracks_ret. exists [], dt, (d ++ b). split; [rewrite D2, A1, <- app_assoc; reflexivity|].
    split; [rewrite A2, D3, <- app_assoc; reflexivity|]. split; [constructor|]. split; [constructor|]. split; [constructor|].
    split; [|split; [exact D4|reflexivity]]. cbn [app]. rewrite <- (app_nil_r (d ++ b)), <- app_assoc.
    constructor; [exact D1|exact A4|constructor].
  - apply Next. discriminate.
Qed.
