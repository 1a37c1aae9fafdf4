(** The generator of chord.py: its text is read as the table it was made from (C67). *)
From Coq Require Import ZArith List Bool String Lia ZifyBool.
From Verif Require Import Py PyFloat Signature Tone Note Chord ChordGen ChordText SpecBase SourceSpec DecFacts.
Import ListNotations.
Open Scope Z_scope.

(** ** Scanning *)

Lemma scan_cat : forall a s l1 s1 b l2 s2, scan s a = Some (l1, s1) -> scan s1 b = Some (l2, s2) -> scan s (a ++ b) = Some (l1 ++ l2, s2).
Proof.
  induction a as [|c a IH]; intros s l1 s1 b l2 s2 H1 H2; cbn [scan app] in *.
  - injection H1 as <- <-. exact H2.
  - destruct (step s c) as [[l s']|]; [|discriminate]. destruct (scan s' a) as [[l' s'']|] eqn:E; [|discriminate].
    injection H1 as <- <-. rewrite (IH _ _ _ _ _ _ E H2), app_assoc. reflexivity.
Qed.

Lemma scan_ident_rest d : forall s a, Forall (fun c => is_letter c || is_digit c = true) s -> scan (MName a, d) s = Some ([], (MName (rev s ++ a), d)).
Proof.
  induction s as [|c s IH]; intros a H; [reflexivity|]. inversion H as [|? ? H1 H2]; subst. cbn [scan step]. rewrite H1.
  rewrite IH by exact H2. cbn [app rev]. rewrite <- app_assoc. reflexivity.
Qed.

Lemma scan_name d s : good_name s -> scan (MCode, d) s = Some ([], (MName (rev s), d)).
Proof.
  intros [(c & r & -> & Hc & Hr) _]. cbn [scan step]. unfold code_char. rewrite Hc.
  rewrite scan_ident_rest by exact Hr. reflexivity.
Qed.

Lemma scan_doc d : forall s a, Forall (fun c => c <> 34 /\ c <> 92) s -> scan (MDoc a, d) s = Some ([], (MDoc (rev s ++ a), d)).
Proof.
  induction s as [|c s IH]; intros a H; [reflexivity|]. inversion H as [|? ? [H1 H2] H3]; subst. cbn [scan step].
  replace (c =? 34) with false by lia. replace (c =? 92) with false by lia.
  rewrite IH by exact H3. cbn [app rev]. rewrite <- app_assoc. reflexivity.
Qed.

Lemma scan_digits d : forall ds z, digits_ok ds ->
  scan (MNum z, d) (map (fun x => 48 + x) ds) = Some ([], (MNum (z * 10 ^ Z.of_nat (List.length ds) + decimal ds), d)).
Proof.
  induction ds as [|x ds IH]; intros z H; cbn [map scan].
  - change (decimal []) with 0. cbn [List.length Z.of_nat]. rewrite Z.pow_0_r. do 4 f_equal. lia.
  - inversion H as [|? ? H1 H2]; subst. cbn [step]. replace (is_digit (48 + x)) with true by (unfold is_digit; lia).
    rewrite IH by exact H2. do 4 f_equal. cbn [decimal List.length]. rewrite Nat2Z.inj_succ, Z.pow_succ_r by lia. lia.
Qed.

Lemma scan_number d k : 0 <= k -> scan (MCode, d) (str_of_Z k) = Some ([], (MNum k, d)).
Proof.
  intros H. destruct (str_of_Z_spec k) as (ds & Hne & Hok & Hv & _ & ->). replace (k <? 0) with false by lia. cbn [app].
  destruct ds as [|x ds]; [contradiction|]. inversion Hok as [|? ? H1 H2]; subst. cbn [map scan step]. unfold code_char.
  replace (is_letter (48 + x)) with false by (unfold is_letter; lia). replace (is_digit (48 + x)) with true by (unfold is_digit; lia).
  rewrite scan_digits by exact H2. do 4 f_equal.
  cbn [decimal] in Hv. lia.
Qed.

(** ** The pieces of the text of a function *)

Fixpoint segments_from (cur : pystr) (s : pystr) : list pystr :=
  match s with
  | [] => [rev cur]
  | c :: r => if (c =? 123) || (c =? 125) then rev cur :: segments_from [] r else segments_from (c :: cur) r
  end.
Definition seg (k : nat) : pystr := nth k (segments_from [] (strip function_template)) [].
Definition prelude : pystr := nth 0 (segments_from [] (strip file_template)) [].

Lemma format_function a b c d e :
  format (strip function_template)
    [(lit "name", a); (lit "full_name", b); (lit "number", c); (lit "return_type", d); (lit "return_statement", e)] =
  Ok (seg 0 ++ a ++ seg 2 ++ d ++ seg 4 ++ b ++ seg 6 ++ c ++ seg 8 ++ e).
Proof. rewrite <- (app_nil_r e) at 2. vm_compute. reflexivity. Qed.

Lemma format_file a : format (strip file_template) [(lit "functions", a)] = Ok (prelude ++ a).
Proof. rewrite <- (app_nil_r a) at 2. vm_compute. reflexivity. Qed.

Lemma scan_seg0 : scan (MStart 0, O) (seg 0) = Some ([TLine 0; nm "def"], (MCode, O)).
Proof. vm_compute. reflexivity. Qed.
Lemma scan_seg2 a : scan (MName a, O) (seg 2) = Some (TName (rev a) :: parameters ++ [op "-"; op ">"], (MCode, O)).
Proof. vm_compute. reflexivity. Qed.
Lemma scan_seg4 : exists a, scan (MCode, O) (seg 4) = Some ([op ":"; TLine 4], (MDoc a, O)).
Proof. eexists. vm_compute. reflexivity. Qed.
Lemma scan_seg6 a : exists b, scan (MDoc a, O) (seg 6) = Some ([], (MDoc b, O)).
Proof. eexists. vm_compute. reflexivity. Qed.
Lemma scan_seg8 a : exists doc, scan (MDoc a, O) (seg 8) = Some (TStr doc :: TLine 4 :: assignment ++ [TLine 4; nm "return"], (MCode, O)).
Proof. eexists. vm_compute. reflexivity. Qed.

Lemma number_doc k : 0 <= k -> Forall (fun c => c <> 34 /\ c <> 92) (str_of_Z k).
Proof. intros _. eapply Forall_impl; [|apply str_of_Z_chars]. cbn. intros c H. lia. Qed.

(** The annotation. *)
Fixpoint type_toks (n : nat) : list tok :=
  match n with
  | O => [op "]"]
  | S O => [nm "Note"; op "]"]
  | S m => nm "Note" :: op "," :: type_toks m
  end.
Lemma scan_types : forall n, (1 <= n)%nat ->
  scan (MCode, 1%nat) (join (lit ", ") (repeat (lit "Note") n) ++ lit "]") = Some (type_toks n, (MCode, O)).
Proof.
  induction n as [|[|n] IH]; intros H; [lia|reflexivity|].
  change (repeat (lit "Note") (S (S n))) with (lit "Note" :: repeat (lit "Note") (S n)).
  change (join (lit ", ") (lit "Note" :: repeat (lit "Note") (S n))) with (lit "Note" ++ lit ", " ++ join (lit ", ") (repeat (lit "Note") (S n))).
  rewrite <- !app_assoc.
  change (type_toks (S (S n))) with ([nm "Note"; op ","] ++ type_toks (S n)).
  rewrite app_assoc. eapply scan_cat; [vm_compute; reflexivity|]. apply IH. lia.
Qed.
Lemma scan_return_type ks : (1 <= List.length ks)%nat ->
  scan (MCode, O) (return_type ks) = Some (nm "Tuple" :: op "[" :: type_toks (List.length ks), (MCode, O)).
Proof.
  intros H. unfold return_type. change (nm "Tuple" :: op "[" :: type_toks (List.length ks)) with ([nm "Tuple"; op "["] ++ type_toks (List.length ks)).
  eapply scan_cat; [vm_compute; reflexivity|]. apply scan_types, H.
Qed.

(** The tuple. *)
Definition tone_toks (k : Z) : list tok :=
  if k =? 0 then [nm "base_tone"]
  else [nm "base_tone"; op "."; nm "transposed"; op "("; op (if k >? 0 then "+" else "-"); TInt (Z.abs k); op ")"].
Definition note_toks (k : Z) : list tok :=
  nm "Note" :: op "(" :: tone_toks k ++ [op ","; nm "base_duration"; op ","; nm "base_velocity"; op ")"].
Lemma scan_statement k : scan (MCode, 1%nat) (statement k) = Some (note_toks k, (MCode, 1%nat)).
Proof.
  unfold statement, note_toks, tone_toks. destruct (Z.eqb_spec k 0) as [->|H]; [vm_compute; reflexivity|].
  destruct (k >? 0).
  - change (nm "Note" :: op "(" :: [nm "base_tone"; op "."; nm "transposed"; op "("; op "+"; TInt (Z.abs k); op ")"] ++ [op ","; nm "base_duration"; op ","; nm "base_velocity"; op ")"])
      with ([nm "Note"; op "("; nm "base_tone"; op "."; nm "transposed"; op "("; op "+"] ++ [] ++ [TInt (Z.abs k); op ")"; op ","; nm "base_duration"; op ","; nm "base_velocity"; op ")"]).
    eapply scan_cat; [vm_compute; reflexivity|]. eapply scan_cat; [apply scan_number; lia|]. vm_compute. reflexivity.
  - change (nm "Note" :: op "(" :: [nm "base_tone"; op "."; nm "transposed"; op "("; op "-"; TInt (Z.abs k); op ")"] ++ [op ","; nm "base_duration"; op ","; nm "base_velocity"; op ")"])
      with ([nm "Note"; op "("; nm "base_tone"; op "."; nm "transposed"; op "("; op "-"] ++ [] ++ [TInt (Z.abs k); op ")"; op ","; nm "base_duration"; op ","; nm "base_velocity"; op ")"]).
    eapply scan_cat; [vm_compute; reflexivity|]. eapply scan_cat; [apply scan_number; lia|]. vm_compute. reflexivity.
Qed.

Fixpoint tuple_toks (ks : list Z) : list tok :=
  match ks with
  | [] => [op ")"]
  | [k] => note_toks k ++ [op ")"]
  | k :: r => note_toks k ++ op "," :: tuple_toks r
  end.
Lemma scan_notes : forall ks, ks <> [] ->
  scan (MCode, 1%nat) (join (44 :: 10 :: indent ++ indent) (map statement ks) ++ (10 :: indent ++ lit ")")) = Some (tuple_toks ks, (MCode, O)).
Proof.
  induction ks as [|k [|k' ks] IH]; intros H; [contradiction| |].
  - cbn [map join tuple_toks]. eapply scan_cat; [apply scan_statement|]. vm_compute. reflexivity.
  - change (map statement (k :: k' :: ks)) with (statement k :: map statement (k' :: ks)).
    change (join (44 :: 10 :: indent ++ indent) (statement k :: map statement (k' :: ks))) with
      (statement k ++ (44 :: 10 :: indent ++ indent) ++ join (44 :: 10 :: indent ++ indent) (map statement (k' :: ks))).
    rewrite <- !app_assoc. change (tuple_toks (k :: k' :: ks)) with (note_toks k ++ [op ","] ++ tuple_toks (k' :: ks)).
    eapply scan_cat; [apply scan_statement|]. eapply scan_cat; [vm_compute; reflexivity|]. apply IH. discriminate.
Qed.
Lemma scan_return_statement ks : ks <> [] -> scan (MCode, O) (return_statement ks) = Some (op "(" :: tuple_toks ks, (MCode, O)).
Proof.
  intros H. unfold return_statement. change (op "(" :: tuple_toks ks) with ([op "("] ++ tuple_toks ks).
  eapply scan_cat; [vm_compute; reflexivity|]. apply scan_notes, H.
Qed.

(** A function. *)
Definition rest_toks (ks : list Z) (doc : pystr) : list tok :=
  parameters ++ [op "-"; op ">"; nm "Tuple"; op "["] ++ type_toks (List.length ks) ++ [op ":"; TLine 4] ++
  TStr doc :: (TLine 4 :: assignment ++ [TLine 4; nm "return"; op "("]) ++ tuple_toks ks.

Lemma scan_function name full ks : good_name name -> Forall (fun c => c <> 34 /\ c <> 92) full -> ks <> [] -> exists doc,
  scan (MStart 0, O) (seg 0 ++ name ++ seg 2 ++ return_type ks ++ seg 4 ++ full ++ seg 6 ++ str_of_Z (Z.of_nat (List.length ks)) ++ seg 8 ++ return_statement ks) =
  Some (TLine 0 :: nm "def" :: TName name :: rest_toks ks doc, (MCode, O)).
Proof.
  intros Hn Hf Hk. destruct scan_seg4 as [a4 E4]. destruct (scan_seg6 (rev full ++ a4)) as [a6 E6].
  destruct (scan_seg8 (rev (str_of_Z (Z.of_nat (List.length ks))) ++ a6)) as [doc E8]. exists doc.
  assert (L : (1 <= List.length ks)%nat) by (destruct ks; [contradiction|cbn; lia]).
  eapply eq_trans.
  - eapply scan_cat; [exact scan_seg0|]. eapply scan_cat; [apply scan_name, Hn|]. eapply scan_cat; [apply scan_seg2|].
    eapply scan_cat; [apply scan_return_type, L|]. eapply scan_cat; [exact E4|]. eapply scan_cat; [apply scan_doc, Hf|].
    eapply scan_cat; [exact E6|]. eapply scan_cat; [apply scan_doc, number_doc; lia|]. eapply scan_cat; [exact E8|]. apply scan_return_statement, Hk.
  - rewrite rev_involutive. unfold rest_toks. cbn [app]. repeat (rewrite <- app_assoc; cbn [app]). reflexivity.
Qed.

(** ** Parsing *)

Lemma name_eqb_refl s : name_eqb s s = true.
Proof. unfold name_eqb. destruct (list_eq_dec Z.eq_dec s s); [reflexivity|contradiction]. Qed.
Lemma tok_eqb_refl t : tok_eqb t t = true.
Proof. destruct t; cbn; auto using name_eqb_refl, Z.eqb_refl, Nat.eqb_refl. Qed.
Lemma expect_app : forall p l, expect p (p ++ l) = Some l.
Proof. induction p as [|a p IH]; intros l; [reflexivity|]. cbn [expect app]. rewrite tok_eqb_refl. apply IH. Qed.
Lemma expect_cons a p l : expect (a :: p) (a :: l) = expect p l.
Proof. cbn [expect]. rewrite tok_eqb_refl. reflexivity. Qed.

Lemma p_types_toks : forall n f r, (1 <= n)%nat -> (n <= f)%nat -> p_types f (type_toks n ++ r) = Some (n, r).
Proof.
  induction n as [|[|n] IH]; intros f r H L; [lia| |]; destruct f as [|f]; try lia.
  - reflexivity.
  - change (type_toks (S (S n)) ++ r) with ([nm "Note"] ++ (op "," :: type_toks (S n) ++ r)). cbn [p_types]. rewrite expect_app.
    change (op ",") with (TOp 44). cbn [Z.eqb Pos.eqb]. rewrite IH by lia. reflexivity.
Qed.
Lemma type_toks_length n : (n <= List.length (type_toks n))%nat.
Proof. induction n as [|[|n] IH]; [cbn; lia|cbn; lia|]. change (type_toks (S (S n))) with (nm "Note" :: op "," :: type_toks (S n)). cbn [List.length]. lia. Qed.

Lemma p_note_toks k r : p_note (note_toks k ++ r) = Some (k, r).
Proof.
  unfold note_toks, tone_toks. destruct (Z.eqb_spec k 0) as [->|H]; [reflexivity|]. destruct (Z.gtb_spec k 0) as [G|G].
  - transitivity (Some (Z.abs k, r)); [reflexivity|]. rewrite Z.abs_eq by lia. reflexivity.
  - transitivity (Some (- Z.abs k, r)); [reflexivity|]. rewrite Z.abs_neq, Z.opp_involutive by lia. reflexivity.
Qed.

Lemma p_tuple_toks : forall ks f n, ks <> [] -> (2 <= n + List.length ks)%nat -> (List.length ks <= f)%nat -> p_tuple f n (tuple_toks ks) = Some (ks, []).
Proof.
  induction ks as [|k [|k' ks] IH]; intros f n H L F; [contradiction| |]; destruct f as [|f]; cbn [List.length] in *; try lia.
  - cbn [tuple_toks p_tuple]. rewrite p_note_toks. change (op ")") with (TOp 41). cbv iota beta. destruct n; [lia|]. reflexivity.
  - change (tuple_toks (k :: k' :: ks)) with (note_toks k ++ op "," :: tuple_toks (k' :: ks)). cbn [p_tuple]. rewrite p_note_toks.
    change (op ",") with (TOp 44). cbv iota beta. cbn [Z.eqb Pos.eqb].
    rewrite (IH f (S n)) by (try discriminate; cbn [List.length]; lia).
    assert (E : exists l, tuple_toks (k' :: ks) = nm "Note" :: l) by (destruct ks; eexists; reflexivity).
    destruct E as [l ->]. reflexivity.
Qed.
Lemma tuple_toks_length : forall ks, (List.length ks <= List.length (tuple_toks ks))%nat.
Proof.
  induction ks as [|k [|k' ks] IH]; [cbn; lia| |].
  - cbn [tuple_toks List.length]. rewrite app_length. cbn. lia.
  - change (tuple_toks (k :: k' :: ks)) with (note_toks k ++ op "," :: tuple_toks (k' :: ks)). rewrite app_length. cbn [List.length] in *. lia.
Qed.

Lemma p_function_toks ks doc : (2 <= List.length ks)%nat -> p_function (rest_toks ks doc) = Some ks.
Proof.
  intros H. unfold p_function, rest_toks. rewrite expect_app, expect_app.
  rewrite p_types_toks; [| lia | rewrite app_length; pose proof (type_toks_length (List.length ks)); lia].
  rewrite expect_app. cbv iota beta. rewrite expect_app.
  rewrite p_tuple_toks; [| destruct ks; cbn in H; [lia|discriminate] | lia | apply tuple_toks_length].
  rewrite Nat.eqb_refl. reflexivity.
Qed.

(** *** Statements *)

Definition inner (t : tok) : bool := match t with TLine O => false | _ => true end.
Lemma statements_from_app : forall b cur l, forallb inner b = true -> statements_from cur (b ++ l) = statements_from (rev b ++ cur) l.
Proof.
  induction b as [|t b IH]; intros cur l H; [reflexivity|]. cbn [forallb] in H. apply andb_prop in H as [H1 H2]. cbn [app rev].
  rewrite <- app_assoc. cbn [app]. rewrite <- IH by exact H2.
  destruct t as [| | | |[|k]]; try discriminate; reflexivity.
Qed.
Lemma statements_bodies : forall bs cur, Forall (fun b => forallb inner b = true) bs ->
  statements_from cur (flat_map (fun b => TLine 0 :: b) bs) = rev cur :: bs.
Proof.
  induction bs as [|b bs IH]; intros cur H; [reflexivity|]. inversion H as [|? ? H1 H2]; subst. cbn [flat_map app].
  cbn [statements_from]. rewrite statements_from_app by exact H1. rewrite app_nil_r, IH by exact H2. rewrite rev_involutive. reflexivity.
Qed.

Lemma inner_app a b : forallb inner (a ++ b) = forallb inner a && forallb inner b.
Proof. apply forallb_app. Qed.
Lemma inner_types : forall n, forallb inner (type_toks n) = true.
Proof. induction n as [|[|n] IH]; [reflexivity|reflexivity|]. change (type_toks (S (S n))) with (nm "Note" :: op "," :: type_toks (S n)). exact IH. Qed.
Lemma inner_note k : forallb inner (note_toks k) = true.
Proof. unfold note_toks, tone_toks. destruct (k =? 0); reflexivity. Qed.
Lemma inner_tuple : forall ks, forallb inner (tuple_toks ks) = true.
Proof.
  induction ks as [|k [|k' ks] IH]; [reflexivity| |].
  - cbn [tuple_toks]. rewrite inner_app, inner_note. reflexivity.
  - change (tuple_toks (k :: k' :: ks)) with (note_toks k ++ op "," :: tuple_toks (k' :: ks)). rewrite inner_app, inner_note. exact IH.
Qed.
Lemma inner_rest ks doc : forallb inner (rest_toks ks doc) = true.
Proof. unfold rest_toks. rewrite !inner_app, inner_types. cbn [forallb inner]. rewrite inner_app, inner_tuple. reflexivity. Qed.

Lemma p_module_app : forall a b x y, p_module a = Some x -> p_module b = Some y -> p_module (a ++ b) = Some (x ++ y).
Proof.
  induction a as [|s a IH]; intros b x y Ha Hb; cbn [p_module app] in *.
  - injection Ha as <-. exact Hb.
  - destruct (p_statement s) as [u|]; [|discriminate]. destruct (p_module a) as [v|] eqn:E; [|discriminate]. injection Ha as <-.
    rewrite (IH b v y eq_refl Hb), app_assoc. reflexivity.
Qed.

Lemma p_statement_function name ks doc : reserved name = false -> (2 <= List.length ks)%nat ->
  p_statement (nm "def" :: TName name :: rest_toks ks doc) = Some [(name, ks)].
Proof.
  intros Hr Hk. unfold p_statement, nm. change (name_eqb (lit "def") (lit "from")) with false. cbv iota.
  change (name_eqb (lit "def") (lit "def")) with true. cbv iota. rewrite Hr.
  assert (E : name_eqb name (lit "_get_parameters") = false).
  { destruct (name_eqb name (lit "_get_parameters")) eqn:E; [|reflexivity]. exfalso.
    unfold reserved in Hr. assert (T : existsb (fun k => name_eqb name (lit k)) (keywords ++ needed) = true); [|congruence].
    apply existsb_exists. exists "_get_parameters"%string. split; [|exact E]. apply in_or_app. right. cbn. tauto. }
  rewrite E, p_function_toks by exact Hk. reflexivity.
Qed.

(** ** Names *)

Lemma lstrip_spaces : forall a s, Forall (fun c => c = 32) a -> lstrip (a ++ s) = lstrip s.
Proof. induction a as [|c a IH]; intros s H; [reflexivity|]. inversion H as [|? ? H1 H2]; subst. cbn. apply IH, H2. Qed.
Lemma ident_not_space c : is_letter c || is_digit c = true -> is_space c = false.
Proof. unfold is_letter, is_digit, is_space. lia. Qed.
Lemma good_chars s : good_name s -> Forall (fun c => is_letter c || is_digit c = true) s.
Proof. intros [(c & r & -> & Hc & Hr) _]. constructor; [rewrite Hc; reflexivity|exact Hr]. Qed.
Lemma lstrip_ident s t : Forall (fun c => is_letter c || is_digit c = true) s -> s <> [] -> lstrip (s ++ t) = s ++ t.
Proof. intros H N. destruct s as [|c s]; [contradiction|]. inversion H as [|? ? H1 H2]; subst. cbn. rewrite ident_not_space by exact H1. reflexivity. Qed.
Lemma spaces_rev b : Forall (fun c => c = 32) b -> Forall (fun c => c = 32) (rev b).
Proof. intros H. apply Forall_rev, H. Qed.
Lemma strip_name a s b : Forall (fun c => c = 32) a -> Forall (fun c => c = 32) b -> good_name s -> strip (a ++ s ++ b) = s.
Proof.
  intros Ha Hb Hs. pose proof (good_chars s Hs) as Hc. assert (N : s <> []) by (destruct Hs as [(c & r & -> & _) _]; discriminate).
  unfold strip. rewrite lstrip_spaces by exact Ha. rewrite lstrip_ident by assumption. rewrite rev_app_distr, lstrip_spaces by (apply spaces_rev, Hb).
  rewrite <- (app_nil_r (rev s)). rewrite lstrip_ident; [|apply Forall_rev, Hc|].
  - rewrite app_nil_r. apply rev_involutive.
  - intros E. apply N. rewrite <- (rev_involutive s), E. reflexivity.
Qed.

Lemma split_from_plain : forall w cur t, Forall (fun c => c <> 44) w -> split_from cur (w ++ t) = split_from (rev w ++ cur) t.
Proof.
  induction w as [|c w IH]; intros cur t H; [reflexivity|]. inversion H as [|? ? H1 H2]; subst. cbn [app split_from rev].
  replace (c =? 44) with false by lia. rewrite IH by exact H2. rewrite <- app_assoc. reflexivity.
Qed.
Lemma plain_word a s b : Forall (fun c => c = 32) a -> Forall (fun c => c = 32) b -> good_name s -> Forall (fun c => c <> 44) (a ++ s ++ b).
Proof.
  intros Ha Hb Hs. repeat (apply Forall_app; split).
  - eapply Forall_impl; [|exact Ha]. cbn. lia.
  - eapply Forall_impl; [|apply good_chars, Hs]. cbn. unfold is_letter, is_digit. intros c. lia.
  - eapply Forall_impl; [|exact Hb]. cbn. lia.
Qed.
Lemma split_names : forall t names, lists_names t names -> Forall good_name names -> map strip (split_commas t) = names.
Proof.
  induction 1 as [a s b Ha Hb|a s b t names Ha Hb _ IH]; intros G; inversion G as [|? ? G1 G2]; subst; unfold split_commas in *.
  - rewrite <- (app_nil_r (a ++ s ++ b)), split_from_plain by (apply plain_word; assumption). cbn [split_from map].
    rewrite app_nil_r, rev_involutive, strip_name by assumption. reflexivity.
  - replace (a ++ s ++ b ++ 44 :: t) with ((a ++ s ++ b) ++ 44 :: t) by (rewrite <- !app_assoc; reflexivity).
    rewrite split_from_plain by (apply plain_word; assumption). cbn [split_from Z.eqb Pos.eqb map].
    rewrite app_nil_r, rev_involutive, strip_name by assumption. rewrite IH by exact G2. reflexivity.
Qed.
