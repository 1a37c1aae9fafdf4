(** The text written by the generator of chord.py means its table, and chord.py is that text (C67). *)
From Coq Require Import ZArith List Bool String Lia.
From Verif Require Import Py PyFloat Signature Tone Note Chord ChordGen ChordText SpecBase ChordSpec ChordProps SourceSpec SourceFacts.
Import ListNotations.
Open Scope Z_scope.

Definition scans (text : pystr) (body : list tok) : Prop := scan (MStart 0, O) text = Some (TLine 0 :: body, (MCode, O)).

Lemma scan_joined : forall ts bs, Forall2 scans ts bs -> ts <> [] ->
  scan (MStart 0, O) (join [10; 10; 10] ts ++ [10]) = Some (flat_map (fun b => TLine 0 :: b) bs, (MStart 0, O)).
Proof.
  induction 1 as [|t b ts bs Hs HF IH]; intros N; [contradiction|]. destruct ts as [|t' ts].
  - inversion HF; subst. cbn [join flat_map]. eapply scan_cat; [exact Hs|reflexivity].
  - change (join [10; 10; 10] (t :: t' :: ts)) with (t ++ [10; 10; 10] ++ join [10; 10; 10] (t' :: ts)). rewrite <- !app_assoc.
    cbn [flat_map]. eapply scan_cat; [exact Hs|].
    change (flat_map (fun b => TLine 0 :: b) bs) with ([] ++ flat_map (fun b => TLine 0 :: b) bs).
    eapply scan_cat; [reflexivity|]. apply IH. discriminate.
Qed.

Definition prelude_bodies : list (list tok) :=
  match scan (MStart 0, O) prelude with Some (l, _) => tl (statements l) | None => [] end.
Lemma scan_prelude : scan (MStart 0, O) prelude = Some (flat_map (fun b => TLine 0 :: b) prelude_bodies, (MStart 0, O)).
Proof. vm_compute. reflexivity. Qed.
Lemma prelude_inner : Forall (fun b => forallb inner b = true) prelude_bodies.
Proof. apply Forall_forall. apply forallb_forall. vm_compute. reflexivity. Qed.
Lemma prelude_module : p_module prelude_bodies = Some [].
Proof. vm_compute. reflexivity. Qed.

Lemma function_text_eq c n : function_text c n =
  Ok (seg 0 ++ strip n ++ seg 2 ++ return_type (c_notation c) ++ seg 4 ++ c_full_name c ++ seg 6 ++
      str_of_Z (Z.of_nat (List.length (c_notation c))) ++ seg 8 ++ return_statement (c_notation c)).
Proof. apply format_function. Qed.

Lemma c67_total : forall table, exists text, generate table = Ok text.
Proof.
  intros table. assert (E : exists ts, functions_of table = Ok ts).
  { induction table as [|c r [ts IH]]; [eexists; reflexivity|]. cbn [functions_of].
    assert (M : forall l, exists a, map_res (function_text c) l = Ok a).
    { induction l as [|n l [a IHl]]; [eexists; reflexivity|]. cbn [map_res]. rewrite function_text_eq, IHl. eexists. reflexivity. }
    destruct (M (split_commas (c_name c))) as [a Ea]. unfold chord_texts. rewrite Ea, IH. eexists. reflexivity. }
  destruct E as [ts E]. unfold generate. rewrite E. cbn [bind]. rewrite format_file. eexists. reflexivity.
Qed.

Lemma names_scan c : Forall (fun x => x <> 34 /\ x <> 92) (c_full_name c) -> (2 <= List.length (c_notation c))%nat ->
  forall l, Forall good_name (map strip l) -> exists ts bs,
    map_res (function_text c) l = Ok ts /\ Forall2 scans ts bs /\ Forall (fun b => forallb inner b = true) bs /\
    p_module bs = Some (map (fun n => (n, c_notation c)) (map strip l)).
Proof.
  intros Hf Hk. induction l as [|n l IH]; intros G.
  - exists [], []. repeat split; constructor.
  - inversion G as [|? ? G1 G2]; subst. destruct (IH G2) as (ts & bs & E & F & I & M).
    assert (Hne : c_notation c <> []) by (intros X; rewrite X in Hk; cbn in Hk; lia).
    destruct (scan_function (strip n) (c_full_name c) (c_notation c) G1 Hf Hne) as [doc Es].
    cbn [map_res]. rewrite function_text_eq, E. eexists. exists ((nm "def" :: TName (strip n) :: rest_toks (c_notation c) doc) :: bs).
    split; [reflexivity|]. split; [constructor; [exact Es|exact F]|]. split; [constructor; [exact (inner_rest _ _)|exact I]|].
    cbn [p_module map]. rewrite p_statement_function, M; [reflexivity|apply G1|exact Hk].
Qed.

Lemma table_scan : forall table namess, Forall2 row_says table namess -> exists ts bs,
  functions_of table = Ok ts /\ Forall2 scans ts bs /\ Forall (fun b => forallb inner b = true) bs /\
  p_module bs = Some (flat_map (fun p => map (fun n => (n, c_notation (fst p))) (snd p)) (combine table namess)).
Proof.
  induction 1 as [|c names table namess (Hl & Hg & Hf & Hk) _ (ts & bs & E & F & I & M)].
  - exists [], []. repeat split; constructor.
  - pose proof (split_names _ _ Hl Hg) as Hs.
    destruct (names_scan c Hf Hk (split_commas (c_name c))) as (ts1 & bs1 & E1 & F1 & I1 & M1); [rewrite Hs; exact Hg|].
    exists (ts1 ++ ts), (bs1 ++ bs). cbn [functions_of]. unfold chord_texts. rewrite E1, E. split; [reflexivity|].
    split; [apply Forall2_app; assumption|]. split; [apply Forall_app; split; assumption|].
    rewrite (p_module_app _ _ _ _ M1 M), Hs. reflexivity.
Qed.

Lemma c67_generated : forall table namess, Forall2 row_says table namess ->
  exists text, generate table = Ok text /\
    functions_in text = Some (flat_map (fun p => map (fun n => (n, c_notation (fst p))) (snd p)) (combine table namess)).
Proof.
  intros table namess H. destruct (table_scan _ _ H) as (ts & bs & E & F & I & M).
  unfold generate. rewrite E. cbn [bind]. rewrite format_file. eexists. split; [reflexivity|].
  assert (S : tokens ((prelude ++ join [10; 10; 10] ts) ++ [10]) = Some (flat_map (fun b => TLine 0 :: b) (prelude_bodies ++ bs))).
  { unfold tokens. rewrite <- app_assoc. rewrite flat_map_app. destruct ts as [|t ts].
    - inversion F; subst. cbn [join app flat_map]. rewrite (scan_cat _ _ _ _ [10] [] (MStart 0, O) scan_prelude eq_refl). reflexivity.
    - rewrite (scan_cat _ _ _ _ _ _ _ scan_prelude (scan_joined _ _ F ltac:(discriminate))). reflexivity. }
  unfold functions_in. rewrite S. unfold statements. rewrite statements_bodies by (apply Forall_app; split; [exact prelude_inner|exact I]).
  cbn [rev]. exact (p_module_app _ _ _ _ prelude_module M).
Qed.

Fixpoint text_eqb (a b : pystr) : bool :=
  match a, b with
  | [], [] => true
  | x :: a, y :: b => (x =? y) && text_eqb a b
  | _, _ => false
  end.
Lemma text_eqb_eq : forall a b, text_eqb a b = true -> a = b.
Proof.
  induction a as [|x a IH]; intros [|y b] H; try discriminate; [reflexivity|]. cbn in H. apply andb_prop in H as [H1 H2].
  apply Z.eqb_eq in H1. rewrite H1, (IH _ H2). reflexivity.
Qed.

Lemma c67_source : generate chords = Ok chord_py.
Proof.
  assert (E : match generate chords with Ok t => text_eqb t chord_py | Err _ => false end = true) by (vm_compute; reflexivity).
  destruct (generate chords) as [t|e]; [|discriminate]. rewrite (text_eqb_eq _ _ E). reflexivity.
Qed.

Lemma read_chord_py : functions_in chord_py = Some (map (fun row => (lit (fst row), snd row)) chord_table).
Proof. vm_compute. reflexivity. Qed.

Lemma chord_of_shape nd l b d v : build_chord nd (to_shape l) b d v = chord_of nd l b d v.
Proof.
  unfold build_chord, chord_of. destruct (get_parameters nd b d v) as [[[t s] f]|e]; [|reflexivity]. cbn [bind].
  induction l as [|k l IH]; [reflexivity|]. unfold to_shape in *. cbn [map map_res]. rewrite IH. unfold tone_transposed.
  destruct (k =? 0) eqn:Ek; [|reflexivity]. apply Z.eqb_eq in Ek. subst. rewrite Z.add_0_r. destruct t. reflexivity.
Qed.

Lemma c67_model : forall nd, exists l, functions_in chord_py = Some l /\
  Forall2 (fun p q => fst p = lit (fst q) /\ forall base duration velocity, snd q base duration velocity = chord_of nd (snd p) base duration velocity)
    l (chord_functions nd).
Proof.
  intros nd. exists (map (fun row => (lit (fst row), snd row)) chord_table). split; [exact read_chord_py|].
  rewrite functions_table. generalize chord_table. induction l as [|row l IH]; constructor; [|exact IH]. split; [reflexivity|].
  intros. apply chord_of_shape.
Qed.
