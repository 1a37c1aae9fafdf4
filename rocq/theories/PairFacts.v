(** Pairing note-on and note-off events (C49). *)
From Coq Require Import ZArith QArith List Bool Lia ZifyBool Sorted.
From Verif Require Import Py PyFloat PySort Signature Tone Note Track MidiWriter MidiReader
  SpecBase MidiSpec.
Import ListNotations.
Open Scope Z_scope.

Definition upd (run : Z -> option nat) (p : Z) (v : option nat) : Z -> option nat :=
  fun q => if q =? p then v else run q.

Definition pstep (st : nat * (Z -> option nat) * list (nat * nat)) (e : note_event) :=
  let '(i, run, out) := st in
  let p := ne_pitch e in
  if ne_on e then
    match run p with
    | Some _ => (S i, run, out)
    | None => (S i, upd run p (Some i), out)
    end
  else
    match run p with
    | None => (S i, run, out)
    | Some a => (S i, upd run p None, out ++ [(a, i)])
    end.
Definition pair_state (l : list note_event) := fold_left pstep l (0%nat, fun _ => None, []).
Definition note_pairs (l : list note_event) : list (nat * nat) := snd (pair_state l).

Definition open_at (l : list note_event) (p : Z) (a : nat) : Prop :=
  exists e, nth_error l a = Some e /\ ne_on e = true /\ ne_pitch e = p /\ ~ sounding (firstn a l) p /\
    forall j f, (a < j)%nat -> nth_error l j = Some f -> ne_pitch f = p -> ne_on f = true.

Lemma nth_snoc {A} (l : list A) x i :
  nth_error (l ++ [x]) i = if Nat.ltb i (length l) then nth_error l i
                           else if Nat.eqb i (length l) then Some x else None.
Proof.
  destruct (Nat.ltb_spec i (length l)) as [H|H]; [apply nth_error_app1; exact H|].
  rewrite nth_error_app2 by lia. destruct (Nat.eqb_spec i (length l)) as [->|Hn].
  - rewrite Nat.sub_diag. reflexivity.
  - apply nth_error_None. cbn. lia.
Qed.
Lemma nth_len {A} (l : list A) i x : nth_error l i = Some x -> (i < length l)%nat.
Proof. intros H. apply nth_error_Some. congruence. Qed.
Lemma nth_snoc_old {A} (l : list A) x i y : nth_error l i = Some y -> nth_error (l ++ [x]) i = Some y.
Proof. intros H. rewrite nth_error_app1; [exact H|apply nth_len in H; exact H]. Qed.
Lemma nth_snoc_new {A} (l : list A) x : nth_error (l ++ [x]) (length l) = Some x.
Proof. rewrite nth_error_app2, Nat.sub_diag by lia. reflexivity. Qed.
Lemma nth_snoc_inv {A} (l : list A) x i y : nth_error (l ++ [x]) i = Some y ->
  ((i < length l)%nat /\ nth_error l i = Some y) \/ (i = length l /\ y = x).
Proof.
  rewrite nth_snoc. destruct (Nat.ltb_spec i (length l)); [left; auto|].
  destruct (Nat.eqb_spec i (length l)); [right; split; congruence|discriminate].
Qed.
Lemma firstn_snoc {A} (l : list A) x a : (a <= length l)%nat -> firstn a (l ++ [x]) = firstn a l.
Proof. intros H. rewrite firstn_app. replace (a - length l)%nat with 0%nat by lia. cbn. apply app_nil_r. Qed.

Lemma sounding_snoc l x p : sounding (l ++ [x]) p <->
  if ne_pitch x =? p then ne_on x = true else sounding l p.
Proof.
  destruct (ne_pitch x =? p) eqn:E.
  - assert (Hp : ne_pitch x = p) by lia. split.
    + intros (a & e & Ha & Hon & Hpe & Hall). apply nth_snoc_inv in Ha. destruct Ha as [[Hl Ha]|[-> ->]].
      * apply (Hall (length l) x Hl); [apply nth_snoc_new|exact Hp].
      * exact Hon.
    + intros Hon. exists (length l), x. split; [apply nth_snoc_new|]. repeat split; try assumption.
      intros j f Hj Hf. apply nth_len in Hf. rewrite app_length in Hf. cbn in Hf. lia.
  - split.
    + intros (a & e & Ha & Hon & Hpe & Hall). apply nth_snoc_inv in Ha. destruct Ha as [[Hl Ha]|[-> ->]]; [|lia].
      exists a, e. repeat split; try assumption. intros j f Hj Hf. apply (Hall j); [exact Hj|apply nth_snoc_old, Hf].
    + intros (a & e & Ha & Hon & Hpe & Hall). exists a, e. repeat split; try assumption; [apply nth_snoc_old, Ha|].
      intros j f Hj Hf Hpf. apply nth_snoc_inv in Hf. destruct Hf as [[_ Hf]|[-> ->]]; [apply (Hall j); assumption|lia].
Qed.

Lemma open_snoc l x p a : open_at (l ++ [x]) p a <->
  if ne_pitch x =? p then
    ne_on x = true /\ (open_at l p a \/ (a = length l /\ ~ sounding l p))
  else open_at l p a.
Proof.
  destruct (ne_pitch x =? p) eqn:E.
  - assert (Hp : ne_pitch x = p) by lia. split.
    + intros (e & Ha & Hon & Hpe & Hs & Hall). apply nth_snoc_inv in Ha. destruct Ha as [[Hl Ha]|[-> ->]].
      * split; [apply (Hall (length l) x Hl (nth_snoc_new l x) Hp)|]. left. rewrite firstn_snoc in Hs by lia.
        exists e. repeat split; try assumption. intros j f Hj Hf. apply (Hall j); [exact Hj|apply nth_snoc_old, Hf].
      * split; [exact Hon|]. right. split; [reflexivity|]. rewrite firstn_snoc, firstn_all in Hs by lia. exact Hs.
    + intros [Hon [(e & Ha & Hoe & Hpe & Hs & Hall)|[-> Hs]]].
      * exists e. split; [apply nth_snoc_old, Ha|]. repeat split; try assumption.
        -- rewrite firstn_snoc by (apply nth_len in Ha; lia). exact Hs.
        -- intros j f Hj Hf Hpf. apply nth_snoc_inv in Hf. destruct Hf as [[_ Hf]|[-> ->]]; [apply (Hall j); assumption|exact Hon].
      * exists x. split; [apply nth_snoc_new|]. repeat split; try assumption.
        -- rewrite firstn_snoc, firstn_all by lia. exact Hs.
        -- intros j f Hj Hf. apply nth_len in Hf. rewrite app_length in Hf. cbn in Hf. lia.
  - split.
    + intros (e & Ha & Hon & Hpe & Hs & Hall). apply nth_snoc_inv in Ha. destruct Ha as [[Hl Ha]|[-> ->]]; [|lia].
      rewrite firstn_snoc in Hs by lia. exists e. repeat split; try assumption.
      intros j f Hj Hf. apply (Hall j); [exact Hj|apply nth_snoc_old, Hf].
    + intros (e & Ha & Hon & Hpe & Hs & Hall). exists e. split; [apply nth_snoc_old, Ha|]. repeat split; try assumption.
      * rewrite firstn_snoc by (apply nth_len in Ha; lia). exact Hs.
      * intros j f Hj Hf Hpf. apply nth_snoc_inv in Hf. destruct Hf as [[_ Hf]|[-> ->]]; [apply (Hall j); assumption|lia].
Qed.

Lemma is_note_snoc l x a b : is_note (l ++ [x]) a b <->
  is_note l a b \/ (b = length l /\ ne_on x = false /\ open_at l (ne_pitch x) a).
Proof.
  split.
  - intros (e & f & Ha & Hb & Hlt & Hon & Hoff & Hp & Hs & Hall).
    apply nth_snoc_inv in Hb. destruct Hb as [[Hl Hb]|[-> ->]].
    + left. exists e, f. apply nth_snoc_inv in Ha. destruct Ha as [[_ Ha]|[-> _]]; [|lia].
      rewrite firstn_snoc in Hs by lia. repeat split; try assumption.
      intros j g Hj Hg. apply (Hall j); [exact Hj|apply nth_snoc_old, Hg].
    + right. split; [reflexivity|]. split; [exact Hoff|].
      apply nth_snoc_inv in Ha. destruct Ha as [[_ Ha]|[-> _]]; [|lia].
      rewrite firstn_snoc in Hs by lia. exists e. rewrite Hp. repeat split; try assumption.
      intros j g Hj Hg. apply (Hall j); [split; [exact Hj|apply nth_len in Hg; exact Hg]|apply nth_snoc_old, Hg].
  - intros [(e & f & Ha & Hb & Hlt & Hon & Hoff & Hp & Hs & Hall)|(-> & Hoff & e & Ha & Hon & Hp & Hs & Hall)].
    + exists e, f. split; [apply nth_snoc_old, Ha|]. split; [apply nth_snoc_old, Hb|]. repeat split; try assumption.
      * rewrite firstn_snoc by (apply nth_len in Ha; lia). exact Hs.
      * intros j g Hj Hg. apply (Hall j); [exact Hj|]. apply nth_snoc_inv in Hg. destruct Hg as [[_ Hg]|[-> _]]; [exact Hg|].
        apply nth_len in Hb. lia.
    + exists e, x. split; [apply nth_snoc_old, Ha|]. split; [apply nth_snoc_new|]. pose proof (nth_len _ _ _ Ha).
      repeat split; try assumption; try congruence.
      * rewrite firstn_snoc by lia. rewrite Hp. exact Hs.
      * intros j g [Hj1 Hj2] Hg Hpg. apply nth_snoc_inv in Hg. destruct Hg as [[_ Hg]|[-> _]]; [|lia].
        apply (Hall j); [exact Hj1|exact Hg|congruence].
Qed.

Lemma open_unique l p a a' : open_at l p a -> open_at l p a' -> a = a'.
Proof.
  assert (H : forall a a', open_at l p a -> open_at l p a' -> (a < a')%nat -> False).
  { intros b b' (e & Hb & Hon & Hp & Hs & Hall) (e' & Hb' & Hon' & Hp' & Hs' & Hall') Hlt. apply Hs'.
    exists b, e.
    assert (E : nth_error (firstn b' l) b = Some e).
    { rewrite <- (firstn_skipn b' l) in Hb. rewrite nth_error_app1 in Hb; [exact Hb|].
      rewrite firstn_length. apply nth_len in Hb'. lia. }
    repeat split; try assumption. intros j f Hj Hf. apply (Hall j f Hj).
    rewrite <- (firstn_skipn b' l). rewrite nth_error_app1; [exact Hf|apply nth_len in Hf; exact Hf]. }
  intros H1 H2. destruct (Nat.lt_trichotomy a a') as [L|[L|L]]; [|exact L|]; exfalso; eauto.
Qed.
Lemma open_sounding l p a : open_at l p a -> sounding l p.
Proof. intros (e & Ha & Hon & Hp & _ & Hall). exists a, e. auto. Qed.

Lemma ssorted_snoc (l : list nat) x : StronglySorted lt l -> Forall (fun y => (y < x)%nat) l -> StronglySorted lt (l ++ [x]).
Proof.
  induction 1 as [|y l Hs IH Hy]; intros Hf; cbn [app]; [repeat constructor|].
  inversion Hf; subst. constructor; [apply IH; assumption|]. apply Forall_app. auto.
Qed.

Lemma pair_state_spec : forall l,
  let '(i, run, out) := pair_state l in
  i = length l /\
  (forall p a, run p = Some a <-> open_at l p a) /\
  (forall p, run p = None <-> ~ sounding l p) /\
  (forall a b, In (a, b) out <-> is_note l a b) /\
  StronglySorted lt (map snd out).
Proof.
  induction l as [|x l IH] using rev_ind.
  - cbn. split; [reflexivity|]. split; [|split; [|split; [|constructor]]].
    + intros p a. split; [discriminate|]. intros (e & He & _). destruct a; discriminate.
    + intros p. split; [|reflexivity]. intros _ (a & e & He & _). destruct a; discriminate.
    + intros a b. split; [intros []|]. intros (e & f & He & _). destruct a; discriminate.
  - unfold pair_state in *. rewrite fold_left_app. cbn [fold_left].
    destruct (fold_left pstep l (0%nat, fun _ => None, [])) as [[i run] out].
    destruct IH as (-> & H1 & H2 & H3 & H4). unfold pstep.
    assert (Hlen : forall out', (forall a b, In (a, b) out' -> In (a, b) out) -> Forall (fun y => (y < length l)%nat) (map snd out')).
    { intros out' Ho. apply Forall_forall. intros y Hy. apply in_map_iff in Hy. destruct Hy as ([a b] & <- & Hy).
      apply Ho, H3 in Hy. destruct Hy as (e & f & _ & Hb & _). apply nth_len in Hb. exact Hb. }
    assert (L : forall p a, open_at l p a -> run p = Some a) by (intros; apply H1; assumption).
    destruct (ne_on x) eqn:Eon; destruct (run (ne_pitch x)) as [a0|] eqn:Er;
      (split; [rewrite app_length; cbn; lia|]).
    + (* start of a sounding pitch *)
      assert (So : sounding l (ne_pitch x)) by (apply H1 in Er; eapply open_sounding; exact Er).
      split; [|split; [|split; [|exact H4]]].
      * intros p a. rewrite H1, open_snoc. destruct (ne_pitch x =? p) eqn:E; [|reflexivity].
        assert (ne_pitch x = p) by lia. subst p. rewrite Eon. split; [tauto|]. intros [_ [H|[_ H]]]; [exact H|contradiction].
      * intros p. rewrite H2, sounding_snoc. destruct (ne_pitch x =? p) eqn:E; [|reflexivity].
        assert (ne_pitch x = p) by lia. subst p. rewrite Eon. split; intros H; [contradiction|exfalso; apply H; reflexivity].
      * intros a b. rewrite H3, is_note_snoc, Eon. split; [tauto|]. intros [H|(_ & H & _)]; [exact H|discriminate].
    + (* start of a silent pitch *)
      assert (So : ~ sounding l (ne_pitch x)) by (apply H2; exact Er).
      split; [|split; [|split; [|exact H4]]].
      * intros p a. unfold upd. rewrite open_snoc. rewrite (Z.eqb_sym p). destruct (ne_pitch x =? p) eqn:E; [|apply H1].
        assert (ne_pitch x = p) by lia. subst p. rewrite Eon. split.
        -- intros H. injection H as <-. split; [reflexivity|]. right. auto.
        -- intros [_ [H|[-> _]]]; [apply open_sounding in H; contradiction|reflexivity].
      * intros p. unfold upd. rewrite sounding_snoc, (Z.eqb_sym p). destruct (ne_pitch x =? p) eqn:E; [|apply H2].
        rewrite Eon. split; [discriminate|]. intros H. exfalso. apply H. reflexivity.
      * intros a b. rewrite H3, is_note_snoc, Eon. split; [tauto|]. intros [H|(_ & H & _)]; [exact H|discriminate].
    + (* end of a sounding pitch *)
      pose proof (proj1 (H1 _ _) Er) as Op.
      split; [|split; [|split]].
      * intros p a. unfold upd. rewrite open_snoc, (Z.eqb_sym p). destruct (ne_pitch x =? p) eqn:E; [|apply H1].
        rewrite Eon. split; [discriminate|]. intros [H _]. discriminate.
      * intros p. unfold upd. rewrite sounding_snoc, (Z.eqb_sym p). destruct (ne_pitch x =? p) eqn:E; [|apply H2].
        rewrite Eon. split; [discriminate|reflexivity].
      * intros a b. rewrite in_app_iff, H3, is_note_snoc, Eon. cbn [In]. split.
        -- intros [H|[H|[]]]; [left; exact H|]. injection H as <- <-. right. auto.
        -- intros [H|(-> & _ & H)]; [left; exact H|]. right. left. f_equal. eapply open_unique; eassumption.
      * rewrite map_app. cbn [map snd]. apply ssorted_snoc; [exact H4|]. apply Hlen. auto.
    + (* end of a silent pitch *)
      assert (So : ~ sounding l (ne_pitch x)) by (apply H2; exact Er).
      split; [|split; [|split; [|exact H4]]].
      * intros p a. rewrite H1, open_snoc. destruct (ne_pitch x =? p) eqn:E; [|reflexivity].
        assert (ne_pitch x = p) by lia. subst p. rewrite Eon. split; [intros H; apply open_sounding in H; contradiction|].
        intros [H _]. discriminate.
      * intros p. rewrite H2, sounding_snoc. destruct (ne_pitch x =? p) eqn:E; [|reflexivity].
        assert (ne_pitch x = p) by lia. subst p. rewrite Eon. split; [discriminate|]. intros _. exact So.
      * intros a b. rewrite H3, is_note_snoc, Eon. split; [tauto|]. intros [H|(_ & _ & H)]; [exact H|].
        apply open_sounding in H. contradiction.
Qed.

Lemma note_pairs_listed l : notes_listed l (note_pairs l).
Proof.
  pose proof (pair_state_spec l) as H. unfold notes_listed, note_pairs.
  destruct (pair_state l) as [[i run] out]. destruct H as (_ & _ & _ & H3 & H4). split; assumption.
Qed.

(** The list of pairs is unique. *)
Lemma ssorted_lt_eq : forall l m : list (nat * nat), StronglySorted lt (map snd l) -> StronglySorted lt (map snd m) ->
  (forall a b, In (a, b) l <-> In (a, b) m) -> (forall a a' b, In (a, b) l -> In (a', b) l -> a = a') -> l = m.
Proof.
  induction l as [|[a b] l IH]; intros m Hl Hm Hi Hu.
  - destruct m as [|[a b] m]; [reflexivity|]. exfalso. apply (Hi a b). left. reflexivity.
  - destruct m as [|[a' b'] m]; [exfalso; apply (Hi a b); left; reflexivity|].
    cbn in Hl, Hm. inversion Hl as [|? ? Hl1 Hl2]; subst. inversion Hm as [|? ? Hm1 Hm2]; subst.
    assert (Hb : b = b').
    { assert (H1 : In (a, b) ((a', b') :: m)) by (apply Hi; left; reflexivity).
      assert (H2 : In (a', b') ((a, b) :: l)) by (apply Hi; left; reflexivity).
      destruct H1 as [H1|H1]; [congruence|]. destruct H2 as [H2|H2]; [congruence|].
      rewrite Forall_forall in Hl2, Hm2.
      pose proof (Hl2 b' ltac:(apply in_map_iff; exists (a', b'); auto)).
      pose proof (Hm2 b ltac:(apply in_map_iff; exists (a, b); auto)). lia. }
    subst b'. assert (a = a').
    { assert (H1 : In (a', b) ((a, b) :: l)) by (apply Hi; left; reflexivity).
      apply (Hu a a' b); [left; reflexivity|exact H1]. }
    subst a'. f_equal. apply IH; [assumption|assumption| |intros x y z Hx Hy; apply (Hu x y z); right; assumption].
    intros x y. rewrite Forall_forall in Hl2, Hm2. split; intros H.
    + assert (H' : In (x, y) ((a, b) :: m)) by (apply Hi; right; exact H).
      destruct H' as [H'|H']; [|exact H']. injection H' as <- <-. exfalso.
      pose proof (Hl2 b ltac:(apply in_map_iff; exists (a, b); auto)). lia.
    + assert (H' : In (x, y) ((a, b) :: l)) by (apply Hi; right; exact H).
      destruct H' as [H'|H']; [|exact H']. injection H' as <- <-. exfalso.
      pose proof (Hm2 b ltac:(apply in_map_iff; exists (a, b); auto)). lia.
Qed.
