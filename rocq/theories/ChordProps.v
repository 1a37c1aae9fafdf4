(** Proofs of the chord properties (C27-C29). *)
From Coq Require Import ZArith QArith List Bool String Sorted Lia ZifyBool.
From Verif Require Import Py PyFloat Signature Tone Note Chord SpecBase ChordSpec
  SigFacts FloatFacts ToneFacts NoteProps.
Import ListNotations.
Open Scope Z_scope.

Definition interval (c : chord_note) : Z := match c with CBase => 0 | CTransposed k => k end.
Definition to_shape (l : list Z) : list chord_note :=
  map (fun k => if k =? 0 then CBase else CTransposed k) l.

Lemma functions_table nd :
  chord_functions nd = map (fun row => (fst row, build_chord nd (to_shape (snd row)))) chord_table.
Proof. reflexivity. Qed.

Lemma interval_to_shape l : map interval (to_shape l) = l.
Proof.
  unfold to_shape. rewrite map_map. rewrite <- (map_id l) at 2. apply map_ext. intros k.
  destruct (Z.eqb_spec k 0); cbn; congruence.
Qed.

Definition arg_duration (b : base_arg) (d : option sig_arg) : sig_arg :=
  match d with Some d => d | None => match b with BA_note n => SA_sig (n_duration n) | _ => SA_sig (mkSig 1 4) end end.
Definition arg_velocity (b : base_arg) (v : option float) : float :=
  match v with Some v => v | None => match b with BA_note n => n_velocity n | _ => f_three_quarters end end.

Lemma get_parameters_ok nd b d v t : base_means nd b t ->
  get_parameters nd b d v = Ok (t, arg_duration b d, arg_velocity b v).
Proof. intros H. destruct H as [z|s t E|t|n]; unfold get_parameters; try rewrite E; reflexivity. Qed.

Lemma base_cases nd b : digit_table nd ->
  (exists t, base_means nd b t) \/
  ((forall t, ~ base_means nd b t) /\ forall d v, get_parameters nd b d v = Err ValueError).
Proof.
  intros Hnd. destruct b as [z|s|t|n|].
  - left. eexists. constructor.
  - destruct (from_notation_err nd s Hnd) as [[t E]|E].
    + left. exists t. constructor. exact E.
    + right. split; [intros t H; inversion H; congruence|]. intros d v. unfold get_parameters. rewrite E. reflexivity.
  - left. eexists. constructor.
  - left. eexists. constructor.
  - right. split; [intros t H; inversion H|]. reflexivity.
Qed.

Lemma duration_iff b d s : chord_duration b d s <-> duration_argument (arg_duration b d) s.
Proof.
  split.
  - intros H. destruct H as [b s|b n d Hn Hd|n|b Hb]; cbn; try (constructor; assumption).
    destruct b; try constructor. exfalso. eapply Hb. reflexivity.
  - intros H. destruct d as [a|]; cbn in H.
    + inversion H; subst; constructor; assumption.
    + destruct b; inversion H; subst; constructor; discriminate.
Qed.

Lemma three_quarters_ok : valid_velocity f_three_quarters.
Proof. apply unit_test; reflexivity. Qed.

Lemma velocity_iff b v f : base_ok b -> chord_velocity b v f <-> (arg_velocity b v = f /\ valid_velocity f).
Proof.
  intros Hb. split.
  - intros H. destruct H as [b v H|n|b H]; cbn.
    + auto.
    + split; [reflexivity|]. apply (Hb n eq_refl).
    + destruct b; try (split; [reflexivity|apply three_quarters_ok]). exfalso. eapply H. reflexivity.
  - intros [E H]. destruct v as [v|]; cbn in E.
    + subst. constructor. exact H.
    + destruct b; subst; constructor; discriminate.
Qed.

Lemma arg_velocity_float b v : base_ok b -> velocity_ok v -> is_float (arg_velocity b v) = true.
Proof.
  intros Hb Hv. destruct v as [v|]; cbn; [apply Hv; reflexivity|].
  destruct b; try reflexivity. apply (Hb n eq_refl).
Qed.

Definition shift (t : tone) (c : chord_note) : tone :=
  match c with CBase => t | CTransposed k => tone_transposed t k end.

Lemma build_ok nd shape b d v t s f : base_ok b ->
  base_means nd b t -> chord_duration b d s -> chord_velocity b v f ->
  build_chord nd shape b d v = Ok (map (fun c => mkNote (shift t c) s f) shape).
Proof.
  intros Hb Ht Hd Hv. apply duration_iff in Hd. apply velocity_iff in Hv; [|exact Hb]. destruct Hv as [Ev Hv].
  unfold build_chord. rewrite (get_parameters_ok _ _ _ _ _ Ht). cbn [bind].
  induction shape as [|c shape IH]; [reflexivity|]. cbn [map_res map].
  unfold note_new at 1. cbn [tone_of_arg bind].
  destruct (sig_of_arg_spec (arg_duration b d)) as [(s' & Hs' & E)|[Hn _]]; [|exfalso; eapply Hn; exact Hd].
  rewrite E. rewrite <- (duration_argument_fun _ _ _ Hd Hs'). cbn [bind]. rewrite Ev.
  rewrite note_init_ok by exact Hv. cbn [bind]. rewrite Ev in IH. rewrite IH. reflexivity.
Qed.

Lemma build_err nd shape b d v : digit_table nd -> base_ok b -> velocity_ok v -> shape <> [] ->
  ~ (exists t s f, base_means nd b t /\ chord_duration b d s /\ chord_velocity b v f) ->
  build_chord nd shape b d v = Err ValueError \/ build_chord nd shape b d v = Err TypeError.
Proof.
  intros Hnd Hb Hv Hs Hno. unfold build_chord.
  destruct (base_cases nd b Hnd) as [[t Ht]|[_ E]].
  2:{ rewrite E. left. reflexivity. }
  rewrite (get_parameters_ok _ _ _ _ _ Ht). cbn [bind].
  destruct shape as [|c shape]; [congruence|]. cbn [map_res].
  pose proof (arg_velocity_float b v Hb Hv) as HF.
  destruct (c14_note nd (TA_tone (shift t c)) (arg_duration b d) (arg_velocity b v) Hnd HF) as [_ HE].
  assert (HX : ~ (exists t0 d0, tone_argument nd (TA_tone (shift t c)) t0 /\
             duration_argument (arg_duration b d) d0 /\ valid_velocity (arg_velocity b v))).
  { intros (t0 & d0 & _ & Hd & Hvv). apply Hno. exists t, d0, (arg_velocity b v).
    split; [exact Ht|]. split; [apply duration_iff; exact Hd|]. apply velocity_iff; auto. }
  unfold shift in HE. destruct (HE HX) as [-> | ->]; auto.
Qed.

(** All rows of the table start with 0 and are strictly ascending. *)
Definition ascending (l : list Z) : bool :=
  match l with
  | [] => true
  | x :: r => (fix go (x : Z) (r : list Z) : bool :=
                 match r with [] => true | y :: r' => (x <? y) && go y r' end) x r
  end.
Lemma table_facts : forallb (fun row => match snd row with 0 :: _ => true | _ => false end && ascending (snd row))
  chord_table = true.
Proof. reflexivity. Qed.

Lemma ascending_sorted : forall l, ascending l = true -> StronglySorted Z.lt l.
Proof.
  intros l H. apply Sorted_StronglySorted; [intros x y z; lia|].
  destruct l as [|x l]; [constructor|]. cbn in H. revert x H.
  induction l as [|y l IH]; intros x H; [repeat constructor|].
  apply andb_true_iff in H. destruct H as [H1 H2]. constructor; [apply IH; exact H2|]. constructor. lia.
Qed.

Lemma table_row name l : In (name, l) chord_table ->
  (exists r, l = 0 :: r) /\ StronglySorted Z.lt l /\ to_shape l <> [].
Proof.
  intros H. pose proof table_facts as HT. rewrite forallb_forall in HT. specialize (HT _ H).
  cbn [snd] in HT. apply andb_true_iff in HT. destruct HT as [H1 H2].
  destruct l as [|x l]; [discriminate|]. destruct x; try discriminate.
  split; [eexists; reflexivity|]. split; [apply ascending_sorted; exact H2|discriminate].
Qed.

Lemma function_row nd name f : In (name, f) (chord_functions nd) ->
  exists l, In (name, l) chord_table /\ f = build_chord nd (to_shape l).
Proof.
  rewrite functions_table. intros H. apply in_map_iff in H. destruct H as ([n l] & E & H).
  injection E as <- <-. exists l. auto.
Qed.

Lemma pitches l t s f :
  map (fun n => pitch (n_tone n)) (map (fun c => mkNote (shift t c) s f) (to_shape l)) =
  map (fun k => pitch t + k) l.
Proof.
  rewrite <- (interval_to_shape l) at 2. rewrite !map_map. apply map_ext. intros [|k]; cbn; lia.
Qed.

(** The names are exactly those of the table, in its order, each once. *)
Lemma c27_names : forall nd, map fst (chord_functions nd) = flat_map fst chord_rows /\
  NoDup (map fst (chord_functions nd)) /\ List.length (chord_functions nd) = 50%nat.
Proof.
  intros nd. split; [reflexivity|]. split; [|reflexivity].
  rewrite functions_table, map_map. cbn [fst].
  assert (H : forall l : list string, (fix nodup (l : list string) := match l with [] => true
     | x :: r => negb (existsb (String.eqb x) r) && nodup r end) l = true -> NoDup l).
  { induction l as [|x l IH]; intros H; constructor; apply andb_true_iff in H; destruct H as [H1 H2]; [|apply IH; exact H2].
    intros Hin. apply negb_true_iff in H1. assert (existsb (String.eqb x) l = true); [|congruence].
    apply existsb_exists. exists x. split; [exact Hin|apply String.eqb_refl]. }
  apply H. reflexivity.
Qed.

Lemma c27_intervals : forall nd name f, digit_table nd -> In (name, f) (chord_functions nd) ->
  exists intervals, In (name, intervals) chord_table /\
    forall b d v notes, base_ok b -> velocity_ok v -> f b d v = Ok notes ->
      exists t, base_means nd b t /\
        map (fun n => pitch (n_tone n)) notes = map (fun k => pitch t + k) intervals.
Proof.
  intros nd name f Hnd H. apply function_row in H. destruct H as (l & Hl & ->).
  exists l. split; [exact Hl|]. intros b d v notes Hb Hv E.
  destruct (base_cases nd b Hnd) as [[t Ht]|[_ EE]].
  2:{ unfold build_chord in E. rewrite EE in E. discriminate. }
  exists t. split; [exact Ht|].
  destruct (table_row _ _ Hl) as (_ & _ & Hne).
  assert (HD : (exists s, duration_argument (arg_duration b d) s) \/ ~ (exists s, duration_argument (arg_duration b d) s)).
  { destruct (sig_of_arg_spec (arg_duration b d)) as [(s & Hs & _)|[Hs _]]; [left; eauto|right; intros [s H]; eapply Hs; exact H]. }
  assert (HV : valid_velocity (arg_velocity b v) \/ ~ valid_velocity (arg_velocity b v)).
  { pose proof (arg_velocity_float b v Hb Hv) as HF. unfold valid_velocity.
    destruct (fle f_zero (arg_velocity b v) && fle (arg_velocity b v) f_one) eqn:EV.
    - left. apply unit_test; assumption.
    - right. intros HX. apply unit_test in HX; [congruence|exact HF]. }
  destruct HD as [[s Hs]|HD].
  2:{ exfalso. destruct (build_err nd (to_shape l) b d v Hnd Hb Hv Hne) as [E'|E']; try congruence.
      intros (t' & s & f & _ & Hs & _). apply HD. exists s. apply duration_iff. exact Hs. }
  destruct HV as [HV|HV].
  2:{ exfalso. destruct (build_err nd (to_shape l) b d v Hnd Hb Hv Hne) as [E'|E']; try congruence.
      intros (t' & s' & f & _ & _ & Hf). apply HV. apply velocity_iff in Hf; [|exact Hb]. destruct Hf as [-> Hf]. exact Hf. }
  rewrite (build_ok nd (to_shape l) b d v t s (arg_velocity b v)) in E; [|exact Hb|exact Ht|apply duration_iff; exact Hs|apply velocity_iff; auto].
  injection E as <-. apply pitches.
Qed.

(** Names in one row of the table are the same function. *)
Lemma c27_aliases : forall nd row a b f g, In row chord_rows -> In a (fst row) -> In b (fst row) ->
  In (a, f) (chord_functions nd) -> In (b, g) (chord_functions nd) ->
  forall base d v, f base d v = g base d v.
Proof.
  intros nd row a b f g Hrow Ha Hb Hf Hg base d v.
  assert (HF : forall x h, In x (fst row) -> In (x, h) (chord_functions nd) -> h = build_chord nd (to_shape (snd row))).
  { intros x h Hx Hh. rewrite functions_table in Hh. apply in_map_iff in Hh. destruct Hh as ([n l] & E & Hh).
    injection E as E1 E2. cbn [fst] in E1. subst n h.
    assert (H1 : In (x, snd row) chord_table).
    { unfold chord_table. apply in_flat_map. exists row. split; [exact Hrow|]. apply in_map_iff. exists x. auto. }
    assert (HN : NoDup (map fst chord_table)).
    { pose proof (c27_names nd) as (_ & HN & _). rewrite functions_table, map_map in HN. exact HN. }
    clear - Hh H1 HN. cbn [snd]. f_equal. f_equal. revert Hh H1. generalize (snd row). intros m Hh H1.
    induction chord_table as [|[y k] tbl IH]; [destruct Hh|].
    cbn [map fst] in HN. inversion HN as [|? ? Hni HN']; subst.
    destruct Hh as [Hh|Hh], H1 as [H1|H1].
    - congruence.
    - exfalso. injection Hh as <- <-. apply Hni. apply in_map_iff. exists (y, m). auto.
    - exfalso. injection H1 as <- <-. apply Hni. apply in_map_iff. exists (y, l). auto.
    - apply IH; assumption. }
  rewrite (HF a f Ha Hf), (HF b g Hb Hg). reflexivity.
Qed.

Lemma c28_defaults : forall nd name f b d v, digit_table nd -> In (name, f) (chord_functions nd) ->
  base_ok b -> velocity_ok v ->
  (forall t s w, base_means nd b t -> chord_duration b d s -> chord_velocity b v w ->
     exists notes, f b d v = Ok notes /\
       Forall (fun n => n_duration n = s /\ n_velocity n = w) notes) /\
  (~ (exists t s w, base_means nd b t /\ chord_duration b d s /\ chord_velocity b v w) ->
     f b d v = Err ValueError \/ f b d v = Err TypeError).
Proof.
  intros nd name f b d v Hnd H Hb Hv. apply function_row in H. destruct H as (l & Hl & ->).
  destruct (table_row _ _ Hl) as (_ & _ & Hne). split.
  - intros t s w Ht Hs Hw. rewrite (build_ok nd (to_shape l) b d v t s w) by assumption.
    eexists. split; [reflexivity|]. rewrite Forall_map, Forall_forall. intros c _. split; reflexivity.
  - intros Hno. apply build_err; assumption.
Qed.

Lemma c29_transposition : forall nd name f b b' k d v, In (name, f) (chord_functions nd) ->
  base_ok b -> velocity_ok v -> moved k b b' ->
  (forall notes, f b d v = Ok notes ->
     exists notes', f b' d v = Ok notes' /\
       Forall2 (fun n n' => pitch (n_tone n') = pitch (n_tone n) + k /\ n_duration n' = n_duration n /\
                            n_velocity n' = n_velocity n) notes notes') /\
  (forall e, f b d v = Err e -> f b' d v = Err e).
Proof.
  intros nd name f b b' k d v H Hb Hv Hm. apply function_row in H. destruct H as (l & Hl & ->).
  assert (HP : exists t dd vv, get_parameters nd b d v = Ok (t, dd, vv) /\
             get_parameters nd b' d v = Ok (mkTone (pitch t + k), dd, vv)).
  { destruct Hm as [z|t|t d' v']; unfold get_parameters; cbn [bind]; do 3 eexists; split; reflexivity. }
  destruct HP as (t & dd & vv & E1 & E2). unfold build_chord. rewrite E1, E2. cbn [bind]. clear.
  generalize (to_shape l). intros sh.
  assert (HN : forall c, (exists s, note_new nd (TA_tone (shift t c)) dd vv = Ok (mkNote (shift t c) s vv) /\
                 note_new nd (TA_tone (shift (mkTone (pitch t + k)) c)) dd vv = Ok (mkNote (shift (mkTone (pitch t + k)) c) s vv)) \/
                (exists e, note_new nd (TA_tone (shift t c)) dd vv = Err e /\
                 note_new nd (TA_tone (shift (mkTone (pitch t + k)) c)) dd vv = Err e)).
  { intros c. unfold note_new. cbn [tone_of_arg bind]. destruct (sig_of_arg dd) as [s|e]; cbn [bind]; [|right; eexists; split; reflexivity].
    unfold note_init. destruct (fle f_zero vv && fle vv f_one); [left; exists s; split; reflexivity|right; eexists; split; reflexivity]. }
  induction sh as [|c sh [IH1 IH2]]; cbn [map_res].
  - split; [|discriminate]. intros notes E. injection E as <-. eexists. split; [reflexivity|constructor].
  - fold (shift t c). fold (shift (mkTone (pitch t + k)) c).
    destruct (HN c) as [(s & A & B)|(e & A & B)]; rewrite A, B; cbn [bind].
    2:{ split; [discriminate|]. intros e' E. exact E. }
    destruct (map_res _ sh) as [ns|e] eqn:EM in IH1, IH2 |- *; cbn [bind].
    + destruct (IH1 ns eq_refl) as (ns' & E & HF). rewrite E. cbn [bind]. split; [|discriminate].
      intros notes EN. injection EN as <-. eexists. split; [reflexivity|]. constructor; [|exact HF].
      destruct c; cbn; (split; [lia|split; reflexivity]).
    + rewrite (IH2 e eq_refl). cbn [bind]. split; [discriminate|]. intros e' E. exact E.
Qed.

Lemma c29_shape : forall nd name f b d v notes, digit_table nd -> In (name, f) (chord_functions nd) ->
  base_ok b -> velocity_ok v -> f b d v = Ok notes ->
  (exists n r t, notes = n :: r /\ base_means nd b t /\ n_tone n = t) /\
  StronglySorted Z.lt (map (fun n => pitch (n_tone n)) notes).
Proof.
  intros nd name f b d v notes Hnd H Hb Hv E.
  destruct (c27_intervals nd name f Hnd H) as (l & Hl & HI).
  destruct (HI b d v notes Hb Hv E) as (t & Ht & EP).
  destruct (table_row _ _ Hl) as ((r & ->) & HS & _). split.
  - destruct notes as [|n notes]; [discriminate|]. exists n, notes, t. split; [reflexivity|]. split; [exact Ht|].
    cbn [map] in EP. injection EP as EP _. destruct (n_tone n) as [p], t as [q]. cbn in EP. f_equal. lia.
  - rewrite EP. clear - HS. induction HS as [|x l HS IH HF]; cbn [map]; constructor; [exact IH|].
    rewrite Forall_map. eapply Forall_impl; [|exact HF]. intros y. lia.
Qed.
