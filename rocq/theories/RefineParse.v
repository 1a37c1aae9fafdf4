(** Running the source of the main loop of MIDIReader._parse_track (io/midi.py 529-558) gives what the model in
    MidiReader.v says. *)
From Coq Require Import ZArith List Bool String Lia.
From Verif Require Import Py PyFloat PySort Signature Tone Note Track Show MidiWriter MidiReader PyAst PySem PySource PyProgram SpecBase MidiSpec SigFacts ReadFacts
  RefineBase RefineSignature RefineTone RefineNote RefineWriter RefineTrack RefineAdd RefineReader RefineNumbers RefineEvent.
Import ListNotations.
Open Scope string_scope.
Open Scope list_scope.
Open Scope Z_scope.

(** ** What is read *)
Definition good_event (e : event) : Prop :=
  match e with
  | EvNoteOn _ _ v | EvNoteOff _ _ v => 0 <= v < 256
  | EvTimeSignature _ dd _ _ => 0 <= dd
  | _ => True
  end.
Lemma sysex_good fuel : forall v r, good_reader r -> good_reader (fst (sysex_loop fuel v r)).
Proof.
  induction fuel as [|k IH]; intros v r G; cbn [sysex_loop]; destruct (sysex_continues v); try exact G.
  unfold rbind. pose proof (read_good 1 r G ltac:(lia)) as [G1 _]. destruct (read 1 r) as [r1 [b|e]]; cbn [fst] in *; [apply IH, G1|exact G1].
Qed.
Ltac good_read :=
  first
  [ match goal with |- context [read_8 ?r] =>
      let G1 := fresh "G" in let V := fresh "V" in
      pose proof (read_8_good r ltac:(assumption)) as (G1 & _ & V); destruct (read_8 r) as [? [?|?]]; cbn [fst snd] in G1, V |- *; [|split; [exact G1|exact Logic.I]]
    end
  | match goal with |- context [read_var_len ?r] =>
      let G1 := fresh "G" in let V := fresh "V" in
      pose proof (read_var_len_good r ltac:(assumption)) as (G1 & V); destruct (read_var_len r) as [? [?|?]]; cbn [fst snd] in G1, V |- *; [|split; [exact G1|exact Logic.I]]
    end
  | match goal with |- context [read ?n ?r] =>
      let G1 := fresh "G" in let V := fresh "V" in
      pose proof (read_good n r ltac:(assumption) ltac:(lia)) as (G1 & V); destruct (read n r) as [? [?|?]]; cbn [fst snd] in G1, V |- *; [|split; [exact G1|exact Logic.I]]
    end ].
Ltac good_reads :=
  repeat first [ good_read
               | match goal with |- context [if ?b then _ else _] => destruct b eqn:? end
               | progress cbn beta iota ].
Definition event_fine (o : reader * res (event * option Z)) : Prop :=
  good_reader (fst o) /\ match snd o with Ok (ev, previous) => good_event ev /\ status_ok previous | Err _ => True end.
Ltac fine := split; [assumption|]; cbn; repeat split; first [exact Logic.I|lia].
Lemma status_event_good d s previous r : good_reader r -> 128 <= s <= 255 -> event_fine (read_event (S d) (Some s) previous r).
Proof.
  intros G S1. cbn [read_event]. unfold rbind, raise, ret.
  replace (s >=? 128) with true by lia.
  destruct (s =? 255) eqn:E; [good_reads; fine|].
  destruct (Z.shiftr s 4 =? 8); [good_reads; fine|].
  destruct (Z.shiftr s 4 =? 9); [good_reads; fine|].
  destruct (s =? 240).
  - pose proof (sysex_good (S (List.length (rd_data r))) (SVInt 0) r G) as G1.
    destruct (sysex_loop _ _ r) as [r1 [b|e]]; cbn [fst snd ret] in *; fine.
  - destruct (lengths_known s ltac:(lia)) as (n & N1 & _ & N3). rewrite N1. destruct (n =? -1) eqn:E'; [fine|].
    good_reads; fine.
Qed.
Lemma read_event_good d : forall previous r, good_reader r -> status_ok previous -> event_fine (read_event d None previous r).
Proof.
  induction d as [|d IH]; intros previous r G S1; [split; [exact G|exact Logic.I]|].
  rewrite read_event_none. pose proof (read_8_good r G) as (G1 & D1 & V).
  destruct (read_8 r) as [r1 [x|e]]; cbn [fst snd] in *; [|split; [exact G1|exact Logic.I]].
  destruct (x >=? 128) eqn:B; [apply status_event_good; [exact G1|lia]|].
  assert (G2 : good_reader (mkReader (rd_data r1) (rd_idx r1 + -1))).
  { destruct G1 as [A A'], G as [_ A'']. split; [exact A|]. cbn [rd_data rd_idx] in *. rewrite D1 in *. lia. }
  destruct previous as [q|]; [|apply IH; assumption]. destruct d; [split; [exact G2|exact Logic.I]|]. apply status_event_good; [exact G2|exact S1].
Qed.

(** ** Dictionaries with integer keys *)
Definition enc_dict {A} (f : A -> value) (d : dict A) : list (value * value) := map (fun x => (VInt (fst x), f (snd x))) d.
Lemma lookup_dict {A} (f : A -> value) c d : lookup (VInt c) (enc_dict f d) = Some (option_map f (dict_get d c)).
Proof. induction d as [|[k v] d IH]; [reflexivity|]. cbn. destruct (c =? k); [reflexivity|exact IH]. Qed.
Lemma insert_dict {A} (f : A -> value) c v d : insert (VInt c) (f v) (enc_dict f d) = Some (enc_dict f (dict_set d c v)).
Proof. induction d as [|[k w] d IH]; [reflexivity|]. cbn. destruct (c =? k) eqn:E; [apply Z.eqb_eq in E; subst k; reflexivity|]. unfold enc_dict in IH. rewrite IH. reflexivity. Qed.
Lemma remove_dict {A} (f : A -> value) c v d : dict_get d c = Some v -> remove (VInt c) (enc_dict f d) = Some (Some (enc_dict f (dict_del d c))).
Proof.
  induction d as [|[k w] d IH]; cbn; [discriminate|]. destruct (c =? k); [reflexivity|]. intros E. unfold enc_dict in IH. rewrite (IH E). reflexivity.
Qed.

(** ** The events of the channels: a dictionary of lists *)
Definition enc_timed (x : Z * event) : value := VTuple [VInt (fst x); enc_ev (snd x)].
Definition lists_at (h : heap) (d : dict (list (Z * event))) (es : dict nat) : Prop :=
  Forall2 (fun x y => fst x = fst y /\ get h (snd y) = Some (HList (map enc_timed (snd x)))) d es /\ NoDup (map snd es).
Lemma lists_get h d es c : lists_at h d es ->
  match dict_get es c with
  | Some b => exists l, dict_get d c = Some l /\ get h b = Some (HList (map enc_timed l)) /\ In b (map snd es)
  | None => dict_get d c = None
  end.
Proof.
  intros [F _]. induction F as [|[k l] [k' b] d es [E G] F IH]; cbn in *; [reflexivity|]. subst k'.
  destruct (c =? k); [exists l; auto|]. destruct (dict_get es c); [|exact IH]. destruct IH as (l' & A & B & C). exists l'. auto.
Qed.
Lemma lists_other h d es o b : lists_at h d es -> ~ In b (map snd es) -> lists_at (put h b o) d es.
Proof.
  intros [F N] NI. split; [|exact N]. induction F as [|x [k b'] d es [E G] F IH]; constructor.
  - split; [exact E|]. cbn in *. apply get_put_other; [|exact G]. intros ->. apply NI. auto.
  - apply IH; [inversion N; assumption|intros X; apply NI; right; exact X].
Qed.
Lemma lists_append h d es c b l x : lists_at h d es -> dict_get es c = Some b -> dict_get d c = Some l ->
  lists_at (put h b (HList (map enc_timed l ++ [enc_timed x]))) (append_event d c x) es.
Proof.
  unfold append_event. intros [F N] E D. rewrite D. split; [|exact N].
  induction F as [|[k l'] [k' b'] d es [K G] F IH]; cbn in *; [discriminate|]. subst k'. inversion N as [|? ? NI N']; subst. destruct (c =? k) eqn:CK.
  - injection E as ->. injection D as ->. constructor.
    + cbn. split; [lia|]. rewrite map_app. cbn. eapply get_put. exact G.
    + eapply (lists_other h d es). split; [exact F|exact N']. exact NI.
  - constructor.
    + cbn. split; [reflexivity|]. apply get_put_other; [|exact G]. intros ->. apply NI.
      clear -E. induction es as [|[k0 b0] es IH]; cbn in *; [discriminate|]. destruct (c =? k0); [injection E as ->; auto|right; apply IH, E].
    + apply IH; assumption.
Qed.
Lemma lists_new h d es c b x : lists_at h d es -> dict_get es c = None -> get h b = Some (HList [enc_timed x]) -> ~ In b (map snd es) ->
  lists_at h (append_event d c x) (es ++ [(c, b)]).
Proof.
  intros L E G NI. pose proof (lists_get h d es c L) as D. rewrite E in D. unfold append_event. rewrite D. destruct L as [F N]. split.
  - clear NI N. induction F as [|[k l'] [k' b'] d es [K G'] F IH]; cbn in *; [repeat constructor; exact G|]. subst k'.
    destruct (c =? k); [discriminate|]. constructor; [cbn; auto|]. apply IH; assumption.
  - rewrite map_app. cbn. clear -N NI. induction (map snd es) as [|y m IH]; cbn; [repeat constructor; intros []|].
    inversion N; subst. constructor; [|apply IH; [assumption|intros X; apply NI; right; exact X]].
    rewrite in_app_iff. cbn. intros [X|[X|[]]]; [contradiction|]. apply NI. left. auto.
Qed.
Lemma lists_kept h h' L d es : lists_at h d es -> keeps L h h' -> (forall q l, In q L -> get h q <> Some (HList l)) -> lists_at h' d es.
Proof.
  intros [F N] K NL. split; [|exact N]. clear N. induction F as [|x y d es [E G] F IH]; constructor; [|exact IH]. split; [exact E|].
  apply (keeps_get _ _ _ _ _ K); [|exact G]. intros X. exact (NL _ _ X G).
Qed.
Lemma lists_bound h d es b : lists_at h d es -> In b (map snd es) -> exists l, get h b = Some (HList l).
Proof.
  intros [F _] I. induction F as [|x y d es [E G] F IH]; cbn in I; [destruct I|]. destruct I as [<-|I]; [eauto|auto].
Qed.
Lemma lists_put h d es b o : lists_at h d es -> (forall l, get h b <> Some (HList l)) -> lists_at (put h b o) d es.
Proof. intros L N. apply lists_other; [exact L|]. intros I. destruct (lists_bound _ _ _ _ L I) as (l & G). exact (N l G). Qed.
Lemma lists_more h d es o : lists_at h d es -> lists_at (new h o) d es.
Proof. intros L. eapply (lists_kept h _ []); [exact L|keep|intros q l []]. Qed.
