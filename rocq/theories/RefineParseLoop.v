(** Running the source of the main loop of MIDIReader._parse_track (io/midi.py 535-554) gives what the model in
    MidiReader.v says. *)
From Coq Require Import ZArith List Bool String Lia.
From Verif Require Import Py PyFloat PySort Signature Tone Note Track Show MidiWriter MidiReader PyAst PySem PySource PyProgram SpecBase MidiSpec SigFacts ReadFacts StreamFacts
  RefineBase RefineSignature RefineTone RefineNote RefineWriter RefineTrack RefineAdd RefineReader RefineNumbers RefineEvent RefineDeep RefineParse.
Import ListNotations.
Open Scope string_scope.
Open Scope list_scope.
Open Scope Z_scope.

Section Parse.
Variable Y : python.
Notation steps := (steps melodia Y).
Notation reaches := (reaches melodia Y).
Notation reads := (reads Y).
(** The heap when _parse_track is called, and the places of the reader and of the variables. *)
Variable h0 : heap.
Variables p cd cp cr ce cs : nat.
Variable mr : list (string * value).
Variable q : Z.

Definition parse_while : expr * list stmt :=
  Eval calc in match f_body src_MIDIReader__parse_track with
               | [_; _; _; _; _; _; SWhile c b; _; _; _; _] => (c, b)
               | _ => (EConst VNone, [])
               end.
Definition parse_test := Eval cbv in fst parse_while.
Definition parse_body := Eval cbv in snd parse_while.
Definition parse_rest := Eval cbv in match parse_body with [_; _; _; _; a; b; c; d] => [a; b; c; d] | _ => [] end.
Definition parse_env (g t : Z) (x : option (Z * Z * value)) : env :=
  ("self", VObj "MIDIReader" mr) :: ("data", VCell cd) :: ("ticks_per_quarter", VInt q) :: ("previous_status", VCell cp) :: ("read_event", VCell cr) ::
  ("channel_events", VRef ce) :: ("channel_signatures", VRef cs) :: ("global_channel", VInt g) :: ("last_time", VInt t) ::
  match x with None => [] | Some (dt, at_, ev) => [("delta_time", VInt dt); ("absolute_time", VInt at_); ("event", ev)] end.

Definition good_events (d : dict (list (Z * event))) : Prop := Forall (fun x => Forall (fun y => good_event (snd y)) (snd x)) d.
Definition good_sigs (d : dict sig) : Prop := Forall (fun x => good_sig (snd x)) d.
Record parsing (h : heap) (r : reader) (s : parse_state) (es : dict nat) : Prop := mkParsing {
  pa_reader : reader_at h p r;
  pa_good : good_reader r;
  pa_cells : cells_at h p cd cp cr (ps_previous s);
  pa_status : status_ok (ps_previous s);
  pa_dict : get h ce = Some (HDict true (enc_dict VRef es));
  pa_lists : lists_at h (ps_events s) es;
  pa_events : good_events (ps_events s);
  pa_keys : NoDup (map fst (ps_events s));
  pa_sigs : get h cs = Some (HDict false (enc_dict enc_sig (ps_signatures s)));
  pa_good_sigs : good_sigs (ps_signatures s);
  pa_fresh : Forall (fun x => get h0 (snd x) = None) es;
  pa_keeps : keeps [p] h0 h
}.
Lemma good_append d c x : good_events d -> good_event (snd x) -> good_events (append_event d c x).
Proof.
  intros G X. unfold append_event, good_events in *.
  assert (S1 : forall v, Forall (fun y => good_event (snd y)) v -> Forall (fun x0 => Forall (fun y => good_event (snd y)) (snd x0)) (dict_set d c v)).
  { intros v V. induction G as [|[k w] d A B IH]; cbn; [constructor; [exact V|constructor]|]. destruct (c =? k); constructor; try assumption. }
  apply S1. destruct (dict_get d c) as [l|] eqn:E; [|constructor; [exact X|constructor]].
  apply Forall_app. split; [|constructor; [exact X|constructor]]. clear -G E. induction G as [|[k w] d A B IH]; cbn in E; [discriminate|].
  destruct (c =? k); [injection E as <-; exact A|exact (IH E)].
Qed.
Lemma good_set d c s : good_sigs d -> good_sig s -> good_sigs (dict_set d c s).
Proof. intros G S1. induction G as [|[k w] d A B IH]; cbn; [constructor; [exact S1|constructor]|]. destruct (c =? k); constructor; try assumption. Qed.

Hypothesis FP : get h0 cp = None.
Hypothesis FE : get h0 ce = None.
Hypothesis FS : get h0 cs = None.

Variable K : list frame.
Variable Q : state -> Prop.
Variable dp : nat.
Lemma fresh_in (es : dict nat) b : Forall (fun x => get h0 (snd x) = None) es -> In b (map snd es) -> get h0 b = None.
Proof. intros F I. apply in_map_iff in I as (x & <- & I). rewrite Forall_forall in F. exact (F x I). Qed.
Lemma cells_kept h h' previous previous' r : cells_at h p cd cp cr previous -> reader_at h p r -> keeps [p; cp] h h' ->
  get h' cp = Some (HCell (Some (enc_status previous'))) -> cells_at h' p cd cp cr previous'.
Proof.
  unfold reader_at, reader_of_events. intros (D1 & D2 & D3) R K1 P2.
  assert (cd <> p) by congruence. assert (cr <> p) by congruence.
  assert (cd <> cp /\ cr <> cp) as [? ?] by (unfold reader_of_events in D3; split; destruct previous; cbn [enc_status] in D2; congruence).
  repeat split; [heap_get|exact P2|heap_get].
Qed.
Ltac to_loop := repeat (lazymatch goal with |- RefineBase.reaches _ _ (Ev _ _ _ (KWhile _ _ _ :: _)) _ => fail | _ => adv end).
Lemma parse_loop_runs : forall fuel s r h es x, parsing h r s es -> match x with Some (_, _, ev) => plain_value ev = true | None => True end ->
  snd (parse_loop fuel s r) <> Err OutOfFuel -> (snd (parse_loop fuel s r) = Err RecursionError -> forall u, deep dp u -> Q u) ->
  (forall h' s' r' es' dt' at', parse_loop fuel s r = (r', Ok s') -> parsing h' r' s' es' ->
     reaches (Ex [] (parse_env (ps_global s') (ps_time s') (Some (dt', at', enc_ev EvEndOfTrack))) h' K) Q) ->
  (forall h' e, snd (parse_loop fuel s r) = Err e -> e <> RecursionError -> keeps [p] h0 h' -> Q (Thr e h')) ->
  reaches (Ev parse_test (parse_env (ps_global s) (ps_time s) x) h (KWhile parse_test parse_body (parse_env (ps_global s) (ps_time s) x) :: K)) Q.
Proof.
  induction fuel as [|k IH]; intros s r h es x I PX NF NR OK ER; [cbn in NF; congruence|]. cbn [parse_loop] in *.
  destruct s as [previous d sigs g t]. cbn [ps_previous ps_events ps_signatures ps_global ps_time] in *. unfold rbind in *.
  destruct I as [I1 I2 I3 I4 I5 I6 I7 IK I8 I9 I10 I11]. cbn [ps_previous ps_events ps_signatures ps_global ps_time] in *. pose proof I3 as (C1 & C2 & C3).
  pose proof (read_var_len_good r I2) as (G1 & _).
  assert (NF1 : snd (read_var_len r) <> Err OutOfFuel) by (intros X; apply NF; destruct (read_var_len r) as [? [?|?]]; [discriminate|]; cbn [snd] in *; injection X as ->; reflexivity).
  pose proof (calm_var_len r I2) as CV.
  destruct (read_var_len r) as [r1 [dt|e]] eqn:E1; cbn [fst snd] in *.
  2:{ assert (NR1 : e <> RecursionError) by (intros ->; apply CV; reflexivity). unfold parse_env, parse_body, parse_test. destruct x as [[[dt0 at0] ev0]|];
      until_call "MIDIReader._read_var_len"; (eapply reaches_trans; [eapply (read_var_len_runs Y p r I2); [rewrite E1; exact NF1|exact I1]|]);
      rewrite E1; intros u (h1 & -> & _ & K1); apply reaches_here; (apply ER; [reflexivity|exact NR1|]); keep. }
  pose proof (read_event_good recursion_limit previous r1 G1 I4) as [G2 V2].
  assert (REST : forall h1 ev previous', parsing h1 (fst (read_event recursion_limit None previous r1)) (mkPS previous' d sigs g (t + dt)) es ->
    snd (read_event recursion_limit None previous r1) = Ok (ev, previous') -> good_event ev ->
    reaches (Ex parse_rest (parse_env g (t + dt) (Some (dt, t + dt, enc_ev ev))) h1 (KLoopW parse_test parse_body :: K)) Q).
  { intros h1 ev previous' J EQ GE. destruct (read_event recursion_limit None previous r1) as [r2 o2]. cbn [fst snd] in *. subst o2.
    destruct J as [J1 J2 J3 J4 J5 J6 J7 JK J8 J9 J10 J11]. cbn [ps_previous ps_events ps_signatures ps_global ps_time] in *. pose proof J3 as (D1 & D2 & D3).
    destruct ev; cbn [enc_ev good_event] in *; unfold parse_env, parse_rest.
    - (* unsupported *) 
      to_loop.
      eapply (IH (mkPS previous' d sigs g (t + dt)) r2 h1 es (Some (dt, t + dt, enc_ev EvUnsupported))); try assumption; [constructor; assumption|reflexivity].
    - (* note off *)
      pose proof (lists_get h1 d es channel J6) as LG. pose proof (lookup_dict VRef channel es) as LD. remember (enc_dict VRef es) as D eqn:HD.
      destruct (dict_get es channel) as [b|] eqn:EB; cbn [option_map] in LD;
        change (lookup (VInt channel) D = ?x) with (fact (lookup (VInt channel) D = x)) in LD.
      + destruct LG as (l & L1 & L2 & L3). remember (map enc_timed l) as L eqn:HL. pose proof (fresh_in es b J10 L3) as FB.
        to_loop.
        eapply (IH (mkPS previous' (append_event d channel (t + dt, EvNoteOff channel pitch velocity)) sigs g (t + dt)) r2 _ es (Some (dt, t + dt, enc_ev (EvNoteOff channel pitch velocity)))); try assumption; [|reflexivity].
        unfold reader_at in J1. assert (b <> p) by congruence. assert (b <> cd) by congruence. assert (b <> cp) by congruence. assert (b <> cr) by congruence. assert (b <> ce) by congruence. assert (b <> cs) by congruence.
        constructor; cbn [ps_previous ps_events ps_signatures ps_global ps_time]; try assumption.
        * unfold reader_at. heap_get.
        * repeat split; heap_get.
        * rewrite <- HD. heap_get.
        * subst L. apply (lists_append h1 d es channel b l (t + dt, EvNoteOff channel pitch velocity)); assumption.
        * apply good_append; assumption.
        * unfold append_event; apply dict_set_nodup; assumption.
        * heap_get.
        * keep.
      + to_loop.
        eapply (IH (mkPS previous' (append_event d channel (t + dt, EvNoteOff channel pitch velocity)) sigs g (t + dt)) r2 _ (es ++ [(channel, next_place h1)]) (Some (dt, t + dt, enc_ev (EvNoteOff channel pitch velocity)))); try assumption; [|reflexivity].
        unfold reader_at in J1. assert (FN : get h0 (next_place h1) = None).
        { destruct (get h0 (next_place h1)) as [o|] eqn:GN; [|reflexivity]. exfalso. destruct (Nat.eq_dec (next_place h1) p) as [EP|NP]; [exact (old_new _ _ _ J1 (eq_sym EP))|].
          refine (old_new h1 _ o _ eq_refl). apply (keeps_get _ _ _ _ _ J11); [intros [X|[]]; congruence|exact GN]. }
        constructor; cbn [ps_previous ps_events ps_signatures ps_global ps_time]; try assumption.
        * unfold reader_at. heap_get.
        * repeat split; heap_get.
        * unfold enc_dict. rewrite map_app. cbn [map fst snd]. subst D. heap_get.
        * apply lists_new; [| |heap_get|].
          -- apply lists_other; [apply lists_put; [apply lists_more; exact J6|]|].
             ++ intros l X. rewrite (get_new_old _ _ _ _ J5) in X. discriminate.
             ++ intros X. destruct (lists_bound _ _ _ _ J6 X) as (l & X'). exact (old_new _ _ _ X' eq_refl).
          -- exact EB.
          -- intros X. destruct (lists_bound _ _ _ _ J6 X) as (l & X'). exact (old_new _ _ _ X' eq_refl).
        * apply good_append; assumption.
        * unfold append_event; apply dict_set_nodup; assumption.
        * heap_get.
        * apply Forall_app. split; [exact J10|]. constructor; [exact FN|constructor].
        * keep.
    - (* note on *)
      pose proof (lists_get h1 d es channel J6) as LG. pose proof (lookup_dict VRef channel es) as LD. remember (enc_dict VRef es) as D eqn:HD.
      destruct (dict_get es channel) as [b|] eqn:EB; cbn [option_map] in LD;
        change (lookup (VInt channel) D = ?x) with (fact (lookup (VInt channel) D = x)) in LD.
      + destruct LG as (l & L1 & L2 & L3). remember (map enc_timed l) as L eqn:HL. pose proof (fresh_in es b J10 L3) as FB.
        to_loop.
        eapply (IH (mkPS previous' (append_event d channel (t + dt, EvNoteOn channel pitch velocity)) sigs g (t + dt)) r2 _ es (Some (dt, t + dt, enc_ev (EvNoteOn channel pitch velocity)))); try assumption; [|reflexivity].
        unfold reader_at in J1. assert (b <> p) by congruence. assert (b <> cd) by congruence. assert (b <> cp) by congruence. assert (b <> cr) by congruence. assert (b <> ce) by congruence. assert (b <> cs) by congruence.
        constructor; cbn [ps_previous ps_events ps_signatures ps_global ps_time]; try assumption.
        * unfold reader_at. heap_get.
        * repeat split; heap_get.
        * rewrite <- HD. heap_get.
        * subst L. apply (lists_append h1 d es channel b l (t + dt, EvNoteOn channel pitch velocity)); assumption.
        * apply good_append; assumption.
        * unfold append_event; apply dict_set_nodup; assumption.
        * heap_get.
        * keep.
      + to_loop.
        eapply (IH (mkPS previous' (append_event d channel (t + dt, EvNoteOn channel pitch velocity)) sigs g (t + dt)) r2 _ (es ++ [(channel, next_place h1)]) (Some (dt, t + dt, enc_ev (EvNoteOn channel pitch velocity)))); try assumption; [|reflexivity].
        unfold reader_at in J1. assert (FN : get h0 (next_place h1) = None).
        { destruct (get h0 (next_place h1)) as [o|] eqn:GN; [|reflexivity]. exfalso. destruct (Nat.eq_dec (next_place h1) p) as [EP|NP]; [exact (old_new _ _ _ J1 (eq_sym EP))|].
          refine (old_new h1 _ o _ eq_refl). apply (keeps_get _ _ _ _ _ J11); [intros [X|[]]; congruence|exact GN]. }
        constructor; cbn [ps_previous ps_events ps_signatures ps_global ps_time]; try assumption.
        * unfold reader_at. heap_get.
        * repeat split; heap_get.
        * unfold enc_dict. rewrite map_app. cbn [map fst snd]. subst D. heap_get.
        * apply lists_new; [| |heap_get|].
          -- apply lists_other; [apply lists_put; [apply lists_more; exact J6|]|].
             ++ intros l X. rewrite (get_new_old _ _ _ _ J5) in X. discriminate.
             ++ intros X. destruct (lists_bound _ _ _ _ J6 X) as (l & X'). exact (old_new _ _ _ X' eq_refl).
          -- exact EB.
          -- intros X. destruct (lists_bound _ _ _ _ J6 X) as (l & X'). exact (old_new _ _ _ X' eq_refl).
        * apply good_append; assumption.
        * unfold append_event; apply dict_set_nodup; assumption.
        * heap_get.
        * apply Forall_app. split; [exact J10|]. constructor; [exact FN|constructor].
        * keep.
    - (* end of track *)
      go. cbn [ret] in *. eapply (OK h1 (mkPS previous' d sigs g (t + dt)) r2 es dt (t + dt)); [reflexivity|constructor; assumption].
    - (* time signature *)
      remember (enc_dict enc_sig sigs) as D eqn:HD. assert (DD : (dd <? 0) = false) by lia.
      repeat (lazymatch goal with |- RefineBase.reaches _ _ (Ca (VClass "Signature") _ _ _ _) _ => fail | _ => adv end).
      eapply reaches_steps; [eapply new_runs|]. destruct (sig_new nn (Z.shiftl 1 dd)) as [sg|e] eqn:ES; cbn [outcome_of ends].
      + pose proof (insert_dict enc_sig g sg sigs) as ID. rewrite <- HD in ID. destruct sg as [sn sd]. unfold enc_sig at 1, v_signature in ID.
        change (insert (VInt g) ?v D = ?x) with (fact (insert (VInt g) v D = x)) in ID. remember (enc_dict enc_sig (dict_set sigs g _)) as D' eqn:HD'. unfold enc_sig, v_signature.
        cbn [nominator denominator] in *. to_loop.
        eapply (IH (mkPS previous' d (dict_set sigs g (mkSig sn sd)) g (t + dt)) r2 _ es (Some (dt, t + dt, enc_ev (EvTimeSignature nn dd cc bb)))); try assumption; [|reflexivity].
        unfold reader_at in J1.
        constructor; cbn [ps_previous ps_events ps_signatures ps_global ps_time]; try assumption.
        * unfold reader_at. heap_get.
        * repeat split; heap_get.
        * heap_get.
        * apply lists_put; [exact J6|]. intros l. rewrite J8. discriminate.
        * rewrite <- HD'. heap_get.
        * apply good_set; [exact J9|]. exact (sig_new_good _ _ _ ES).
        * keep.
      + apply reaches_here. apply ER; [reflexivity|intros ->; exact (calm_sig _ _ ES)|exact J11].
    - (* channel *)
      to_loop.
      eapply (IH (mkPS previous' d sigs _ (t + dt)) r2 h1 es (Some (dt, t + dt, enc_ev (EvGlobalChannel _)))); try assumption; [constructor; assumption|reflexivity]. }
  assert (CALL : forall h1, parsing h1 r1 (mkPS previous d sigs g t) es -> forall K',
    (forall h2 ev previous', parsing h2 (fst (read_event recursion_limit None previous r1)) (mkPS previous' d sigs g (t + dt)) es ->
       snd (read_event recursion_limit None previous r1) = Ok (ev, previous') -> good_event ev -> reaches (Rt (enc_ev ev) h2 K') Q) ->
    reaches (Ca (reader_of_events cd cp cr) [] [] h1 K') Q).
  { intros h1 [J1 J2 J3 J4 J5 J6 J7 JK J8 J9 J10 J11] K' R. cbn [ps_previous ps_events ps_signatures ps_global ps_time] in *. pose proof J3 as (D1 & D2 & D3).
    destruct (err_dec (snd (read_event recursion_limit None previous r1))) as [XR|XR].
    { eapply reaches_trans; [exact (event_deep Y p cd cp cr dp previous r1 h1 K' G1 J1 J3 J4 XR)|]. intros u D. apply reaches_here. apply NR; [|exact D].
      destruct (read_event recursion_limit None previous r1) as [r2 o2]. cbn [snd] in XR. subst o2. reflexivity. }
    eapply reaches_trans; [eapply (event_runs Y p cd cp cr 998 previous r1 (read_event recursion_limit None previous r1)); [exact G1|exact J1|exact J3|exact J4|reflexivity| |]|].
    - intros X. apply NF. destruct (read_event recursion_limit None previous r1) as [r2 o2]. cbn [snd] in X. subst o2. reflexivity.
    - exact XR.
    - intros u (h2 & -> & R2 & K2 & P2). unfold reader_at in J1. destruct (snd (read_event recursion_limit None previous r1)) as [[ev previous']|e] eqn:O; cbn [outcome_of ends enc_read fst].
      + destruct V2 as [V2 V3]. apply R with previous'; [|reflexivity|exact V2]. assert (cp <> p) by congruence.
        assert (ce <> cp) by congruence. assert (ce <> p) by congruence. assert (cs <> cp) by congruence. assert (cs <> p) by congruence.
        constructor; cbn [ps_previous ps_events ps_signatures ps_global ps_time]; try assumption.
        * apply (cells_kept h1 h2 previous previous' r1); assumption.
        * heap_get.
        * apply (lists_kept h1 h2 [p; cp]); [assumption|assumption|]. intros a l [<-|[<-|[]]]; rewrite ?J1, ?D2; discriminate.
        * heap_get.
        * keep.
      + apply reaches_here. apply ER; [|intros ->; apply XR; reflexivity|keep]. destruct (read_event recursion_limit None previous r1) as [r2 o2]. cbn [snd] in O. subst o2. reflexivity. }
  unfold parse_env, parse_body, parse_test. destruct x as [[[dt0 at0] ev0]|].
  all: until_call "MIDIReader._read_var_len"; (eapply reaches_trans; [eapply (read_var_len_runs Y p r I2); [rewrite E1; exact NF1|exact I1]|]).
  all: rewrite E1; intros u (h1 & -> & J1 & K1); cbn [outcome_of ends fst snd] in *.
  all: unfold reader_at in *.
  all: repeat (lazymatch goal with |- RefineBase.reaches _ _ (Ca (VClosure _ _) _ _ _ _) _ => fail | _ => adv end).
  all: apply CALL; [constructor; cbn [ps_previous ps_events ps_signatures ps_global ps_time]; try assumption|].
  all: try (apply (lists_kept h h1 [p]); [assumption|assumption|]; intros a l [<-|[]]; rewrite I1; discriminate).
  all: try (repeat split; heap_get).
  all: try heap_get.
  all: try keep.
  all: intros h2 ev previous' J EQ GE; adv.
  - lazymatch goal with |- RefineBase.reaches _ _ (As _ _ ?r _ _) _ =>
      eapply reaches_more; [exact (assign_known melodia Y "event" (enc_ev ev) ev0 _ _ r _ _ eq_refl PX)|] end.
    eapply reaches_more; [reflexivity|]. exact (REST h2 ev previous' J EQ GE).
  - do 2 (eapply reaches_more; [reflexivity|]). exact (REST h2 ev previous' J EQ GE).
Qed.
End Parse.
