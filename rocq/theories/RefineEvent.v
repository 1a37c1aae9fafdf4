(** Running the source of the inner function read_event of MIDIReader._parse_track (io/midi.py 459-527) gives what
    the model in MidiReader.v says. *)
From Coq Require Import ZArith List Bool String Lia.
From Verif Require Import Py PyFloat PySort Signature Tone Note Track Show MidiWriter MidiReader PyAst PySem PySource PyProgram SpecBase MidiSpec SigFacts ReadFacts
  RefineBase RefineSignature RefineTone RefineNote RefineWriter RefineTrack RefineAdd RefineReader RefineNumbers.
Import ListNotations.
Open Scope string_scope.
Open Scope list_scope.
Open Scope Z_scope.

(** An event (the _Event classes, io/midi.py 311-350). *)
Definition enc_ev (e : event) : value :=
  match e with
  | EvUnsupported => VObj "_EventUnsupported" []
  | EvNoteOff c p v => VObj "_EventNoteOFF" [("channel", VInt c); ("pitch", VInt p); ("velocity", VInt v)]
  | EvNoteOn c p v => VObj "_EventNoteON" [("channel", VInt c); ("pitch", VInt p); ("velocity", VInt v)]
  | EvEndOfTrack => VObj "_EventEndOfTrack" []
  | EvTimeSignature nn dd cc bb => VObj "_EventTimeSignature" [("nn", VInt nn); ("dd", VInt dd); ("cc", VInt cc); ("bb", VInt bb)]
  | EvGlobalChannel c => VObj "_EventGlobalChannel" [("channel", VInt c)]
  end.
Definition enc_status (s : option Z) : value := match s with None => VNone | Some z => VInt z end.

(** The shared variables of _parse_track and read_event. *)
Definition shared (cd cp cr : nat) : env := [("data", VCell cd); ("previous_status", VCell cp); ("read_event", VCell cr)].
Definition reader_of_events (cd cp cr : nat) : value := VClosure "MIDIReader._parse_track.read_event" (shared cd cp cr).
Definition cells_at (h : heap) (p cd cp cr : nat) (previous : option Z) : Prop :=
  get h cd = Some (HCell (Some (VRef p))) /\ get h cp = Some (HCell (Some (enc_status previous))) /\
  get h cr = Some (HCell (Some (reader_of_events cd cp cr))).

Lemma index_known l i v : 0 <= i -> nth_error l (Z.to_nat i) = Some v -> index_list l i = done v.
Proof.
  intros I E. unfold index_list, index_of. assert (nth_error l (Z.to_nat i) <> None) as L by congruence. apply nth_error_Some in L.
  replace (i <? 0) with false by lia. replace ((0 <=? i) && (i <? Z.of_nat (List.length l))) with true by lia. rewrite E. reflexivity.
Qed.
Lemma lengths_known s : 128 <= s < 255 -> exists n, nth_error event_lengths (Z.to_nat s) = Some n /\
  index_list (map VInt event_lengths) s = done (VInt n) /\ -1 <= n.
Proof.
  intros S. destruct (nth_error event_lengths (Z.to_nat s)) as [n|] eqn:E.
  2:{ apply nth_error_None in E. rewrite event_lengths_len in E. lia. }
  exists n. split; [reflexivity|]. split; [apply index_known; [lia|]; rewrite nth_error_map, E; reflexivity|].
  apply nth_error_In in E. assert (F : Forall (fun n => -1 <= n) event_lengths) by (vm_compute; repeat constructor; discriminate).
  rewrite Forall_forall in F. apply F. exact E.
Qed.

Section Event.
Variable Y : python.
Notation steps := (steps melodia Y).
Notation reaches := (reaches melodia Y).
Notation reads := (reads Y).
Variables p cd cp cr : nat.

Definition after_event (o : reader * res (event * option Z)) (h h' : heap) : Prop :=
  reader_at h' p (fst o) /\ keeps [p; cp] h h' /\
  match snd o with Ok (_, previous) => get h' cp = Some (HCell (Some (enc_status previous))) | Err _ => True end.
Definition enc_read (x : event * option Z) : value := enc_ev (fst x).

(** ** The system exclusive loop (midi.py 513-515) *)
Definition enc_sysex (v : sysex_value) : value := match v with SVInt z => VInt z | SVBytes b => VBytes b end.
Definition sysex_while : expr * list stmt :=
  Eval calc in match f_body src_MIDIReader__parse_track_read_event with
               | [_; SIf _ _ [SIf _ [_; _; _; SIf _ _ [SIf _ _ [SIf _ [_; SWhile c b; _] _]]] _]] => (c, b)
               | _ => (EConst VNone, [])
               end.
Definition sysex_test := Eval cbv in fst sysex_while.
Definition sysex_body := Eval cbv in snd sysex_while.
Definition sysex_env (s k c : Z) (v : sysex_value) : env :=
  ("status", VInt s) :: shared cd cp cr ++ [("kind", VInt k); ("channel", VInt c); ("value", enc_sysex v)].
Lemma sysex_runs s k c K : forall fuel v r h, good_reader r -> reader_at h p r -> get h cd = Some (HCell (Some (VRef p))) ->
  sysex_continues v = true -> snd (sysex_loop fuel v r) <> Err OutOfFuel ->
  reaches (Ev sysex_test (sysex_env s k c v) h (KWhile sysex_test sysex_body (sysex_env s k c v) :: K))
    (fun t => exists h' e, t = Thr e h' /\ snd (sysex_loop fuel v r) = Err e /\ reader_at h' p (fst (sysex_loop fuel v r)) /\ keeps [p] h h').
Proof.
  induction fuel as [|n IH]; intros v r h GR G C S NF; cbn [sysex_loop] in *; rewrite S in *; [cbn in NF; congruence|].
  pose proof G as G0. unfold reader_at in G0. unfold rbind in *. pose proof (read_good 1 r GR ltac:(lia)) as [GR1 _].
  assert (reaches (Ex sysex_body (sysex_env s k c v) h (KLoopW sysex_test sysex_body :: K))
    (fun t => exists h' e, t = Thr e h' /\ snd (match read 1 r with (r', Ok a) => sysex_loop n (SVBytes a) r' | (r', Err e) => (r', Err e) end) = Err e /\
       reader_at h' p (fst (match read 1 r with (r', Ok a) => sysex_loop n (SVBytes a) r' | (r', Err e) => (r', Err e) end)) /\ keeps [p] h h')) as B.
  { unfold sysex_env at 1, shared, sysex_body at 1; cbn [app enc_sysex].
    destruct v as [z|b]; cbn [enc_sysex]; (until_call "_Reader.read"; next_read (read_runs Y p 1 r) (read 1) r GR; [lia| |]).
    2,4: apply reaches_here; do 2 eexists; split; [reflexivity|]; split; [reflexivity|]; split; assumption.
    all: repeat (lazymatch goal with |- RefineBase.reaches _ _ (Ev _ _ _ (KWhile _ _ _ :: _)) _ => fail | _ => adv end).
    all: eapply reaches_trans; [eapply (IH (SVBytes x) r0); [exact GR1|assumption|heap_get|reflexivity|exact NF]|].
    all: intros t (h' & e & -> & E' & G' & K'); apply reaches_here; exists h', e; (split; [reflexivity|]); (split; [exact E'|]); (split; [exact G'|keep]). }
  destruct v as [z|b]; unfold sysex_env, shared, sysex_test, sysex_body, enc_sysex in B |- *; cbn [app sysex_continues] in *.
  all: go_with ltac:(idtac; lazymatch goal with |- RefineBase.reaches _ _ (Ex _ _ _ (KLoopW _ _ :: _)) _ => exact B end).
Qed.

(** A read in the midst of an event; [HM] is the equation of the model. *)
Ltac reading_with L Good m r GR HM :=
  let RA := fresh "RA" in let GRn := fresh "GR" in let V := fresh "V" in let t := fresh "t" in let h1 := fresh "h" in
  let G1 := fresh "G" in let K1 := fresh "K" in let r1 := fresh "r" in let x := fresh "x" in let e := fresh "e" in let E := fresh "E" in
  pose proof Good as (GRn & V);
  eapply reaches_trans; [eapply L; [..|unfold reader_at; heap_get]; first [exact GR|assumption|lia|idtac]|];
  [..|intros t (h1 & -> & G1 & K1); pose proof G1; unfold reader_at in G1;
      destruct (m r) as [r1 [x|e]] eqn:E; cbn [fst snd outcome_of ends] in *; cbn beta iota in HM].
Ltac current_reader k :=
  match goal with
  | |- RefineBase.reaches _ _ (Ca _ _ _ ?h _) _ =>
      match goal with
      | RA : reader_at ?h0 p ?r, GR : good_reader ?r |- _ =>
          let X := fresh in assert (X : reader_at h p r) by (unfold reader_at in *; heap_get); clear X; k r GR
      end
  end.
Ltac event_reads HM NF :=
  idtac; lazymatch goal with
  | |- RefineBase.reaches _ _ (Ca (VFun "MIDIReader._read_8") [VRef p] [] _ _) _ =>
      current_reader ltac:(fun r GR => reading_with (read_8_runs Y p r) (read_8_good r GR) (read_8) r GR HM)
  | |- RefineBase.reaches _ _ (Ca (VFun "_Reader.read") [VRef p; VInt ?n] [] _ _) _ =>
      current_reader ltac:(fun r GR =>
        let N := fresh "N" in assert (N : 0 <= n) by lia;
        reading_with (read_runs Y p n r) (read_good n r GR N) (read n) r GR HM)
  | |- RefineBase.reaches _ _ (Ca (VFun "MIDIReader._read_var_len") [VRef p] [] _ _) _ =>
      current_reader ltac:(fun r GR =>
        let N := fresh "N" in
        assert (N : snd (read_var_len r) <> Err OutOfFuel) by (destruct (read_var_len r) as [? [?|?]]; cbn in *; congruence);
        reading_with (read_var_len_runs Y p r) (read_var_len_good r GR) (read_var_len) r GR HM)
  end.
Ltac event_model HM :=
  repeat (cbn beta iota delta [negb] in HM;
    match goal with
    | E : ?b = true |- _ => lazymatch type of HM with context [b] => rewrite E in HM end
    | E : ?b = false |- _ => lazymatch type of HM with context [b] => rewrite E in HM end
    | E : ?m = (_, Ok _) |- _ => lazymatch type of HM with context [m] => rewrite E in HM end
    | E : ?m = (_, Err _) |- _ => lazymatch type of HM with context [m] => rewrite E in HM end
    end); cbn beta iota delta [negb] in HM.
Ltac event_end HM :=
  event_model HM; apply reaches_here; injection HM as <- <-; eexists; split; [reflexivity|]; unfold after_event; cbn [fst snd];
  refine (conj _ (conj _ _)); [unfold reader_at; heap_get|keep|first [exact Logic.I|heap_get]].

(** What comes after [if status is None: ...]. *)
Definition event_rest : list stmt := Eval calc in match f_body src_MIDIReader__parse_track_read_event with _ :: b => b | [] => [] end.
Lemma event_rest_runs d s previous r o h K : good_reader r -> reader_at h p r -> cells_at h p cd cp cr previous -> 128 <= s <= 255 ->
  read_event (S d) (Some s) previous r = o -> snd o <> Err OutOfFuel ->
  reaches (Ex event_rest (("status", VInt s) :: shared cd cp cr) h (KFun :: K))
          (returns (outcome_of enc_read (snd o)) K (after_event o h)).
Proof.
  intros GR G (C1 & C2 & C3) S1 HM NF. pose proof G as G0. unfold reader_at in G0.
  destruct o as [r' o]. cbn [fst snd] in *. unfold event_rest, reader_of_events, shared in *.
  assert (D : p <> cp /\ cd <> cp /\ cr <> cp).
  { destruct previous; cbn [enc_status] in C2; repeat split; congruence. }
  destruct D as (D1 & D2 & D3).
  cbn [read_event] in HM; unfold rbind, ret, raise in HM.
  destruct (s =? 255) eqn:E1.
  - destruct previous; cbn [enc_status] in C2; go_with ltac:(event_reads HM NF); event_end HM.
  - assert (E2 : (s >=? 128) = true) by lia. rewrite E2 in HM.
    destruct (Z.shiftr s 4 =? 8) eqn:E3; [|destruct (Z.shiftr s 4 =? 9) eqn:E4; [|destruct (s =? 240) eqn:E5]].
    + destruct previous; cbn [enc_status] in C2; go_with ltac:(event_reads HM NF); event_end HM.
    + destruct previous; cbn [enc_status] in C2; go_with ltac:(event_reads HM NF); event_end HM.
    + cbn beta iota in HM.
      assert (NS : snd (sysex_loop (S (List.length (rd_data r))) (SVInt 0) r) <> Err OutOfFuel).
      { destruct (sysex_loop _ _ r) as [? [?|?]]; cbn in *; congruence. }
      destruct previous; cbn [enc_status] in C2;
        repeat (lazymatch goal with |- RefineBase.reaches _ _ (Ev _ _ _ (KWhile _ _ _ :: _)) _ => fail | _ => adv end).
      all: (eapply reaches_trans; [eapply (sysex_runs s (Z.shiftr s 4) (Z.land s 15) _ (S (List.length (rd_data r))) (SVInt 0) r _ GR); [unfold reader_at; heap_get|heap_get|reflexivity|exact NS]|]).
      all: intros t (h' & e & -> & E' & G' & K'); destruct (sysex_loop _ _ r) as [r1 o1]; cbn [fst snd] in *; subst o1; event_end HM.
    + destruct (lengths_known s ltac:(lia)) as (n & N1 & N2 & N3). change (index_list (map VInt event_lengths) s = done (VInt n)) with (fact (index_list (map VInt event_lengths) s = done (VInt n))) in N2.
      rewrite N1 in HM. change (n =? -1) with (n =? - (1)) in HM. assert (N4 : (n =? - (1)) = false -> 0 <= n) by lia.
      destruct (n =? - (1)) eqn:E6; [|specialize (N4 eq_refl)].
      all: destruct previous; cbn [enc_status] in C2; go_with ltac:(event_reads HM NF); event_end HM.
Qed.


Ltac until_rest :=
  repeat (lazymatch goal with |- RefineBase.reaches _ _ (Ex (SIf (ECmp (EName "status") [(CEq, _)]) _ _ :: _) _ _ (KFun :: _)) _ => fail | _ => adv end).
Lemma event_status_runs d s previous r o h K : good_reader r -> reader_at h p r -> cells_at h p cd cp cr previous -> 128 <= s <= 255 ->
  read_event (S d) (Some s) previous r = o -> snd o <> Err OutOfFuel ->
  reaches (Ca (reader_of_events cd cp cr) [] [("status", VInt s)] h K)
          (returns (outcome_of enc_read (snd o)) K (after_event o h)).
Proof. intros GR G C S1 HM NF. unfold reader_of_events, shared. until_rest. eapply event_rest_runs; eassumption. Qed.
End Event.

(** The call read_event(): the status is read, or the previous one is used. *)
Section Event2.
Variable Y : python.
Notation steps := (steps melodia Y).
Notation reaches := (reaches melodia Y).
Notation reads := (reads Y).
Variables p cd cp cr : nat.
Notation after_event := (after_event p cp).
Lemma read_event_none d previous r : read_event (S d) None previous r =
  match read_8 r with
  | (r1, Ok s) => if s >=? 128 then read_event (S d) (Some s) previous r1
                  else read_event d previous previous (mkReader (rd_data r1) (rd_idx r1 + -1))
  | (r1, Err e) => (r1, Err e)
  end.
Proof.
  cbn [read_event]. unfold rbind at 1. destruct (read_8 r) as [r1 [s|e]]; [|reflexivity].
  destruct (s >=? 128) eqn:B; [unfold rbind, ret; cbn beta iota; rewrite B; reflexivity|]. replace (s =? 255) with false by lia. reflexivity.
Qed.
Lemma no_status d r r1 s : read_8 r = (r1, Ok s) -> s < 128 -> snd (read_event d None None r) = Err RecursionError.
Proof.
  intros E L. revert r r1 E. induction d as [|d IH]; intros r r1 E; [reflexivity|]. cbn [read_event]. unfold rbind at 1. rewrite E.
  replace (s =? 255) with false by lia. replace (s >=? 128) with false by lia. unfold rbind, shift.
  apply (IH _ r1). clear -E. unfold read_8, rbind, read, ret in *. cbn [rd_data rd_idx].
  destruct (Z.of_nat (List.length (rd_data r)) - rd_idx r <? 1) eqn:N; [discriminate|]. injection E as <- <-. cbn [rd_data rd_idx]. replace (rd_idx r + 1 + -1) with (rd_idx r) by lia. rewrite N. reflexivity.
Qed.
Lemma event_runs d previous r o h K : good_reader r -> reader_at h p r -> cells_at h p cd cp cr previous -> status_ok previous ->
  read_event (S (S d)) None previous r = o -> snd o <> Err OutOfFuel -> snd o <> Err RecursionError ->
  reaches (Ca (reader_of_events cd cp cr) [] [] h K)
          (returns (outcome_of enc_read (snd o)) K (after_event o h)).
Proof.
  intros GR G C SO HM NF NR. pose proof G as G0. unfold reader_at in G0. pose proof C as (C1 & C2 & C3).
  eapply (reaches_more _ _ _ (Ex (hd SBreak (f_body src_MIDIReader__parse_track_read_event) :: event_rest) (("status", VNone) :: shared cd cp cr) h (KFun :: K))); [reflexivity|].
  unfold shared, hd, src_MIDIReader__parse_track_read_event. cbn [f_body]. pose proof (read_8_good r GR) as (GR1 & D1 & V1).
  until_call "MIDIReader._read_8". next_read (read_8_runs Y p r) read_8 r GR; rewrite read_event_none, E in HM.
  - destruct V1 as [V1 I1].
    repeat (lazymatch goal with |- RefineBase.reaches _ _ (Ex event_rest _ _ (KFun :: _)) _ => fail | _ => adv end).
    destruct (x >=? 128) eqn:B.
    + eapply reaches_trans; [eapply (event_rest_runs Y p cd cp cr (S d) x previous r0 o); try eassumption; [|lia]|].
      * repeat split; heap_get.
      * intros t (h' & -> & G' & K' & C'). apply reaches_here. eexists. split; [reflexivity|]. split; [exact G'|]. split; [keep|exact C'].
    + destruct previous as [q|].
      2:{ exfalso. apply NR. rewrite <- HM. apply (no_status (S d) _ r0 x); [|lia]. destruct r as [a b].
          unfold read_8, rbind, read, ret in *. cbn [rd_data rd_idx] in *. destruct (Z.of_nat (List.length a) - b <? 1) eqn:N; [discriminate|]. injection E as <- <-. cbn [rd_data rd_idx].
          replace (b + 1 + -1) with b by lia. rewrite N. reflexivity. }
      assert (N8 : (x =? 255) = false) by lia.
      pose proof (C2 : get h cp = Some (HCell (Some (VInt q)))) as C2'. clear C2.
      unfold reader_of_events, shared in C3. assert (D : p <> cp /\ p <> cd /\ p <> cr) by (repeat split; congruence). destruct D as (D2 & D3 & D4).
      unfold event_rest.
      until_call "_Reader.shift".
      eapply reaches_trans; [eapply (shift_runs Y p (- (1)) r0); assumption|]. intros t (h1 & -> & G2 & K2). cbn [shift fst snd outcome_of ends] in *.
      pose proof G2 as G3. unfold reader_at in G3.
      repeat (lazymatch goal with |- RefineBase.reaches _ _ (Ca (VClosure _ _) _ _ _ _) _ => fail | _ => adv end).
      eapply reaches_trans; [eapply (event_status_runs Y p cd cp cr d q (Some q) _ o); [|exact G2| | |exact HM|exact NF]|].
      * destruct GR1 as [A A']. destruct GR as [_ A'']. split; [exact A|]. cbn [rd_data rd_idx] in *. lia.
      * repeat split; heap_get.
      * exact SO.
      * intros t (h' & -> & G' & K' & C'). destruct (snd o) as [[ev pv]|e] eqn:O; cbn [outcome_of ends].
        -- go. apply reaches_here. eexists. split; [reflexivity|]. unfold RefineEvent.after_event. rewrite O. split; [exact G'|]. split; [keep|exact C'].
        -- apply reaches_here. eexists. split; [reflexivity|]. unfold RefineEvent.after_event. rewrite O. split; [exact G'|]. split; [keep|exact Logic.I].
  - apply reaches_here. subst o. eexists. split; [reflexivity|]. split; [assumption|]. split; [keep|exact Logic.I].
Qed.
End Event2.
