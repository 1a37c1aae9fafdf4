(** Running the source of MIDIReader._parse_track (io/midi.py 452-602) gives what the model in MidiReader.v says. *)
From Coq Require Import ZArith List Bool String Lia SpecFloat.
From Verif Require Import Py PyFloat PySort Signature Tone Note Track Show MidiWriter MidiReader PyAst PySem PySource PyProgram SpecBase MidiSpec SigFacts ReadFacts
  RefineBase RefineSignature RefineTone RefineNote RefineWriter RefineTrack RefineAdd RefineReader RefineNumbers RefineEvent RefineDeep RefineParse RefineParseLoop RefineChannel RefineChannels.
Import ListNotations.
Open Scope string_scope.
Open Scope list_scope.
Open Scope Z_scope.

Section ParseTrack.
Variable Y : python.
Notation reaches := (reaches melodia Y).
Variable cv : value.
Variable delta : Z.
Notation m := (mkMR delta).

Variable dp : nat.
Definition after_parse (h : heap) (p : nat) (o : res (dict track)) (K : list frame) (s : state) : Prop :=
  match o with
  | Ok ts => exists h' pr rs, s = Rt (VRef pr) h' K /\ keeps [p] h h' /\ get h pr = None /\ get h' pr = Some (HDict false (enc_dict track_ref rs)) /\
      tracks_at h' ts rs /\ fresh_tracks h rs
  | Err e => raised dp e [p] h s
  end.
Definition track_end := Eval calc in match f_body src_MIDIReader__parse_track with _ :: _ :: _ :: _ :: _ :: _ :: _ :: l => l | _ => [] end.
Definition track_make := Eval cbv in match track_end with _ :: l => l | _ => [] end.
Definition enc_mr : list (string * value) := [("_middle_c", cv); ("_middle_c_delta", VInt delta)].

Lemma make_runs h0 h p cd cp cr ce cs q g t dt at_ (d : dict (list (Z * event))) es sigs K : keeps [p] h0 h -> get h0 p <> None ->
  get h ce = Some (HDict true (enc_dict VRef es)) -> lists_at h d es -> good_events d -> NoDup (map fst d) ->
  get h cs = Some (HDict false (enc_dict enc_sig sigs)) -> good_sigs sigs -> get h p <> None ->
  reaches (Ex track_make (parse_env cd cp cr ce cs enc_mr q g t (Some (dt, at_, enc_ev EvEndOfTrack))) h (KFun :: K)) (after_parse h0 p (channels_loop m q sigs d) K).
Proof.
  intros KE P0 GE [LE _] GD ND GS SS P1. unfold parse_env, enc_mr, track_make.
  assert (FP : get h (next_place h) = None) by apply fresh_none.
  assert (F0 : forall a, get h a = None -> get h0 a = None).
  { intros a A. destruct (get h0 a) as [v|] eqn:E; [|reflexivity]. destruct (Nat.eq_dec a p) as [->|N]; [congruence|].
    assert (NI : ~ In a [p]) by (intros [X|[]]; congruence). rewrite (keeps_get _ _ _ _ _ KE NI E) in A. discriminate. }
  repeat (lazymatch goal with |- RefineBase.reaches _ _ (Lp _ _ _ _ _ _) _ => fail | _ => adv end).
  assert (IT : forall l : dict nat, map (fun kv => VTuple [fst kv; snd kv]) (enc_dict VRef l) = map (fun y => VTuple [VInt (fst y); VRef (snd y)]) l)
    by (intros l; unfold enc_dict; rewrite map_map; reflexivity).
  set (h1 := new h (HDict false [])).
  pose proof (channels_loop_runs Y cd cp cr ce cs (next_place h) cv delta q g t dt h1 sigs) as CL.
  assert (G1 : get h1 (next_place h) = Some (HDict false [])) by (unfold h1; heap_get).
  assert (G2 : get h1 cs = Some (HDict false (enc_dict enc_sig sigs))) by (unfold h1; heap_get).
  assert (NC : cs <> next_place h) by congruence.
  assert (KH : keeps [p] h0 h1) by (unfold h1; keep).
  assert (N1 : forall a, get h1 a = None -> get h a = None).
  { intros a A. destruct (get h a) as [v|] eqn:E; [|reflexivity]. unfold h1 in A. rewrite (get_new_old _ _ _ _ E) in A. discriminate. }
  pose proof (F0 _ FP) as FP0.
  specialize (CL G2 SS G1 NC (KSeq [SReturn (EName "result")] :: KFun :: K) (after_parse h0 p (channels_loop m q sigs d) K) d es h1 [] [] at_ (enc_ev EvEndOfTrack) None).
  rewrite <- IT in CL. apply CL; clear CL.
  - keep.
  - unfold h1. clear -LE. induction LE as [|x y d es [A B] LE IH]; constructor; [|exact IH]. split; [exact A|heap_get].
  - exact GD.
  - exact ND.
  - exact G1.
  - split; [constructor|split; constructor].
  - constructor.
  - reflexivity.
  - intros rest h' rs' at' ev' x' R K' G' T' F'. rewrite R.
    assert (DONE : after_parse h0 p (Ok rest) K (Rt (VRef (next_place h)) h' K)).
    { exists h', (next_place h), rs'. cbn [app] in T'. refine (conj eq_refl (conj _ (conj (F0 _ FP) (conj G' (conj T' _))))).
      - keep.
      - unfold fresh_tracks in *. rewrite Forall_forall in F' |- *. intros y I. destruct (F' y I) as [A B].
        split; apply F0, N1; assumption. }
    destruct x' as [[[[[[xc xb] xs] xa] xr] xn]|]; unfold channels_env, channel_env; repeat adv; apply reaches_here; exact DONE.
  - intros e h' R K'. rewrite R. apply raised_thr; [intros ->; exact (calm_channels _ _ _ _ R)|]. keep.
Qed.

Lemma after_runs h0 h p cd cp cr ce cs q dt at_ r s es K : get h0 p <> None -> get h0 ce = None -> parsing h0 p cd cp cr ce cs h r s es ->
  reaches (Ex track_end (parse_env cd cp cr ce cs enc_mr q (ps_global s) (ps_time s) (Some (dt, at_, enc_ev EvEndOfTrack))) h (KFun :: K))
    (after_parse h0 p (channels_loop m q (ps_signatures s) match ps_events s with [] => append_event [] 0 (0, EvUnsupported) | d => d end) K).
Proof.
  intros P0 FE [J1 J2 J3 J4 J5 J6 J7 JK J8 J9 J10 J11]. destruct s as [previous d sigs g t]. cbn [ps_previous ps_events ps_signatures ps_global ps_time] in *.
  unfold reader_at in J1. assert (P1 : get h p <> None) by congruence.
  pose proof (fun h es => make_runs h0 h p cd cp cr ce cs q g t dt at_ match d with [] => append_event [] 0 (0, EvUnsupported) | _ => d end es sigs K) as MK.
  unfold parse_env, enc_mr in *. unfold track_end.
  destruct es as [|[k b] es]; destruct d as [|[k' l] d]; try (exfalso; destruct J6 as [X _]; inversion X; fail).
  - clear JK.
    repeat (lazymatch goal with |- RefineBase.reaches _ _ (Ex (SAssign (TName "result") _ :: _) _ _ _) _ => fail | _ => adv end).
    apply (MK _ [(0, next_place h)]); [keep|exact P0|heap_get| | | |heap_get|exact J9|].
    + split; [|constructor; [intros []|constructor]]. constructor; [|constructor]. split; [reflexivity|]. cbn [snd map enc_timed]. heap_get.
    + repeat constructor.
    + repeat constructor. intros [].
    + match goal with |- get ?x p <> None => eassert (X : get x p = Some _) by heap_get; rewrite X; discriminate end.
  - unfold enc_dict in J5; cbn [map fst snd] in J5; fold (enc_dict VRef es) in J5.
    repeat (lazymatch goal with |- RefineBase.reaches _ _ (Ex (SAssign (TName "result") _ :: _) _ _ _) _ => fail | _ => adv end).
    apply (MK _ ((k, b) :: es)); assumption.
Qed.
Lemma parse_track_runs h p b q K : reader_at h p (reader_new b) -> good_reader (reader_new b) ->
  parse_track m b q <> Err OutOfFuel ->
  reaches (Ca (VFun "MIDIReader._parse_track") [enc_midi_reader cv m; VRef p; VInt q] [] h K) (after_parse h p (parse_track m b q) K).
Proof.
  intros RA GR NF. unfold enc_midi_reader. cbn [mr_delta]. pose proof RA as RA'. unfold reader_at in RA'.
  repeat (lazymatch goal with |- RefineBase.reaches _ _ (Ev _ _ _ (KWhile _ _ _ :: _)) _ => fail | _ => adv end).
  set (cd := next_place h) in *. set (h1 := new h (HCell (Some (VRef p)))) in *. set (cp := next_place h1) in *. set (h2 := new h1 (HCell None)) in *.
  set (cr := next_place h2) in *. set (h3 := new h2 (HCell None)) in *. set (h4 := put h3 cp (HCell (Some VNone))) in *.
  lazymatch goal with |- context [put h4 cr ?o] => set (h5 := put h4 cr o) in * end.
  set (ce := next_place h5) in *. set (h6 := new h5 (HDict true [])) in *. set (cs := next_place h6) in *. set (h7 := new h6 (HDict false [])) in *.
  assert (F : get h cp = None /\ get h ce = None /\ get h cs = None /\ parsing h p cd cp cr ce cs h7 (reader_new b) (mkPS None [] [] (-1) 0) []).
  { assert (N0 : get h cd = None) by apply fresh_none. assert (N1 : get h1 cp = None) by apply fresh_none. assert (N2 : get h2 cr = None) by apply fresh_none.
    assert (N5 : get h5 ce = None) by apply fresh_none. assert (N6 : get h6 cs = None) by apply fresh_none.
    assert (L1 : forall a o, get h a = Some o -> get h1 a = Some o) by (intros; unfold h1; heap_get).
    assert (L5 : forall a o, get h a = Some o -> get h5 a = Some o).
    { intros a o G. pose proof (L1 a o G) as G1. assert (get h2 a = Some o) by (unfold h2; heap_get). assert (a <> cp) by congruence. assert (a <> cr) by congruence. unfold h5, h4, h3. heap_get. }
    assert (L6 : forall a o, get h a = Some o -> get h6 a = Some o) by (intros a o G; pose proof (L5 a o G); unfold h6; heap_get).
    assert (BACK : forall h' a, (forall o, get h a = Some o -> get h' a = Some o) -> get h' a = None -> get h a = None).
    { intros h' a X N. destruct (get h a) as [o|]; [rewrite (X o eq_refl) in N; discriminate|reflexivity]. }
    refine (conj (BACK _ _ (L1 _) N1) (conj (BACK _ _ (L5 _) N5) (conj (BACK _ _ (L6 _) N6) _))).
    assert (C1 : get h1 cd = Some (HCell (Some (VRef p)))) by (unfold h1; heap_get).
    assert (C2 : get h2 cd = Some (HCell (Some (VRef p)))) by (unfold h2; heap_get).
    assert (C3 : get h2 cp = Some (HCell None)) by (unfold h2; heap_get).
    assert (cd <> cp) by congruence. assert (cd <> cr) by congruence. assert (cp <> cr) by congruence.
    assert (C4 : get h3 cr = Some (HCell None)) by (unfold h3; heap_get).
    assert (C5 : get h5 cd = Some (HCell (Some (VRef p)))) by (unfold h5, h4, h3; heap_get).
    assert (C6 : get h5 cp = Some (HCell (Some VNone))) by (unfold h5, h4, h3; heap_get).
    assert (C7 : get h5 cr = Some (HCell (Some (reader_of_events cd cp cr)))) by (unfold h5, h4; heap_get).
    assert (UP : forall a o, get h5 a = Some o -> get h7 a = Some o) by (intros; unfold h7, h6; heap_get).
    constructor; cbn [ps_previous ps_events ps_signatures ps_global ps_time].
    - apply UP, L5. exact RA.
    - exact GR.
    - split; [apply UP; exact C5|]. split; apply UP; assumption.
    - exact Logic.I.
    - unfold h7, h6. heap_get.
    - split; constructor.
    - constructor.
    - constructor.
    - unfold h7. heap_get.
    - constructor.
    - constructor.
    - split; [intros a o _ G; apply UP, L5, G|reflexivity]. }
  destruct F as (FP & FE & FS & PS).
  eapply (parse_loop_runs Y h p cd cp cr ce cs enc_mr q FP FE FS (KSeq track_end :: KFun :: K) _ dp (S (List.length b)) (mkPS None [] [] (-1) 0) (reader_new b) h7 [] None PS Logic.I).
  - intros X. apply NF. unfold parse_track. destruct (parse_loop _ _ _) as [? ?]. cbn [snd] in X. subst. reflexivity.
  - intros X u D. unfold parse_track. destruct (parse_loop _ _ _) as [? ?]. cbn [snd] in X. subst. exact D.
  - intros h' s' r' es' dt' at' E PS'. unfold parse_track. rewrite E. eapply reaches_more; [reflexivity|].
    eapply after_runs; [congruence|exact FE|exact PS'].
  - intros h' e E NE K'. unfold parse_track. destruct (parse_loop _ _ _) as [? ?]. cbn [snd] in E. subst. apply raised_thr; assumption.
Qed.
End ParseTrack.
