(** Random velocities in runs of the source: the new track, the old one, and the file that is written for the new one. *)
From Coq Require Import ZArith QArith Qround Qreduction Qminmax Lqa List Bool String Lia Permutation Sorted.
From Verif Require Import Py PyFloat PySort Signature Tone Note Track Show MidiWriter MidiReader Processing PyAst PySem PySource PyProgram SpecBase DecFacts SigFacts SortFacts FloatFacts NoteProps
  TrackSpec MidiSpec DumpSpec ReaderSpec TripSpec VelocityFacts TrackFacts TrackProps LoadFacts ProcessingProps ObjectProps WriterProps TripProps SizeProps ModuleProps
  RefineBase RefineNote RefineTrack RefineSpec RefineTrackProps RefineProcess RefineDeep RefineDumps RefineDumpProps RefineTests RefineTerm Client RefineStore RefineClient RefineClientProps RefineFiles RefineScore.
Import ListNotations.
Open Scope string_scope.
Open Scope list_scope.
Open Scope Z_scope.

Definition between (mn mx : float) (e : sig * note) : Prop :=
  valid_velocity (n_velocity (snd e)) /\ (fval mn <= fval (n_velocity (snd e)) <= Qmax (fval mn) (fval mx))%Q.
(** A new track with the notes of [l] and velocities between the bounds; the old track can only be sorted. *)
Definition humanized (Y : python) (h : heap) (a b : nat) (s : sig) (t : track) (l : list (sig * note)) (mn mx : float) (v : res value) (h' : heap) : Prop :=
  exists c d r t', v = Ok (VRef c) /\ get h c = None /\ get h d = None /\ track_at h' c d r /\ t_signature r = s /\
    Permutation (map but_velocity (TrackSpec.yields (py_sort Y) r)) (map but_velocity l) /\ Forall (between mn mx) (TrackSpec.yields (py_sort Y) r) /\
    track_at h' a b t' /\ looks_same (py_sort Y) (fun e => e) t' t /\ after_draws [a; b] (List.length l) h h'.

Lemma heap_length t l : Inv t l -> List.length (t_heap t) = List.length l.
Proof. intros I. rewrite (Permutation_length (inv_heap _ _ I)), map_length. reflexivity. Qed.

Lemma c84_randomize : forall Y h a b s ops mn mx me va, usual Y -> valid_sig s -> Forall op_ok ops ->
  let t := run (py_sort Y) (track_empty s) ops in
  let l := contents (py_sort Y) s ops in
  let vars := [("t", VRef a); ("lo", VFloat mn); ("hi", VFloat mx); ("m", VFloat me); ("s", VFloat va)] in
  track_at h a b t -> is_float mn = true -> is_float mx = true -> is_float me = true -> is_float va = true ->
  let allowed := valid_velocity mn /\ valid_velocity mx /\ valid_velocity me /\ valid_variance va in
  (allowed -> brings Y h vars (call (name "processing.randomize_velocities") [name "t"; name "lo"; name "hi"; name "m"; name "s"]) (humanized Y h a b s t l mn mx)) /\
  (~ allowed -> brings Y h vars (call (name "processing.randomize_velocities") [name "t"; name "lo"; name "hi"; name "m"; name "s"])
     (fun v h' => v = Err ValueError /\ track_at h' a b t)) /\
  brings Y h vars (call (name "processing.randomize_velocities") [name "t"]) (humanized Y h a b s t l f_half f_one).
Proof.
  intros Y h a b s ops mn mx me va (_ & N & C & FD) V O t l vars T F1 F2 F3 F4 allowed.
  destruct (run_inv (py_sort Y) C s ops O) as [I S]. fold t in I, S.
  assert (SO : sound t) by (split; [eauto|rewrite S; exact V]).
  pose proof (c76_randomize Y h a b t mn mx me va N C T (sound_good t SO)) as [R5 R1]. fold vars in R5, R1. cbv zeta in R5, R1.
  assert (G : forall mn mx me va v h', valid_velocity mn -> valid_velocity mx -> valid_velocity me -> is_float va = true -> valid_variance va ->
    (let o := randomize_velocities (py_sort Y) t mn mx me va (fun i => py_gauss Y (h_calls h + i) me (py_sqrt Y va)) in
     track_at h' a b (fst o) /\
     match snd o with
     | Ok t' => exists c d, v = Ok (VRef c) /\ track_at h' c d t' /\ get h c = None /\ get h d = None /\ after_draws [a; b] (List.length (t_heap t)) h h'
     | Err e => v = Err e /\ exists n, (n <= List.length (t_heap t))%nat /\ after_draws [a; b] n h h'
     end) -> humanized Y h a b s t l mn mx v h').
  { clear - C FD O I. intros mn mx me va v h' A1 A2 A3 A4 A5 X. cbv zeta in X.
    pose proof (c51_input (py_sort Y) C s ops mn mx me va (fun i => py_gauss Y (h_calls h + i) me (py_sqrt Y va)) O) as LS. cbv zeta in LS.
    destruct (c50_result (py_sort Y) C s ops mn mx me va (fun i => py_gauss Y (h_calls h + i) me (py_sqrt Y va)) O A1 A2 A3 A4 A5) as (t' & r & E & S & P & _ & B).
    { intros i. apply FD. }
    fold t in E, LS. rewrite E in X, LS. cbn [fst snd] in X, LS. destruct X as (T1 & c & d & -> & T2 & G1 & G2 & AD).
    rewrite (heap_length _ _ I) in AD. exists c, d, r, t'. repeat (split; [first [reflexivity|eassumption]|]). exact AD. }
  split; [|split].
  - intros (A1 & A2 & A3 & A4) K. destruct (R5 K) as (w & R & v & h' & -> & X). eexists. split; [exact R|]. exists v, h'. split; [reflexivity|]. eapply G; [| | | | |exact X]; assumption.
  - intros NA K. destruct (R5 K) as (w & R & v & h' & -> & X). rewrite (c50_invalid _ t mn mx me va _ F1 F2 F3 F4 NA) in X. cbn [fst snd] in X.
    destruct X as (T1 & -> & _). eexists. split; [exact R|]. exists (Err ValueError), h'. auto.
  - intros K. destruct (R1 K) as (w & R & v & h' & -> & X). eexists. split; [exact R|]. exists v, h'. split; [reflexivity|]. eapply G; [| | | | |exact X].
    1-3: apply unit_test; reflexivity.
    + vm_compute. reflexivity.
    + apply variance_spec; vm_compute; reflexivity.
Qed.

(** ** The file *)
(** y = randomize_velocities(x); b = midi.dumps(y) *)
Definition humanize_to_file : cmd := Seq (Randomize "y" "x" None) (Dumps "b" "y" None).

Lemma adds_run sort : forall (es : list entry) t l, Inv t l -> Forall entry_ok es ->
  LoadFacts.adds t es = run sort t (TrackProps.adds (map (fun e => (snd e, fst e)) es)).
Proof.
  induction es as [|[p n] es IH]; intros t l I H; [reflexivity|]. inversion H as [|? ? H1 H2]; subst.
  destruct (add_note_ok t l (p, n) I H1) as (E & I' & _). change ((p, n) :: es) with ([(p, n)] ++ es) at 1. rewrite adds_app, (IH _ _ I' H2).
  cbn [map TrackProps.adds run fold_left fst snd]. f_equal. cbn [TrackSpec.step track_add sig_of_arg add_at]. cbn [fst snd] in E. rewrite E. reflexivity.
Qed.
Lemma loud_byte v : valid_velocity v -> (fval f_half <= fval v)%Q -> exists k, velocity_byte v = Ok k /\ 63 <= k <= 127.
Proof.
  intros H L. destruct (velocity_byte_eq v H) as [E B]. exists (Qfloor (product v)). split; [exact E|]. split; [|lia].
  change 63 with (Qfloor 63). apply Qfloor_resp_le. destruct (product_near v H) as [P _].
  assert (X : (fval f_half == 1 # 2)%Q) by reflexivity. rewrite X in L. eapply Qle_trans; [|exact P].
  assert (Z : ((1 # 2 ^ 47) <= 1 # 2)%Q) by (vm_compute; discriminate). lra.
Qed.
Lemma transport (P : Q * Z * Q -> Prop) l l' : Permutation (map but_velocity l') (map but_velocity l) -> Forall (fun e => P (but_velocity e)) l -> Forall (fun e => P (but_velocity e)) l'.
Proof.
  intros H F. apply Forall_map. eapply Permutation_Forall; [apply Permutation_sym; exact H|]. apply Forall_map. exact F.
Qed.
Lemma last_pulse_but e : last_pulse 96 e = Qfloor (inject_Z (4 * 96) * fst (fst (but_velocity e))) + Qfloor (inject_Z (4 * 96) * snd (but_velocity e)).
Proof. unfold last_pulse, but_velocity. cbn [fst snd]. rewrite !Qred_correct. reflexivity. Qed.

Lemma c84_file : forall Y h a b s ops K, usual Y -> valid_sig s -> Forall op_ok ops ->
  track_at h a b (run (py_sort Y) (track_empty s) ops) ->
  let l := contents (py_sort Y) s ops in
  Forall (fun e => in_midi_range 36 (snd e)) l -> sig_fits s -> Forall (fun e => last_pulse 96 e < 2 ^ 28) l -> Z.of_nat (List.length l) <= 2 ^ 28 ->
  reaches melodia Y (Ex (body humanize_to_file "b") [("x", VRef a)] h (KFun :: K)) (fun w => exists bs h' l',
    w = Rt (VBytes bs) h' K /\ file_of s l' PyFloat.f_120 0 bs /\ Permutation (map but_velocity l') (map but_velocity l) /\
    Forall (fun e => 63 <= note_velocity (snd e) <= 127) l' /\ after_draws [a; b] (List.length l) h h').
Proof.
  intros Y h a b s ops K U V O T l R SF LP LE. pose proof U as (_ & _ & C & FD). set (t := run (py_sort Y) (track_empty s) ops) in *.
  destruct (run_inv (py_sort Y) C s ops O) as [I S]. fold t in I, S.
  assert (SO : sound t) by (split; [eauto|rewrite S; exact V]).
  set (va := fdiv f_one (float_of_Z 100)). set (dr := draws Y (h_calls h) f_three_quarters va).
  assert (VH : valid_velocity f_half) by (apply unit_test; reflexivity). assert (V1 : valid_velocity f_one) by (apply unit_test; reflexivity).
  assert (V3 : valid_velocity f_three_quarters) by (apply unit_test; reflexivity).
  assert (DF : forall i, is_float (dr i) = true) by (intros i; apply FD).
  pose proof (randomize_ok (py_sort Y) t _ f_half f_one f_three_quarters va dr C I VH V1 V3 ltac:(vm_compute; reflexivity) ltac:(apply variance_spec; vm_compute; reflexivity) DF) as E.
  rewrite S in E. set (l' := revoiced f_half f_one dr 0 (TrackSpec.yields (py_sort Y) t)) in *.
  pose proof (yields_entry_ok (py_sort Y) t _ C I) as HY. pose proof (revoiced_ok f_half f_one dr VH V1 DF _ 0%nat HY) as HR. fold l' in HR.
  set (ops' := TrackProps.adds (map (fun e : entry => (snd e, fst e)) l')).
  assert (EA : LoadFacts.adds (track_empty s) l' = run (py_sort Y) (track_empty s) ops') by (apply (adds_run (py_sort Y) l' _ [] (inv_empty s) HR)).
  assert (O' : Forall op_ok ops').
  { apply adds_ok. apply Forall_map. eapply Forall_impl; [|exact HR]. intros e [A B]. split; assumption. }
  assert (CO : contents (py_sort Y) s ops' = l').
  { unfold contents, ops'. rewrite adds_log, map_map. rewrite <- (map_id l') at 2. apply map_ext. intros []. reflexivity. }
  assert (PB : Permutation (map but_velocity l') (map but_velocity l)).
  { unfold l'. rewrite revoiced_but_velocity. apply but_velocity_value, (inv_values (py_sort Y) _ _ C I). }
  assert (LV : Forall (fun e => 63 <= note_velocity (snd e) <= 127) l').
  { clear - HY VH V1 DF. unfold l'. generalize 0%nat. induction HY as [|e r H1 H2 IH]; intros i; [constructor|]. cbn [revoiced]. constructor; [|apply IH].
    cbn [snd]. unfold note_velocity. cbn [n_velocity]. destruct (loud_byte (fmax f_half (fmin f_one (dr i)))) as (k & -> & B).
    - apply clamp_valid; auto.
    - destruct (clamp_val f_half f_one (dr i) VH V1 (DF i)) as (X & _). rewrite X. apply clamp_bounds.
    - exact B. }
  assert (AF : all_fit s l' PyFloat.f_120 0).
  { split; [lia|]. split; [|split; [exact SF|split; [exists 500000; split; [vm_compute; reflexivity|lia]|]]].
    - eapply Forall_impl; [|apply (transport (fun x => 0 <= snd (fst x) + (60 - 36) <= 127) l l' PB)].
      + intros e. unfold in_midi_range, note_pitch, but_velocity. cbn [fst snd]. lia.
      + eapply Forall_impl; [|exact R]. intros e. unfold in_midi_range, note_pitch, but_velocity. cbn [fst snd]. lia.
    - eapply Forall_impl; [|apply (transport (fun x => Qfloor (inject_Z (4 * 96) * fst (fst x)) + Qfloor (inject_Z (4 * 96) * snd x) < 2 ^ 28) l l' PB)].
      + intros e X. cbv beta in *. rewrite last_pulse_but in *. exact X.
      + eapply Forall_impl; [|exact LP]. intros e X. cbv beta in *. rewrite last_pulse_but in *. exact X. }
  assert (LL : List.length l' = List.length l) by (rewrite <- (map_length but_velocity l'), <- (map_length but_velocity l); apply Permutation_length, PB).
  destruct (file_written (py_sort Y) s ops' PyFloat.f_120 0 C V O') as (bs & EB & FB).
  { rewrite CO. exact AF. } { rewrite CO, LL. exact LE. }
  rewrite CO in FB. rewrite <- EA in EB. set (u := LoadFacts.adds (track_empty s) l') in *.
  set (t1 := fst (track_iter (py_sort Y) t)) in *. set (u2 := d_track (module_dump Y u PyFloat.f_120 0)).
  assert (X1 : exec Y 2 (Randomize "y" "x" None) (mkStore [("x", Trk 0)] [t] (h_calls h)) =
    Some (Next (mkStore [("x", Trk 0); ("y", Trk 1)] [t1; u] (h_calls h + List.length (t_heap t))) [])).
  { cbn [exec]. change (free "y") with true. cbn iota. unfold track_of. cbn [s_vars s_tracks assoc String.eqb Ascii.eqb Bool.eqb nth_error]. fold va.
    unfold randomized. change (is_float f_half && is_float f_one && is_float f_three_quarters && is_float va) with true. cbv iota. cbn [s_draws s_tracks]. fold dr. rewrite E. reflexivity. }
  assert (X2 : exec Y 2 (Dumps "b" "y" None) (mkStore [("x", Trk 0); ("y", Trk 1)] [t1; u] (h_calls h + List.length (t_heap t))) =
    Some (Next (mkStore [("x", Trk 0); ("y", Trk 1); ("b", Val (OBytes bs))] [t1; u2] (h_calls h + List.length (t_heap t))) [])).
  { cbn [exec]. change (free "b") with true. cbn iota. unfold track_of. cbn [s_vars s_tracks assoc String.eqb Ascii.eqb Bool.eqb nth_error]. unfold written. rewrite EB. reflexivity. }
  pose proof (exec_then _ _ _ _ _ _ _ _ _ X1 X2) as X3.
  eapply reaches_trans; [eapply (c81_functions Y _ _ "b" _ _ _ h _ _ (Val (OBytes bs)) K U (one_track h a b t T SO) X3 eq_refl)|].
  intros w (P' & r' & h' & -> & A & G & _). apply reaches_here. exists bs, h', l'. split; [reflexivity|]. split; [exact FB|]. split; [exact PB|]. split; [exact LV|].
  split.
  - intros p o NP. apply (g_kept _ _ _ _ _ G). exact NP.
  - rewrite (heap_length _ _ I) in A. exact (a_draws _ _ _ _ A).
Qed.
