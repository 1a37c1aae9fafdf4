(** What the source reads from byte strings and writes for tracks, without the models of the reader and the writer. *)
From Coq Require Import ZArith QArith List Bool String Lia Permutation Sorted.
From Verif Require Import Py PyFloat PySort Signature Tone Note Track Show MidiWriter MidiReader Processing PyAst PySem PySource PyProgram SpecBase DecFacts SigFacts SortFacts FloatFacts
  TrackSpec MidiSpec DumpSpec ReaderSpec AcceptSpec TripSpec TrackFacts TrackProps LoadFacts LoadProps AcceptProps WriterProps TripProps SizeProps NoteProps ModuleProps
  RefineBase RefineSignature RefineTone RefineNote RefineTrack RefineAdd RefineEqual RefineSpec RefineProps RefineTrackProps RefineWriter RefineDump RefineDumps RefineDumpProps
  RefineDeep RefineReader RefineNumbers RefineChunks RefineLoad RefineLoadProps RefineTests RefineTerm Client RefineStore RefineClient RefineClientProps.
Import ListNotations.
Open Scope string_scope.
Open Scope list_scope.
Open Scope Z_scope.

Lemma loads_brings Y h data k : natural (py_sort Y) -> sort_contract (py_sort Y) -> Forall is_byte data ->
  let vars := [("b", VBytes data); ("k", VInt k)] in
  brings_or_calls Y h vars (call (name "midi.loads") [name "b"; name "k"]) (load (py_sort Y) (mkMR 24) data (Some k)) (loaded h []) /\
  brings_or_calls Y h vars (call (name "midi.loads") [name "b"]) (load (py_sort Y) (mkMR 24) data None) (loaded h []).
Proof.
  intros N C B vars. set (model b ch := load (py_sort Y) (mkMR 24) b ch).
  assert (L2 : forall ch d K, reaches melodia Y (Ca (VFun "midi.loads") [VBytes data; enc_opt ch] [] h K) (after_load d h [] (model data ch) K))
    by (intros ch d K; exact (module_loads_runs Y N C d data ch h K B (load_fuel _ (mkMR 24) _ _ C B))).
  change (load (py_sort Y) (mkMR 24) data) with (model data). clearbody model. pose proof (L2 (Some k)) as L2k. specialize (L2 None). cbn [enc_opt] in *.
  unfold call, name. cbn [List.map]. split.
  all: apply load_brings; intros d K; unfold vars; repeat (lazymatch goal with |- reaches _ _ (Ca (VFun _) _ _ _ _) _ => fail | _ => adv end).
  - exact (L2k d K).
  - eapply reaches_like; [| |apply after_like|exact (L2 d K)]; [reflexivity|discriminate].
Qed.
Lemma dumps_brings Y h a b t bpm k : natural (py_sort Y) -> sort_contract (py_sort Y) -> track_at h a b t -> valid_track t ->
  brings Y h [("t", VRef a); ("b", VFloat bpm); ("k", VInt k)] (call (name "midi.dumps") [name "t"; name "b"; name "k"])
    (fun v h' => v = outcome_of VBytes (midi_dumps (py_sort Y) t bpm k) /\ track_at h' a b (d_track (module_dump Y t bpm k)) /\ keeps [a; b] h h').
Proof.
  intros N C T V K. unfold call, name. cbn [List.map].
  repeat (lazymatch goal with |- reaches _ _ (Ca (VFun _) _ _ _ _) _ => fail | _ => adv end).
  eapply reaches_trans; [exact (midi_dumps_runs Y h a b t bpm k K N C T V)|].
  intros s (h' & -> & X). apply reaches_here. eexists _, h'. split; [reflexivity|]. split; [reflexivity|exact X].
Qed.

(** ** Reading *)
Lemma load_status sort m file ch : Forall is_byte file -> status_missing file -> load sort m file ch = Err RecursionError.
Proof.
  intros HB (q & d & n & b & r & HG & Hd & Hb). unfold load.
  rewrite (loop_stops m file q _ HB HG RecursionError (parse_track_no_status m q d n b r Hd Hb)). reflexivity.
Qed.
Lemma load_division sort m file ch : Forall is_byte file -> division_missing file -> load sort m file ch = Err AssertionError.
Proof.
  intros HB (body & evs & HG & He & Hn). unfold load. rewrite (loop_stops m file 0 body HB HG AssertionError); [reflexivity|].
  destruct He as (dt & b & extra & -> & He & Hdt & Hst). rewrite (parse_track_read m 0 evs dt b extra Hst He).
  destruct (tracks_of_ok m 0 evs (Z.le_refl 0)) as (_ & T & _). apply T; [reflexivity|exact Hn].
Qed.
Definition voices (evs : list (Z * midi_event)) : list Z := match channels_of evs with [] => [0] | l => l end.
Lemma choose_pairs sort m file q evs l : NoDup l -> (forall c, In c l -> exists t pairs, load sort m file (Some c) = Ok t /\
     let events := on_channel c (note_events_of evs) in
     notes_listed events pairs /\ Permutation (map value_of (TrackSpec.yields sort t)) (map (ReaderSpec.note_read (mr_delta m) q events) pairs) /\
     t_signature t = chan_sig evs c) ->
  exists pairs : Z -> list (nat * nat), (forall c, In c l -> notes_listed (on_channel c (note_events_of evs)) (pairs c)) /\
    Permutation (flat_map (of_channel sort m file) l) (flat_map (fun c => map (ReaderSpec.note_read (mr_delta m) q (on_channel c (note_events_of evs))) (pairs c)) l).
Proof.
  induction l as [|c l IH]; intros ND H.
  - exists (fun _ => []). split; [intros c []|apply Permutation_refl].
  - inversion ND as [|? ? NI ND']; subst. destruct (IH ND') as (pairs & A & B); [intros d I; apply H; right; exact I|].
    destruct (H c (or_introl eq_refl)) as (t & ps & L & NL & PM & _).
    exists (fun d => if Z.eq_dec d c then ps else pairs d). split.
    + intros d [<-|D]; [destruct (Z.eq_dec c c); [exact NL|congruence]|]. destruct (Z.eq_dec d c) as [->|_]; [contradiction|auto].
    + cbn [flat_map]. apply Permutation_app.
      * unfold of_channel. rewrite L. destruct (Z.eq_dec c c); [exact PM|congruence].
      * assert (X : forall l', ~ In c l' -> flat_map (fun c0 => map (ReaderSpec.note_read (mr_delta m) q (on_channel c0 (note_events_of evs))) (if Z.eq_dec c0 c then ps else pairs c0)) l' =
          flat_map (fun c0 => map (ReaderSpec.note_read (mr_delta m) q (on_channel c0 (note_events_of evs))) (pairs c0)) l').
        { clear. induction l' as [|d l' IH]; intros NI; [reflexivity|]. cbn [flat_map]. rewrite IH by (intros D; apply NI; right; exact D).
          destruct (Z.eq_dec d c) as [->|_]; [exfalso; apply NI; left; reflexivity|reflexivity]. }
        rewrite X by exact NI. exact B.
Qed.

Definition fails (Y : python) (h : heap) (vars : env) (x : expr) (e : err) : Prop := brings Y h vars x (fun v h' => v = Err e /\ keeps [] h h').
Lemma fails_of Y h vars x (r : res track) e : brings_or_calls Y h vars x r (loaded h []) -> r = Err e -> e <> RecursionError -> fails Y h vars x e.
Proof.
  intros [B _] -> N K. destruct (B ltac:(congruence) K) as (s & R & v & h' & -> & KE & ->). eexists. split; [exact R|]. exists (Err e), h'. auto.
Qed.
Lemma c82_reads : forall Y h data k, natural (py_sort Y) -> sort_contract (py_sort Y) -> Forall is_byte data ->
  let vars := [("b", VBytes data); ("k", VInt k)] in
  let all := call (name "midi.loads") [name "b"] in
  let one := call (name "midi.loads") [name "b"; name "k"] in
  (** a file: the notes of one channel, no such channel, the notes of all channels *)
  (forall q evs, file_says data q evs ->
     let notes c pairs := map (ReaderSpec.note_read 24 q (on_channel c (note_events_of evs))) pairs in
     (In k (voices evs) -> brings Y h vars one (fun v h' => keeps [] h h' /\ exists a b t pairs, v = Ok (VRef a) /\ track_at h' a b t /\
        get h a = None /\ get h b = None /\ t_signature t = chan_sig evs k /\
        notes_listed (on_channel k (note_events_of evs)) pairs /\ Permutation (map value_of (TrackSpec.yields (py_sort Y) t)) (notes k pairs))) /\
     (~ In k (voices evs) -> fails Y h vars one ValueError) /\
     brings Y h vars all (fun v h' => keeps [] h h' /\ exists a b t pairs, v = Ok (VRef a) /\ track_at h' a b t /\ get h a = None /\ get h b = None /\
        (forall c, In c (voices evs) -> notes_listed (on_channel c (note_events_of evs)) (pairs c)) /\
        Permutation (map value_of (TrackSpec.yields (py_sort Y) t)) (flat_map (fun c => notes c (pairs c)) (voices evs)))) /\
  (** a data byte where a status is missing; notes under a division of 0; everything else *)
  (status_missing data -> calls_without_end Y h vars all /\ calls_without_end Y h vars one) /\
  (division_missing data -> fails Y h vars all AssertionError /\ fails Y h vars one AssertionError) /\
  ((forall q evs, ~ file_says data q evs) -> ~ status_missing data -> ~ division_missing data ->
     fails Y h vars all MIDIParsingError /\ fails Y h vars one MIDIParsingError).
Proof.
  intros Y h data k N C B vars all one. destruct (loads_brings Y h data k N C B) as [ONE ALL]. fold vars in ONE, ALL. fold one in ONE. fold all in ALL.
  refine (conj _ (conj _ (conj _ _))).
  - intros q evs F notes. destruct (c57_meaning (py_sort Y) C (mkMR 24) data q evs B F) as (M1 & M2 & t & M3 & M4). fold (voices evs) in M1, M2, M4.
    refine (conj _ (conj _ _)).
    + intros I K. destruct (M1 k I) as (u & pairs & L & NL & PM & SG). rewrite L in ONE.
      destruct (proj1 ONE ltac:(discriminate) K) as (s & R & v & h' & -> & KE & a & b & -> & T & FA & FB).
      eexists. split; [exact R|]. exists (Ok (VRef a)), h'. split; [reflexivity|]. split; [exact KE|]. exists a, b, u, pairs.
      exact (conj eq_refl (conj T (conj FA (conj FB (conj SG (conj NL PM)))))).
    + intros NI. eapply fails_of; [exact ONE|apply M2; exact NI|discriminate].
    + intros K. rewrite M3 in ALL. destruct (proj1 ALL ltac:(discriminate) K) as (s & R & v & h' & -> & KE & a & b & -> & T & FA & FB).
      assert (ND : NoDup (voices evs)) by (unfold voices; rewrite <- chans_eq; apply chans_nodup).
      destruct (choose_pairs _ _ _ _ _ _ ND M1) as (pairs & NL & PM).
      eexists. split; [exact R|]. exists (Ok (VRef a)), h'. split; [reflexivity|]. split; [exact KE|]. exists a, b, t, pairs.
      exact (conj eq_refl (conj T (conj FA (conj FB (conj NL (perm_trans M4 PM)))))).
  - intros S. split; [apply (proj2 ALL)|apply (proj2 ONE)]; apply load_status; assumption.
  - intros D. split; [eapply fails_of; [exact ALL| |discriminate]|eapply fails_of; [exact ONE| |discriminate]]; apply load_division; assumption.
  - intros F S D. destruct (c57_outcome (py_sort Y) C (mkMR 24) data B) as (_ & _ & _ & [_ X] & _). specialize (X (conj F (conj S D))).
    split; [eapply fails_of; [exact ALL|apply X|discriminate]|eapply fails_of; [exact ONE|apply X|discriminate]].
Qed.

(** ** Writing *)
Lemma writer_36 bpm k : 0 <= k <= 15 -> exists w, writer_new ascii_digit 96 (TA_int 36) bpm k = Ok w /\ tone_of_arg ascii_digit (TA_int 36) = Ok (mkTone 36) /\
  forall sort t, midi_dumps sort t bpm k = dumps sort w t.
Proof.
  intros K. destruct (c64_writer ascii_digit 96 (TA_int 36) bpm k ascii_digit_table) as (W & _).
  pose proof (W (mkTone 36) (ltac:(constructor)) ltac:(lia) K) as E. eexists. split; [exact E|]. split; [reflexivity|].
  intros sort t. destruct (c64_dumps sort t bpm k) as (_ & D & _). apply (D ascii_digit (TA_int 36) (mkTone 36)); [exact ascii_digit_table|constructor|reflexivity|exact E].
Qed.
(** A file with the time signature [s], the tempo and exactly the notes [l]. *)
Definition file_of (s : sig) (l : list (sig * note)) (bpm : float) (k : Z) (bs : bytes) : Prop :=
  let size := Z.of_nat (List.length l) in
  Forall is_byte bs /\ 41 + 8 * size <= Z.of_nat (List.length bs) <= 41 + 14 * size /\
  (exists tempo notes body, bs = smf 96 body /\ tempo_of_bpm bpm = Ok tempo /\
     stream_bytes None ([(0, MTimeSignature (nominator s) (Z.log2 (denominator s)) 96 8); (0, MMeta 81 (be_bytes 3 tempo))] ++ notes ++ [(0, MEndOfTrack)]) body /\
     Forall (fun te => 0 <= fst te /\ exists p v, (snd te = MNoteOn k p v \/ snd te = MNoteOff k p v) /\ 0 <= p < 128 /\ 0 <= v < 128) notes) /\
  exists first notes body, bs = smf 96 body /\ List.length first = 2%nat /\
    stream_bytes None (first ++ notes ++ [(0, MEndOfTrack)]) body /\
    Permutation (timed 0 notes) (flat_map (start_end 96 36 k) l) /\
    StronglySorted (fun x y => fst x <= fst y) (timed 0 notes) /\
    (forall before after, timed 0 notes = before ++ after -> forall p, (DumpSpec.ends p before <= starts p before)%nat) /\
    forall p, DumpSpec.ends p (timed 0 notes) = starts p (timed 0 notes).
(** What has to fit. *)
Definition all_fit (s : sig) (l : list (sig * note)) (bpm : float) (k : Z) : Prop :=
  0 <= k <= 15 /\ Forall (fun e => in_midi_range 36 (snd e)) l /\ sig_fits s /\ tempo_fits bpm /\ Forall (fun e => last_pulse 96 e < 2 ^ 28) l.
Lemma file_written sort s ops bpm k : sort_contract sort -> valid_sig s -> Forall op_ok ops -> let l := contents sort s ops in
  all_fit s l bpm k -> Z.of_nat (List.length l) <= 2 ^ 28 -> exists bs, midi_dumps sort (run sort (track_empty s) ops) bpm k = Ok bs /\ file_of s l bpm k bs.
Proof.
  intros C V O l (D & R & SF & TF & LP) LE. destruct (writer_36 bpm k D) as (w & W & TA & E). rewrite E.
  destruct (c65_writes sort C _ _ _ _ _ w _ W TA ltac:(lia) s ops V O R SF TF LP LE) as (bs & EB & SZ).
  exists bs. split; [exact EB|].
  destruct (c32_file sort C _ _ _ _ _ w W s ops V O bs EB) as (tempo & notes & body & B1 & B2 & B3 & B4 & B5 & B6 & B7).
  destruct (c35_notes sort C _ _ _ _ _ w _ W TA s ops V O bs EB) as (first & notes2 & body2 & A1 & A2 & A3 & A4 & A5 & A6 & A7 & A8).
  split; [exact B3|]. split; [exact SZ|]. split; [exists tempo, notes, body; auto|]. exists first, notes2, body2.
  exact (conj A1 (conj A2 (conj A4 (conj A5 (conj A6 (conj A7 A8)))))).
Qed.
Lemma c82_writes : forall Y h a b s ops bpm k, natural (py_sort Y) -> sort_contract (py_sort Y) -> valid_sig s -> Forall op_ok ops ->
  track_at h a b (run (py_sort Y) (track_empty s) ops) ->
  let l := contents (py_sort Y) s ops in
  let ends_with Q := brings Y h [("t", VRef a); ("b", VFloat bpm); ("k", VInt k)] (call (name "midi.dumps") [name "t"; name "b"; name "k"])
    (fun v h' => Q v /\ keeps [a; b] h h') in
  let in_range := Forall (fun e => in_midi_range 36 (snd e)) l in
  (~ 0 <= k <= 15 \/ ~ in_range -> ends_with (fun v => v = Err ValueError)) /\
  (0 <= k <= 15 -> in_range -> ~ (sig_fits s /\ tempo_fits bpm) ->
     ends_with (fun v => exists e, v = Err e /\ (e = ValueError \/ e = OverflowError \/ e = ZeroDivisionError))) /\
  (all_fit s l bpm k -> Z.of_nat (List.length l) <= 2 ^ 28 -> ends_with (fun v => exists bs, v = Ok (VBytes bs) /\ file_of s l bpm k bs)).
Proof.
  intros Y h a b s ops bpm k N C V O T l ends_with in_range. set (t := run (py_sort Y) (track_empty s) ops) in *.
  assert (VT : valid_track t).
  { apply sound_valid. destruct (run_inv (py_sort Y) C s ops O) as [I S]. split; [eexists; exact I|]. fold t in S. rewrite S. exact V. }
  assert (X : forall (Q : res value -> Prop), Q (outcome_of VBytes (midi_dumps (py_sort Y) t bpm k)) -> ends_with Q).
  { intros Q H K. destruct (dumps_brings Y h a b t bpm k N C T VT K) as (u & R & v & h' & -> & -> & _ & KE). eexists. split; [exact R|]. eauto 6. }
  destruct (c64_dumps (py_sort Y) t bpm k) as (BAD & _).
  refine (conj _ (conj _ _)).
  - intros H. apply X. assert (D : 0 <= k <= 15 \/ ~ 0 <= k <= 15) by lia. destruct D as [D|D]; [|rewrite (BAD D); reflexivity].
    destruct H as [H|H]; [contradiction|]. destruct (writer_36 bpm k D) as (w & W & TA & E). rewrite E.
    unfold t. rewrite (c36_out_of_range (py_sort Y) C _ _ _ _ _ w _ W TA s ops V O H). reflexivity.
  - intros D R H. apply X. destruct (writer_36 bpm k D) as (w & W & TA & E). rewrite E.
    destruct (c34_nothing_written (py_sort Y) C _ _ _ _ _ w _ W TA s ops V O) as (M & _). destruct M as (_ & e & ER & EE).
    { intros (_ & A & _ & B). apply H. auto. }
    exists e. split; [|exact EE]. unfold t, dumps. rewrite ER. reflexivity.
  - intros F LE. apply X. destruct (file_written (py_sort Y) s ops bpm k C V O F LE) as (bs & E & G). fold t in E. rewrite E. exists bs. auto.
Qed.

(** ** There and back *)
(** b = midi.dumps(x); y = midi.loads(b); n = len(y); m = len(x); r = n <= m; e = n == m *)
Definition there_and_back : cmd :=
  Seq (Dumps "b" "x" None) (Seq (Loads "y" (Var "b") None) (Seq (Get "n" R_len "y") (Seq (Get "m" R_len "x")
    (Seq (Let "r" (App2 (O_cmp CLe) (Var "n") (Var "m"))) (Let "e" (App2 (O_cmp CEq) (Var "n") (Var "m"))))))).
Lemma exec_seq Y n c d st st' st'' : exec Y n c st = Some (Next st' []) -> exec Y n d st' = Some (Next st'' []) -> exec Y (S n) (Seq c d) st = Some (Next st'' []).
Proof. intros A B. cbn [exec]. rewrite A. cbn [follow]. rewrite B. reflexivity. Qed.
Lemma there_and_back_exec Y t bs u d : midi_dumps (py_sort Y) t PyFloat.f_120 0 = Ok bs -> all_bytes bs = true -> midi_loads (py_sort Y) bs None = Ok u ->
  track_len (d_track (module_dump Y t PyFloat.f_120 0)) = track_len t ->
  exists st, exec Y 9 there_and_back (mkStore [("x", Trk 0)] [t] d) = Some (Next st []) /\
    assoc "r" (s_vars st) = Some (Val (OBool (track_len u <=? track_len t))) /\ assoc "e" (s_vars st) = Some (Val (OBool (track_len u =? track_len t))) /\ s_draws st = d.
Proof.
  intros DU AB LO LT. set (t2 := d_track (module_dump Y t PyFloat.f_120 0)) in *.
  assert (E1 : exec Y 8 (Dumps "b" "x" None) (mkStore [("x", Trk 0)] [t] d) = Some (Next (mkStore [("x", Trk 0); ("b", Val (OBytes bs))] [t2] d) [])).
  { cbn [exec]. change (free "b") with true. cbn iota. unfold track_of. cbn [s_vars s_tracks assoc String.eqb Ascii.eqb Bool.eqb nth_error]. unfold written. rewrite DU. fold t2. reflexivity. }
  assert (E2 : exec Y 7 (Loads "y" (Var "b") None) (mkStore [("x", Trk 0); ("b", Val (OBytes bs))] [t2] d) =
    Some (Next (mkStore [("x", Trk 0); ("b", Val (OBytes bs)); ("y", Trk 1)] [t2; u] d) [])).
  { cbn [exec]. change (free "y") with true. cbn iota. unfold given. change (mean Y _ (Var "b")) with (Some (Ok (OBytes bs))). cbv beta iota. rewrite AB, LO. reflexivity. }
  clearbody t2.
  exists (mkStore [("x", Trk 0); ("b", Val (OBytes bs)); ("y", Trk 1); ("n", Val (OInt (track_len u))); ("m", Val (OInt (track_len t2)));
         ("r", Val (OBool (track_len u <=? track_len t2))); ("e", Val (OBool (track_len u =? track_len t2)))] [t2; u] d).
  split; [|cbn; rewrite LT; auto]. unfold there_and_back. eapply exec_seq; [exact E1|]. eapply exec_seq; [exact E2|].
  eapply exec_seq; [reflexivity|]. eapply exec_seq; [reflexivity|]. eapply exec_seq; reflexivity.
Qed.
Lemma c82_back : forall Y h a b s ops K, usual Y -> valid_sig s -> Forall op_ok ops ->
  track_at h a b (run (py_sort Y) (track_empty s) ops) ->
  let l := contents (py_sort Y) s ops in
  Forall (fun e => in_midi_range 36 (snd e)) l -> sig_fits s -> Forall (fun e => last_pulse 96 e < 2 ^ 28) l -> Z.of_nat (List.length l) <= 1198000 ->
  let ends_with x v := reaches melodia Y (Ex (body there_and_back x) [("x", VRef a)] h (KFun :: K)) (fun w => exists h', w = Rt v h' K /\ keeps [a; b] h h') in
  (** no note is added *)
  ends_with "r" (VBool true) /\
  (** and none is lost if they are apart and can be heard *)
  (ForallOrdPairs apart l -> consistent l -> Forall audible l -> ends_with "e" (VBool true)).
Proof.
  intros Y h a b s ops K U V O T l R SF LP LE ends_with. pose proof U as (_ & _ & C & _). set (t := run (py_sort Y) (track_empty s) ops) in *.
  destruct (run_inv (py_sort Y) C s ops O) as [I S]. fold t in I, S.
  assert (SO : sound t) by (split; [eauto|rewrite S; exact V]).
  destruct (writer_36 PyFloat.f_120 0 ltac:(lia)) as (w & W & TA & E).
  assert (TF : tempo_fits PyFloat.f_120) by (exists 500000; split; [vm_compute; reflexivity|lia]).
  destruct (c65_writes (py_sort Y) C _ _ _ _ _ w _ W TA ltac:(lia) s ops V O R SF TF LP ltac:(fold l; lia)) as (bs & EB & SZ). fold t in EB. fold l in SZ.
  assert (TR : trip (py_sort Y) 96 0 w (mkTone 36) (mkTone 36) (mkMR 24) s ops bs).
  { split; [eauto|exists ascii_digit, (TA_int 36); split; reflexivity|exact V|exact O|exact EB|lia]. }
  destruct (c32_file (py_sort Y) C _ _ _ _ _ w W s ops V O bs EB) as (_ & _ & _ & _ & _ & B3 & _).
  destruct (c41_at_most (py_sort Y) C _ _ _ _ _ _ _ _ _ TR) as (u & EL & LEN). fold t in LEN.
  assert (DU : midi_dumps (py_sort Y) t PyFloat.f_120 0 = Ok bs) by (rewrite E; exact EB).
  assert (AB : all_bytes bs = true).
  { unfold all_bytes. apply forallb_forall. rewrite Forall_forall in B3. intros x IX. specialize (B3 x IX). unfold is_byte in B3. lia. }
  set (t2 := d_track (module_dump Y t PyFloat.f_120 0)).
  assert (LT : track_len t2 = track_len t) by (unfold t2; destruct (dumped_track Y t PyFloat.f_120 0) as [-> | ->]; [reflexivity|]; rewrite (inv_track_len _ _ I); apply inv_track_len, track_iter_inv; assumption).
  destruct (there_and_back_exec Y t bs u (h_calls h) DU AB EL LT) as (st & EX & ER & EE & ED).
  assert (F : forall x v, assoc x (s_vars st) = Some (Val (OBool v)) -> ends_with x (VBool v)).
  { intros x v AX. unfold ends_with. eapply reaches_trans; [eapply (c81_functions Y 9 there_and_back x _ _ _ h _ _ (Val (OBool v)) K U (one_track h a b t T SO) EX AX)|].
    intros q (P' & r' & h' & -> & A' & GR & _). apply reaches_here. exists h'. split; [reflexivity|]. split; [|rewrite <- ED; exact (a_draws _ _ _ _ A')].
    intros p o NP. apply (g_kept _ _ _ _ _ GR). exact NP. }
  split.
  - apply F. rewrite ER. repeat f_equal. apply Z.leb_le. exact LEN.
  - intros H1 H2 H3. destruct (c41_partial (py_sort Y) C _ _ _ _ _ _ _ _ _ TR H1 H2 H3) as (u' & EL' & LEN' & _). fold t in LEN'.
    rewrite EL in EL'. injection EL' as <-. apply F. rewrite EE. repeat f_equal. apply Z.eqb_eq. exact LEN'.
Qed.
