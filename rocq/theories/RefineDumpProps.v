(** The proofs of the properties of the source of the writing half of io/midi.py. *)
From Coq Require Import ZArith List Bool String Lia.
From Verif Require Import Py PyFloat PySort Timsort Signature Tone Note Track Show MidiWriter PyAst PySem PySource PyProgram SpecBase SigFacts SortFacts DecFacts
  RefineBase RefineSignature RefineTone RefineNote RefineChord RefineWriter RefineTrack RefineAdd RefineEqual RefineDump RefineDumps RefineSpec RefineProps RefineTrackProps.
Import ListNotations.
Open Scope string_scope.
Open Scope list_scope.
Open Scope Z_scope.

Section Dumps.
Variable Y : python.
Notation steps := (steps melodia Y).
Notation reaches := (reaches melodia Y).

Lemma dumps_runs c w h a b t K : natural (py_sort Y) -> sort_contract (py_sort Y) -> middle_value c ->
  track_at h a b t -> valid_track t ->
  reaches (Ca (VFun "MIDIWriter.dumps") [enc_writer c w; VRef a] [] h K)
    (returns (outcome_of VBytes (dumps (py_sort Y) w t)) K (fun h' => track_at h' a b (d_track (dump (py_sort Y) w t)) /\ keeps [a; b] h h')).
Proof.
  intros N C M T V. unfold dumps. set (o := dump (py_sort Y) w t).
  set (R := returns _ _ _).
  assert (END : forall h0 f, track_at h0 a b t -> get h0 f = Some (HFile [] 0) -> f <> a -> f <> b -> keeps [] h h0 -> get h f = None ->
    reaches (Ca (VFun "MIDIWriter.dump") [enc_writer c w; VRef a; VRef f] [] h0
      (KExpr (skipn 2 (f_body src_MIDIWriter_dumps)) [("self", enc_writer c w); ("track", VRef a); ("file", VRef f)] :: KFun :: K)) R).
  { intros h0 f T0 G0 FA FB K0 NF.
    eapply reaches_trans; [eapply (dump_runs Y c w h0 a b t f [] 0%nat); try eassumption; split; [exact G0|cbn; lia]|].
    intros s (h1 & -> & T1 & F1 & K1). fold o in T1, F1 |- *.
    assert (KK : keeps [a; b] h h1).
    { split; [|rewrite (keeps_calls _ _ _ K1); exact (keeps_calls _ _ _ K0)]. intros q x NQ GQ. assert (q <> f) by congruence.
      apply (keeps_get _ _ _ _ _ K1); [intros [X|[X|[X|[]]]]; subst; try congruence; apply NQ; cbn; tauto|].
      exact (keeps_get _ _ _ _ _ K0 (fun x => x) GQ). }
    destruct (d_result o) as [[]|e]; cbn [no_value outcome_of ends].
    2:{ apply reaches_here. exists h1. split; [reflexivity|]. split; [exact T1|exact KK]. }
    assert (F2 : get h1 f = Some (HFile (d_written o) (List.length (d_written o)))).
    { destruct F1 as [F1 _]. unfold overwrite in F1. cbn [firstn app skipn Nat.add] in F1. rewrite skipn_nil, app_nil_r in F1. exact F1. }
    assert (FIN : R (Rt (VBytes (d_written o)) h1 K)) by (exists h1; split; [reflexivity|split; [exact T1|exact KK]]).
    clear T1 F1. clearbody R. generalize dependent (d_written o). intros wr F2 FIN. unfold enc_writer. compute_state.
    go; apply reaches_here; exact FIN. }
  assert (E : reaches (Ca (VFun "MIDIWriter.dump") [enc_writer c w; VRef a; VRef (next_place h)] [] (new h (HFile [] 0))
      (KExpr (skipn 2 (f_body src_MIDIWriter_dumps)) [("self", enc_writer c w); ("track", VRef a); ("file", VRef (next_place h))] :: KFun :: K)) R).
  { apply END; [destruct T; split; heap_get|heap_get|eapply new_old; exact (proj1 T)|eapply new_old; exact (proj2 T)|keep|apply fresh_none]. }
  clear END. clearbody R. unfold enc_writer in *.
  repeat (lazymatch goal with |- RefineBase.reaches _ _ (Ca (VFun "MIDIWriter.dump") _ _ _ _) _ => fail | _ => adv end).
  exact E.
Qed.

(** ** The module functions *)
Definition module_writer (bpm : float) (ch : Z) : res writer := writer_new (py_nd Y) 96 default_middle_c bpm ch.
Lemma module_writer_runs bpm ch h K :
  steps (Ca (VClass "MIDIWriter") [] [("bpm", VFloat bpm); ("channel", VInt ch)] h K)
        (ends (outcome_of (enc_writer (v_tone 36)) (module_writer bpm ch)) h K).
Proof.
  eapply (same_call Y _ _ _ (VClass "MIDIWriter") [VInt 96; v_tone 36; VFloat bpm; VInt ch] []); [reflexivity|].
  unfold module_writer, writer_new, v_tone. go; finish_with; unfold enc_writer; cbn; apply steps_refl.
Qed.
Definition module_dump (t : track) (bpm : float) (ch : Z) : dump_outcome :=
  match writer_new ascii_digit 96 default_middle_c bpm ch with
  | Ok w => dump (py_sort Y) w t
  | Err e => mkDump [] t (Err e)
  end.
Lemma module_nd bpm ch : module_writer bpm ch = writer_new ascii_digit 96 default_middle_c bpm ch.
Proof. reflexivity. Qed.
Lemma midi_dump_runs h a b t f data pos bpm ch K : natural (py_sort Y) -> sort_contract (py_sort Y) -> 
  track_at h a b t -> valid_track t -> file_at h f data pos ->
  reaches (Ca (VFun "midi.dump") [VRef a; VRef f; VFloat bpm; VInt ch] [] h K)
    (returns (no_value (d_result (module_dump t bpm ch))) K (dumped h a b f data pos (module_dump t bpm ch))).
Proof.
  intros N C T V F. unfold module_dump. rewrite <- module_nd.
  pose proof (proj1 T) as G1. pose proof (proj1 F) as G2. unfold enc_track in G1.
  repeat (lazymatch goal with |- RefineBase.reaches _ _ (Ca (VClass "MIDIWriter") _ _ _ _) _ => fail | _ => adv end).
  eapply reaches_steps; [eapply module_writer_runs|].
  destruct (module_writer bpm ch) as [w|e]; cbn [outcome_of ends].
  2:{ apply reaches_here. exists h. split; [reflexivity|]. split; [exact T|]. split; [|keep].
      destruct F as [F L]. split; [rewrite overwrite_nil, Nat.add_0_r; exact F|rewrite overwrite_nil; cbn; lia]. }
  pose proof (fun K => dump_runs Y (v_tone 36) w h a b t f data pos K N C (mv_tone (mkTone 36)) T V F) as D.
  set (o := dumped _ _ _ _ _ _ _) in *. clearbody o. destruct (d_result _) as [[]|e]; cbn [no_value outcome_of] in *; unfold enc_writer, v_tone in *;
  repeat (lazymatch goal with
    | |- RefineBase.reaches _ _ (Ca (VFun "MIDIWriter.dump") _ _ _ ?K) _ => eapply reaches_trans; [exact (D K)|]; intros ? (h1 & -> & H1); cbn [ends]
    | _ => adv end); apply reaches_here; eexists; (split; [reflexivity|eassumption]).
Qed.
Lemma midi_dumps_runs h a b t bpm ch K : natural (py_sort Y) -> sort_contract (py_sort Y) -> 
  track_at h a b t -> valid_track t ->
  reaches (Ca (VFun "midi.dumps") [VRef a; VFloat bpm; VInt ch] [] h K)
    (returns (outcome_of VBytes (midi_dumps (py_sort Y) t bpm ch)) K (fun h' => track_at h' a b (d_track (module_dump t bpm ch)) /\ keeps [a; b] h h')).
Proof.
  intros N C T V. unfold module_dump, midi_dumps. rewrite <- module_nd.
  pose proof (proj1 T) as G1. unfold enc_track in G1.
  repeat (lazymatch goal with |- RefineBase.reaches _ _ (Ca (VClass "MIDIWriter") _ _ _ _) _ => fail | _ => adv end).
  eapply reaches_steps; [eapply module_writer_runs|].
  destruct (module_writer bpm ch) as [w|e]; cbn [outcome_of ends bind].
  2:{ apply reaches_here. exists h. split; [reflexivity|]. split; [exact T|keep]. }
  pose proof (fun K => dumps_runs (v_tone 36) w h a b t K N C (mv_tone (mkTone 36)) T V) as D.
  set (r := outcome_of _ _) in *. set (t' := d_track _) in *. clearbody r t'. unfold enc_writer, v_tone in *.
  repeat (lazymatch goal with
    | |- RefineBase.reaches _ _ (Ca (VFun "MIDIWriter.dumps") _ _ _ ?K) _ => eapply reaches_trans; [exact (D K)|]; intros ? (h1 & -> & H1); destruct r; cbn [ends]
    | _ => adv end).
  all: apply reaches_here; exists h1; split; [reflexivity|exact H1]. 
Qed.
End Dumps.

(** ** The properties *)
Lemma c75_writer : forall Y h q ca c bpm ch, digit_table (py_nd Y) -> tone_value ca c ->
  let vars := [("q", VInt q); ("c", c); ("b", VFloat bpm); ("k", VInt ch)] in
  evaluates Y h vars (call (name "MIDIWriter") [name "q"; name "c"; name "b"; name "k"]) (outcome_of (enc_writer c) (writer_new (py_nd Y) q ca bpm ch)) /\
  evaluates Y h vars (call (name "MIDIWriter") []) (outcome_of (enc_writer (v_tone 36)) (writer_new (py_nd Y) 96 default_middle_c f_120 0)).
Proof.
  intros Y h q ca c bpm ch N T. cbv zeta. split; start.
  - destruct T; until ltac:(eapply writer_new_runs; [exact N|constructor]).
  - until ltac:(eapply (same_call Y _ _ _ (VClass "MIDIWriter") [VInt 96; v_tone 36; VFloat f_120; VInt 0] []); [reflexivity|]; eapply (writer_new_runs Y 96 default_middle_c); [exact N|exact (tv_tone (mkTone 36))]).
Qed.
Lemma c75_helpers : forall Y h c w s n x cc bb kind body, middle_value c -> valid_sig s ->
  let vars := [("w", enc_writer c w); ("s", enc_sig s); ("n", enc_note n); ("x", VInt x); ("cc", VInt cc); ("bb", VInt bb); ("k", VBytes kind); ("b", VBytes body)] in
  let gives r v h' := v = outcome_of VBytes r /\ keeps [] h h' in
  evaluates Y h vars (meth (name "w") "_signature_to_pulses" [name "s"]) (outcome_of VInt (signature_to_pulses w s)) /\
  evaluates Y h vars (meth (name "w") "_format_var_len" [name "x"]) (outcome_of VBytes (format_var_len x)) /\
  brings Y h vars (meth (name "w") "_format_note_on" [name "n"]) (gives (format_note_on w n)) /\
  brings Y h vars (meth (name "w") "_format_note_off" [name "n"]) (gives (format_note_off w n)) /\
  brings Y h vars (EOp (OCall [APos; AKey "cc"; AKey "bb"]) [attr (name "w") "_format_signature"; name "s"; name "cc"; name "bb"]) (gives (format_signature s cc bb)) /\
  brings Y h vars (meth (name "w") "_format_tempo" [name "x"]) (gives (format_tempo x)) /\
  brings Y h vars (meth (name "w") "_format_chunk" [name "k"; name "b"]) (gives (format_chunk kind body)) /\
  brings Y h vars (EOp (OCall [AKey "kind"; AKey "n_tracks"]) [attr (name "w") "_format_header_chunk"; name "cc"; name "bb"]) (gives (format_header_chunk w cc bb)).
Proof.
  intros Y h c w s n x cc bb kind body M V. cbv zeta.
  pose proof (fun K => format_note_on_runs Y c w n h K M) as ON. pose proof (fun K => format_note_off_runs Y c w n h K M) as OFF.
  pose proof (fun K => format_signature_runs Y s cc bb h K) as SG. pose proof (fun K => format_tempo_runs Y x h K) as TE.
  pose proof (fun K => format_chunk_runs Y kind body h K) as CH. pose proof (fun K => format_header_chunk_runs Y c w cc bb h K) as HE.
  destruct (pulses_total w s V) as (z & Z). pose proof (fun K => signature_to_pulses_runs Y c w s z h K Z V) as PU. rewrite Z. clear Z V M.
  set (r1 := outcome_of VBytes _) in ON |- *. set (r2 := outcome_of VBytes _) in OFF |- *. set (r3 := outcome_of VBytes _) in SG |- *.
  set (r4 := outcome_of VBytes _) in TE |- *. set (r5 := outcome_of VBytes _) in CH |- *. set (r6 := outcome_of VBytes _) in HE |- *.
  clearbody r1 r2 r3 r4 r5 r6. destruct s as [sn sd]. unfold enc_writer, enc_sig in *. cbn [nominator denominator] in *.
  revert ON OFF. parts n. intros ON OFF.
  split; [start; until ltac:(exact (PU _))|]. split; [start; until ltac:(eapply format_var_len_runs)|].
  repeat split; opening.
  all: repeat (lazymatch goal with
    | |- reaches _ _ (Ca (VFun _) _ _ _ ?K) _ => fail
    | _ => adv end).
  all: (eapply reaches_trans; [first [exact (ON _)|exact (OFF _)|exact (SG _)|exact (TE _)|exact (CH _)|exact (HE _)]|]); intros ? (h' & -> & KP); done_here; split; [reflexivity|exact KP].
Qed.
Lemma c75_dump : forall Y h c w a b t f data pos, natural (py_sort Y) -> sort_contract (py_sort Y) -> middle_value c ->
  track_at h a b t -> valid_track t -> file_at h f data pos ->
  let vars := [("w", enc_writer c w); ("t", VRef a); ("f", VRef f)] in
  let o := dump (py_sort Y) w t in
  brings Y h vars (meth (name "w") "dump" [name "t"; name "f"]) (fun r h' => r = no_value (d_result o) /\
    track_at h' a b (d_track o) /\ file_after h' f data pos (d_written o) /\ keeps [a; b; f] h h') /\
  brings Y h vars (meth (name "w") "dumps" [name "t"]) (fun r h' => r = outcome_of VBytes (dumps (py_sort Y) w t) /\
    track_at h' a b (d_track o) /\ keeps [a; b] h h').
Proof.
  intros Y h c w a b t f data pos N C M T V F. cbv zeta.
  pose proof (fun K => dump_runs Y c w h a b t f data pos K N C M T V F) as D. pose proof (fun K => dumps_runs Y c w h a b t K N C M T V) as S.
  set (o := dump _ _ _) in *. set (o' := dumps _ _ _) in *. clearbody o o'. pose proof (proj1 T) as G1. unfold enc_track in G1. pose proof (proj1 F) as G2.
  unfold enc_writer in *. split; opening;
  repeat (lazymatch goal with
    | |- reaches _ _ (Ca (VFun _) _ _ _ ?K) _ => fail
    | _ => adv end); (eapply reaches_trans; [first [exact (D _)|exact (S _)]|]); intros ? (h' & -> & H); done_here; (split; [reflexivity|exact H]).
Qed.
Lemma c75_module : forall Y h a b t f data pos bpm ch, natural (py_sort Y) -> sort_contract (py_sort Y) ->
  track_at h a b t -> valid_track t -> file_at h f data pos ->
  let vars := [("t", VRef a); ("f", VRef f); ("b", VFloat bpm); ("k", VInt ch)] in
  let written bpm ch r h' := let o := module_dump Y t bpm ch in
    r = no_value (d_result o) /\ track_at h' a b (d_track o) /\ file_after h' f data pos (d_written o) /\ keeps [a; b; f] h h' in
  let returned bpm ch r h' := r = outcome_of VBytes (midi_dumps (py_sort Y) t bpm ch) /\ track_at h' a b (d_track (module_dump Y t bpm ch)) /\ keeps [a; b] h h' in
  brings Y h vars (call (name "midi.dump") [name "t"; name "f"; name "b"; name "k"]) (written bpm ch) /\
  brings Y h vars (call (name "midi.dump") [name "t"; name "f"]) (written f_120 0) /\
  brings Y h vars (call (name "midi.dumps") [name "t"; name "b"; name "k"]) (returned bpm ch) /\
  brings Y h vars (call (name "midi.dumps") [name "t"]) (returned f_120 0).
Proof.
  intros Y h a b t f data pos bpm ch N C T V F. cbv zeta.
  pose proof (fun bpm ch K => midi_dump_runs Y h a b t f data pos bpm ch K N C T V F) as D. pose proof (fun bpm ch K => midi_dumps_runs Y h a b t bpm ch K N C T V) as S.
  repeat split; opening.
  all: repeat (lazymatch goal with
    | |- reaches _ _ (Ca (VFun _) _ _ _ ?K) _ => fail
    | _ => adv end).
  - eapply reaches_trans; [exact (D bpm ch _)|]. intros ? (h' & -> & H); done_here; (split; [reflexivity|exact H]).
  - eapply reaches_trans; [eapply reaches_same; [| | |exact (D f_120 0 K)]; [reflexivity|discriminate|]|].
    + intros (h' & E & _). destruct (no_value _); discriminate E.
    + intros ? (h' & -> & H); done_here; (split; [reflexivity|exact H]).
  - eapply reaches_trans; [exact (S bpm ch _)|]. intros ? (h' & -> & H); done_here; (split; [reflexivity|exact H]).
  - eapply reaches_trans; [eapply reaches_same; [| | |exact (S f_120 0 K)]; [reflexivity|discriminate|]|].
    + intros (h' & E & _). destruct (outcome_of _ _); discriminate E.
    + intros ? (h' & -> & H); done_here; (split; [reflexivity|exact H]).
Qed.
