(** The theorems about running the reading half of io/midi.py. *)
From Coq Require Import ZArith List Bool String Lia SpecFloat.
From Verif Require Import Py PyFloat PySort Signature Tone Note Track Show MidiWriter MidiReader PyAst PySem PySource PyProgram SpecBase MidiSpec SigFacts SortFacts ReadFacts LoadFacts ReaderProps
  RefineBase RefineSignature RefineTone RefineNote RefineWriter RefineTrack RefineAdd RefineEqual RefineSpec RefineProps RefineTrackProps RefineReader RefineNumbers RefineEvent RefineDeep RefineParse
  RefineChannel RefineChannels RefineParseTrack RefineChunks RefineLoad.
Import ListNotations.
Open Scope string_scope.
Open Scope list_scope.
Open Scope Z_scope.

(** A reader of bytes was used: the value or the exception of the model, and its reader at the same place. *)
Definition used {A} (h : heap) (p : nat) (enc : A -> value) (o : reader * res A) (v : res value) (h' : heap) : Prop :=
  v = outcome_of enc (snd o) /\ reader_at h' p (fst o) /\ keeps [p] h h'.
(** A new track, or an exception; only what is at the places [L] may have changed. *)
Definition loaded (h : heap) (L : list nat) (r : res track) (v : res value) (h' : heap) : Prop :=
  keeps L h h' /\
  match r with
  | Ok t => exists a b, v = Ok (VRef a) /\ track_at h' a b t /\ get h a = None /\ get h b = None
  | Err e => v = Err e
  end.
(** A new dictionary of new tracks, or an exception. *)
Definition tracks_read (h : heap) (p : nat) (r : res (dict track)) (v : res value) (h' : heap) : Prop :=
  keeps [p] h h' /\
  match r with
  | Ok ts => exists d rs, v = Ok (VRef d) /\ get h d = None /\
      get h' d = Some (HDict false (map (fun x => (VInt (fst x), VRef (fst (snd x)))) rs)) /\
      Forall2 (fun x y => fst x = fst y /\ track_at h' (fst (snd y)) (snd (snd y)) (snd x) /\
                          get h (fst (snd y)) = None /\ get h (snd (snd y)) = None) ts rs
  | Err e => v = Err e
  end.

(** The number of active calls exceeds every bound (in CPython, RecursionError at the recursion limit). *)
Definition calls_without_end (Y : python) (h : heap) (vars : env) (e : expr) : Prop :=
  forall d K, reaches melodia Y (Ev e vars h K) (deep d).
(** The expression brings what [Q] says of the model's result, or calls without end where the model has RecursionError. *)
Definition brings_or_calls {A} (Y : python) (h : heap) (vars : env) (e : expr) (r : res A) (Q : res A -> res value -> heap -> Prop) : Prop :=
  (r <> Err RecursionError -> brings Y h vars e (Q r)) /\ (r = Err RecursionError -> calls_without_end Y h vars e).

Lemma after_loaded h L o K s : after_load 0 h L o K s -> o <> Err RecursionError -> exists r h', s = ends r h' K /\ loaded h L o r h'.
Proof.
  unfold after_load, loaded. destruct o as [t|e].
  - intros (h' & a & b & -> & T & _ & A & B & KE) _. exists (Ok (VRef a)), h'. split; [reflexivity|]. split; [exact KE|]. exists a, b. repeat split; try assumption; apply T.
  - intros R NR. destruct (raised_inv _ _ _ _ _ R) as [(_ & h' & -> & KE)|[-> _]]; [|congruence]. exists (Err e), h'. split; [reflexivity|]. split; [exact KE|reflexivity].
Qed.
Lemma load_brings Y h vars e L o : (forall d K, reaches melodia Y (Ev e vars h K) (after_load d h L o K)) -> brings_or_calls Y h vars e o (loaded h L).
Proof.
  intros R. split.
  - intros NR K. eapply reaches_trans; [exact (R 0%nat K)|]. intros s A. apply reaches_here. exact (after_loaded _ _ _ _ _ A NR).
  - intros -> d K. exact (R d K).
Qed.

Lemma var_len_fuel fuel : forall acc r, good_reader r -> left r < Z.of_nat fuel -> snd (var_len_rest fuel acc r) <> Err OutOfFuel.
Proof.
  induction fuel as [|k IH]; intros acc r G L; [destruct G; unfold left in L; lia|]. cbn [var_len_rest]. unfold rbind.
  pose proof (read_8_good r G) as (G1 & D1 & V1). destruct (read_8 r) as [r1 [x|e]]; cbn [fst snd] in *; [|subst e; discriminate].
  destruct (Z.land x 128 =? 0); [discriminate|]. apply IH; [exact G1|]. unfold left in *. rewrite D1. lia.
Qed.
Lemma read_var_len_fuel r : good_reader r -> snd (read_var_len r) <> Err OutOfFuel.
Proof.
  intros G. unfold read_var_len, rbind. pose proof (read_8_good r G) as (G1 & D1 & V1). destruct (read_8 r) as [r1 [x|e]]; cbn [fst snd] in *; [|subst e; discriminate].
  destruct (Z.land x 128 =? 0); [discriminate|]. apply var_len_fuel; [exact G1|]. destruct G. unfold left. rewrite D1. lia.
Qed.
Lemma parse_track_fuel m b q : Forall is_byte b -> parse_track m b q <> Err OutOfFuel.
Proof.
  intros B. destruct (parse_track_any m q b B) as [->|[[-> _]|(evs & dt & x & rest & _ & _ & _ & _ & ->)]]; try discriminate.
  unfold tracks_of. destruct (_ || _); discriminate.
Qed.
Lemma load_fuel sort m file ch : sort_contract sort -> Forall is_byte file -> load sort m file ch <> Err OutOfFuel.
Proof. intros C B X. pose proof (c42_partial sort C m file ch B) as P. rewrite X in P. exact P. Qed.

Lemma c77_bytes : forall Y h b p r n, good_reader r -> reader_at h p r -> 0 <= n ->
  let vars := [("b", VBytes b); ("r", VRef p); ("n", VInt n)] in
  brings Y h vars (call (name "_Reader") [name "b"]) (fun v h' => exists p', v = Ok (VRef p') /\ get h p' = None /\ reader_at h' p' (reader_new b) /\ keeps [] h h') /\
  brings Y h vars (meth (name "r") "read" [name "n"]) (used h p VBytes (read n r)) /\
  brings Y h vars (meth (name "r") "shift" [name "n"]) (used h p (fun _ => VNone) (shift n r)) /\
  evaluates Y h vars (call (name "len") [name "r"]) (Ok (VInt (reader_len r))).
Proof.
  intros Y h b p r n GR G N. cbv zeta. pose proof G as G0. unfold reader_at in G0.
  split; [|split; [|split]].
  - opening. repeat (lazymatch goal with |- reaches _ _ (Ca (VClass _) _ _ _ _) _ => fail | _ => adv end).
    eapply reaches_trans; [apply reader_new_runs|]. intros ? (h' & -> & R & KE). done_here. exists (next_place h). split; [reflexivity|]. split; [apply fresh_none|]. split; assumption.
  - opening. repeat (lazymatch goal with |- reaches _ _ (Ca (VFun _) _ _ _ _) _ => fail | _ => adv end).
    eapply reaches_trans; [apply (read_runs Y p n r GR N h _ G)|]. intros ? (h' & -> & R). done_here. split; [reflexivity|exact R].
  - opening. repeat (lazymatch goal with |- reaches _ _ (Ca (VFun _) _ _ _ _) _ => fail | _ => adv end).
    eapply reaches_trans; [apply (shift_runs Y p n r h _ G)|]. intros ? (h' & -> & R). done_here. split; [reflexivity|exact R].
  - start. repeat (lazymatch goal with |- steps _ _ (Ca (VBuiltin _) _ _ _ _) _ => fail | _ => adv end). apply (reader_len_runs Y p r h K G).
Qed.

Lemma c77_reader : forall Y h ca c, digit_table (py_nd Y) -> tone_value ca c ->
  evaluates Y h [("c", c)] (call (name "MIDIReader") [name "c"]) (outcome_of (enc_midi_reader c) (midi_reader_new (py_nd Y) ca)) /\
  evaluates Y h [("c", c)] (call (name "MIDIReader") []) (Ok (enc_midi_reader (v_tone 36) (mkMR 24))).
Proof.
  intros Y h ca c N T. split; start.
  - destruct T; until ltac:(eapply midi_reader_new_runs; [exact N|constructor]).
  - until ltac:(eapply (reader_default_runs Y)).
Qed.

Lemma c77_helpers : forall Y h c m p r z q, good_reader r -> reader_at h p r ->
  let vars := [("m", enc_midi_reader c m); ("r", VRef p); ("z", VInt z); ("q", VInt q)] in
  brings Y h vars (meth (name "m") "_read_8" [name "r"]) (used h p VInt (read_8 r)) /\
  brings Y h vars (meth (name "m") "_read_16" [name "r"]) (used h p VInt (read_16 r)) /\
  brings Y h vars (meth (name "m") "_read_24" [name "r"]) (used h p VInt (read_24 r)) /\
  brings Y h vars (meth (name "m") "_read_32" [name "r"]) (used h p VInt (read_32 r)) /\
  brings Y h vars (meth (name "m") "_read_var_len" [name "r"]) (used h p VInt (read_var_len r)) /\
  brings Y h vars (meth (name "m") "_parse_header" [name "r"]) (used h p (fun x => VTuple [VInt (fst (fst x)); VInt (snd (fst x)); VInt (snd x)]) (parse_header r)) /\
  evaluates Y h vars (meth (name "m") "_pitch_to_tone" [name "z"]) (Ok (enc_tone (pitch_to_tone m z))) /\
  evaluates Y h vars (EOp (OCall [APos; AKey "ticks_per_quarter"]) [attr (name "m") "_time_to_signature"; name "z"; name "q"]) (outcome_of enc_sig (time_to_signature z q)).
Proof.
  intros Y h c m p r z q GR G. cbv zeta. pose proof G as G0. unfold reader_at in G0.
  pose proof (read_8_runs Y p r GR) as R1. pose proof (read_16_runs Y p r GR) as R2. pose proof (read_24_runs Y p r GR) as R3. pose proof (read_32_runs Y p r GR) as R4.
  pose proof (read_var_len_runs Y p r GR (read_var_len_fuel r GR)) as RV. pose proof (parse_header_runs Y p r GR) as RH.
  pose proof (pitch_to_tone_runs Y c m z h) as RP. pose proof (time_to_signature_runs Y z q h) as RT.
  unfold enc_midi_reader in *. destruct m as [delta]. cbn [mr_delta] in *.
  do 6 (split; [opening; repeat (lazymatch goal with |- reaches _ _ (Ca (VFun _) _ _ _ _) _ => fail | _ => adv end);
    eapply reaches_trans; [first [exact (R1 h _ G)|exact (R2 h _ G)|exact (R3 h _ G)|exact (R4 h _ G)|exact (RV h _ G)|exact (RH h _ G)]|]; intros ? (h' & -> & R); done_here; split; [reflexivity|exact R]|]).
  split; start.
  - repeat (lazymatch goal with |- steps _ _ (Ca (VFun _) _ _ _ _) _ => fail | _ => adv end). exact (RP K).
  - repeat (lazymatch goal with |- steps _ _ (Ca (VFun _) _ _ _ _) _ => fail | _ => adv end). exact (RT K).
Qed.

Lemma c77_track : forall Y h c m p b q, reader_at h p (reader_new b) -> Forall is_byte b ->
  brings_or_calls Y h [("m", enc_midi_reader c m); ("r", VRef p); ("q", VInt q)] (meth (name "m") "_parse_track" [name "r"; name "q"])
    (parse_track m b q) (tracks_read h p).
Proof.
  intros Y h c m p b q G B. assert (GR : good_reader (reader_new b)) by (split; [exact B|cbn; lia]).
  destruct m as [delta]. pose proof (fun d K => parse_track_runs Y c delta d h p b q K G GR (parse_track_fuel _ _ _ B)) as R. set (o := parse_track _ _ _) in *. clearbody o.
  assert (RR : forall d K, reaches melodia Y (Ev (meth (name "m") "_parse_track" [name "r"; name "q"]) [("m", enc_midi_reader c (mkMR delta)); ("r", VRef p); ("q", VInt q)] h K) (after_parse d h p o K)).
  { intros d K. unfold enc_midi_reader in *. cbn [mr_delta] in *. pose proof G as G0. unfold reader_at in G0. unfold meth, call, attr, name. cbn [List.map].
    repeat (lazymatch goal with |- reaches _ _ (Ca (VFun _) _ _ _ _) _ => fail | _ => adv end). exact (R d K). }
  split.
  2:{ intros -> d K. exact (RR d K). }
  intros NR K. eapply reaches_trans; [exact (RR 0%nat K)|]. unfold after_parse. destruct o as [ts|e].
  - intros ? (h' & pr & rs & -> & KE & FP & GP & TA & FT). apply reaches_here. exists (Ok (VRef pr)), h'. split; [reflexivity|]. split; [exact KE|].
    exists pr, rs. split; [reflexivity|]. split; [exact FP|]. split; [exact GP|].
    destruct TA as (F & _). clear -F FT. induction F as [|x y ts rs (E & T & _) F IH]; [constructor|]. inversion FT as [|? ? [A A'] FT']; subst. constructor; [|apply IH; exact FT']. repeat split; try assumption; apply T.
  - intros s A. destruct (raised_inv _ _ _ _ _ A) as [(_ & h' & -> & KE)|[-> _]]; [|congruence]. apply reaches_here. exists (Err e), h'. split; [reflexivity|]. split; [exact KE|reflexivity].
Qed.

Lemma c77_load : forall Y h c m f data pos k, natural (py_sort Y) -> sort_contract (py_sort Y) ->
  get h f = Some (HFile data pos) -> Forall is_byte data ->
  let vars := [("m", enc_midi_reader c m); ("f", VRef f); ("b", VBytes data); ("k", VInt k)] in
  let model b ch := load (py_sort Y) m b ch in
  brings_or_calls Y h vars (meth (name "m") "load" [name "f"; name "k"]) (model (skipn pos data) (Some k)) (loaded h [f]) /\
  brings_or_calls Y h vars (meth (name "m") "load" [name "f"]) (model (skipn pos data) None) (loaded h [f]) /\
  brings_or_calls Y h vars (meth (name "m") "loads" [name "b"; name "k"]) (model data (Some k)) (loaded h []) /\
  brings_or_calls Y h vars (meth (name "m") "loads" [name "b"]) (model data None) (loaded h []).
Proof.
  intros Y h c m f data pos k N C G B vars model. destruct m as [delta].
  assert (B' : Forall is_byte (skipn pos data)) by (rewrite <- (firstn_skipn pos data) in B; apply Forall_app in B; exact (proj2 B)).
  assert (L1 : forall ch d K, reaches melodia Y (Ca (VFun "MIDIReader.load") [enc_midi_reader c (mkMR delta); VRef f; enc_opt ch] [] h K) (after_load d h [f] (model (skipn pos data) ch) K))
    by (intros ch d K; exact (load_runs Y N C c delta h f d data pos ch K G B (load_fuel _ _ _ _ C B'))).
  assert (L2 : forall ch d K, reaches melodia Y (Ca (VFun "MIDIReader.loads") [enc_midi_reader c (mkMR delta); VBytes data; enc_opt ch] [] h K) (after_load d h [] (model data ch) K))
    by (intros ch d K; exact (loads_runs Y N C d c delta data ch h K B (load_fuel _ _ _ _ C B))).
  clearbody model. unfold enc_midi_reader in *. cbn [mr_delta] in *. pose proof (L1 (Some k)) as L1k. pose proof (L2 (Some k)) as L2k. specialize (L1 None). specialize (L2 None). cbn [enc_opt] in *.
  unfold meth, call, attr, name. cbn [List.map].
  refine (conj _ (conj _ (conj _ _))).
  all: apply load_brings; intros d K; unfold vars; repeat (lazymatch goal with |- reaches _ _ (Ca (VFun _) _ _ _ _) _ => fail | _ => adv end).
  - exact (L1k d K).
  - eapply reaches_like; [| |apply after_like|exact (L1 d K)]; [reflexivity|discriminate].
  - exact (L2k d K).
  - eapply reaches_like; [| |apply after_like|exact (L2 d K)]; [reflexivity|discriminate].
Qed.

Lemma c77_module : forall Y h f data pos k, natural (py_sort Y) -> sort_contract (py_sort Y) ->
  get h f = Some (HFile data pos) -> Forall is_byte data ->
  let vars := [("f", VRef f); ("b", VBytes data); ("k", VInt k)] in
  let model b ch := midi_loads (py_sort Y) b ch in
  brings_or_calls Y h vars (call (name "midi.load") [name "f"; name "k"]) (model (skipn pos data) (Some k)) (loaded h [f]) /\
  brings_or_calls Y h vars (call (name "midi.load") [name "f"]) (model (skipn pos data) None) (loaded h [f]) /\
  brings_or_calls Y h vars (call (name "midi.loads") [name "b"; name "k"]) (model data (Some k)) (loaded h []) /\
  brings_or_calls Y h vars (call (name "midi.loads") [name "b"]) (model data None) (loaded h []).
Proof.
  intros Y h f data pos k N C G B vars model.
  assert (B' : Forall is_byte (skipn pos data)) by (rewrite <- (firstn_skipn pos data) in B; apply Forall_app in B; exact (proj2 B)).
  assert (NF : forall b ch, Forall is_byte b -> model b ch <> Err OutOfFuel) by (intros b ch BB; exact (load_fuel _ (mkMR 24) _ _ C BB)).
  assert (L1 : forall ch d K, reaches melodia Y (Ca (VFun "midi.load") [VRef f; enc_opt ch] [] h K) (after_load d h [f] (model (skipn pos data) ch) K))
    by (intros ch d K; exact (module_load_runs Y N C d data pos ch h f K G B (NF _ _ B'))).
  assert (L2 : forall ch d K, reaches melodia Y (Ca (VFun "midi.loads") [VBytes data; enc_opt ch] [] h K) (after_load d h [] (model data ch) K))
    by (intros ch d K; exact (module_loads_runs Y N C d data ch h K B (NF _ _ B))).
  clear NF. clearbody model. pose proof (L1 (Some k)) as L1k. pose proof (L2 (Some k)) as L2k. specialize (L1 None). specialize (L2 None). cbn [enc_opt] in *.
  unfold call, name. cbn [List.map].
  refine (conj _ (conj _ (conj _ _))).
  all: apply load_brings; intros d K; unfold vars; repeat (lazymatch goal with |- reaches _ _ (Ca (VFun _) _ _ _ _) _ => fail | _ => adv end).
  - exact (L1k d K).
  - eapply reaches_like; [| |apply after_like|exact (L1 d K)]; [reflexivity|discriminate].
  - exact (L2k d K).
  - eapply reaches_like; [| |apply after_like|exact (L2 d K)]; [reflexivity|discriminate].
Qed.
