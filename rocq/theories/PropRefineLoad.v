(** The source of the reading half of io/midi.py computes what the model says (C77).

    As in PropRefineDump.v.  A _Reader is an object at a place [p] of the heap with its bytes and its index
    ([reader_at h p r]); [used h p enc o] says that it was used as the model says.  [loaded h L r] says that the value is a
    new track whose content is that of the model's track, or that the exception of the model is raised, and that only what
    is at the places [L] may have changed; [tracks_read] says the same of a new dictionary of tracks.

    A data byte without a status to repeat makes read_event call itself without end.  CPython ends this with
    RecursionError at its recursion limit; the machine has no limit, so [brings_or_calls] says that the run of the source
    exceeds every number of active calls exactly where the model has RecursionError (RefineLoadProps.v, RefineDeep.v). *)
From Coq Require Import ZArith List Bool String Lia.
From Verif Require Import Py PyFloat PySort Timsort Signature Tone Note Track Show MidiWriter MidiReader PyAst PySem PySource PyProgram SpecBase MidiSpec
  RefineBase RefineSignature RefineTone RefineNote RefineWriter RefineTrack RefineReader RefineNumbers RefineDeep RefineSpec RefineProps RefineTrackProps RefineLoad RefineLoadProps.
Import ListNotations.
Open Scope string_scope.
Open Scope list_scope.
Open Scope Z_scope.

(** C77: _Reader(b), read, shift and len of a _Reader. *)
Theorem C77_bytes :
  forall Y h b p r n, good_reader r -> reader_at h p r -> 0 <= n ->
  let vars := [("b", VBytes b); ("r", VRef p); ("n", VInt n)] in
  brings Y h vars (call (name "_Reader") [name "b"]) (fun v h' => exists p', v = Ok (VRef p') /\ get h p' = None /\ reader_at h' p' (reader_new b) /\ keeps [] h h') /\
  brings Y h vars (meth (name "r") "read" [name "n"]) (used h p VBytes (read n r)) /\
  brings Y h vars (meth (name "r") "shift" [name "n"]) (used h p (fun _ => VNone) (shift n r)) /\
  evaluates Y h vars (call (name "len") [name "r"]) (Ok (VInt (reader_len r))).
Proof. exact c77_bytes. Qed.
Print Assumptions C77_bytes.
(** C77: MIDIReader(middle_c) and MIDIReader(). *)
Theorem C77_reader :
  forall Y h ca c, digit_table (py_nd Y) -> tone_value ca c ->
  evaluates Y h [("c", c)] (call (name "MIDIReader") [name "c"]) (outcome_of (enc_midi_reader c) (midi_reader_new (py_nd Y) ca)) /\
  evaluates Y h [("c", c)] (call (name "MIDIReader") []) (Ok (enc_midi_reader (v_tone 36) (mkMR 24))).
Proof. exact c77_reader. Qed.
Print Assumptions C77_reader.
(** C77: the methods that read numbers, the header, tones and times. *)
Theorem C77_helpers :
  forall Y h c m p r z q, good_reader r -> reader_at h p r ->
  let vars := [("m", enc_midi_reader c m); ("r", VRef p); ("z", VInt z); ("q", VInt q)] in
  brings Y h vars (meth (name "m") "_read_8" [name "r"]) (used h p VInt (read_8 r)) /\
  brings Y h vars (meth (name "m") "_read_16" [name "r"]) (used h p VInt (read_16 r)) /\
  brings Y h vars (meth (name "m") "_read_24" [name "r"]) (used h p VInt (read_24 r)) /\
  brings Y h vars (meth (name "m") "_read_32" [name "r"]) (used h p VInt (read_32 r)) /\
  brings Y h vars (meth (name "m") "_read_var_len" [name "r"]) (used h p VInt (read_var_len r)) /\
  brings Y h vars (meth (name "m") "_parse_header" [name "r"]) (used h p (fun x => VTuple [VInt (fst (fst x)); VInt (snd (fst x)); VInt (snd x)]) (parse_header r)) /\
  evaluates Y h vars (meth (name "m") "_pitch_to_tone" [name "z"]) (Ok (enc_tone (pitch_to_tone m z))) /\
  evaluates Y h vars (EOp (OCall [APos; AKey "ticks_per_quarter"]) [attr (name "m") "_time_to_signature"; name "z"; name "q"]) (outcome_of enc_sig (time_to_signature z q)).
Proof. exact c77_helpers. Qed.
Print Assumptions C77_helpers.
(** C77: _parse_track. *)
Theorem C77_track :
  forall Y h c m p b q, reader_at h p (reader_new b) -> Forall is_byte b ->
  brings_or_calls Y h [("m", enc_midi_reader c m); ("r", VRef p); ("q", VInt q)] (meth (name "m") "_parse_track" [name "r"; name "q"])
    (parse_track m b q) (tracks_read h p).
Proof. exact c77_track. Qed.
Print Assumptions C77_track.
(** C77: load and loads. *)
Theorem C77_load :
  forall Y h c m f data pos k, natural (py_sort Y) -> sort_contract (py_sort Y) ->
  get h f = Some (HFile data pos) -> Forall is_byte data ->
  let vars := [("m", enc_midi_reader c m); ("f", VRef f); ("b", VBytes data); ("k", VInt k)] in
  let model b ch := load (py_sort Y) m b ch in
  brings_or_calls Y h vars (meth (name "m") "load" [name "f"; name "k"]) (model (skipn pos data) (Some k)) (loaded h [f]) /\
  brings_or_calls Y h vars (meth (name "m") "load" [name "f"]) (model (skipn pos data) None) (loaded h [f]) /\
  brings_or_calls Y h vars (meth (name "m") "loads" [name "b"; name "k"]) (model data (Some k)) (loaded h []) /\
  brings_or_calls Y h vars (meth (name "m") "loads" [name "b"]) (model data None) (loaded h []).
Proof. exact c77_load. Qed.
Print Assumptions C77_load.
(** C77: the functions load and loads of the module. *)
Theorem C77_module :
  forall Y h f data pos k, natural (py_sort Y) -> sort_contract (py_sort Y) ->
  get h f = Some (HFile data pos) -> Forall is_byte data ->
  let vars := [("f", VRef f); ("b", VBytes data); ("k", VInt k)] in
  let model b ch := midi_loads (py_sort Y) b ch in
  brings_or_calls Y h vars (call (name "midi.load") [name "f"; name "k"]) (model (skipn pos data) (Some k)) (loaded h [f]) /\
  brings_or_calls Y h vars (call (name "midi.load") [name "f"]) (model (skipn pos data) None) (loaded h [f]) /\
  brings_or_calls Y h vars (call (name "midi.loads") [name "b"; name "k"]) (model data (Some k)) (loaded h []) /\
  brings_or_calls Y h vars (call (name "midi.loads") [name "b"]) (model data None) (loaded h []).
Proof. exact c77_module. Qed.
Print Assumptions C77_module.

(** loads of a file with one note of a quarter at 1/4, and of the same file with the status byte of the note missing. *)
Definition ex_file (body : bytes) : bytes :=
  [77; 84; 104; 100; 0; 0; 0; 6; 0; 0; 0; 1; 0; 96; 77; 84; 114; 107; 0; 0; 0; Z.of_nat (List.length body)] ++ body.
Definition ex_note : bytes := ex_file [96; 144; 84; 127; 96; 128; 84; 64; 0; 255; 47; 0].
Definition ex_no_status : bytes := ex_file [96; 84; 127; 96; 128; 84; 64; 0; 255; 47; 0].
Definition ex_heap (b : bytes) : heap := mkHeap [HFile b 0] 0.
Lemma ex_is_bytes (b : bytes) : forallb (fun x => (0 <=? x) && (x <? 256)) b = true -> Forall is_byte b.
Proof. intros H. apply Forall_forall. intros x I. pose proof (proj1 (forallb_forall _ _) H x I). unfold is_byte. lia. Qed.
Example C77_ex_loads Y : py_sort Y = cpython_sort -> let h := ex_heap ex_note in
  brings Y h [("f", VRef 0); ("b", VBytes ex_note); ("k", VInt 0)] (call (name "midi.loads") [name "b"])
    (fun r h' => exists a b, r = Ok (VRef a) /\
       track_at h' a b (mkTrack (mkSig 4 4) 4 (mkSig 2 4) [(mkSig 1 4, mkNote (mkTone 60) (mkSig 1 4) f_one)] false) /\ keeps [] h h').
Proof.
  intros E h. assert (N : natural (py_sort Y)) by (rewrite E; exact (proj1 c74_sort)).
  assert (C : sort_contract (py_sort Y)) by (rewrite E; exact (proj2 c74_sort)).
  pose proof (proj1 (proj2 (proj2 (proj2 (C77_module Y h 0%nat ex_note 0%nat 0 N C eq_refl (ex_is_bytes ex_note eq_refl)))))) as B.
  cbv zeta in B. rewrite E in B. vm_compute (midi_loads _ _ _) in B. specialize (B ltac:(discriminate)).
  intros K. destruct (B K) as (s & S & r & h' & X & KE & a & b & R & T & _). exists s. split; [exact S|].
  exists r, h'. split; [exact X|]. exists a, b. split; [exact R|]. split; [exact T|exact KE].
Qed.
Example C77_ex_no_status Y : py_sort Y = cpython_sort -> let h := ex_heap ex_no_status in
  calls_without_end Y h [("f", VRef 0); ("b", VBytes ex_no_status); ("k", VInt 0)] (call (name "midi.loads") [name "b"]).
Proof.
  intros E h. assert (N : natural (py_sort Y)) by (rewrite E; exact (proj1 c74_sort)).
  assert (C : sort_contract (py_sort Y)) by (rewrite E; exact (proj2 c74_sort)).
  pose proof (proj2 (proj2 (proj2 (proj2 (C77_module Y h 0%nat ex_no_status 0%nat 0 N C eq_refl (ex_is_bytes ex_no_status eq_refl)))))) as B.
  cbv zeta in B. rewrite E in B. apply B. vm_compute. reflexivity.
Qed.
