(** The source of the writing half of io/midi.py computes what the model says (C75).

    As in PropRefineTrack.v.  A binary file is an object at a place [f] of the heap with its content and its position
    [file_at h f data pos]; [file_after h f data pos b] says that [b] has been written there.  [valid_track t] says that the
    positions and durations are valid signatures and that no denominator is zero; [middle_value c] that [c] is a Tone, an
    integer or a string, as the constructor of MIDIWriter makes sure (RefineDump.v, RefineWriter.v). *)
From Coq Require Import ZArith List Bool String Lia.
From Verif Require Import Py PyFloat PySort Timsort Signature Tone Note Track Show MidiWriter PyAst PySem PySource PyProgram SpecBase
  RefineBase RefineSignature RefineTone RefineNote RefineWriter RefineTrack RefineDump RefineDumps RefineSpec RefineTrackProps RefineDumpProps.
Import ListNotations.
Open Scope string_scope.
Open Scope list_scope.
Open Scope Z_scope.

(** C75: MIDIWriter(ppq, middle_c, bpm, channel) and MIDIWriter(). *)
Theorem C75_writer :
  forall Y h q ca c bpm ch, digit_table (py_nd Y) -> tone_value ca c ->
  let vars := [("q", VInt q); ("c", c); ("b", VFloat bpm); ("k", VInt ch)] in
  evaluates Y h vars (call (name "MIDIWriter") [name "q"; name "c"; name "b"; name "k"]) (outcome_of (enc_writer c) (writer_new (py_nd Y) q ca bpm ch)) /\
  evaluates Y h vars (call (name "MIDIWriter") []) (outcome_of (enc_writer (v_tone 36)) (writer_new (py_nd Y) 96 default_middle_c f_120 0)).
Proof. exact c75_writer. Qed.
Print Assumptions C75_writer.
(** C75: the methods that format parts of the file. *)
Theorem C75_helpers :
  forall Y h c w s n x cc bb kind body, middle_value c -> valid_sig s ->
  let vars := [("w", enc_writer c w); ("s", enc_sig s); ("n", enc_note n); ("x", VInt x); ("cc", VInt cc); ("bb", VInt bb); ("k", VBytes kind); ("b", VBytes body)] in
  let gives r v h' := v = outcome_of VBytes r /\ keeps [] h h' in
  evaluates Y h vars (meth (name "w") "_signature_to_pulses" [name "s"]) (outcome_of VInt (signature_to_pulses w s)) /\
  evaluates Y h vars (meth (name "w") "_format_var_len" [name "x"]) (outcome_of VBytes (format_var_len x)) /\
  brings Y h vars (meth (name "w") "_format_note_on" [name "n"]) (gives (format_note_on w n)) /\
  brings Y h vars (meth (name "w") "_format_note_off" [name "n"]) (gives (format_note_off w n)) /\
  brings Y h vars (EOp (OCall [APos; AKey "cc"; AKey "bb"]) [attr (name "w") "_format_signature"; name "s"; name "cc"; name "bb"]) (gives (format_signature s cc bb)) /\
  brings Y h vars (meth (name "w") "_format_tempo" [name "x"]) (gives (format_tempo x)) /\
  brings Y h vars (meth (name "w") "_format_chunk" [name "k"; name "b"]) (gives (format_chunk kind body)) /\
  brings Y h vars (EOp (OCall [AKey "kind"; AKey "n_tracks"]) [attr (name "w") "_format_header_chunk"; name "cc"; name "bb"]) (gives (format_header_chunk w cc bb)).
Proof. exact c75_helpers. Qed.
Print Assumptions C75_helpers.
(** C75: dump and dumps. *)
Theorem C75_dump :
  forall Y h c w a b t f data pos, natural (py_sort Y) -> sort_contract (py_sort Y) -> middle_value c ->
  track_at h a b t -> valid_track t -> file_at h f data pos ->
  let vars := [("w", enc_writer c w); ("t", VRef a); ("f", VRef f)] in
  let o := dump (py_sort Y) w t in
  brings Y h vars (meth (name "w") "dump" [name "t"; name "f"]) (fun r h' => r = no_value (d_result o) /\
    track_at h' a b (d_track o) /\ file_after h' f data pos (d_written o) /\ keeps [a; b; f] h h') /\
  brings Y h vars (meth (name "w") "dumps" [name "t"]) (fun r h' => r = outcome_of VBytes (dumps (py_sort Y) w t) /\
    track_at h' a b (d_track o) /\ keeps [a; b] h h').
Proof. exact c75_dump. Qed.
Print Assumptions C75_dump.
(** C75: the functions dump and dumps of the module. *)
Theorem C75_module :
  forall Y h a b t f data pos bpm ch, natural (py_sort Y) -> sort_contract (py_sort Y) ->
  track_at h a b t -> valid_track t -> file_at h f data pos ->
  let vars := [("t", VRef a); ("f", VRef f); ("b", VFloat bpm); ("k", VInt ch)] in
  let written bpm ch r h' := let o := module_dump Y t bpm ch in
    r = no_value (d_result o) /\ track_at h' a b (d_track o) /\ file_after h' f data pos (d_written o) /\ keeps [a; b; f] h h' in
  let returned bpm ch r h' := r = outcome_of VBytes (midi_dumps (py_sort Y) t bpm ch) /\ track_at h' a b (d_track (module_dump Y t bpm ch)) /\ keeps [a; b] h h' in
  brings Y h vars (call (name "midi.dump") [name "t"; name "f"; name "b"; name "k"]) (written bpm ch) /\
  brings Y h vars (call (name "midi.dump") [name "t"; name "f"]) (written f_120 0) /\
  brings Y h vars (call (name "midi.dumps") [name "t"; name "b"; name "k"]) (returned bpm ch) /\
  brings Y h vars (call (name "midi.dumps") [name "t"]) (returned f_120 0).
Proof. exact c75_module. Qed.
Print Assumptions C75_module.

(** dumps of a track with one note of a quarter at 1/4 (position 1/4, duration 1/4, velocity 1). *)
Definition ex_track : track := mkTrack (mkSig 4 4) 4 (mkSig 1 2) [(mkSig 1 4, mkNote (mkTone 60) (mkSig 1 4) f_one)] true.
Definition ex_heap : heap := mkHeap [enc_track 1 ex_track; HList (map enc_entry (t_heap ex_track)); HFile [] 0] 0.
Lemma ex_at : track_at ex_heap 0 1 ex_track.
Proof. split; reflexivity. Qed.
Lemma ex_sig : valid_sig (mkSig 1 4).
Proof. split; [cbn; lia|]. exists 2. split; [lia|reflexivity]. Qed.
Lemma ex_valid : valid_track ex_track.
Proof. split; [constructor; [split; exact ex_sig|constructor]|split; cbn; discriminate]. Qed.
Lemma ex_file : file_at ex_heap 2 [] 0.
Proof. split; [reflexivity|cbn; lia]. Qed.
Definition ex_bytes : bytes :=
  [77; 84; 104; 100; 0; 0; 0; 6; 0; 0; 0; 1; 0; 96; 77; 84; 114; 107; 0; 0; 0; 27;
   0; 255; 88; 4; 4; 2; 96; 8; 0; 255; 81; 3; 7; 161; 32; 96; 144; 84; 127; 96; 128; 84; 64; 0; 255; 47; 0].
Example C75_ex_dumps Y : py_sort Y = cpython_sort ->
  brings Y ex_heap [("t", VRef 0); ("f", VRef 2); ("b", VFloat f_one); ("k", VInt 0)] (call (name "midi.dumps") [name "t"])
    (fun r h' => r = Ok (VBytes ex_bytes) /\ track_at h' 0 1 ex_track /\ keeps [0; 1]%nat ex_heap h').
Proof.
  intros E. assert (N : natural (py_sort Y)) by (rewrite E; exact (proj1 c74_sort)).
  assert (C : sort_contract (py_sort Y)) by (rewrite E; exact (proj2 c74_sort)).
  pose proof (proj2 (proj2 (proj2 (C75_module Y ex_heap 0%nat 1%nat ex_track 2%nat [] 0%nat f_one 0 N C ex_at ex_valid ex_file)))) as B.
  unfold module_dump in B. cbv zeta in B. rewrite E in B. vm_compute (midi_dumps _ _ _ _) in B. vm_compute (d_track _) in B. exact B.
Qed.
