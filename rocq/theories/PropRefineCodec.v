(** The numbers, events and chunks of MIDI files as bytes, in runs of the source (C85).

    The methods of MIDIWriter that format and those of MIDIReader that read, by what bytes they are about: [be_bytes k x] is [x] in [k] bytes,
    the most significant first; [with_bit7 ds] is a variable-length quantity with the digits [ds] to the base 128, [value128 ds] its value and
    [vlq_of bs x] says that [bs] is one of [x], perhaps with leading zeros (MidiSpec.v).  [in_midi_range], [note_velocity], [sig_fits]:
    DumpSpec.v.  The writer is any that the constructor makes ([writer_new], C75_writer). *)
From Coq Require Import ZArith QArith Qround List Bool String Lia.
From Verif Require Import Py PyFloat PySort Timsort Signature Tone Note Track Show MidiWriter MidiReader PyAst PySem PySource PyProgram SpecBase MidiSpec DumpSpec FloatFacts SigFacts
  RefineBase RefineSignature RefineTone RefineNote RefineWriter RefineTrack RefineSpec RefineReader RefineNumbers RefineCodec.
Import ListNotations.
Open Scope string_scope.
Open Scope list_scope.
Open Scope Z_scope.

(** C85: writing. *)
Theorem C85_writes :
  forall Y h c w q ca t bpm ch s n x cc bb kind body,
  writer_new (py_nd Y) q ca bpm ch = Ok w -> tone_of_arg (py_nd Y) ca = Ok t -> middle_value c -> valid_sig s -> valid_note n ->
  let vars := [("w", enc_writer c w); ("s", enc_sig s); ("n", enc_note n); ("x", VInt x); ("cc", VInt cc); ("bb", VInt bb); ("k", VBytes kind); ("b", VBytes body)] in
  let writes e r := brings Y h vars e (fun v h' => v = r /\ keeps [] h h') in
  let signature := EOp (OCall [APos; AKey "cc"; AKey "bb"]) [attr (name "w") "_format_signature"; name "s"; name "cc"; name "bb"] in
  let header := EOp (OCall [AKey "kind"; AKey "n_tracks"]) [attr (name "w") "_format_header_chunk"; name "cc"; name "bb"] in
  evaluates Y h vars (meth (name "w") "_signature_to_pulses" [name "s"]) (Ok (VInt (Qfloor (inject_Z (4 * q) * sval s)))) /\
  (0 <= x -> exists ds, evaluates Y h vars (meth (name "w") "_format_var_len" [name "x"]) (Ok (VBytes (with_bit7 ds))) /\
     Forall is_digit ds /\ value128 ds = x /\ (ds = [0] \/ exists d r, ds = d :: r /\ d <> 0)) /\
  (x < 0 -> evaluates Y h vars (meth (name "w") "_format_var_len" [name "x"]) (Ok (VBytes [x mod 128]))) /\
  (in_midi_range (pitch t) n ->
     writes (meth (name "w") "_format_note_on" [name "n"]) (Ok (VBytes [144 + ch; 60 + pitch (n_tone n) - pitch t; note_velocity n])) /\
     writes (meth (name "w") "_format_note_off" [name "n"]) (Ok (VBytes [128 + ch; 60 + pitch (n_tone n) - pitch t; 64]))) /\
  (~ in_midi_range (pitch t) n ->
     writes (meth (name "w") "_format_note_on" [name "n"]) (Err ValueError) /\ writes (meth (name "w") "_format_note_off" [name "n"]) (Err ValueError)) /\
  (sig_fits s -> is_byte cc -> is_byte bb -> writes signature (Ok (VBytes [255; 88; 4; nominator s; Z.log2 (denominator s); cc; bb]))) /\
  (~ (sig_fits s /\ is_byte cc /\ is_byte bb) -> writes signature (Err OverflowError)) /\
  (0 <= x < 2 ^ 24 -> writes (meth (name "w") "_format_tempo" [name "x"]) (Ok (VBytes ([255; 81; 3] ++ be_bytes 3 x)))) /\
  (~ 0 <= x < 2 ^ 24 -> writes (meth (name "w") "_format_tempo" [name "x"]) (Err OverflowError)) /\
  (List.length kind = 4%nat -> Z.of_nat (List.length body) < 2 ^ 32 ->
     writes (meth (name "w") "_format_chunk" [name "k"; name "b"]) (Ok (VBytes (kind ++ be_bytes 4 (Z.of_nat (List.length body)) ++ body)))) /\
  (List.length kind = 4%nat -> 2 ^ 32 <= Z.of_nat (List.length body) -> writes (meth (name "w") "_format_chunk" [name "k"; name "b"]) (Err OverflowError)) /\
  (List.length kind <> 4%nat -> writes (meth (name "w") "_format_chunk" [name "k"; name "b"]) (Err AssertionError)) /\
  (0 <= cc <= 2 -> 0 <= bb < 2 ^ 16 ->
     writes header (Ok (VBytes ([77; 84; 104; 100; 0; 0; 0; 6] ++ be_bytes 2 cc ++ be_bytes 2 bb ++ be_bytes 2 q)))) /\
  (0 <= cc <= 2 -> ~ 0 <= bb < 2 ^ 16 -> writes header (Err OverflowError)) /\
  (~ 0 <= cc <= 2 -> writes header (Err AssertionError)).
Proof. exact c85_writes. Qed.
(** C85: reading.  A reader that has read [before] and has [rest] left. *)
Print reading.
Theorem C85_reads :
  forall Y h c m p before rest, Forall is_byte (before ++ rest) -> reading h p before rest ->
  let reads f P := brings Y h [("m", enc_midi_reader c m); ("r", VRef p); ("z", VInt 0); ("q", VInt 0)] (meth (name "m") f [name "r"]) (fun v h' => P v h' /\ keeps [p] h h') in
  (forall f k, In (f, k) [("_read_8", 1%nat); ("_read_16", 2%nat); ("_read_24", 3%nat); ("_read_32", 4%nat)] ->
     (forall x later, rest = be_bytes k x ++ later -> 0 <= x < 256 ^ Z.of_nat k ->
        reads f (fun v h' => v = Ok (VInt x) /\ reading h' p (before ++ be_bytes k x) later)) /\
     ((List.length rest < k)%nat -> reads f (fun v _ => v = Err MIDIParsingError))) /\
  (forall bs x later, rest = bs ++ later -> vlq_of bs x ->
     reads "_read_var_len" (fun v h' => v = Ok (VInt x) /\ reading h' p (before ++ bs) later)) /\
  (forall bs x k, rest = firstn k bs -> vlq_of bs x -> (k < List.length bs)%nat -> reads "_read_var_len" (fun v _ => v = Err MIDIParsingError)) /\
  (forall x y z later, rest = be_bytes 2 x ++ be_bytes 2 y ++ be_bytes 2 z ++ later -> 0 <= x < 2 ^ 16 -> 0 <= y < 2 ^ 16 -> 0 <= z < 2 ^ 16 ->
     reads "_parse_header" (fun v h' => v = Ok (VTuple [VInt x; VInt y; VInt z]) /\ reading h' p (before ++ be_bytes 2 x ++ be_bytes 2 y ++ be_bytes 2 z) later)) /\
  ((List.length rest < 6)%nat -> reads "_parse_header" (fun v _ => v = Err MIDIParsingError)).
Proof. exact c85_reads. Qed.
(** C85: reading a number of variable length that was written. *)
Print read_written.
Theorem C85_inverse :
  forall Y h c m c' w x, 0 <= x ->
  brings Y h [("m", enc_midi_reader c m); ("w", enc_writer c' w); ("x", VInt x)] read_written (fun v h' => v = Ok (VInt x) /\ keeps [] h h').
Proof. exact c85_inverse. Qed.
(** C85: times in ticks as signatures, and back. *)
Print read_time.
Print rewritten_time.
Theorem C85_times :
  forall Y h c m c' w q ca bpm ch z, writer_new (py_nd Y) q ca bpm ch = Ok w ->
  let vars := [("m", enc_midi_reader c m); ("w", enc_writer c' w); ("z", VInt z); ("q", VInt q)] in
  (0 <= z -> exists s, evaluates Y h vars read_time (Ok (enc_sig s)) /\ valid_sig s /\ Z.gcd (nominator s) (denominator s) = 1 /\
     (sval s <= z # Z.to_pos (4 * q))%Q /\ ((z # Z.to_pos (4 * q)) < sval s + (1 # 16384))%Q /\ ((q | 4096 * z) -> (sval s == z # Z.to_pos (4 * q))%Q)) /\
  (z < 0 -> evaluates Y h vars read_time (Err ValueError)) /\
  (0 <= z -> q <= 4096 -> exists z', evaluates Y h vars rewritten_time (Ok (VInt z')) /\ (z' = z \/ z' = z - 1) /\ ((q | 4096 * z) -> z' = z)).
Proof. exact c85_times. Qed.
(** One command for the theorems of this file: it runs through all proofs below them, which takes long. *)
Definition C85_theorems := (C85_writes, C85_reads, C85_inverse, C85_times).
Print Assumptions C85_theorems.

Definition ex_codec_python : python :=
  mkPython ascii_digit shortest_digits (fun _ => Err OverflowError) (fun x => x) (fun _ m _ => m) (fun _ a _ => a) cpython_sort.
Definition ex_codec_note : note := mkNote (mkTone 36) (mkSig 1 4) f_half.
(** 300 is 0x82 0x2c; 3/8 with 96 pulses per quarter; middle C; the tempo 500000; the header of a file with one track. *)
Example C85_ex_writes : forall h, exists w, writer_new (py_nd ex_codec_python) 96 default_middle_c f_120 3 = Ok w /\
  let vars := [("w", enc_writer (v_tone 36) w); ("s", enc_sig (mkSig 3 8)); ("n", enc_note ex_codec_note); ("x", VInt 500000); ("cc", VInt 0); ("bb", VInt 1); ("k", VBytes [77; 84]); ("b", VBytes [])] in
  let writes e r := brings ex_codec_python h vars e (fun v h' => v = r /\ keeps [] h h') in
  evaluates ex_codec_python h vars (meth (name "w") "_signature_to_pulses" [name "s"]) (Ok (VInt 144)) /\
  writes (meth (name "w") "_format_note_on" [name "n"]) (Ok (VBytes [147; 60; 63])) /\
  writes (meth (name "w") "_format_tempo" [name "x"]) (Ok (VBytes [255; 81; 3; 7; 161; 32])) /\
  writes (meth (name "w") "_format_chunk" [name "k"; name "b"]) (Err AssertionError) /\
  writes (EOp (OCall [AKey "kind"; AKey "n_tracks"]) [attr (name "w") "_format_header_chunk"; name "cc"; name "bb"])
    (Ok (VBytes [77; 84; 104; 100; 0; 0; 0; 6; 0; 0; 0; 1; 0; 96])).
Proof.
  intros h. eexists. split; [reflexivity|]. cbv zeta.
  destruct (C85_writes ex_codec_python h (v_tone 36) _ 96 default_middle_c (mkTone 36) f_120 3 (mkSig 3 8) ex_codec_note 500000 0 1 [77; 84] []
    eq_refl eq_refl (mv_tone (mkTone 36)) ltac:(split; [cbn; lia|exists 3; split; [lia|reflexivity]])
    ltac:(split; [split; [cbn; lia|exists 2; split; [lia|reflexivity]]|apply unit_test; reflexivity]))
    as (H1 & _ & _ & H3 & _ & _ & _ & H6 & _ & _ & _ & H9 & H10 & _).
  split; [exact H1|]. split; [exact (proj1 (H3 ltac:(cbv; split; discriminate)))|]. split; [exact (H6 ltac:(lia))|].
  split; [exact (H9 ltac:(discriminate))|exact (H10 ltac:(lia) ltac:(lia))].
Qed.
Example C85_ex_reads : forall h c m p, reading h p [9] [130; 44; 7] ->
  brings ex_codec_python h [("m", enc_midi_reader c m); ("r", VRef p); ("z", VInt 0); ("q", VInt 0)] (meth (name "m") "_read_var_len" [name "r"])
    (fun v h' => (v = Ok (VInt 300) /\ reading h' p [9; 130; 44] [7]) /\ keeps [p] h h') /\
  brings ex_codec_python h [("m", enc_midi_reader c m); ("r", VRef p); ("z", VInt 0); ("q", VInt 0)] (meth (name "m") "_read_24" [name "r"])
    (fun v h' => (v = Ok (VInt 8530951) /\ reading h' p [9; 130; 44; 7] []) /\ keeps [p] h h') /\
  brings ex_codec_python h [("m", enc_midi_reader c m); ("r", VRef p); ("z", VInt 0); ("q", VInt 0)] (meth (name "m") "_read_32" [name "r"])
    (fun v h' => v = Err MIDIParsingError /\ keeps [p] h h').
Proof.
  intros h c m p R. destruct (C85_reads ex_codec_python h c m p [9] [130; 44; 7] ltac:(repeat constructor; unfold is_byte; lia) R) as (H1 & H2 & _).
  split; [apply (H2 [130; 44] 300 [7] eq_refl); exists [2; 44]; repeat split; [discriminate|repeat constructor; unfold is_digit; lia]|].
  split; [exact (proj1 (H1 "_read_24" 3%nat ltac:(cbn; tauto)) 8530951 [] eq_refl ltac:(cbn; lia))|].
  exact (proj2 (H1 "_read_32" 4%nat ltac:(cbn; tauto)) ltac:(cbn; lia)).
Qed.
