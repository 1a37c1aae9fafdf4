(** Programs that write a piece note by note: the track, the file, and back (C83).

    [piece n d l]: x = Track((n, d)), then for every line x.add(Note(pitch, (n, d), velocity), where=(m, e)); [body c x]: the statements of [c], then
    return x.  [line_ok]: duration and position are signatures and the velocity is between 0 and 1; [floats]: velocities are floats (of any
    value).  [note_on_line]: position and note of a line.  [all_fit], [file_of]: PropRefineFiles.v.  [to_file]: the piece, then
    b = midi.dumps(x, bpm, k).  [to_file_and_back]: the piece, then b = midi.dumps(x); y = midi.loads(b); r = y == x. *)
From Coq Require Import ZArith QArith List Bool String Lia Permutation Sorted.
From Verif Require Import Py PyFloat PySort Timsort Signature Tone Note Track Show MidiWriter MidiReader PyAst PySem PySource PyProgram SpecBase DecFacts SortFacts FloatFacts
  TrackSpec MidiSpec DumpSpec TripSpec TrackProps SizeProps
  RefineBase RefineTrack RefineTrackProps RefineSpec RefineDeep RefineTerm Client RefineStore RefineClient RefineClientProps RefineFiles RefineScore.
Import ListNotations.
Open Scope string_scope.
Open Scope list_scope.
Open Scope Z_scope.

(** C83: the track, or ValueError. *)
Print made.
Theorem C83_score :
  forall Y n d l h K, usual Y -> floats l ->
  (valid_sig (mkSig n d) -> Forall line_ok l -> reaches melodia Y (Ex (body (piece n d l) "x") [] h (KFun :: K)) (fun w => made Y h n d l w K)) /\
  (~ (valid_sig (mkSig n d) /\ Forall line_ok l) ->
     reaches melodia Y (Ex (body (piece n d l) "x") [] h (KFun :: K)) (fun w => exists h', w = Thr ValueError h' /\ forall p o, get h p = Some o -> get h' p = Some o)).
Proof. exact c83_score. Qed.
(** C83: the file. *)
Theorem C83_file :
  forall Y n d l bpm k h K, usual Y -> floats l -> valid_sig (mkSig n d) -> Forall line_ok l ->
  all_fit (mkSig n d) (map note_on_line l) bpm k -> Z.of_nat (List.length l) <= 2 ^ 28 ->
  reaches melodia Y (Ex (body (to_file n d l bpm k) "b") [] h (KFun :: K)) (fun w => exists bs h',
    w = Rt (VBytes bs) h' K /\ file_of (mkSig n d) (map note_on_line l) bpm k bs /\ keeps [] h h').
Proof. exact c83_file. Qed.
(** C83: the track that is read from the file is equal to the first one. *)
Theorem C83_back :
  forall Y n d l h K, usual Y -> floats l -> valid_sig (mkSig n d) -> Forall line_ok l ->
  let notes := map note_on_line l in
  Forall (fun e => in_midi_range 36 (snd e)) notes -> sig_fits (mkSig n d) -> Forall (fun e => last_pulse 96 e < 2 ^ 28) notes -> Z.of_nat (List.length l) <= 1198000 ->
  ForallOrdPairs apart notes -> TripSpec.plain notes -> Forall audible notes -> Forall (whole_note 96) notes -> Forall byte_velocity notes ->
  reaches melodia Y (Ex (body (to_file_and_back n d l) "r") [] h (KFun :: K)) (fun w => exists h', w = Rt (VBool true) h' K /\ keeps [] h h').
Proof. exact c83_back. Qed.
(** One command for the theorems of this file: it runs through all proofs below them, which takes long. *)
Definition C83_theorems := (C83_score, C83_file, C83_back).
Print Assumptions C83_theorems.

Definition ex_python : python :=
  mkPython ascii_digit shortest_digits (fun _ => Err OverflowError) (fun x => x) (fun _ _ _ => f_half) (fun _ a _ => a) cpython_sort.
Lemma ex_usual : usual ex_python.
Proof.
  split; [exact ascii_digit_table|]. split; [exact (proj1 c74_sort)|]. split; [exact (proj2 c74_sort)|]. reflexivity.
Qed.
(** Two quarters of one tone and an eighth of another. *)
Definition ex_piece : list line :=
  [mkLine 36 1 4 (velocity_of_byte 100) 1 4; mkLine 36 2 8 (velocity_of_byte 1) 0 1; mkLine 40 1 8 (velocity_of_byte 127) 1 8].
Definition ex_sorted : list line :=
  [mkLine 36 2 8 (velocity_of_byte 1) 0 1; mkLine 40 1 8 (velocity_of_byte 127) 1 8; mkLine 36 1 4 (velocity_of_byte 100) 1 4].
Lemma ex_valid n k : 0 <= n -> 0 <= k -> valid_sig (mkSig n (2 ^ k)).
Proof. intros A B. split; [exact A|]. exists k. auto. Qed.
Lemma ex_floats : floats ex_piece.
Proof. repeat constructor. Qed.
Lemma ex_ok : Forall line_ok ex_piece.
Proof.
  repeat apply Forall_cons; [| | |apply Forall_nil].
  - split; [apply (ex_valid 1 2); lia|]. split; [apply unit_test; reflexivity|apply (ex_valid 1 2); lia].
  - split; [apply (ex_valid 2 3); lia|]. split; [apply unit_test; reflexivity|apply (ex_valid 0 0); lia].
  - split; [apply (ex_valid 1 3); lia|]. split; [apply unit_test; reflexivity|apply (ex_valid 1 3); lia].
Qed.
Lemma ex_range : Forall (fun e => in_midi_range 36 (snd e)) (map note_on_line ex_piece).
Proof. repeat constructor; vm_compute; discriminate. Qed.
Lemma ex_pulses : Forall (fun e => last_pulse 96 e < 2 ^ 28) (map note_on_line ex_piece).
Proof. repeat constructor. Qed.
Example C83_ex_score h K : reaches melodia ex_python (Ex (body (piece 3 4 ex_piece) "x") [] h (KFun :: K)) (fun w => exists a b t h',
  w = Rt (VRef a) h' K /\ track_at h' a b t /\ map (fun e => pitch (n_tone (snd e))) (TrackSpec.yields cpython_sort t) = [36; 40; 36]) /\
  reaches melodia ex_python (Ex (body (piece 3 4 (ex_piece ++ [mkLine 0 1 3 f_half 0 1])) "x") [] h (KFun :: K)) (fun w => exists h', w = Thr ValueError h').
Proof.
  split.
  - destruct (proj1 (C83_score ex_python 3 4 ex_piece h K ex_usual ex_floats) (ex_valid 3 2 ltac:(lia) ltac:(lia)) ex_ok) as (w & R & a & b & t & h' & -> & _ & _ & T & _ & _ & PM & SO & _).
    exists (Rt (VRef a) h' K). split; [exact R|]. exists a, b, t, h'. split; [reflexivity|]. split; [exact T|].
    apply (Permutation_map (fun x => (fst x, pitch (n_tone (snd x))))) in PM. rewrite !map_map in PM.
    assert (E : map place_pitch (TrackSpec.yields cpython_sort t) = map place_pitch (map note_on_line ex_sorted)).
    { apply sorted_place_pitch; [exact SO| |].
      - repeat constructor; vm_compute; reflexivity.
      - rewrite map_map. eapply Permutation_trans; [exact PM|]. unfold ex_piece, ex_sorted. cbn [map].
        eapply Permutation_trans; [apply perm_swap|]. apply perm_skip, perm_swap. }
    apply (f_equal (map snd)) in E. rewrite !map_map in E. exact E.
  - destruct (proj2 (C83_score ex_python 3 4 (ex_piece ++ [mkLine 0 1 3 f_half 0 1]) h K ex_usual ltac:(repeat constructor))) as (w & R & h' & -> & _).
    + intros [_ X]. apply Forall_app in X. destruct X as [_ X]. inversion X as [|? ? [[_ (k & A & B)] _] _]; subst. cbn in B.
      destruct (Z.eq_dec k 0) as [->|N0]; [discriminate B|]. replace k with (1 + (k - 1)) in B by lia. rewrite Z.pow_add_r in B by lia. lia.
    + exists (Thr ValueError h'). split; [exact R|]. exists h'. reflexivity.
Qed.
Example C83_ex_file h K : reaches melodia ex_python (Ex (body (to_file 3 4 ex_piece (float_of_Z 90) 9) "b") [] h (KFun :: K)) (fun w => exists bs h',
  w = Rt (VBytes bs) h' K /\ 65 <= Z.of_nat (List.length bs) <= 83 /\ file_of (mkSig 3 4) (map note_on_line ex_piece) (float_of_Z 90) 9 bs).
Proof.
  destruct (C83_file ex_python 3 4 ex_piece (float_of_Z 90) 9 h K ex_usual ex_floats (ex_valid 3 2 ltac:(lia) ltac:(lia)) ex_ok) as (w & R & bs & h' & -> & FB & _).
  - split; [lia|]. split; [exact ex_range|]. split; [split; cbn [nominator denominator]; lia|]. split; [|exact ex_pulses].
    exists 666666. split; [vm_compute; reflexivity|lia].
  - vm_compute. discriminate.
  - exists (Rt (VBytes bs) h' K). split; [exact R|]. exists bs, h'. split; [reflexivity|]. split; [exact (proj1 (proj2 FB))|exact FB].
Qed.
Example C83_ex_back h K : reaches melodia ex_python (Ex (body (to_file_and_back 3 4 ex_piece) "r") [] h (KFun :: K)) (fun w => exists h', w = Rt (VBool true) h' K /\ keeps [] h h').
Proof.
  apply (C83_back ex_python 3 4 ex_piece h K ex_usual ex_floats (ex_valid 3 2 ltac:(lia) ltac:(lia)) ex_ok ex_range).
  - split; cbn [nominator denominator]; lia.
  - exact ex_pulses.
  - vm_compute. discriminate.
  - apply FOP_cons; [|apply FOP_cons; [|apply FOP_cons; [apply Forall_nil|apply FOP_nil]]].
    + apply Forall_cons; [right; vm_compute; discriminate|apply Forall_cons; [intros X; discriminate X|apply Forall_nil]].
    + apply Forall_cons; [intros X; discriminate X|apply Forall_nil].
  - intros e f [<-|[<-|[<-|[]]]] [<-|[<-|[<-|[]]]] A B; first [reflexivity|discriminate A|discriminate B].
  - repeat constructor; vm_compute; discriminate.
  - repeat apply Forall_cons; [| | |apply Forall_nil].
    + split; [exists 96|exists 96]; reflexivity.
    + split; [exists 0|exists 96]; reflexivity.
    + split; [exists 48|exists 48]; reflexivity.
  - repeat apply Forall_cons; [| | |apply Forall_nil]; [exists 100|exists 1|exists 127]; (split; [lia|reflexivity]).
Qed.
