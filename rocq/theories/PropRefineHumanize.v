(** Random velocities in runs of the source (C84).

    [py_gauss Y i]: what the i-th call of random.gauss returns, any floats ([usual]).  [but_velocity]: position, pitch and duration of a note.
    [between mn mx]: the velocity is valid and not less than mn and not more than the larger of mn and mx.  [looks_same]: nothing that can be
    read from the tracks differs.  [after_draws l n h h']: only the places [l] have changed, and random.gauss was called [n] times.  [file_of]:
    PropRefineFiles.v.  [humanize_to_file]: y = randomize_velocities(x); b = midi.dumps(y). *)
From Coq Require Import ZArith QArith Qminmax List Bool String Lia Permutation.
From Verif Require Import Py PyFloat PySort Timsort Signature Tone Note Track Show Processing MidiWriter MidiReader PyAst PySem PySource PyProgram SpecBase DecFacts SortFacts FloatFacts
  TrackSpec MidiSpec DumpSpec TripSpec TrackProps SizeProps ProcessingProps
  RefineBase RefineTrack RefineTrackProps RefineProcess RefineSpec RefineDeep RefineTerm Client RefineStore RefineClient RefineClientProps RefineFiles RefineHumanize.
Import ListNotations.
Open Scope string_scope.
Open Scope list_scope.
Open Scope Z_scope.

(** C84: the call, with all arguments and with the default ones. *)
Print humanized.
Theorem C84_randomize :
  forall Y h a b s ops mn mx me va, usual Y -> valid_sig s -> Forall op_ok ops ->
  let t := run (py_sort Y) (track_empty s) ops in
  let l := contents (py_sort Y) s ops in
  let vars := [("t", VRef a); ("lo", VFloat mn); ("hi", VFloat mx); ("m", VFloat me); ("s", VFloat va)] in
  track_at h a b t -> is_float mn = true -> is_float mx = true -> is_float me = true -> is_float va = true ->
  let allowed := valid_velocity mn /\ valid_velocity mx /\ valid_velocity me /\ valid_variance va in
  (allowed -> brings Y h vars (call (name "processing.randomize_velocities") [name "t"; name "lo"; name "hi"; name "m"; name "s"]) (humanized Y h a b s t l mn mx)) /\
  (~ allowed -> brings Y h vars (call (name "processing.randomize_velocities") [name "t"; name "lo"; name "hi"; name "m"; name "s"])
     (fun v h' => v = Err ValueError /\ track_at h' a b t)) /\
  brings Y h vars (call (name "processing.randomize_velocities") [name "t"]) (humanized Y h a b s t l f_half f_one).
Proof. exact c84_randomize. Qed.
(** C84: the file. *)
Theorem C84_file :
  forall Y h a b s ops K, usual Y -> valid_sig s -> Forall op_ok ops ->
  track_at h a b (run (py_sort Y) (track_empty s) ops) ->
  let l := contents (py_sort Y) s ops in
  Forall (fun e => in_midi_range 36 (snd e)) l -> sig_fits s -> Forall (fun e => last_pulse 96 e < 2 ^ 28) l -> Z.of_nat (List.length l) <= 2 ^ 28 ->
  reaches melodia Y (Ex (body humanize_to_file "b") [("x", VRef a)] h (KFun :: K)) (fun w => exists bs h' l',
    w = Rt (VBytes bs) h' K /\ file_of s l' PyFloat.f_120 0 bs /\ Permutation (map but_velocity l') (map but_velocity l) /\
    Forall (fun e => 63 <= note_velocity (snd e) <= 127) l' /\ after_draws [a; b] (List.length l) h h').
Proof. exact c84_file. Qed.
(** One command for the theorems of this file: it runs through all proofs below them, which takes long. *)
Definition C84_theorems := (C84_randomize, C84_file).
Print Assumptions C84_theorems.

(** random.gauss returns NaN, then minus infinity, then 3/4. *)
Definition ex_gauss (i : nat) (m s : float) : float := match i with O => S754_nan | 1%nat => S754_infinity true | _ => f_three_quarters end.
Definition ex_python : python :=
  mkPython ascii_digit shortest_digits (fun _ => Err OverflowError) (fun x => x) ex_gauss (fun _ a _ => a) cpython_sort.
Lemma ex_usual : usual ex_python.
Proof.
  split; [exact ascii_digit_table|]. split; [exact (proj1 c74_sort)|]. split; [exact (proj2 c74_sort)|].
  intros i m s. destruct i as [|[|i]]; reflexivity.
Qed.
(** Two notes that sound together, and one of velocity 0. *)
Definition ex_ops : list op :=
  [OAdd (WNote (mkNote (mkTone 60) (mkSig 1 8) f_one)) (Some (SA_sig (mkSig 3 4))); OAdd (WNote (mkNote (mkTone 48) (mkSig 1 8) f_half)) (Some (SA_sig (mkSig 3 4)));
   OAdd (WNote (mkNote (mkTone 36) (mkSig 1 2) f_zero)) (Some (SA_sig (mkSig 0 1)))].
Definition ex_track : track := run cpython_sort (track_empty (mkSig 4 4)) ex_ops.
Definition ex_heap : heap := mkHeap [enc_track 1 ex_track; HList (map enc_entry (t_heap ex_track))] 0.
Lemma ex_valid n k : 0 <= n -> 0 <= k -> valid_sig (mkSig n (2 ^ k)).
Proof. intros A B. split; [exact A|]. exists k. auto. Qed.
Lemma ex_ok : Forall op_ok ex_ops.
Proof.
  repeat apply Forall_cons; [| | |apply Forall_nil].
  all: split; [apply Forall_cons; [split; [|apply unit_test; reflexivity]|apply Forall_nil]|intros s E; injection E as <-].
  1,3: apply (ex_valid 1 3); lia. 1,2: apply (ex_valid 3 2); lia. 1: apply (ex_valid 1 1); lia. apply (ex_valid 0 0); lia.
Qed.
Example C84_ex_randomize :
  brings ex_python ex_heap [("t", VRef 0); ("lo", VFloat f_half); ("hi", VFloat f_one); ("m", VFloat S754_nan); ("s", VFloat f_one)]
    (call (name "processing.randomize_velocities") [name "t"; name "lo"; name "hi"; name "m"; name "s"]) (fun v h' => v = Err ValueError) /\
  brings ex_python ex_heap [("t", VRef 0); ("lo", VFloat f_half); ("hi", VFloat f_zero); ("m", VFloat f_one); ("s", VFloat f_one)]
    (call (name "processing.randomize_velocities") [name "t"; name "lo"; name "hi"; name "m"; name "s"])
    (fun v h' => exists c d r, v = Ok (VRef c) /\ track_at h' c d r /\ h_calls h' = 3%nat /\ List.length (TrackSpec.yields cpython_sort r) = 3%nat /\ Forall (fun e => (fval (n_velocity (snd e)) == 1 # 2)%Q) (TrackSpec.yields cpython_sort r)).
Proof.
  pose proof (fun mn mx me va A B C D => C84_randomize ex_python ex_heap 0%nat 1%nat (mkSig 4 4) ex_ops mn mx me va ex_usual (ex_valid 4 2 ltac:(lia) ltac:(lia)) ex_ok ltac:(split; reflexivity) A B C D) as H.
  split.
  - intros K. destruct (proj1 (proj2 (H f_half f_one S754_nan f_one eq_refl eq_refl eq_refl eq_refl))) with (K := K) as (s & R & v & h' & -> & E & _).
    + intros (_ & _ & (_ & [] & _) & _).
    + eexists. split; [exact R|]. exists v, h'. auto.
  - intros K. destruct (proj1 (H f_half f_zero f_one f_one eq_refl eq_refl eq_refl eq_refl)) with (K := K) as (s & R & v & h' & -> & c & d & r & t' & -> & _ & _ & T & _ & P & B & _ & _ & _ & AD).
    + repeat split; try (apply unit_test; reflexivity); try reflexivity; try discriminate. right. repeat split. discriminate.
    + eexists. split; [exact R|]. eexists _, h'. split; [reflexivity|]. exists c, d, r. split; [reflexivity|]. split; [exact T|]. split; [exact AD|].
      apply Permutation_length in P. rewrite !map_length in P. split.
      * exact P.
      * eapply Forall_impl; [|exact B]. intros e [_ [A B1]]. apply Qle_antisym; [eapply Qle_trans; [exact B1|vm_compute; discriminate]|eapply Qle_trans; [|exact A]; vm_compute; discriminate].
Qed.
Example C84_ex_file K : reaches melodia ex_python (Ex (body humanize_to_file "b") [("x", VRef 0)] ex_heap (KFun :: K)) (fun w => exists bs h' l',
    w = Rt (VBytes bs) h' K /\ file_of (mkSig 4 4) l' PyFloat.f_120 0 bs /\ 65 <= Z.of_nat (List.length bs) <= 83 /\
    Permutation (map (fun e => pitch (n_tone (snd e))) l') [60; 48; 36] /\ Forall (fun e => 63 <= note_velocity (snd e) <= 127) l' /\ h_calls h' = 3%nat).
Proof.
  destruct (C84_file ex_python ex_heap 0 1 (mkSig 4 4) ex_ops K ex_usual (ex_valid 4 2 ltac:(lia) ltac:(lia)) ex_ok ltac:(split; reflexivity)) as (w & R & bs & h' & l' & -> & FB & P & LV & AD).
  - repeat constructor; vm_compute; discriminate.
  - split; cbn [nominator denominator]; lia.
  - repeat constructor.
  - vm_compute. discriminate.
  - eexists. split; [exact R|]. exists bs, h', l'. split; [reflexivity|]. split; [exact FB|].
    split; [|split; [|split; [exact LV|exact (proj2 AD)]]].
    + destruct FB as (_ & SZ & _). pose proof (Permutation_length P) as PL. rewrite !map_length in PL. rewrite PL in SZ. exact SZ.
    + apply (Permutation_map (fun x => snd (fst x))) in P. rewrite !map_map in P. exact P.
Qed.
