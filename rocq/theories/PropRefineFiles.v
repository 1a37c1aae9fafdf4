(** What the source reads from any bytes and writes for any track (C82).

    [file_says data q evs]: the bytes [data] are a file with [q] pulses per quarter and the events [evs]; [status_missing], [division_missing]:
    AcceptSpec.v.  [voices evs]: the channels with events ([0] if there are none); [note_events_of], [on_channel], [notes_listed], [note_read]: ReaderSpec.v.
    [brings Y h vars x Q]: the expression [x] ends with a value or an exception and a heap with [Q]; [fails]: with an exception, and all objects stay
    as they are; [calls_without_end]: the calls get deeper without end.  [contents sort s ops]: what the history [ops] added to Track(s).
    [all_fit]: channel, tones, time signature, tempo and times fit in the file; [file_of s l bpm k bs]: [bs] is the file with the notes [l], spelled out below.
    [smf ppq body]: a file of one track; [stream_bytes]: how events are written; [tempo_fits], [sig_fits], [in_midi_range]: DumpSpec.v.
    [there_and_back]: b = midi.dumps(x); y = midi.loads(b); n = len(y); m = len(x); r = n <= m; e = n == m. *)
From Coq Require Import ZArith QArith List Bool String Lia Permutation Sorted.
From Verif Require Import Py PyFloat PySort Signature Tone Note Track Show MidiWriter MidiReader PyAst PySem PySource PyProgram SpecBase DecFacts SortFacts FloatFacts
  TrackSpec MidiSpec DumpSpec ReaderSpec AcceptSpec TripSpec TrackProps LoadProps SizeProps PropAccept Timsort
  RefineBase RefineTrack RefineTrackProps RefineSpec RefineDeep RefineLoadProps RefineTerm Client RefineStore RefineClient RefineClientProps RefineFiles.
Import ListNotations.
Open Scope string_scope.
Open Scope list_scope.
Open Scope Z_scope.

(** C82: what midi.loads does with any bytes. *)
Theorem C82_reads :
  forall Y h data k, natural (py_sort Y) -> sort_contract (py_sort Y) -> Forall is_byte data ->
  let vars := [("b", VBytes data); ("k", VInt k)] in
  let all := call (name "midi.loads") [name "b"] in
  let one := call (name "midi.loads") [name "b"; name "k"] in
  (** a file: the notes of one channel, no such channel, the notes of all channels *)
  (forall q evs, file_says data q evs ->
     let notes c pairs := map (ReaderSpec.note_read 24 q (on_channel c (note_events_of evs))) pairs in
     (In k (voices evs) -> brings Y h vars one (fun v h' => keeps [] h h' /\ exists a b t pairs, v = Ok (VRef a) /\ track_at h' a b t /\
        get h a = None /\ get h b = None /\ t_signature t = chan_sig evs k /\
        notes_listed (on_channel k (note_events_of evs)) pairs /\ Permutation (map value_of (TrackSpec.yields (py_sort Y) t)) (notes k pairs))) /\
     (~ In k (voices evs) -> fails Y h vars one ValueError) /\
     brings Y h vars all (fun v h' => keeps [] h h' /\ exists a b t pairs, v = Ok (VRef a) /\ track_at h' a b t /\ get h a = None /\ get h b = None /\
        (forall c, In c (voices evs) -> notes_listed (on_channel c (note_events_of evs)) (pairs c)) /\
        Permutation (map value_of (TrackSpec.yields (py_sort Y) t)) (flat_map (fun c => notes c (pairs c)) (voices evs)))) /\
  (** a data byte where a status is missing; notes under a division of 0; everything else *)
  (status_missing data -> calls_without_end Y h vars all /\ calls_without_end Y h vars one) /\
  (division_missing data -> fails Y h vars all AssertionError /\ fails Y h vars one AssertionError) /\
  ((forall q evs, ~ file_says data q evs) -> ~ status_missing data -> ~ division_missing data ->
     fails Y h vars all MIDIParsingError /\ fails Y h vars one MIDIParsingError).
Proof. exact c82_reads. Qed.
(** C82: what midi.dumps does with any track. *)
Print file_of.
Print all_fit.
Theorem C82_writes :
  forall Y h a b s ops bpm k, natural (py_sort Y) -> sort_contract (py_sort Y) -> valid_sig s -> Forall op_ok ops ->
  track_at h a b (run (py_sort Y) (track_empty s) ops) ->
  let l := contents (py_sort Y) s ops in
  let ends_with Q := brings Y h [("t", VRef a); ("b", VFloat bpm); ("k", VInt k)] (call (name "midi.dumps") [name "t"; name "b"; name "k"])
    (fun v h' => Q v /\ keeps [a; b] h h') in
  let in_range := Forall (fun e => in_midi_range 36 (snd e)) l in
  (~ 0 <= k <= 15 \/ ~ in_range -> ends_with (fun v => v = Err ValueError)) /\
  (0 <= k <= 15 -> in_range -> ~ (sig_fits s /\ tempo_fits bpm) ->
     ends_with (fun v => exists e, v = Err e /\ (e = ValueError \/ e = OverflowError \/ e = ZeroDivisionError))) /\
  (all_fit s l bpm k -> Z.of_nat (List.length l) <= 2 ^ 28 -> ends_with (fun v => exists bs, v = Ok (VBytes bs) /\ file_of s l bpm k bs)).
Proof. exact c82_writes. Qed.
(** C82: how many notes are left after midi.loads(midi.dumps(x)).  (1198000 notes are less than 16 MiB.) *)
Theorem C82_back :
  forall Y h a b s ops K, usual Y -> valid_sig s -> Forall op_ok ops ->
  track_at h a b (run (py_sort Y) (track_empty s) ops) ->
  let l := contents (py_sort Y) s ops in
  Forall (fun e => in_midi_range 36 (snd e)) l -> sig_fits s -> Forall (fun e => last_pulse 96 e < 2 ^ 28) l -> Z.of_nat (List.length l) <= 1198000 ->
  let ends_with x v := reaches melodia Y (Ex (body there_and_back x) [("x", VRef a)] h (KFun :: K)) (fun w => exists h', w = Rt v h' K /\ keeps [a; b] h h') in
  (** no note is added *)
  ends_with "r" (VBool true) /\
  (** and none is lost if they are apart and can be heard *)
  (ForallOrdPairs apart l -> consistent l -> Forall audible l -> ends_with "e" (VBool true)).
Proof. exact c82_back. Qed.
(** One command for the theorems of this file: it runs through all proofs below them, which takes long. *)
Definition C82_theorems := (C82_reads, C82_writes, C82_back).
Print Assumptions C82_theorems.

Definition ex_python : python :=
  mkPython ascii_digit shortest_digits (fun _ => Err OverflowError) (fun x => x) (fun _ _ _ => f_half) (fun _ a _ => a) cpython_sort.
Lemma ex_usual : usual ex_python.
Proof.
  split; [exact ascii_digit_table|]. split; [exact (proj1 c74_sort)|]. split; [exact (proj2 c74_sort)|]. reflexivity.
Qed.
(** The file of the example of C57: events on channel 3 only. *)
Lemma ex_listed : notes_listed (on_channel 3 (note_events_of ex_events)) [(0, 1)]%nat.
Proof.
  change (on_channel 3 (note_events_of ex_events)) with [mkNE 0 3 60 100 true; mkNE 96 3 60 64 false].
  split; [|repeat constructor]. intros a b. split.
  - intros [X|[]]. injection X as <- <-. eexists _, _. repeat split; try reflexivity; try lia.
    intros (i & e & X & _). destruct i; discriminate X.
  - intros (e & f & A & B & C & D & E & _). destruct a as [|[|[|a]]]; cbn in A; try discriminate A; injection A as <-; try discriminate D.
    destruct b as [|[|[|b]]]; cbn in B; try discriminate B; try lia. left. reflexivity.
Qed.
Example C82_ex_reads h :
  fails ex_python h [("b", VBytes ex_accepted); ("k", VInt 0)] (call (name "midi.loads") [name "b"; name "k"]) ValueError /\
  brings ex_python h [("b", VBytes ex_accepted); ("k", VInt 3)] (call (name "midi.loads") [name "b"; name "k"])
    (fun v h' => exists a b t, v = Ok (VRef a) /\ track_at h' a b t /\ get h a = None /\
       map value_of (TrackSpec.yields cpython_sort t) = [(0%Q, 36, (1 # 4)%Q, Qred (fval (velocity_of_byte 100)))]).
Proof.
  assert (B : Forall is_byte ex_accepted) by (unfold is_byte; vm_compute; repeat constructor; discriminate).
  split.
  - destruct (C82_reads ex_python h ex_accepted 0 (proj1 c74_sort) (proj2 c74_sort) B) as (F & _). apply (F 96 ex_events C57_ex_says). vm_compute. intros [X|[]]. discriminate X.
  - destruct (C82_reads ex_python h ex_accepted 3 (proj1 c74_sort) (proj2 c74_sort) B) as (F & _). destruct (F 96 ex_events C57_ex_says) as (ONE & _).
    intros K. destruct (ONE ltac:(vm_compute; auto) K) as (s & R & v & h' & -> & _ & a & b & t & pairs & -> & T & FA & _ & _ & NL & PM).
    eexists. split; [exact R|]. exists (Ok (VRef a)), h'. split; [reflexivity|]. exists a, b, t. refine (conj eq_refl (conj T (conj FA _))).
    rewrite (c49_unique _ _ _ NL ex_listed) in PM. apply Permutation_sym, Permutation_length_1_inv in PM. refine (eq_trans PM _). vm_compute. reflexivity.
Qed.
(** Two eighths at the same position. *)
Definition ex_ops : list op :=
  [OAdd (WNote (mkNote (mkTone 60) (mkSig 1 8) f_one)) (Some (SA_sig (mkSig 3 4))); OAdd (WNote (mkNote (mkTone 48) (mkSig 1 8) f_half)) (Some (SA_sig (mkSig 3 4)))].
Definition ex_track : track := run cpython_sort (track_empty (mkSig 4 4)) ex_ops.
Definition ex_heap : heap := mkHeap [enc_track 1 ex_track; HList (map enc_entry (t_heap ex_track))] 0.
Lemma ex_valid n k : 0 <= n -> 0 <= k -> valid_sig (mkSig n (2 ^ k)).
Proof. intros A B. split; [exact A|]. exists k. auto. Qed.
Lemma ex_ok : Forall op_ok ex_ops.
Proof.
  repeat apply Forall_cons; [| |apply Forall_nil].
  all: split; [apply Forall_cons; [split; [apply (ex_valid 1 3); lia|apply unit_test; reflexivity]|apply Forall_nil]|].
  all: intros s E; injection E as <-; apply (ex_valid 3 2); lia.
Qed.
Lemma ex_range : Forall (fun e => in_midi_range 36 (snd e)) (contents cpython_sort (mkSig 4 4) ex_ops).
Proof. repeat constructor; vm_compute; discriminate. Qed.
Lemma ex_pulses : Forall (fun e => last_pulse 96 e < 2 ^ 28) (contents cpython_sort (mkSig 4 4) ex_ops).
Proof. repeat constructor. Qed.
Example C82_ex_writes : brings ex_python ex_heap [("t", VRef 0); ("b", VFloat f_one); ("k", VInt 5)] (call (name "midi.dumps") [name "t"; name "b"; name "k"])
    (fun v h' => v = Err OverflowError \/ v = Err ValueError \/ v = Err ZeroDivisionError) /\
  brings ex_python ex_heap [("t", VRef 0); ("b", VFloat (float_of_Z 90)); ("k", VInt 5)] (call (name "midi.dumps") [name "t"; name "b"; name "k"])
    (fun v h' => exists bs, v = Ok (VBytes bs) /\ 57 <= Z.of_nat (List.length bs) <= 69 /\ keeps [0; 1]%nat ex_heap h').
Proof.
  split.
  - destruct (C82_writes ex_python ex_heap 0 1 (mkSig 4 4) ex_ops f_one 5 (proj1 c74_sort) (proj2 c74_sort) (ex_valid 4 2 ltac:(lia) ltac:(lia)) ex_ok ltac:(split; reflexivity)) as (_ & E & _).
    intros K. destruct (E ltac:(lia) ex_range) with (K := K) as (s & R & v & h' & -> & (e & -> & X) & _).
    + intros [_ (k & T & A)]. vm_compute in T. injection T as <-. lia.
    + eexists. split; [exact R|]. eexists _, h'. split; [reflexivity|]. destruct X as [->|[-> | ->]]; auto.
  - destruct (C82_writes ex_python ex_heap 0 1 (mkSig 4 4) ex_ops (float_of_Z 90) 5 (proj1 c74_sort) (proj2 c74_sort) (ex_valid 4 2 ltac:(lia) ltac:(lia)) ex_ok ltac:(split; reflexivity)) as (_ & _ & E).
    intros K. destruct E with (K := K) as (s & R & v & h' & -> & (bs & -> & _ & SZ & _) & KE).
    + split; [lia|]. split; [exact ex_range|]. split; [split; cbn [nominator denominator]; lia|]. split; [|exact ex_pulses].
      exists 666666. split; [vm_compute; reflexivity|lia].
    + vm_compute. discriminate.
    + eexists. split; [exact R|]. eexists _, h'. split; [reflexivity|]. exists bs. split; [reflexivity|]. split; [exact SZ|exact KE].
Qed.
Example C82_ex_back K : reaches melodia ex_python (Ex (body there_and_back "e") [("x", VRef 0)] ex_heap (KFun :: K)) (fun w => exists h', w = Rt (VBool true) h' K /\ keeps [0; 1]%nat ex_heap h').
Proof.
  apply (C82_back ex_python ex_heap 0 1 (mkSig 4 4) ex_ops K ex_usual (ex_valid 4 2 ltac:(lia) ltac:(lia)) ex_ok ltac:(split; reflexivity) ex_range).
  - split; cbn [nominator denominator]; lia.
  - exact ex_pulses.
  - vm_compute. discriminate.
  - apply FOP_cons; [apply Forall_cons; [intros X; vm_compute in X; discriminate X|apply Forall_nil]|apply FOP_cons; [apply Forall_nil|apply FOP_nil]].
  - intros e f [<-|[<-|[]]] [<-|[<-|[]]] A B; left; reflexivity.
  - repeat constructor; vm_compute; discriminate.
Qed.
