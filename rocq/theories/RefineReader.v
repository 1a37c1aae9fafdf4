(** Running the source of _Reader and of the reading helpers of MIDIReader (io/midi.py 21-40, 403-450) gives what
    the model in MidiReader.v says. *)
From Coq Require Import ZArith List Bool String Lia.
From Verif Require Import Py PyFloat PySort Signature Tone Note Track Show MidiWriter MidiReader PyAst PySem PySource PyProgram SpecBase MidiSpec SigFacts
  RefineBase RefineSignature RefineTone RefineNote RefineWriter RefineTrack RefineAdd.
Import ListNotations.
Open Scope string_scope.
Open Scope list_scope.
Open Scope Z_scope.

(** A reader on the heap. *)
Definition reader_at (h : heap) (p : nat) (r : reader) : Prop :=
  get h p = Some (HInst "_Reader" [("_data", VBytes (rd_data r)); ("_idx", VInt (rd_idx r))]).
(** Readers of bytes, that stand inside of their data. *)
Definition good_reader (r : reader) : Prop :=
  Forall is_byte (rd_data r) /\ 0 <= rd_idx r <= Z.of_nat (List.length (rd_data r)).

(** What is left to read. *)
Definition left (r : reader) : Z := Z.of_nat (List.length (rd_data r)) - rd_idx r.

Lemma slice_known l i n : 0 <= i -> 0 <= n -> i + n <= Z.of_nat (List.length l) ->
  slice l i (i + n) = firstn (Z.to_nat n) (skipn (Z.to_nat i) l).
Proof.
  intros A B C. unfold slice, bound. replace (i <? 0) with false by lia. replace (i + n <? 0) with false by lia.
  rewrite !Z.min_l by lia. do 2 f_equal. lia.
Qed.

Lemma read_good n r : good_reader r -> 0 <= n -> good_reader (fst (read n r)) /\
  match snd (read n r) with
  | Ok b => Forall is_byte b /\ List.length b = Z.to_nat n /\ rd_idx (fst (read n r)) = rd_idx r + n
  | Err e => e = MIDIParsingError
  end.
Proof.
  intros [B I] N. unfold read, good_reader. destruct (_ - _ <? n) eqn:E; cbn [fst snd rd_data rd_idx].
  - split; [|reflexivity]. split; [assumption|lia].
  - split; [split; [assumption|lia]|]. split; [|split; [|reflexivity]].
    + apply Forall_forall. intros x X. rewrite Forall_forall in B. apply B. clear -X. rewrite <- (firstn_skipn (Z.to_nat (rd_idx r)) (rd_data r)).
      apply in_or_app. right. rewrite <- (firstn_skipn (Z.to_nat n) (skipn _ _)). apply in_or_app. left. exact X.
    + rewrite firstn_length, skipn_length. lia.
Qed.
Lemma read_data n r : rd_data (fst (read n r)) = rd_data r.
Proof. unfold read. destruct (_ <? _); reflexivity. Qed.
Lemma read_8_good r : good_reader r -> good_reader (fst (read_8 r)) /\ rd_data (fst (read_8 r)) = rd_data r /\
  match snd (read_8 r) with
  | Ok z => 0 <= z < 256 /\ rd_idx (fst (read_8 r)) = rd_idx r + 1
  | Err e => e = MIDIParsingError
  end.
Proof.
  intros G. pose proof (read_good 1 r G ltac:(lia)) as [A B]. pose proof (read_data 1 r) as D.
  unfold read_8, rbind. destruct (read 1 r) as [r' [b|e]]; cbn [fst snd ret] in *; (split; [assumption|split; [assumption|]]); [|assumption].
  destruct B as (F & L & I). split; [|assumption]. destruct b as [|x [|y b]]; try discriminate.
  inversion F; subst. unfold is_byte in *. unfold from_bytes_be. cbn. lia.
Qed.

Section Reader.
Variable Y : python.
Notation steps := (steps melodia Y).
Notation reaches := (reaches melodia Y).

(** The call ends as the computation [m] on the reader at [p] does. *)
Definition reads (f : value) (args : list value) (p : nat) {A} (enc : A -> value) (m : R A) (r : reader) : Prop :=
  forall h K, reader_at h p r ->
  reaches (Ca f args [] h K) (returns (outcome_of enc (snd (m r))) K (fun h' => reader_at h' p (fst (m r)) /\ keeps [p] h h')).

Ltac reader_end := cbn [fst snd outcome_of ends]; apply reaches_here; eexists; split; [reflexivity|]; split;
  [unfold reader_at; cbn [rd_data rd_idx]; heap_get|keep].

Lemma reader_new_runs b h K :
  reaches (Ca (VClass "_Reader") [VBytes b] [] h K)
          (returns (Ok (VRef (next_place h))) K (fun h' => reader_at h' (next_place h) (reader_new b) /\ keeps [] h h')).
Proof.
  go. apply reaches_here; eexists; split; [reflexivity|]; split; [unfold reader_at, reader_new; cbn [rd_data rd_idx]; heap_get|keep].
Qed.

Lemma read_runs p n r : good_reader r -> 0 <= n -> reads (VFun "_Reader.read") [VRef p; VInt n] p VBytes (read n) r.
Proof.
  intros [B I] N h K G. unfold reader_at in G. unfold read. destruct r as [d i]. cbn [rd_data rd_idx] in *.
  destruct (Z.of_nat (List.length d) - i <? n) eqn:E; go.
  - reader_end.
  - rewrite slice_known by lia. reader_end.
Qed.
Lemma shift_runs p n r : reads (VFun "_Reader.shift") [VRef p; VInt n] p (fun _ => VNone) (shift n) r.
Proof.
  intros h K G. unfold reader_at in G. unfold shift. destruct r as [d i]. cbn [rd_data rd_idx] in *. go. reader_end.
Qed.
Lemma reader_len_runs p r h K : reader_at h p r ->
  steps (Ca (VBuiltin "len") [VRef p] [] h K) (Rt (VInt (reader_len r)) h K).
Proof. intros G. unfold reader_at in G. unfold reader_len. go. apply steps_refl. Qed.

Ltac reading tac :=
  idtac; lazymatch goal with
  | |- RefineBase.reaches _ _ (Ca (VFun "_Reader.read") [VRef ?p; VInt ?n] [] ?h ?K) _ =>
      eapply reaches_trans; [eapply (read_runs p n); [|tac|eassumption]|]
  end.

Lemma read_bytes_runs f n p r : 0 <= n -> good_reader r ->
  In (f, n) [("MIDIReader._read_8", 1); ("MIDIReader._read_16", 2); ("MIDIReader._read_24", 3); ("MIDIReader._read_32", 4)] ->
  reads (VFun f) [VRef p] p VInt (do b <- read n; ret (from_bytes_be b)) r.
Proof.
  intros N GR I h K G. pose proof G as G0. unfold reader_at in G0. unfold rbind. pose proof (read_runs p n r GR N) as RR.
  cbn [In] in I; repeat (destruct I as [I|I]; [injection I as <- <-|]); [..|destruct I].
  all: repeat (lazymatch goal with |- RefineBase.reaches _ _ (Ca (VFun "_Reader.read") _ _ _ _) _ => fail | _ => adv end);
    (eapply reaches_trans; [eapply RR; exact G|]); intros t (h1 & -> & G1 & K1);
    destruct (read _ r) as [r1 [b|e]]; cbn [fst snd outcome_of ends] in *; go;
    (apply reaches_here; eexists; split; [reflexivity|]; split; [exact G1|exact K1]).
Qed.
Lemma read_8_runs p r : good_reader r -> reads (VFun "MIDIReader._read_8") [VRef p] p VInt read_8 r.
Proof. intros G. eapply read_bytes_runs; [|exact G|cbn; auto]; lia. Qed.
Lemma read_16_runs p r : good_reader r -> reads (VFun "MIDIReader._read_16") [VRef p] p VInt read_16 r.
Proof. intros G. eapply read_bytes_runs; [|exact G|cbn; auto]; lia. Qed.
Lemma read_24_runs p r : good_reader r -> reads (VFun "MIDIReader._read_24") [VRef p] p VInt read_24 r.
Proof. intros G. eapply read_bytes_runs; [|exact G|cbn; auto]; lia. Qed.
Lemma read_32_runs p r : good_reader r -> reads (VFun "MIDIReader._read_32") [VRef p] p VInt read_32 r.
Proof. intros G. eapply read_bytes_runs; [|exact G|cbn; auto]; lia. Qed.
End Reader.
