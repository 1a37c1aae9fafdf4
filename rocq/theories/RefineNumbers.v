(** Running the source of the reading helpers of MIDIReader (io/midi.py 363-386, 403-434) gives what the model in
    MidiReader.v says. *)
From Coq Require Import ZArith List Bool String Lia.
From Verif Require Import Py PyFloat PySort Signature Tone Note Track Show MidiWriter MidiReader PyAst PySem PySource PyProgram SpecBase MidiSpec SigFacts
  RefineBase RefineSignature RefineTone RefineNote RefineWriter RefineTrack RefineAdd RefineReader.
Import ListNotations.
Open Scope string_scope.
Open Scope list_scope.
Open Scope Z_scope.

(** The call of a function on the reader [r]: the next reader and what is read. *)
Ltac next_read L m r Gd :=
  let h1 := fresh "h" in let G1 := fresh "G" in let K1 := fresh "K" in let t := fresh "t" in
  let r1 := fresh "r" in let x := fresh "x" in let e := fresh "e" in let E := fresh "E" in
  eapply reaches_trans; [eapply L; [exact Gd|..|first [eassumption|unfold reader_at; heap_get]]|];
  [..|intros t (h1 & -> & G1 & K1); pose proof G1 as ?; unfold reader_at in G1;
   destruct (m r) as [r1 [x|e]] eqn:E; cbn [fst snd outcome_of ends] in * ].

Ltac until_call f :=
  repeat (lazymatch goal with |- RefineBase.reaches _ _ (Ca (VFun f) _ _ _ _) _ => fail | _ => adv end).
Ltac read_end := apply reaches_here; eexists; split; [reflexivity|]; split; [eassumption|keep].

(** A reader of files; [c] is the value of _middle_c. *)
Definition enc_midi_reader (c : value) (m : midi_reader) : value :=
  VObj "MIDIReader" [("_middle_c", c); ("_middle_c_delta", VInt (mr_delta m))].

Section Numbers.
Variable Y : python.
Notation steps := (steps melodia Y).
Notation reaches := (reaches melodia Y).
Notation reads := (reads Y).

Lemma parse_header_runs p r : good_reader r ->
  reads (VFun "MIDIReader._parse_header") [VRef p] p
        (fun x => VTuple [VInt (fst (fst x)); VInt (snd (fst x)); VInt (snd x)]) parse_header r.
Proof.
  intros GR h K G. pose proof G as G0. unfold reader_at in G0. unfold parse_header, rbind.
  until_call "_Reader.read". pose proof (read_good 2 r GR ltac:(lia)) as [GR1 _].
  next_read (read_runs Y p 2 r) (read 2) r GR; [lia| |read_end].
  until_call "_Reader.read". pose proof (read_good 2 r0 GR1 ltac:(lia)) as [GR2 _].
  next_read (read_runs Y p 2 r0) (read 2) r0 GR1; [lia| |read_end].
  until_call "_Reader.read".
  next_read (read_runs Y p 2 r1) (read 2) r1 GR2; [lia| |read_end].
  go. read_end.
Qed.

(** ** Numbers of variable length *)
Lemma var_len_good fuel : forall acc r, good_reader r -> 0 <= acc -> good_reader (fst (var_len_rest fuel acc r)) /\
  match snd (var_len_rest fuel acc r) with Ok z => 0 <= z | Err _ => True end.
Proof.
  induction fuel as [|k IH]; intros acc r G A; cbn [var_len_rest]; [cbn; auto|].
  unfold rbind. pose proof (read_8_good r G) as (G1 & D1 & R1).
  destruct (read_8 r) as [r1 [x|e]]; cbn [fst snd] in *; [|auto].
  destruct R1 as [B I1]. assert (0 <= Z.shiftl acc 7 + Z.land x 127).
  { rewrite Z.shiftl_mul_pow2 by lia. pose proof (proj2 (Z.land_nonneg x 127)). lia. }
  destruct (Z.land x 128 =? 0); [cbn; auto|]. apply IH; assumption.
Qed.
Lemma read_var_len_good r : good_reader r -> good_reader (fst (read_var_len r)) /\
  match snd (read_var_len r) with Ok z => 0 <= z | Err _ => True end.
Proof.
  intros G. unfold read_var_len, rbind. pose proof (read_8_good r G) as (G1 & D1 & R1).
  destruct (read_8 r) as [r1 [x|e]]; cbn [fst snd] in *; [|auto].
  destruct (Z.land x 128 =? 0); [cbn; split; [assumption|lia]|]. apply var_len_good; [assumption|]. apply Z.land_nonneg. lia.
Qed.

Definition var_len_read_loop : list stmt :=
  Eval calc in match f_body src_MIDIReader__read_var_len with _ :: _ :: _ :: SWhile _ b :: _ => b | _ => [] end.
Definition var_len_env (p : nat) (acc : Z) (x : option Z) : env :=
  match x with
  | None => [("data", VRef p); ("result", VInt acc)]
  | Some v => [("data", VRef p); ("result", VInt acc); ("value", VInt v)]
  end.
Lemma var_len_rest_runs p K (Q : state -> Prop) : forall fuel acc x r h, good_reader r -> reader_at h p r ->
  snd (var_len_rest fuel acc r) <> Err OutOfFuel ->
  (forall h', reader_at h' p (fst (var_len_rest fuel acc r)) -> keeps [p] h h' ->
     match snd (var_len_rest fuel acc r) with
     | Ok z => forall x', reaches (Ex [] (var_len_env p z x') h' K) Q
     | Err e => Q (Thr e h')
     end) ->
  reaches (Ev (EConst (VBool true)) (var_len_env p acc x) h (KWhile (EConst (VBool true)) var_len_read_loop (var_len_env p acc x) :: K)) Q.
Proof.
  induction fuel as [|k IH]; intros acc x r h GR G NF C; cbn [var_len_rest] in *; [cbn in NF; congruence|].
  pose proof G as G0. unfold reader_at in G0. unfold rbind in *.
  assert (R8 : read_8 r = match read 1 r with (r', Ok a) => (r', Ok (from_bytes_be a)) | (r', Err e) => (r', Err e) end).
  { unfold read_8, rbind. destruct (read 1 r) as [? [?|?]]; reflexivity. }
  pose proof (read_8_good r GR) as (GR1 & _ & _). rewrite R8 in *. clear R8.
  unfold var_len_env at 1 2, var_len_read_loop at 1.
  destruct x; until_call "_Reader.read"; (next_read (read_runs Y p 1 r) (read 1) r GR; [lia| |]).
  2,4: apply reaches_here; apply C; assumption.
  all: destruct (Z.land (from_bytes_be x) 128 =? 0) eqn:B; cbn [fst snd ret] in *.
  all: go_with ltac:(idtac; lazymatch goal with
    | |- RefineBase.reaches _ _ (Ex [] _ _ ?K') _ => constr_eq K' K; refine (C _ _ _ (Some _)); assumption
    | |- RefineBase.reaches _ _ (Ev (EConst (VBool true)) _ _ _) _ => eapply (IH _ (Some _)); [exact GR1|eassumption|exact NF|] end).
  all: intros h' G' K'; apply C; [exact G'|keep].
Qed.
Lemma read_var_len_runs p r : good_reader r -> snd (read_var_len r) <> Err OutOfFuel ->
  reads (VFun "MIDIReader._read_var_len") [VRef p] p VInt read_var_len r.
Proof.
  intros GR NF h K G. pose proof G as G0. unfold reader_at in G0. unfold read_var_len, rbind in *.
  assert (R8 : read_8 r = match read 1 r with (r', Ok a) => (r', Ok (from_bytes_be a)) | (r', Err e) => (r', Err e) end).
  { unfold read_8, rbind. destruct (read 1 r) as [? [?|?]]; reflexivity. }
  pose proof (read_8_good r GR) as (GR1 & _ & _). rewrite R8 in *. clear R8.
  until_call "_Reader.read". next_read (read_runs Y p 1 r) (read 1) r GR; [lia| |read_end].
  destruct (Z.land (from_bytes_be x) 128 =? 0) eqn:B; cbn [fst snd ret] in *.
  - go. read_end.
  - repeat (lazymatch goal with |- RefineBase.reaches _ _ (Ev (EConst (VBool true)) _ _ _) _ => fail | _ => adv end).
    eapply (var_len_rest_runs p _ _ _ _ None); [exact GR1|eassumption|exact NF|].
    intros h' G' K'. destruct (var_len_rest _ _ r0) as [r2 [z|e]]; cbn [fst snd] in *.
    + intros [x'|]; unfold var_len_env; go; read_end.
    + eexists; split; [reflexivity|]; split; [eassumption|keep].
Qed.

(** ** MIDIReader *)
Lemma midi_reader_new_runs ca c h K : digit_table (py_nd Y) -> tone_value ca c ->
  steps (Ca (VClass "MIDIReader") [c] [] h K) (ends (outcome_of (enc_midi_reader c) (midi_reader_new (py_nd Y) ca)) h K).
Proof.
  intros N T. unfold midi_reader_new.
  destruct T; cbn [tone_of_arg]; unfold enc_tone, v_tone, enc_sig, v_signature;
    go_with ltac:(idtac; lazymatch goal with
      | |- PySem.steps _ _ (Ca (VClass "Tone") _ _ _ _) _ => call tone_new_runs; plain
      | |- PySem.steps _ _ (Ca (VBound (VClass "Tone") "Tone.from_notation") _ _ _ _) _ =>
          eapply steps_trans; [eapply from_notation_method_runs; assumption|]; outcome
      end);
    answers; cbn; unfold enc_midi_reader; cbn; try apply steps_refl.
Qed.
Lemma pitch_to_tone_runs c m p h K :
  steps (Ca (VFun "MIDIReader._pitch_to_tone") [enc_midi_reader c m; VInt p] [] h K) (Rt (enc_tone (pitch_to_tone m p)) h K).
Proof.
  destruct m as [d]. unfold enc_midi_reader. cbn [mr_delta].
  go_with ltac:(idtac; lazymatch goal with
      | |- PySem.steps _ _ (Ca (VClass "Tone") _ _ _ _) _ => call tone_new_runs; plain end). apply steps_refl.
Qed.
Lemma time_to_signature_valid t q s : time_to_signature t q = Ok s -> valid_sig s.
Proof.
  unfold time_to_signature. destruct (negb (q >? 0)); [discriminate|].
  destruct (sig_new _ _) as [x|e] eqn:E; cbn [bind]; [|discriminate]. intros N.
  pose proof (sig_new_valid _ _ _ E) as V.
  destruct (sig_normalized_spec x V) as (s' & E' & V' & _). congruence.
Qed.
Lemma time_to_signature_runs t q h K :
  steps (Ca (VFun "MIDIReader._time_to_signature") [VInt t] [("ticks_per_quarter", VInt q)] h K)
        (ends (outcome_of enc_sig (time_to_signature t q)) h K).
Proof.
  unfold time_to_signature. destruct (q >? 0) eqn:Q; cbn [negb].
  - assert (D : (q =? 0) = false) by lia.
    go_with ltac:(idtac; lazymatch goal with
      | |- PySem.steps _ _ (Ca (VClass "Signature") _ _ _ _) _ => call new_runs
      | |- PySem.steps _ _ (ends (outcome_of enc_sig (sig_new _ (4 * 4096))) _ _) _ =>
          let x := fresh "x" in let E := fresh "E" in destruct (sig_new _ (4 * 4096)) as [[n d]|x] eqn:E; cbn [bind outcome_of ends]
      | E : sig_new _ (4 * 4096) = Ok (mkSig ?n ?d) |- PySem.steps _ _ (Ca (VFun "Signature.normalized") _ _ _ _) _ =>
          let s := fresh "s" in let N := fresh "N" in
          destruct (sig_normalized_spec _ (sig_new_valid _ _ _ E)) as (s & N & _); rewrite N;
          call (normalized_runs Y n d); [exact N|]
      end); finish_with.
  - go. finish_with.
Qed.
End Numbers.
