(** Running the source of the helpers of MIDIWriter (io/midi.py 43-195) gives what the model in MidiWriter.v says. *)
From Coq Require Import ZArith List Bool String Lia.
From Verif Require Import Py PyFloat PySort Signature Tone Note Track Show MidiWriter PyAst PySem PySource PyProgram SpecBase SigFacts DecFacts ShowProps
  RefineBase RefineSignature RefineTone RefineNote.
Import ListNotations.
Open Scope string_scope.
Open Scope list_scope.
Open Scope Z_scope.

(** A writer; [c] is the value of _middle_c. *)
Definition enc_writer (c : value) (w : writer) : value :=
  VObj "MIDIWriter" [("_pulses_per_quarter", VInt (w_ppq w)); ("_pulses_per_whole", VInt (w_ppw w)); ("_middle_c", c);
                     ("_middle_c_delta", VInt (w_delta w)); ("_bpm", VFloat (w_bpm w)); ("_channel", VInt (w_channel w))].

(** What _middle_c may be. *)
Inductive middle_value : value -> Prop :=
| mv_tone t : middle_value (enc_tone t)
| mv_int z : middle_value (VInt z)
| mv_str s : middle_value (VStr s).

Section Writer.
Variable Y : python.
Notation steps := (steps melodia Y).
Notation reaches := (reaches melodia Y).
Notation nd := (py_nd Y).

Lemma to_float_127 : fact (to_float 127 = Ok f_127).
Proof. reflexivity. Qed.
Lemma to_float_60 : fact (to_float 60000000 = Ok (float_of_Z 60000000)).
Proof. reflexivity. Qed.

Ltac tones :=
  idtac; lazymatch goal with
  | |- PySem.steps _ _ (Ca (VClass "Tone") _ _ _ _) _ => call tone_new_runs; plain
  | |- PySem.steps _ _ (Ca (VBound (VClass "Tone") "Tone.from_notation") _ _ _ _) _ =>
      eapply steps_trans; [eapply from_notation_method_runs; assumption|]; outcome
  end.
Lemma writer_new_runs q ca c bpm ch h K : digit_table nd -> tone_value ca c ->
  steps (Ca (VClass "MIDIWriter") [VInt q; c; VFloat bpm; VInt ch] [] h K)
        (ends (outcome_of (enc_writer c) (writer_new nd q ca bpm ch)) h K).
Proof.
  intros N T. unfold writer_new.
  destruct T; cbn [tone_of_arg]; unfold enc_tone, v_tone, enc_sig, v_signature; go_with tones;
    answers; cbn; unfold enc_writer; cbn; try apply steps_refl.
Qed.

Lemma signature_to_pulses_runs c w s z h K : signature_to_pulses w s = Ok z -> valid_sig s ->
  steps (Ca (VFun "MIDIWriter._signature_to_pulses") [enc_writer c w; enc_sig s] [] h K) (Rt (VInt z) h K).
Proof.
  unfold signature_to_pulses. intros E V.
  destruct (sig_normalized_spec s V) as ([n d] & S & V' & _). rewrite S in E. cbn [bind nominator denominator] in E.
  assert (z = w_ppw w * n / d) as -> by congruence.
  assert (D : (d =? 0) = false). { destruct V' as [_ (k & K0 & E')]. cbn in E'. pose proof (Z.pow_pos_nonneg 2 k). lia. }
  destruct s as [n0 d0]. unfold enc_writer, enc_sig. cbn [nominator denominator].
  go_with ltac:(idtac; lazymatch goal with |- PySem.steps _ _ (Ca (VFun "Signature.normalized") _ _ _ _) _ =>
    eapply steps_trans; [eapply normalized_runs; exact S|]; unfold enc_sig at 1; cbv [nominator denominator]; plain end).
  apply steps_refl.
Qed.

(** str of a tone and of _middle_c in a message. *)
Lemma str_tone p h K : exists s, steps (Ca (VFun "Tone.__str__") [v_tone p] [] h K) (Rt (VStr s) h K).
Proof.
  destruct (tone_text ascii_digit (mkTone p) ascii_digit_table) as (s & E & _).
  exists s. pose proof (tone_str_runs Y p h K) as R. rewrite E in R. exact R.
Qed.
Ltac str_tones :=
  idtac; lazymatch goal with
  | |- RefineBase.reaches _ _ (Ca (VFun "Tone.__str__") [VObj "Tone" [("_pitch", VInt ?p)]] _ ?h ?K) _ =>
      let s := fresh "s" in let R := fresh "R" in
      destruct (str_tone p h K) as (s & R); eapply reaches_steps; [exact R|]
  end.
Ltac bytes_end :=
  change (Z.to_nat 1) with 1%nat in *; change (Z.to_nat 2) with 2%nat in *;
  change (Z.to_nat 3) with 3%nat in *; change (Z.to_nat 4) with 4%nat in *;
  cbn [bind outcome_of ends negb andb orb];
  repeat (progress answers; cbn [bind outcome_of ends negb andb orb]); rewrite ?app_nil_r; finish_here.

Lemma format_note_on_runs c w n h K : middle_value c ->
  reaches (Ca (VFun "MIDIWriter._format_note_on") [enc_writer c w; enc_note n] [] h K)
          (returns (outcome_of VBytes (format_note_on w n)) K (keeps [] h)).
Proof.
  intros M. pose proof to_float_127 as F. parts n. destruct w as [q w p0 bpm ch].
  unfold enc_writer, format_note_on, velocity_byte. cbn [n_tone pitch n_velocity w_ppq w_ppw w_delta w_bpm w_channel].
  destruct M; unfold enc_tone, v_tone; go_with str_tones. all: bytes_end.
Qed.

Lemma format_note_off_runs c w n h K : middle_value c ->
  reaches (Ca (VFun "MIDIWriter._format_note_off") [enc_writer c w; enc_note n] [] h K)
          (returns (outcome_of VBytes (format_note_off w n)) K (keeps [] h)).
Proof.
  intros M. parts n. destruct w as [q w p0 bpm ch].
  unfold enc_writer, format_note_off. cbn [n_tone pitch n_velocity w_ppq w_ppw w_delta w_bpm w_channel].
  destruct M; unfold enc_tone, v_tone; go_with str_tones. all: bytes_end.
Qed.

(** _format_var_len: the loop. *)
Lemma var_len_loop_total fuel b x : x < 128 ^ Z.of_nat fuel -> exists b', var_len_loop fuel b x = Ok b'.
Proof.
  revert b x. induction fuel as [|k IH]; intros b x L.
  - change (128 ^ Z.of_nat 0) with 1 in L. cbn [var_len_loop]. replace (x >? 0) with false by lia. eauto.
  - rewrite Nat2Z.inj_succ, Z.pow_succ_r in L by lia. cbn [var_len_loop]. destruct (x >? 0); [|eauto].
    apply IH. rewrite Z.shiftr_div_pow2 by lia. apply Z.div_lt_upper_bound; lia.
Qed.
Lemma var_len_loop_ends x : exists b, var_len_loop (S (Z.to_nat (Z.log2 x))) (Z.land x 127) (Z.shiftr x 7) = Ok b.
Proof.
  apply var_len_loop_total. rewrite Z.shiftr_div_pow2 by lia. apply Z.div_lt_upper_bound; [lia|].
  pose proof (Z.log2_nonneg x) as N. rewrite Nat2Z.inj_succ, Z2Nat.id by lia.
  pose proof (Z.pow_pos_nonneg 128 (Z.succ (Z.log2 x))).
  destruct (Z.le_gt_cases x 0); [lia|].
  apply Z.lt_le_trans with (2 ^ Z.succ (Z.log2 x)); [apply Z.log2_spec; assumption|].
  apply Z.le_trans with (128 ^ Z.succ (Z.log2 x)); [apply Z.pow_le_mono_l; lia|lia].
Qed.

Definition var_len_while : expr * list stmt :=
  Eval calc in match f_body src_MIDIWriter__format_var_len with _ :: _ :: SWhile c b :: _ => (c, b) | _ => (EConst VNone, []) end.
Lemma var_len_loop_runs fuel b x b' h K : var_len_loop fuel b x = Ok b' ->
  let c := fst var_len_while in let body := snd var_len_while in
  let r b x := [("x", VInt x); ("buffer", VInt b)] in
  exists x', steps (Ev c (r b x) h (KWhile c body (r b x) :: K)) (Ex [] (r b' x') h K).
Proof.
  cbn zeta. unfold var_len_while. cbn [fst snd].
  revert b x. induction fuel as [|k IH]; intros b x E; cbn [var_len_loop] in E; destruct (x >? 0) eqn:A;
    try discriminate; try (assert (b = b') as -> by congruence; exists x; go; apply steps_refl).
  cbn zeta in E. destruct (IH _ _ E) as (x' & R). exists x'. do 2 adv.
  go_with ltac:(idtac; lazymatch goal with |- PySem.steps _ _ (Ev _ _ _ (KWhile _ _ _ :: K)) _ => exact R end).
Qed.
Lemma format_var_len_runs x h K :
  steps (Ca (VFun "MIDIWriter._format_var_len") [VInt x] [] h K) (ends (outcome_of VBytes (format_var_len x)) h K).
Proof.
  unfold format_var_len. destruct (var_len_loop_ends x) as (b & E). rewrite E. cbn [bind].
  assert (L : (bit_length b / 8 + 1 <? 0) = false).
  { assert (0 <= bit_length b) by (unfold bit_length; destruct (b =? 0); [lia|pose proof (Z.log2_nonneg (Z.abs b)); lia]).
    pose proof (Z.div_pos (bit_length b) 8). lia. }
  go_with ltac:(idtac; lazymatch goal with
    |- PySem.steps _ _ (Ev _ _ ?h (KWhile _ _ _ :: ?K)) _ =>
      let R := fresh "R" in let x' := fresh "x" in
      destruct (var_len_loop_runs _ _ _ _ h K E) as (x' & R); eapply steps_trans; [exact R|] end); finish_with.
Qed.

Lemma format_signature_runs s cc bb h K :
  reaches (Ca (VFun "MIDIWriter._format_signature") [enc_sig s] [("cc", VInt cc); ("bb", VInt bb)] h K)
          (returns (outcome_of VBytes (format_signature s cc bb)) K (keeps [] h)).
Proof.
  destruct s as [n d]. unfold enc_sig, v_signature, format_signature. cbn [nominator denominator]. go. all: bytes_end.
Qed.

Lemma format_tempo_runs z h K :
  reaches (Ca (VFun "MIDIWriter._format_tempo") [VInt z] [] h K)
          (returns (outcome_of VBytes (format_tempo z)) K (keeps [] h)).
Proof. unfold format_tempo. go. all: bytes_end. Qed.

Lemma format_chunk_runs k b h K :
  reaches (Ca (VFun "MIDIWriter._format_chunk") [VBytes k; VBytes b] [] h K)
          (returns (outcome_of VBytes (format_chunk k b)) K (keeps [] h)).
Proof. unfold format_chunk. go. all: bytes_end. Qed.

Ltac chunks :=
  idtac; lazymatch goal with
  | |- RefineBase.reaches _ _ (Ca (VFun "MIDIWriter._format_chunk") _ _ _ _) _ => invoke format_chunk_runs; outcome
  end.
Lemma format_header_chunk_runs c w k n h K :
  reaches (Ca (VFun "MIDIWriter._format_header_chunk") [enc_writer c w] [("kind", VInt k); ("n_tracks", VInt n)] h K)
          (returns (outcome_of VBytes (format_header_chunk w k n)) K (keeps [] h)).
Proof.
  destruct w as [q w p0 bpm ch]. unfold enc_writer, format_header_chunk. cbn [w_ppq w_ppw w_delta w_bpm w_channel].
  go_with chunks. all: rewrite ?app_nil_r in *; unfold MThd; bytes_end.
Qed.
End Writer.
