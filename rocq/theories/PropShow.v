(** Printed notes and tracks (C62, C63). *)
From Coq Require Import ZArith QArith Qabs List Bool String Permutation.
From Verif Require Import Py PyFloat PySort Timsort Signature Tone Note Track Show
  SpecBase TrackSpec ShowSpec TrackProps DecFacts DigitsFacts ShowProps.
Import ListNotations.
Open Scope Z_scope.

(** What is assumed about the digits printed for a float is met by taking as few digits as possible. *)
Theorem C62_digits_contract :
  digits_contract shortest_digits.
Proof. exact shortest_contract. Qed.
Print Assumptions C62_digits_contract.
(** C62: a printed note is read as the note itself, and as nothing else. *)
Theorem C62_note :
  forall digits, digits_contract digits -> forall nd n n', valid_note n ->
  (evaluates_note nd (note_repr digits n) n' <-> n' = n).
Proof. exact c62_note. Qed.
Print Assumptions C62_note.
(** C62: notes are printed alike exactly when they are the same. *)
Theorem C62_note_text :
  forall digits, digits_contract digits -> forall n m, valid_note n -> valid_note m ->
  (note_repr digits n = note_repr digits m <-> n = m).
Proof. exact c62_note_text. Qed.
Print Assumptions C62_note_text.
(** C62 in full is [printing_right]: a printed track is read as an equal track.  It is false. *)
Theorem C62_refuted :
  sort_contract cpython_sort /\
  forall digits, digits_contract digits -> ~ printing_right digits cpython_sort.
Proof. exact c62_refuted. Qed.
Print Assumptions C62_refuted.
(** C62: what holds.  Missing: tracks that are not [consistent], whose entries may come back in another
    order. *)
Theorem C62_partial :
  forall digits sort, digits_contract digits -> sort_contract sort ->
  forall nd s ops, valid_sig s -> Forall op_ok ops ->
  let t := run sort (track_empty s) ops in
  exists u, (forall u', evaluates_track nd (snd (track_repr digits sort t)) u' <-> u' = u) /\
    fst (track_repr digits sort t) = step sort t OIter /\
    t_signature u = t_signature t /\ track_len u = track_len t /\ Permutation (yields sort u) (yields sort t) /\
    (consistent (yields sort t) -> yields sort u = yields sort t /\ eq_result sort t u = true /\ eq_result sort u t = true).
Proof. exact c62_track. Qed.
Print Assumptions C62_partial.
(** C62: tracks are printed alike exactly when they have the same signature and yield the same entries. *)
Theorem C62_track_text :
  forall digits sort, digits_contract digits -> sort_contract sort ->
  forall s ops s' ops', valid_sig s -> valid_sig s' -> Forall op_ok ops -> Forall op_ok ops' ->
  let t := run sort (track_empty s) ops in let u := run sort (track_empty s') ops' in
  (snd (track_repr digits sort t) = snd (track_repr digits sort u) <->
   t_signature t = t_signature u /\ yields sort t = yields sort u).
Proof. exact c62_track_text. Qed.
Print Assumptions C62_track_text.

Definition ex_printed : list op :=
  [OAdd (WNote (mkNote (mkTone 60) (mkSig 1 4) f_three_quarters)) None;
   OAdd (WNote (mkNote (mkTone 64) (mkSig 3 8) f_half)) (Some (SA_iter [EInt 1; EInt 8]))].
Example C62_ex :
  note_repr shortest_digits (mkNote (mkTone 61) (mkSig 3 16) (S754_finite false 7205759403792794 (-56))) =
    lit "Note(tone=61, duration=(3, 16), velocity=0.1) " /\
  note_repr shortest_digits (mkNote (mkTone (-5)) (mkSig 0 1) (S754_finite false 1 (-1074))) =
    lit "Note(tone=-5, duration=(0, 1), velocity=5e-324) " /\
  snd (track_repr shortest_digits cpython_sort (run cpython_sort (track_empty (mkSig 4 4)) ex_printed)) =
    lit "Track(signature=(4, 4), content=[(Note(tone=60, duration=(1, 4), velocity=0.75) , (0, 8)), (Note(tone=64, duration=(3, 8), velocity=0.5) , (1, 8))])" /\
  consistent (yields cpython_sort (run cpython_sort (track_empty (mkSig 4 4)) ex_printed)).
Proof.
  split; [vm_compute; reflexivity|]. split; [vm_compute; reflexivity|]. split; [vm_compute; reflexivity|].
  intros e f He Hf E1 E2. vm_compute in He, Hf.
  destruct He as [<-|[<-|[]]], Hf as [<-|[<-|[]]]; try (right; reflexivity); exfalso; discriminate E2.
Qed.

(** C63: str of a note shows the duration, the tone and the velocity rounded to three decimals. *)
Theorem C63_note :
  forall nd n, digit_table nd -> valid_note n -> exists tone k,
  from_notation nd tone = Ok (n_tone n) /\ 0 <= k <= 1000 /\ rounds_to (fval (n_velocity n)) k /\
  note_str n = Ok (lit "Note " ++ str_of_Z (nominator (n_duration n)) ++ lit "/" ++ str_of_Z (denominator (n_duration n)) ++ lit " " ++ tone
    ++ lit " (" ++ (if is_minus_zero (n_velocity n) then lit "-" else []) ++ thousandths k ++ lit ")").
Proof. exact c63_note. Qed.
Print Assumptions C63_note.
(** C63: what str of a note determines. *)
Theorem C63_note_text :
  forall n m, valid_note n -> valid_note m -> note_str n = note_str m ->
  n_duration n = n_duration m /\ n_tone n = n_tone m /\ (Qabs (fval (n_velocity n) - fval (n_velocity m)) <= 1 # 1000)%Q.
Proof. exact c63_note_text. Qed.
Print Assumptions C63_note_text.
(** C63: str of a track determines the signature and the number of notes, and nothing else. *)
Theorem C63_track :
  forall t u, track_str t = track_str u <-> t_signature t = t_signature u /\ track_len t = track_len u.
Proof. exact c63_track. Qed.
Print Assumptions C63_track.
Example C63_ex :
  note_str (mkNote (mkTone 61) (mkSig 3 16) (S754_finite false 7205759403792794 (-56))) = Ok (lit "Note 3/16 C#5 (0.100)") /\
  (* 0.0625 and 0.1875 lie half way; 0.9999999999999999 *)
  fixed3 (S754_finite false 4503599627370496 (-56)) = lit "0.062" /\ fixed3 (S754_finite false 6755399441055744 (-55)) = lit "0.188" /\
  fixed3 (S754_finite false 9007199254740991 (-53)) = lit "1.000" /\
  track_str (run cpython_sort (track_empty (mkSig 3 4)) ex_printed) = lit "Track 3/4 with 2 notes".
Proof. repeat split; vm_compute; reflexivity. Qed.
