(** The methods of MIDIWriter and MIDIReader that write and read integers, chunks and fixed events, for
    all their arguments (C68).  [be_bytes k n] are the [k] lowest base-256 digits of [n], most
    significant first; [chunk] is a name, four bytes of size and a body (MidiSpec.v). *)
From Coq Require Import ZArith List Bool.
From Verif Require Import Py PyFloat PySort Signature Tone Note Track MidiWriter MidiReader
  SpecBase TrackSpec MidiSpec HelperProps.
Import ListNotations.
Open Scope Z_scope.

(** C68: integers of one to four bytes. *)
Theorem C68_integers :
  forall pre rest a b c d,
  let at_start l := mkReader (pre ++ l) (Z.of_nat (length pre)) in
  let after k l := mkReader (pre ++ l) (Z.of_nat (length pre) + k) in
  read_8 (at_start (a :: rest)) = (after 1 (a :: rest), Ok a) /\
  read_16 (at_start (a :: b :: rest)) = (after 2 (a :: b :: rest), Ok (256 * a + b)) /\
  read_24 (at_start (a :: b :: c :: rest)) = (after 3 (a :: b :: c :: rest), Ok (65536 * a + 256 * b + c)) /\
  read_32 (at_start (a :: b :: c :: d :: rest)) = (after 4 (a :: b :: c :: d :: rest), Ok (16777216 * a + 65536 * b + 256 * c + d)).
Proof. exact c68_integers. Qed.
Print Assumptions C68_integers.
(** C68: without enough data the reader goes to the end of the data. *)
Theorem C68_short :
  forall pre rest k f,
  In (k, f) [(1%nat, read_8); (2%nat, read_16); (3%nat, read_24); (4%nat, read_32)] -> (length rest < k)%nat ->
  f (mkReader (pre ++ rest) (Z.of_nat (length pre))) =
    (mkReader (pre ++ rest) (reader_len (mkReader (pre ++ rest) 0)), Err MIDIParsingError) /\
  reader_len (mkReader (pre ++ rest) 0) = Z.of_nat (length pre) + Z.of_nat (length rest).
Proof. exact c68_short. Qed.
Print Assumptions C68_short.
(** C68: _format_chunk. *)
Theorem C68_chunk :
  forall kind body,
  format_chunk kind body =
  if negb (Nat.eqb (length kind) 4) then Err AssertionError
  else if Z.of_nat (length body) <? 2 ^ 32 then Ok (kind ++ be_bytes 4 (Z.of_nat (length body)) ++ body)
  else Err OverflowError.
Proof. exact c68_chunk. Qed.
Print Assumptions C68_chunk.
(** C68: _format_header_chunk, and _parse_header on what it writes. *)
Theorem C68_header :
  forall nd ppq middle_c bpm channel w kind n_tracks,
  writer_new nd ppq middle_c bpm channel = Ok w ->
  let body := be_bytes 2 kind ++ be_bytes 2 n_tracks ++ be_bytes 2 ppq in
  format_header_chunk w kind n_tracks =
    (if negb ((0 <=? kind) && (kind <=? 2)) then Err AssertionError
     else if (0 <=? n_tracks) && (n_tracks <? 2 ^ 16) then Ok (chunk [77; 84; 104; 100] body)
     else Err OverflowError) /\
  (0 <= kind <= 2 -> 0 <= n_tracks < 2 ^ 16 -> length body = 6%nat /\
   snd (parse_header (reader_new body)) = Ok (kind, n_tracks, ppq)).
Proof. exact c68_header. Qed.
Print Assumptions C68_header.
(** C68: _format_signature, and read_event on what it writes. *)
Theorem C68_signature :
  forall s cc bb, valid_sig s ->
  format_signature s cc bb =
    (if (nominator s <? 256) && (Z.log2 (denominator s) <? 256) && (0 <=? cc) && (cc <? 256) && (0 <=? bb) && (bb <? 256)
     then Ok [255; 88; 4; nominator s; Z.log2 (denominator s); cc; bb] else Err OverflowError) /\
  forall depth previous pre rest nn dd,
    let l := [255; 88; 4; nn; dd; cc; bb] in
    read_event (S depth) None previous (mkReader (pre ++ l ++ rest) (Z.of_nat (length pre))) =
    (mkReader (pre ++ l ++ rest) (Z.of_nat (length pre) + 7), Ok (EvTimeSignature nn dd cc bb, Some 255)).
Proof. exact c68_signature. Qed.
Print Assumptions C68_signature.
(** C68: _format_tempo. *)
Theorem C68_tempo :
  forall tempo,
  format_tempo tempo = if (0 <=? tempo) && (tempo <? 2 ^ 24)
    then Ok [255; 81; 3; tempo / 65536; tempo / 256 mod 256; tempo mod 256] else Err OverflowError.
Proof. exact c68_tempo. Qed.
Print Assumptions C68_tempo.
(** C68: _format_note_on and _format_note_off; read_event on what they write, with the status byte or
    without it after an event with the same one, gives the note back; a note on with velocity 0 is read
    as a note off. *)
Theorem C68_notes :
  forall nd ppq middle_c bpm channel w m n,
  writer_new nd ppq middle_c bpm channel = Ok w -> midi_reader_new nd middle_c = Ok m -> valid_note n ->
  let reads b k status e := forall depth previous pre rest,
    read_event (S (S depth)) None previous (mkReader (pre ++ b ++ rest) (Z.of_nat (length pre))) =
      (mkReader (pre ++ b ++ rest) (Z.of_nat (length pre) + k), Ok (e, Some status)) in
  let reads_after b k status e := forall depth pre rest,
    read_event (S (S depth)) None (Some status) (mkReader (pre ++ b ++ rest) (Z.of_nat (length pre))) =
      (mkReader (pre ++ b ++ rest) (Z.of_nat (length pre) + k), Ok (e, Some status)) in
  (forall b, format_note_on w n = Ok b -> exists p v, 0 <= p < 128 /\ 0 <= v < 128 /\
     b = [144 + channel; p; v] /\ velocity_byte (n_velocity n) = Ok v /\ pitch_to_tone m p = n_tone n /\
     let e := if v =? 0 then EvNoteOff channel p 0 else EvNoteOn channel p v in
     reads b 3 (144 + channel) e /\ reads_after [p; v] 2 (144 + channel) e) /\
  (forall b, format_note_off w n = Ok b -> exists p, 0 <= p < 128 /\
     b = [128 + channel; p; 64] /\ pitch_to_tone m p = n_tone n /\
     reads b 3 (128 + channel) (EvNoteOff channel p 64) /\ reads_after [p; 64] 2 (128 + channel) (EvNoteOff channel p 64)).
Proof. exact c68_notes. Qed.
Print Assumptions C68_notes.

Example C68_ex_header :
  match writer_new ascii_digit 480 default_middle_c f_one 0 with
  | Ok w => map (fun p => format_header_chunk w (fst p) (snd p)) [(1, 300); (2, 65535); (0, 65536); (3, 1); (-1, 1); (0, -1)]
  | Err _ => []
  end =
  [Ok [77; 84; 104; 100; 0; 0; 0; 6; 0; 1; 1; 44; 1; 224]; Ok [77; 84; 104; 100; 0; 0; 0; 6; 0; 2; 255; 255; 1; 224];
   Err OverflowError; Err AssertionError; Err AssertionError; Err OverflowError].
Proof. reflexivity. Qed.
Example C68_ex_events :
  format_signature (mkSig 7 8) 24 8 = Ok [255; 88; 4; 7; 3; 24; 8] /\
  format_signature (mkSig 7 8) 256 8 = Err OverflowError /\ format_signature (mkSig 7 8) 24 (-1) = Err OverflowError /\
  format_tempo 500000 = Ok [255; 81; 3; 7; 161; 32] /\ format_tempo 16777216 = Err OverflowError /\
  format_chunk [77; 84] [] = Err AssertionError /\
  format_chunk [65; 66; 67; 68] (repeat 7 258) = Ok ([65; 66; 67; 68; 0; 0; 1; 2] ++ repeat 7 258).
Proof. repeat split. Qed.
Example C68_ex_integers :
  snd (read_32 (mkReader [9; 1; 2; 3; 4; 9] 1)) = Ok 16909060 /\ snd (read_24 (mkReader [1; 2; 3] 0)) = Ok 66051 /\
  read_16 (mkReader [1; 2; 3] 2) = (mkReader [1; 2; 3] 3, Err MIDIParsingError).
Proof. repeat split. Qed.
