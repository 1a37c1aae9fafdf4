(** Model of the writing half of src/melodia/io/midi.py (lines 43-251, 677-699).
    No proofs in this file. *)
From Verif Require Import Py PyFloat PySort Signature Tone Note Track.
Open Scope Z_scope.

(** class MIDIWriter, its slots (midi.py 48-55) except _middle_c, which only occurs in messages. *)
Record writer := mkWriter {
  w_ppq : Z;             (* _pulses_per_quarter *)
  w_ppw : Z;             (* _pulses_per_whole *)
  w_delta : Z;           (* _middle_c_delta *)
  w_bpm : float;         (* _bpm *)
  w_channel : Z          (* _channel *)
}.

(** MIDIWriter.__init__ (midi.py 57-106); the dispatch on middle_c (midi.py 96-103) is that of
    note.py 32-40. *)
Definition writer_new (nd : Z -> option Z) (ppq : Z) (middle_c : tone_arg) (bpm : float)
           (channel : Z) : res writer :=
  if negb ((1 <=? ppq) && (ppq <=? 32767)) then Err ValueError
  else if negb ((0 <=? channel) && (channel <=? 15)) then Err ValueError
  else
    let! c := tone_of_arg nd middle_c in
    Ok {| w_ppq := ppq; w_ppw := ppq * 4; w_delta := 60 - pitch c;
          w_bpm := bpm; w_channel := channel |}.

(** The default argument Tone.from_notation('C3') (midi.py 60, 365). *)
Definition default_middle_c : tone_arg := TA_tone (mkTone 36).

(** MIDIWriter._signature_to_pulses (midi.py 108-111). *)
Definition signature_to_pulses (w : writer) (s : sig) : res Z :=
  let! n := sig_normalized s in
  Ok (w_ppw w * nominator n / denominator n).

(** [max(0, min(127, int(velocity * 127)))] (midi.py 121). *)
Definition velocity_byte (v : float) : res Z :=
  let! k := int_of_float (fmul v f_127) in
  Ok (imax 0 (imin 127 k)).

(** MIDIWriter._format_note_on (midi.py 113-127). *)
Definition format_note_on (w : writer) (n : note) : res bytes :=
  let status := Z.lor 144 (w_channel w) in
  let p := pitch (n_tone n) + w_delta w in
  if negb ((0 <=? p) && (p <=? 127)) then Err ValueError
  else
    let! velocity := velocity_byte (n_velocity n) in
    let! b1 := to_bytes_be status 1 in
    let! b2 := to_bytes_be p 1 in
    let! b3 := to_bytes_be velocity 1 in
    Ok (b1 ++ b2 ++ b3).

(** MIDIWriter._format_note_off (midi.py 129-143). *)
Definition format_note_off (w : writer) (n : note) : res bytes :=
  let status := Z.lor 128 (w_channel w) in
  let p := pitch (n_tone n) + w_delta w in
  if negb ((0 <=? p) && (p <=? 127)) then Err ValueError
  else
    let! b1 := to_bytes_be status 1 in
    let! b2 := to_bytes_be p 1 in
    let! b3 := to_bytes_be 64 1 in
    Ok (b1 ++ b2 ++ b3).

(** The while loop of _format_var_len (midi.py 149-153), with fuel. *)
Fixpoint var_len_loop (fuel : nat) (buffer x : Z) : res Z :=
  if x >? 0 then
    match fuel with
    | O => Err OutOfFuel
    | S k =>
        let buffer := Z.shiftl buffer 8 in
        let buffer := Z.lor buffer 128 in
        let buffer := buffer + Z.land x 127 in
        var_len_loop k buffer (Z.shiftr x 7)
    end
  else Ok buffer.

(** MIDIWriter._format_var_len (midi.py 145-155). *)
Definition format_var_len (x : Z) : res bytes :=
  let! buffer := var_len_loop (S (Z.to_nat (Z.log2 x))) (Z.land x 127) (Z.shiftr x 7) in
  to_bytes_le buffer (Z.to_nat (bit_length buffer / 8 + 1)).

(** MIDIWriter._format_signature (midi.py 157-168). *)
Definition format_signature (s : sig) (cc bb : Z) : res bytes :=
  let nn := nominator s in
  let dd := bit_length (denominator s) - 1 in
  let! b1 := to_bytes_be nn 1 in
  let! b2 := to_bytes_be dd 1 in
  let! b3 := to_bytes_be cc 1 in
  let! b4 := to_bytes_be bb 1 in
  Ok ([255; 88; 4] ++ b1 ++ b2 ++ b3 ++ b4).

(** MIDIWriter._format_tempo (midi.py 170-175). *)
Definition format_tempo (tempo : Z) : res bytes :=
  let! b := to_bytes_be tempo 3 in
  Ok ([255; 81; 3] ++ b).

(** [int(60000000 / self._bpm)] (midi.py 221). *)
Definition tempo_of_bpm (bpm : float) : res Z :=
  if feq bpm f_zero then Err ZeroDivisionError
  else int_of_float (fdiv (float_of_Z 60000000) bpm).

(** MIDIWriter._format_chunk (midi.py 177-180). *)
Definition format_chunk (kind body : bytes) : res bytes :=
  if negb (Z.of_nat (length kind) =? 4) then Err AssertionError
  else
    let! n := to_bytes_be (Z.of_nat (length body)) 4 in
    Ok (kind ++ n ++ body).

(** The four byte chunk names b'MThd' and b'MTrk' (midi.py 195, 240, 620, 629). *)
Definition MThd : bytes := [77; 84; 104; 100].
Definition MTrk : bytes := [77; 84; 114; 107].

(** MIDIWriter._format_header_chunk (midi.py 182-195). *)
Definition format_header_chunk (w : writer) (kind n_tracks : Z) : res bytes :=
  if negb ((kind =? 0) || (kind =? 1) || (kind =? 2)) then Err AssertionError
  else
    let! b1 := to_bytes_be kind 2 in
    let! b2 := to_bytes_be n_tracks 2 in
    let! b3 := to_bytes_be (w_ppq w) 2 in
    format_chunk MThd (b1 ++ b2 ++ b3).

(** The loop building absolute_note_events (midi.py 205-213). *)
Fixpoint note_events (w : writer) (items : list entry) : res (list (Z * bytes)) :=
  match items with
  | [] => Ok []
  | (position, n) :: r =>
      let! on_time := signature_to_pulses w position in
      let! on_event := format_note_on w n in
      let! length_ := signature_to_pulses w (n_duration n) in
      let off_time := on_time + length_ in
      let! off_event := format_note_off w n in
      let! rest := note_events w r in
      Ok ((on_time, on_event) :: (off_time, off_event) :: rest)
  end.

(** Absolute to delta times (midi.py 224-227). *)
Fixpoint delta_events (last : Z) (evs : list (Z * bytes)) : list (Z * bytes) :=
  match evs with
  | [] => []
  | (t, e) :: r => (t - last, e) :: delta_events t r
  end.

(** The loop building track_body (midi.py 236-239), joined (midi.py 240). *)
Fixpoint format_events (evs : list (Z * bytes)) : res bytes :=
  match evs with
  | [] => Ok []
  | (dt, e) :: r =>
      let! b := format_var_len dt in
      let! rest := format_events r in
      Ok (b ++ e ++ rest)
  end.

(** Outcome of dump: the bytes written to the file so far, the track (its __iter__ may have sorted
    it) and whether an exception was raised. *)
Record dump_outcome := mkDump { d_written : bytes; d_track : track; d_result : res unit }.

Section Sort.
Variable sort : sort_fn.

(** [absolute_note_events.sort(key=itemgetter(0))] (midi.py 215). *)
Definition sort_events (evs : list (Z * bytes)) : list (Z * bytes) :=
  sort (Z * bytes)%type (fun a b => fst a <? fst b) evs.

(** The events of dump with their delta times (midi.py 205-230). *)
Definition all_events (w : writer) (s : sig) (items : list entry) : res (list (Z * bytes)) :=
  let! evs := note_events w items in
  let evs := sort_events evs in
  let! e1 := format_signature s (w_ppq w) 8 in
  let! tempo := tempo_of_bpm (w_bpm w) in
  let! e2 := format_tempo tempo in
  Ok ([(0, e1); (0, e2)] ++ delta_events 0 evs ++ [(0, [255; 47; 0])]).

(** MIDIWriter.dump (midi.py 197-240); [file.write] is assumed to succeed. *)
Definition dump (w : writer) (t : track) : dump_outcome :=
  let (t', items) := track_iter sort t in
  match all_events w (t_signature t') items with
  | Err e => mkDump [] t' (Err e)
  | Ok evs =>
      match format_header_chunk w 0 1 with
      | Err e => mkDump [] t' (Err e)
      | Ok header =>
          match (let! body := format_events evs in format_chunk MTrk body) with
          | Err e => mkDump header t' (Err e)
          | Ok chunk => mkDump (header ++ chunk) t' (Ok tt)
          end
      end
  end.

(** MIDIWriter.dumps (midi.py 242-251). *)
Definition dumps (w : writer) (t : track) : res bytes :=
  let o := dump w t in
  match d_result o with
  | Ok _ => Ok (d_written o)
  | Err e => Err e
  end.

(** The module function dumps (midi.py 690-699): all defaults but bpm and channel. *)
Definition midi_dumps (t : track) (bpm : float) (channel : Z) : res bytes :=
  let! w := writer_new ascii_digit 96 default_middle_c bpm channel in
  dumps w t.
End Sort.
