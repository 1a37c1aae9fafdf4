(** The parser of track chunks with its two primitive operations (_Reader.read, _Reader.shift) as
    parameters, and primitives that check what they do.  Used to say something about every read of
    every execution (C55).  With the primitives of the model this is the model's parser
    ([parse_loop_with_model] in ReadFacts.v: equal by computation). *)
From Coq Require Import ZArith QArith Qreduction List Bool.
From Verif Require Import Py Signature MidiWriter MidiReader SpecBase MidiSpec.
Import ListNotations.
Open Scope Z_scope.

Section With.
Variable rd : Z -> R bytes.
Variable sh : Z -> R unit.

Definition read_8_with : R Z := do b <- rd 1; ret (from_bytes_be b).

Definition parse_header_with : R (Z * Z * Z) :=
  do b1 <- rd 2;
  do b2 <- rd 2;
  do b3 <- rd 2;
  ret (from_bytes_be b1, from_bytes_be b2, from_bytes_be b3).

Fixpoint var_len_rest_with (fuel : nat) (result : Z) : R Z :=
  match fuel with
  | O => raise OutOfFuel
  | S k =>
      do value <- read_8_with;
      let result := Z.shiftl result 7 + Z.land value 127 in
      if Z.land value 128 =? 0 then ret result else var_len_rest_with k result
  end.

Definition read_var_len_with : R Z := fun r =>
  (do result <- read_8_with;
   if Z.land result 128 =? 0 then ret result
   else var_len_rest_with (S (length (rd_data r))) (Z.land result 127)) r.

Fixpoint sysex_loop_with (fuel : nat) (v : sysex_value) : R unit :=
  if sysex_continues v then
    match fuel with
    | O => raise OutOfFuel
    | S k => do b <- rd 1; sysex_loop_with k (SVBytes b)
    end
  else ret tt.

Fixpoint read_event_with (depth : nat) (status : option Z) (previous : option Z)
  : R (event * option Z) :=
  match depth with
  | O => raise RecursionError
  | S depth' =>
      do status <- match status with None => read_8_with | Some s => ret s end;
      if status =? 255 then
        let previous := Some status in
        do kind <- read_8_with;
        do length_ <- read_var_len_with;
        if kind =? 47 then
          if negb (length_ =? 0) then raise MIDIParsingError
          else ret (EvEndOfTrack, previous)
        else if kind =? 32 then
          if negb (length_ =? 1) then raise MIDIParsingError
          else do channel <- read_8_with; ret (EvGlobalChannel channel, previous)
        else if kind =? 88 then
          if negb (length_ =? 4) then raise MIDIParsingError
          else
            do nn <- read_8_with;
            do dd <- read_8_with;
            do cc <- read_8_with;
            do bb <- read_8_with;
            ret (EvTimeSignature nn dd cc bb, previous)
        else
          do _ <- rd length_;
          ret (EvUnsupported, previous)
      else if status >=? 128 then
        let previous := Some status in
        let kind := Z.shiftr status 4 in
        let channel := Z.land status 15 in
        if kind =? 8 then
          do p <- read_8_with;
          do velocity <- read_8_with;
          ret (EvNoteOff channel p velocity, previous)
        else if kind =? 9 then
          do p <- read_8_with;
          do velocity <- read_8_with;
          if velocity =? 0 then ret (EvNoteOff channel p velocity, previous)
          else ret (EvNoteOn channel p velocity, previous)
        else if status =? 240 then
          do _ <- (fun r => sysex_loop_with (S (length (rd_data r))) (SVInt 0) r);
          ret (EvUnsupported, previous)
        else
          match nth_error event_lengths (Z.to_nat status) with
          | None => raise IndexError
          | Some length_ =>
              if length_ =? -1 then raise MIDIParsingError
              else do _ <- rd length_; ret (EvUnsupported, previous)
          end
      else
        do _ <- sh (-1);
        read_event_with depth' previous previous
  end.

Fixpoint parse_loop_with (fuel : nat) (s : parse_state) : R parse_state :=
  match fuel with
  | O => raise OutOfFuel
  | S k =>
      do delta_time <- read_var_len_with;
      let absolute_time := ps_time s + delta_time in
      do (ev, previous) <- read_event_with recursion_limit None (ps_previous s);
      let s' := mkPS previous (ps_events s) (ps_signatures s) (ps_global s) absolute_time in
      match ev with
      | EvNoteOn c _ _ | EvNoteOff c _ _ =>
          parse_loop_with k (mkPS previous (append_event (ps_events s) c (absolute_time, ev))
                             (ps_signatures s) (ps_global s) absolute_time)
      | EvEndOfTrack => ret s'
      | EvGlobalChannel c =>
          parse_loop_with k (mkPS previous (ps_events s) (ps_signatures s) c absolute_time)
      | EvTimeSignature nn dd _ _ =>
          match sig_new nn (Z.shiftl 1 dd) with
          | Err e => raise e
          | Ok sg =>
              parse_loop_with k (mkPS previous (ps_events s) (dict_set (ps_signatures s) (ps_global s) sg)
                                 (ps_global s) absolute_time)
          end
      | EvUnsupported => parse_loop_with k s'
      end
  end.
End With.

(** The bytes number [i] .. [i + n - 1] of [data]. *)
Definition slice (data : bytes) (i n : Z) : bytes :=
  map (fun k => nth (Z.to_nat i + k) data (-1)) (seq 0 (Z.to_nat n)).

(** A read that insists: it may only be asked for a non-negative number of bytes at a place inside
    the data; it must return exactly the bytes there and move past them, or raise MIDIParsingError
    because fewer are left.  Anything else is the exception KeyError, which the parser never raises
    itself. *)
Definition checked_read (n : Z) : R bytes := fun r =>
  let len := Z.of_nat (length (rd_data r)) in
  if (0 <=? n) && (0 <=? rd_idx r) && (rd_idx r <=? len) then
    match read n r with
    | (r', Ok b) =>
        if (rd_idx r + n <=? len) && bytes_eqb b (slice (rd_data r) (rd_idx r) n) &&
           (rd_idx r' =? rd_idx r + n) && bytes_eqb (rd_data r') (rd_data r)
        then (r', Ok b) else (r', Err KeyError)
    | (r', Err MIDIParsingError) =>
        if (len <? rd_idx r + n) && (0 <=? rd_idx r') && (rd_idx r' <=? len) && bytes_eqb (rd_data r') (rd_data r)
        then (r', Err MIDIParsingError) else (r', Err KeyError)
    | (r', Err _) => (r', Err KeyError)
    end
  else (r, Err KeyError).

(** A shift that insists on staying inside the data. *)
Definition checked_shift (n : Z) : R unit := fun r =>
  if (0 <=? rd_idx r + n) && (rd_idx r + n <=? Z.of_nat (length (rd_data r))) then shift n r
  else (r, Err KeyError).

(** The bytes of an event as the parser accepts them: also a message without data bytes whose status
    byte is left out. *)
Definition event_read (previous : option Z) (e : midi_event) (b next : bytes) : Prop :=
  event_bytes previous e b \/
  (b = [] /\ payload e [] /\ previous = Some (status_of e) /\ exists y r, next = y :: r /\ y < 128).

(** A sequence of events as the parser accepts it, [next] being what follows. *)
Inductive stream_read : option Z -> list (Z * midi_event) -> bytes -> bytes -> Prop :=
| SR_nil previous next : stream_read previous [] [] next
| SR_cons previous dt e r d b s next :
    vlq_of d dt -> event_read previous e b (s ++ next) -> stream_read (Some (status_of e)) r s next ->
    stream_read previous ((dt, e) :: r) (d ++ b ++ s) next.

(** Well-formed events before the end of a track, with their delta times. *)
Definition evs_ok (evs : list (Z * midi_event)) : Prop :=
  Forall (fun te => event_ok (snd te)) evs /\ Forall (fun te => snd te <> MEndOfTrack) evs /\
  Forall (fun te => 0 <= fst te) evs.

(** The signature of a channel: the last one given under its prefix, else the last one given under
    no prefix, else 4/4. *)
Definition chan_sig (evs : list (Z * midi_event)) (c : Z) : sig :=
  match last_signature c (signatures_of (-1) evs) with
  | Some (nn, dd) => mkSig nn (2 ^ dd)
  | None => match last_signature (-1) (signatures_of (-1) evs) with
            | Some (nn, dd) => mkSig nn (2 ^ dd)
            | None => mkSig 4 4
            end
  end.


(** The channels with note events, in order of appearance. *)
Definition first_seen (l : list Z) : list Z :=
  fold_left (fun acc c => if existsb (Z.eqb c) acc then acc else acc ++ [c]) l [].
Definition channels_of (evs : list (Z * midi_event)) : list Z := first_seen (map ne_channel (note_events_of evs)).

(** The note between the events number [fst ab] and [snd ab] of a channel as it is read at [q] ticks
    per quarter: times are cut to 4096 steps per quarter, pitch 60 is the tone of pitch [60 - delta]. *)
Definition note_read (delta q : Z) (l : list note_event) (ab : nat * nat) : Q * Z * Q * Q :=
  match nth_error l (fst ab), nth_error l (snd ab) with
  | Some e, Some f =>
      (Qred ((ne_time e * 4096 / q)%Z # 16384)%Q, ne_pitch e - delta,
       Qred (((ne_time f - ne_time e) * 4096 / q)%Z # 16384)%Q, Qred (fval (velocity_of_byte (ne_velocity e))))
  | _, _ => (0%Q, 0, 0%Q, 0%Q)
  end.

(** Events that are none of the reader's business. *)
Definition unsupported (e : midi_event) : Prop :=
  match e with MOther _ _ | MMeta _ _ => True | _ => False end.

(** The same with more time before. *)
Definition later (d : Z) (evs : list (Z * midi_event)) : list (Z * midi_event) :=
  match evs with [] => [] | (dt, e) :: r => (d + dt, e) :: r end.

(** The bytes of a well-formed event that is none of the reader's business; system exclusive messages
    of a Standard MIDI File have a length and data after the status byte 240 or 247. *)
Inductive unsupported_bytes : bytes -> Prop :=
| U_event e b : unsupported e -> event_ok e -> payload e b -> unsupported_bytes (status_of e :: b)
| U_exclusive s n data : s = 240 \/ s = 247 -> vlq_of n (Z.of_nat (length data)) -> Forall is_byte data ->
    unsupported_bytes (s :: n ++ data).

(** ** Files *)

(** The size of a chunk as the reader takes it: the last three bytes of four. *)
Definition size_read (sz : bytes) : Z := from_bytes_be (skipn 1 sz).

(** The first event of a track chunk has no status byte. *)
Definition no_status (file : bytes) : Prop :=
  exists pre sz d n b r, file = pre ++ [77; 84; 114; 107] ++ sz ++ d ++ b :: r /\ length sz = 4%nat /\ vlq_of d n /\ 0 <= b < 128.
(** There is a header chunk with division 0. *)
Definition zero_division (file : bytes) : Prop :=
  exists pre sz r, file = pre ++ [77; 84; 104; 100] ++ sz ++ [0; 0; 0; 1; 0; 0] ++ r /\ length sz = 4%nat.
(** There is a track chunk that starts with the events [evs] and an end of track. *)
Definition has_track (file : bytes) (evs : list (Z * midi_event)) : Prop :=
  exists pre sz dt b rest post, file = pre ++ [77; 84; 114; 107] ++ sz ++ (b ++ rest) ++ post /\ length sz = 4%nat /\
    size_read sz = Z.of_nat (length (b ++ rest)) /\ 0 <= dt /\ stream_read None (evs ++ [(dt, MEndOfTrack)]) b rest.
