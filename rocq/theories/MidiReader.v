(** Model of the reading half of src/melodia/io/midi.py (lines 21-40, 254-674, 702-725).
    No proofs in this file. *)
From Verif Require Import Py PyFloat PySort Signature Tone Note Track MidiWriter.
Open Scope Z_scope.

(** class _Reader (midi.py 21-40). *)
Record reader := mkReader { rd_data : bytes; rd_idx : Z }.

(** Computations that use a reader and may raise; the reader keeps its state when they do. *)
Definition R (A : Type) : Type := reader -> reader * res A.
Definition ret {A} (a : A) : R A := fun r => (r, Ok a).
Definition raise {A} (e : err) : R A := fun r => (r, Err e).
Definition rbind {A B} (m : R A) (k : A -> R B) : R B :=
  fun r => match m r with
           | (r', Ok a) => k a r'
           | (r', Err e) => (r', Err e)
           end.
Notation "'do' x <- m ; k" := (rbind m (fun x => k))
  (at level 200, x pattern, m at level 100, k at level 200, right associativity).

(** _Reader.__init__ (midi.py 24-26). *)
Definition reader_new (data : bytes) : reader := mkReader data 0.

(** _Reader.read (midi.py 28-34). *)
Definition read (n : Z) : R bytes := fun r =>
  let len := Z.of_nat (length (rd_data r)) in
  if len - rd_idx r <? n then (mkReader (rd_data r) len, Err MIDIParsingError)
  else (mkReader (rd_data r) (rd_idx r + n),
        Ok (firstn (Z.to_nat n) (skipn (Z.to_nat (rd_idx r)) (rd_data r)))).

(** _Reader.shift (midi.py 36-37). *)
Definition shift (n : Z) : R unit := fun r =>
  (mkReader (rd_data r) (rd_idx r + n), Ok tt).

(** _Reader.__len__ (midi.py 39-40). *)
Definition reader_len (r : reader) : Z := Z.of_nat (length (rd_data r)).

(** MIDIReader._read_8, _read_16, _read_24, _read_32 (midi.py 436-450). *)
Definition read_8 : R Z := do b <- read 1; ret (from_bytes_be b).
Definition read_16 : R Z := do b <- read 2; ret (from_bytes_be b).
Definition read_24 : R Z := do b <- read 3; ret (from_bytes_be b).
Definition read_32 : R Z := do b <- read 4; ret (from_bytes_be b).

(** MIDIReader._parse_header (midi.py 403-408). *)
Definition parse_header : R (Z * Z * Z) :=
  do b1 <- read 2;
  do b2 <- read 2;
  do b3 <- read 2;
  ret (from_bytes_be b1, from_bytes_be b2, from_bytes_be b3).

(** MIDIReader._time_to_signature (midi.py 410-414). *)
Definition time_to_signature (time ticks_per_quarter : Z) : res sig :=
  if negb (ticks_per_quarter >? 0) then Err AssertionError
  else
    let! s := sig_new (time * 4096 / ticks_per_quarter) (4 * 4096) in
    sig_normalized s.

(** The loop of _read_var_len (midi.py 428-432), with fuel. *)
Fixpoint var_len_rest (fuel : nat) (result : Z) : R Z :=
  match fuel with
  | O => raise OutOfFuel
  | S k =>
      do value <- read_8;
      let result := Z.shiftl result 7 + Z.land value 127 in
      if Z.land value 128 =? 0 then ret result else var_len_rest k result
  end.

(** MIDIReader._read_var_len (midi.py 419-434).  Every turn reads a byte, so the length of the data
    is enough fuel. *)
Definition read_var_len : R Z := fun r =>
  (do result <- read_8;
   if Z.land result 128 =? 0 then ret result
   else var_len_rest (S (length (rd_data r))) (Z.land result 127)) r.

(** The list _event_lengths (midi.py 254-308), by the same sequence of assignments. *)
Definition set_range (lo hi v : Z) (l : list Z) : list Z :=
  fold_left (fun l i => set_nth l i v) (seq (Z.to_nat lo) (Z.to_nat (hi + 1 - lo))) l.
Definition set_one (i v : Z) (l : list Z) : list Z := set_nth l (Z.to_nat i) v.
Definition event_lengths : list Z :=
  let l := repeat (-1) (Z.to_nat 255) in
  let l := set_range 128 159 2 l in   (* note off, note on: 257-258 *)
  let l := set_range 160 175 2 l in   (* after touch: 261-262 *)
  let l := set_range 176 191 2 l in   (* controller: 265-266 *)
  let l := set_range 192 207 1 l in   (* program change: 269-270 *)
  let l := set_range 208 223 1 l in   (* channel pressure: 273-274 *)
  let l := set_range 224 239 2 l in   (* pitch wheel: 277-278 *)
  let l := set_one 241 1 l in         (* MTC quarter frame: 281 *)
  let l := set_one 242 2 l in         (* song position pointer: 284 *)
  let l := set_one 243 1 l in         (* song select: 287 *)
  let l := set_one 246 0 l in         (* tune request: 290 *)
  let l := set_one 248 0 l in         (* MIDI clock: 293 *)
  let l := set_one 248 0 l in         (* tick, assigned to the same index: 296 *)
  let l := set_one 250 0 l in         (* start: 299 *)
  let l := set_one 252 0 l in         (* stop: 302 *)
  let l := set_one 251 0 l in         (* continue: 305 *)
  set_one 254 0 l.                    (* active sense: 308 *)

(** The _Event classes (midi.py 311-350). *)
Inductive event :=
| EvUnsupported
| EvNoteOff (channel pitch velocity : Z)
| EvNoteOn (channel pitch velocity : Z)
| EvEndOfTrack
| EvTimeSignature (nn dd cc bb : Z)
| EvGlobalChannel (channel : Z).

(** The variable [value] of the system exclusive loop (midi.py 513-515) holds the int 0 first and
    then bytes objects. *)
Inductive sysex_value := SVInt (z : Z) | SVBytes (b : bytes).

(** [value != 0xF7]: a bytes object is never equal to an int. *)
Definition sysex_continues (v : sysex_value) : bool :=
  match v with SVInt z => negb (z =? 247) | SVBytes _ => true end.

(** The system exclusive loop (midi.py 513-515), with fuel. *)
Fixpoint sysex_loop (fuel : nat) (v : sysex_value) : R unit :=
  if sysex_continues v then
    match fuel with
    | O => raise OutOfFuel
    | S k => do b <- read 1; sysex_loop k (SVBytes b)
    end
  else ret tt.

(** The inner function read_event of _parse_track (midi.py 459-527).  [status] is its argument,
    [previous] the nonlocal previous_status, whose new value is returned with the event.
    [depth] is the recursion depth left to CPython; running out of it raises RecursionError. *)
Fixpoint read_event (depth : nat) (status : option Z) (previous : option Z)
  : R (event * option Z) :=
  match depth with
  | O => raise RecursionError
  | S depth' =>
      do status <- match status with None => read_8 | Some s => ret s end;
      if status =? 255 then
        let previous := Some status in
        do kind <- read_8;
        do length_ <- read_var_len;
        if kind =? 47 then
          if negb (length_ =? 0) then raise MIDIParsingError
          else ret (EvEndOfTrack, previous)
        else if kind =? 32 then
          if negb (length_ =? 1) then raise MIDIParsingError
          else do channel <- read_8; ret (EvGlobalChannel channel, previous)
        else if kind =? 88 then
          if negb (length_ =? 4) then raise MIDIParsingError
          else
            do nn <- read_8;
            do dd <- read_8;
            do cc <- read_8;
            do bb <- read_8;
            ret (EvTimeSignature nn dd cc bb, previous)
        else
          do _ <- read length_;
          ret (EvUnsupported, previous)
      else if status >=? 128 then
        let previous := Some status in
        let kind := Z.shiftr status 4 in
        let channel := Z.land status 15 in
        if kind =? 8 then
          do p <- read_8;
          do velocity <- read_8;
          ret (EvNoteOff channel p velocity, previous)
        else if kind =? 9 then
          do p <- read_8;
          do velocity <- read_8;
          if velocity =? 0 then ret (EvNoteOff channel p velocity, previous)
          else ret (EvNoteOn channel p velocity, previous)
        else if status =? 240 then
          do _ <- (fun r => sysex_loop (S (length (rd_data r))) (SVInt 0) r);
          ret (EvUnsupported, previous)
        else
          match nth_error event_lengths (Z.to_nat status) with
          | None => raise IndexError
          | Some length_ =>
              if length_ =? -1 then raise MIDIParsingError
              else do _ <- read length_; ret (EvUnsupported, previous)
          end
      else
        do _ <- shift (-1);
        read_event depth' previous previous
  end.

(** CPython's default recursion limit (sys.getrecursionlimit()); frames of callers are ignored. *)
Definition recursion_limit : nat := 1000.

(** State of the main loop of _parse_track (midi.py 529-533). *)
Record parse_state := mkPS {
  ps_previous : option Z;
  ps_events : dict (list (Z * event));
  ps_signatures : dict sig;
  ps_global : Z;
  ps_time : Z
}.

(** [channel_events[channel].append(x)] on a defaultdict(list) (midi.py 542, 558). *)
Definition append_event (d : dict (list (Z * event))) (channel : Z) (x : Z * event) :=
  dict_set d channel (match dict_get d channel with Some l => l ++ [x] | None => [x] end).

(** The main loop of _parse_track (midi.py 535-554), with fuel. *)
Fixpoint parse_loop (fuel : nat) (s : parse_state) : R parse_state :=
  match fuel with
  | O => raise OutOfFuel
  | S k =>
      do delta_time <- read_var_len;
      let absolute_time := ps_time s + delta_time in
      do (ev, previous) <- read_event recursion_limit None (ps_previous s);
      let s' := mkPS previous (ps_events s) (ps_signatures s) (ps_global s) absolute_time in
      match ev with
      | EvNoteOn c _ _ | EvNoteOff c _ _ =>
          parse_loop k (mkPS previous (append_event (ps_events s) c (absolute_time, ev))
                             (ps_signatures s) (ps_global s) absolute_time)
      | EvEndOfTrack => ret s'
      | EvGlobalChannel c =>
          parse_loop k (mkPS previous (ps_events s) (ps_signatures s) c absolute_time)
      | EvTimeSignature nn dd _ _ =>
          match sig_new nn (Z.shiftl 1 dd) with
          | Err e => raise e
          | Ok sg =>
              parse_loop k (mkPS previous (ps_events s) (dict_set (ps_signatures s) (ps_global s) sg)
                                 (ps_global s) absolute_time)
          end
      | EvUnsupported => parse_loop k s'
      end
  end.

(** class MIDIReader, its slot _middle_c_delta (midi.py 358-361); __init__ (midi.py 363-386). *)
Record midi_reader := mkMR { mr_delta : Z }.
Definition midi_reader_new (nd : Z -> option Z) (middle_c : tone_arg) : res midi_reader :=
  let! c := tone_of_arg nd middle_c in
  Ok {| mr_delta := 60 - pitch c |}.

(** MIDIReader._pitch_to_tone (midi.py 416-417). *)
Definition pitch_to_tone (m : midi_reader) (p : Z) : tone := tone_new (p - mr_delta m).

(** [max(0.0, min(1.0, velocity / 127.0))] (midi.py 591). *)
Definition velocity_of_byte (k : Z) : float :=
  fmax f_zero (fmin f_one (fdiv (float_of_Z k) f_127)).

(** The loop over the events of one channel (midi.py 571-598). *)
Fixpoint channel_loop (m : midi_reader) (tpq : Z) (events : list (Z * event))
         (running : dict (Z * Z)) (t : track) : res track :=
  match events with
  | [] => Ok t
  | (absolute_time, ev) :: r =>
      match ev with
      | EvNoteOn _ p v =>
          match dict_get running p with
          | Some _ => channel_loop m tpq r running t
          | None => channel_loop m tpq r (dict_set running p (absolute_time, v)) t
          end
      | EvNoteOff _ p _ =>
          match dict_get running p with
          | None => channel_loop m tpq r running t
          | Some (note_beginning, v) =>
              let running := dict_del running p in
              let tone_ := pitch_to_tone m p in
              let! duration := time_to_signature (absolute_time - note_beginning) tpq in
              let velocity := velocity_of_byte v in
              let! position := time_to_signature note_beginning tpq in
              let! n := note_init tone_ duration velocity in
              match track_add t (WNote n) (Some (SA_sig position)) with
              | (t', Ok _) => channel_loop m tpq r running t'
              | (_, Err e) => Err e
              end
          end
      | _ => channel_loop m tpq r running t
      end
  end.

(** The signature chosen for a channel (midi.py 563-566). *)
Definition channel_signature (sigs : dict sig) (channel : Z) : sig :=
  match dict_get sigs channel with
  | Some s => s
  | None => match dict_get sigs (-1) with Some s => s | None => mkSig 4 4 end
  end.

(** The loop over the channels (midi.py 560-602). *)
Fixpoint channels_loop (m : midi_reader) (tpq : Z) (sigs : dict sig)
         (channels : dict (list (Z * event))) : res (dict track) :=
  match channels with
  | [] => Ok []
  | (channel, events) :: r =>
      let! t := channel_loop m tpq events [] (track_empty (channel_signature sigs channel)) in
      let! rest := channels_loop m tpq sigs r in
      Ok ((channel, t) :: rest)
  end.

(** MIDIReader._parse_track (midi.py 452-602).  Every turn of the main loop reads at least one byte
    net, so the length of the data is enough fuel.  The keys of channel_events are distinct, so
    [result[channel] = track] appends. *)
Definition parse_track (m : midi_reader) (data : bytes) (tpq : Z) : res (dict track) :=
  match parse_loop (S (length data)) (mkPS None [] [] (-1) 0) (reader_new data) with
  | (_, Err e) => Err e
  | (_, Ok s) =>
      let events := match ps_events s with
                    | [] => append_event [] 0 (0, EvUnsupported)
                    | d => d
                    end in
      channels_loop m tpq (ps_signatures s) events
  end.

(** [a == b] on bytes. *)
Fixpoint bytes_eqb (a b : bytes) : bool :=
  match a, b with
  | [], [] => true
  | x :: a', y :: b' => (x =? y) && bytes_eqb a' b'
  | _, _ => false
  end.

(** State of load (midi.py 615-617): kind and ticks_per_quarter are set together, so one option
    holds the latter. *)
Record load_state := mkLS { ls_tpq : option Z; ls_tracks : option (dict track) }.

(** One chunk in the loop of load (midi.py 620-632). *)
Definition load_chunk (m : midi_reader) (s : load_state) (kind body : bytes) : res load_state :=
  let! s :=
    if bytes_eqb kind MThd then
      match parse_header (reader_new body) with
      | (_, Err e) => Err e
      | (_, Ok (k, n_tracks, division)) =>
          if negb (k =? 0) then Err MIDIParsingError
          else if negb (n_tracks =? 1) then Err MIDIParsingError
          else if division >? 32767 then Err MIDIParsingError
          else Ok (mkLS (Some division) (ls_tracks s))
      end
    else Ok s in
  if bytes_eqb kind MTrk then
    match ls_tpq s with
    | None => Err MIDIParsingError
    | Some tpq =>
        let! ts := parse_track m body tpq in
        Ok (mkLS (ls_tpq s) (Some ts))
    end
  else Ok s.

(** The generator _read_chunks (midi.py 388-401) interleaved with the loop that consumes it
    (midi.py 619-632), with fuel; [file] is what is left to read.  [chunk_header[5:]] takes the last
    three bytes of the four byte size. *)
Fixpoint load_loop (fuel : nat) (m : midi_reader) (s : load_state) (file : bytes)
  : res load_state :=
  match fuel with
  | O => Err OutOfFuel
  | S k =>
      let chunk_header := firstn 8 file in
      let file := skipn 8 file in
      if Nat.eqb (length chunk_header) 0 then Ok s
      else if Nat.ltb (length chunk_header) 8 then Err MIDIParsingError
      else
        let chunk_name := firstn 4 chunk_header in
        let chunk_size := from_bytes_be (skipn 5 chunk_header) in
        let chunk_body := firstn (Z.to_nat chunk_size) file in
        let file := skipn (Z.to_nat chunk_size) file in
        if Z.of_nat (length chunk_body) <? chunk_size then Err MIDIParsingError
        else
          let! s := load_chunk m s chunk_name chunk_body in
          load_loop k m s file
  end.

(** The largest signature, starting from 0/1 (midi.py 644-648). *)
Definition max_signature (ts : list track) : sig :=
  fold_left (fun mx t => if sig_gt (t_signature t) mx then t_signature t else mx) ts (mkSig 0 1).

(** Adding all entries of a track to another one (midi.py 653-654). *)
Fixpoint add_entries (t : track) (l : list entry) : res track :=
  match l with
  | [] => Ok t
  | (position, n) :: r =>
      match track_add t (WNote n) (Some (SA_sig position)) with
      | (t', Ok _) => add_entries t' r
      | (_, Err e) => Err e
      end
  end.

Section Sort.
Variable sort : sort_fn.

(** The nested loop at midi.py 652-654. *)
Fixpoint merge_tracks (common : track) (ts : list track) : res track :=
  match ts with
  | [] => Ok common
  | t :: r =>
      let! common := add_entries common (snd (track_iter sort t)) in
      merge_tracks common r
  end.

(** MIDIReader.load (midi.py 604-661) on a file holding [file]. *)
Definition load (m : midi_reader) (file : bytes) (channel : option Z) : res track :=
  let! s := load_loop (S (length file)) m (mkLS None None) file in
  match ls_tpq s with
  | None => Err MIDIParsingError
  | Some _ =>
      match ls_tracks s with
      | None => Err MIDIParsingError
      | Some [] => Ok (track_empty (mkSig 4 4))
      | Some tracks =>
          match channel with
          | None =>
              let ts := map snd tracks in
              merge_tracks (track_empty (max_signature ts)) ts
          | Some c =>
              match dict_get tracks c with
              | None => Err ValueError
              | Some t => Ok t
              end
          end
      end
  end.

(** The module function loads (midi.py 715-725), MIDIReader.loads (midi.py 663-674). *)
Definition midi_loads (file : bytes) (channel : option Z) : res track :=
  let! m := midi_reader_new ascii_digit default_middle_c in
  load m file channel.
End Sort.
