(** Specification vocabulary for MIDI data: variable-length quantities, events and streams of
    events as bytes, independent of how the code writes or reads them. *)
From Coq Require Import ZArith QArith List Bool Sorted.
From Verif Require Import Py SpecBase.
Import ListNotations.
Open Scope Z_scope.

Definition is_byte (b : Z) : Prop := 0 <= b < 256.
Definition is_digit (d : Z) : Prop := 0 <= d < 128.

(** ** Variable-length quantities *)

(** Value of base-128 digits, most significant first. *)
Definition value128 (ds : list Z) : Z := fold_left (fun acc d => acc * 128 + d) ds 0.

(** Bit 7 set on all bytes but the last. *)
Fixpoint with_bit7 (ds : list Z) : bytes :=
  match ds with
  | [] => []
  | [d] => [d]
  | d :: r => (d + 128) :: with_bit7 r
  end.

(** [bs] is a variable-length representation of [n] (perhaps with leading zero digits). *)
Definition vlq_of (bs : bytes) (n : Z) : Prop :=
  exists ds, ds <> [] /\ Forall is_digit ds /\ bs = with_bit7 ds /\ value128 ds = n.

(** ** Events *)
Inductive midi_event :=
| MNoteOff (channel pitch velocity : Z)
| MNoteOn (channel pitch velocity : Z)
| MOther (status : Z) (data : bytes)            (* every other message with a status of its own *)
| MTimeSignature (nn dd cc bb : Z)
| MChannelPrefix (channel : Z)
| MEndOfTrack
| MMeta (kind : Z) (data : bytes).              (* every other meta event *)

Definition status_of (e : midi_event) : Z :=
  match e with
  | MNoteOff c _ _ => 128 + c
  | MNoteOn c _ _ => 144 + c
  | MOther s _ => s
  | _ => 255
  end.

(** Kind and contents of a meta event. *)
Definition meta_of (e : midi_event) : option (Z * bytes) :=
  match e with
  | MTimeSignature nn dd cc bb => Some (88, [nn; dd; cc; bb])
  | MChannelPrefix c => Some (32, [c])
  | MEndOfTrack => Some (47, [])
  | MMeta k d => Some (k, d)
  | _ => None
  end.

(** The bytes after the status byte. *)
Inductive payload : midi_event -> bytes -> Prop :=
| P_note_off c p v : payload (MNoteOff c p v) [p; v]
| P_note_on c p v : payload (MNoteOn c p v) [p; v]
| P_other s d : payload (MOther s d) d
| P_meta e k d n : meta_of e = Some (k, d) -> vlq_of n (Z.of_nat (length d)) ->
    payload e (k :: n ++ d).

(** The bytes of an event.  The status byte may be left out if it is the status of the previous
    event and the next byte can not be taken for a status byte. *)
Inductive event_bytes (previous : option Z) (e : midi_event) : bytes -> Prop :=
| B_explicit b : payload e b -> event_bytes previous e (status_of e :: b)
| B_running x b : payload e (x :: b) -> previous = Some (status_of e) -> x < 128 ->
    event_bytes previous e (x :: b).

(** The bytes of a sequence of events with their delta times. *)
Inductive stream_bytes : option Z -> list (Z * midi_event) -> bytes -> Prop :=
| S_nil previous : stream_bytes previous [] []
| S_cons previous dt e r d b s :
    vlq_of d dt -> event_bytes previous e b -> stream_bytes (Some (status_of e)) r s ->
    stream_bytes previous ((dt, e) :: r) (d ++ b ++ s).

(** Number of data bytes after a status byte of the MIDI specification, for the messages with a
    fixed length.  240 and 247 (system exclusive) have no fixed length; 244, 245, 249 and 253 are
    not defined. *)
Definition message_length (status : Z) : option nat :=
  if (128 <=? status) && (status <? 192) then Some 2%nat
  else if (192 <=? status) && (status <? 224) then Some 1%nat
  else if (224 <=? status) && (status <? 240) then Some 2%nat
  else if (status =? 241) || (status =? 243) then Some 1%nat
  else if status =? 242 then Some 2%nat
  else if (status =? 246) || (status =? 248) || (status =? 250) || (status =? 251) ||
          (status =? 252) || (status =? 254) then Some 0%nat
  else None.

Definition is_note_status (s : Z) : Prop := 128 <= s < 160.

(** Events whose fields are in range; [MOther] and [MMeta] only stand for events that have no
    constructor of their own. *)
Definition event_ok (e : midi_event) : Prop :=
  match e with
  | MNoteOff c p v | MNoteOn c p v => 0 <= c < 16 /\ is_byte p /\ is_byte v
  | MOther s d => message_length s = Some (length d) /\ ~ is_note_status s /\ Forall is_byte d
  | MTimeSignature nn dd cc bb => is_byte nn /\ is_byte dd /\ is_byte cc /\ is_byte bb
  | MChannelPrefix c => is_byte c
  | MEndOfTrack => True
  | MMeta k d => is_byte k /\ k <> 47 /\ k <> 32 /\ k <> 88 /\ Forall is_byte d
  end.

(** ** What a sequence of events says *)

(** Absolute times. *)
Fixpoint timed (now : Z) (evs : list (Z * midi_event)) : list (Z * midi_event) :=
  match evs with
  | [] => []
  | (dt, e) :: r => (now + dt, e) :: timed (now + dt) r
  end.

(** A note event: (channel, pitch, velocity, starts?); a note-on with velocity 0 ends a note. *)
Record note_event := mkNE { ne_time : Z; ne_channel : Z; ne_pitch : Z; ne_velocity : Z; ne_on : bool }.

Definition note_event_of (te : Z * midi_event) : list note_event :=
  match snd te with
  | MNoteOff c p v => [mkNE (fst te) c p v false]
  | MNoteOn c p v => [mkNE (fst te) c p v (negb (v =? 0))]
  | _ => []
  end.

Definition note_events_of (evs : list (Z * midi_event)) : list note_event :=
  flat_map note_event_of (timed 0 evs).

Definition on_channel (c : Z) (l : list note_event) : list note_event :=
  filter (fun e => ne_channel e =? c) l.

(** The time signatures with the channel prefix in force (-1 before the first one). *)
Fixpoint signatures_of (prefix : Z) (evs : list (Z * midi_event)) : list (Z * (Z * Z)) :=
  match evs with
  | [] => []
  | (_, MChannelPrefix c) :: r => signatures_of c r
  | (_, MTimeSignature nn dd _ _) :: r => (prefix, (nn, dd)) :: signatures_of prefix r
  | _ :: r => signatures_of prefix r
  end.

(** The last signature given under a prefix. *)
Definition last_signature (c : Z) (l : list (Z * (Z * Z))) : option (Z * Z) :=
  match rev (filter (fun x => fst x =? c) l) with [] => None | x :: _ => Some (snd x) end.

(** ** Which note events belong together (events of one channel) *)

(** After the events [l] the pitch [p] is sounding: it was started and not ended since. *)
Definition sounding (l : list note_event) (p : Z) : Prop :=
  exists a e, nth_error l a = Some e /\ ne_on e = true /\ ne_pitch e = p /\
    forall j f, (a < j)%nat -> nth_error l j = Some f -> ne_pitch f = p -> ne_on f = true.

(** Events number [a] and [b] are the start and the end of a note: [a] starts a pitch that is not
    sounding and [b] is the next end of that pitch. *)
Definition is_note (l : list note_event) (a b : nat) : Prop :=
  exists e f, nth_error l a = Some e /\ nth_error l b = Some f /\ (a < b)%nat /\
    ne_on e = true /\ ne_on f = false /\ ne_pitch f = ne_pitch e /\
    ~ sounding (firstn a l) (ne_pitch e) /\
    forall j g, (a < j < b)%nat -> nth_error l j = Some g -> ne_pitch g = ne_pitch e -> ne_on g = true.

(** [pairs] lists exactly the notes of [l], in the order of their ends. *)
Definition notes_listed (l : list note_event) (pairs : list (nat * nat)) : Prop :=
  (forall a b, In (a, b) pairs <-> is_note l a b) /\ StronglySorted lt (map snd pairs).

(** ** Files *)
Definition be_bytes (k : nat) (n : Z) : bytes :=
  rev (map (fun i => n / 256 ^ Z.of_nat i mod 256) (seq 0 k)).

Definition chunk (name body : bytes) : bytes := name ++ be_bytes 4 (Z.of_nat (length body)) ++ body.

(** A format 0 Standard MIDI File with one track: "MThd" (length 6: format, tracks, division),
    "MTrk". *)
Definition smf_header (division : Z) : bytes :=
  chunk [77; 84; 104; 100] (be_bytes 2 0 ++ be_bytes 2 1 ++ be_bytes 2 division).
Definition smf (division : Z) (body : bytes) : bytes :=
  smf_header division ++ chunk [77; 84; 114; 107] body.
