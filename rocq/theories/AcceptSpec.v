(** Which byte strings are accepted as files, and what they say (C57).

    A file is a sequence of chunks; a header chunk has to describe one track with a division in ticks;
    every track chunk comes after a header and starts with events up to an end of track.  What counts
    is the last track chunk and the division given before it. *)
From Coq Require Import ZArith List.
From Verif Require Import Py SpecBase MidiSpec ReaderSpec.
Import ListNotations.
Open Scope Z_scope.

(** The chunks of a file: four bytes of name, four bytes of size (of which three count), contents. *)
Inductive chunks : bytes -> list (bytes * bytes) -> Prop :=
| C_nil : chunks [] []
| C_cons name sz body file cs :
    length name = 4%nat -> length sz = 4%nat -> size_read sz = Z.of_nat (length body) ->
    chunks file cs -> chunks (name ++ sz ++ body ++ file) ((name, body) :: cs).

Definition name_header : bytes := [77; 84; 104; 100].   (* MThd *)
Definition name_track : bytes := [77; 84; 114; 107].    (* MTrk *)

(** A header: format 0, one track, the division. *)
Definition says_division (body : bytes) (q : Z) : Prop :=
  exists e f extra, body = 0 :: 0 :: 0 :: 1 :: e :: f :: extra /\ q = e * 256 + f /\ q <= 32767.

(** A track: events up to an end of track, then anything. *)
Definition says_events (body : bytes) (evs : list (Z * midi_event)) : Prop :=
  exists dt b extra, body = b ++ extra /\ evs_ok evs /\ 0 <= dt /\
    stream_read None (evs ++ [(dt, MEndOfTrack)]) b extra.

(** Some note is started and ended. *)
Definition some_note (evs : list (Z * midi_event)) : Prop :=
  exists c a b, is_note (on_channel c (note_events_of evs)) a b.

(** What is known after some chunks: the division, and the division and events of the last track. *)
Inductive says : list (bytes * bytes) -> option Z -> option (Z * list (Z * midi_event)) -> Prop :=
| Y_nil : says [] None None
| Y_header cs q tr body q' : says cs q tr -> says_division body q' ->
    says (cs ++ [(name_header, body)]) (Some q') tr
| Y_track cs q tr body evs : says cs (Some q) tr -> says_events body evs -> (q = 0 -> ~ some_note evs) ->
    says (cs ++ [(name_track, body)]) (Some q) (Some (q, evs))
| Y_other cs q tr name body : says cs q tr -> name <> name_header -> name <> name_track ->
    says (cs ++ [(name, body)]) q tr.

Definition file_says (file : bytes) (q : Z) (evs : list (Z * midi_event)) : Prop :=
  exists cs h, chunks file cs /\ says cs h (Some (q, evs)).

(** Reading gets, without complaint, to a track chunk with the contents [body] under the division
    [q]. *)
Definition gets_to_track (file : bytes) (q : Z) (body : bytes) : Prop :=
  exists file1 cs tr sz file2, file = file1 ++ name_track ++ sz ++ body ++ file2 /\
    chunks file1 cs /\ says cs (Some q) tr /\ length sz = 4%nat /\ size_read sz = Z.of_nat (length body).

(** ... the first event of which has no status byte. *)
Definition status_missing (file : bytes) : Prop :=
  exists q d n b r, gets_to_track file q (d ++ b :: r) /\ vlq_of d n /\ 0 <= b < 128.
(** ... which has notes although the division is 0. *)
Definition division_missing (file : bytes) : Prop :=
  exists body evs, gets_to_track file 0 body /\ says_events body evs /\ some_note evs.
