(** Specification vocabulary for tracks: histories of operations, what was added, where, and what
    that means as rational numbers. *)
From Coq Require Import ZArith QArith Qreduction List Bool Permutation Sorted.
From Verif Require Import Py PyFloat PySort Signature Tone Note Track MidiWriter Processing SpecBase.
Import ListNotations.
Open Scope Z_scope.

(** All notes of an argument of add, nested iterables flattened in order. *)
Fixpoint notes_of (w : what) : list note :=
  match w with
  | WNote n => [n]
  | WIter l => flat_map notes_of l
  end.

(** The position an argument denotes: a Signature, or a pair (n, d) with n >= 0 and d a power of
    two; everything else denotes none. *)
Definition position_of (a : sig_arg) : option sig :=
  match a with
  | SA_sig s => Some s
  | SA_iter [EInt n; EInt d] =>
      if (0 <=? n) && (0 <? d) && (d =? 2 ^ Z.log2 d) then Some (mkSig n d) else None
  | _ => None
  end.

(** What a program can do with a track: add notes (to a position or at the end), iterate over it,
    compare it with another track (on either side), dump it, derive a randomized copy.  Reading
    len, length, signature or str cannot change anything by their type. *)
Inductive op :=
| OAdd (w : what) (where_ : option sig_arg)
| OIter
| OEq (other : track)
| OEqR (other : track)
| ODump (w : writer)
| ORandomize (minimum maximum mean variance : float) (draws : nat -> float).

Definition is_add (o : op) : bool := match o with OAdd _ _ => true | _ => false end.

(** Notes and Signature objects that occur in a history are ones that Python code can have. *)
Definition op_ok (o : op) : Prop :=
  match o with
  | OAdd w p => Forall valid_note (notes_of w) /\ forall s, p = Some (SA_sig s) -> valid_sig s
  | _ => True
  end.

Section History.
Variable sort : sort_fn.

(** The track after one operation. *)
Definition step (t : track) (o : op) : track :=
  match o with
  | OAdd w p => fst (track_add t w p)
  | OIter => fst (track_iter sort t)
  | OEq u => snd (fst (track_eq sort t u))
  | OEqR u => snd (track_eq sort u t)
  | ODump w => d_track (dump sort w t)
  | ORandomize mn mx me va dr => fst (randomize_velocities sort t mn mx me va dr)
  end.
Definition run (t : track) (ops : list op) : track := fold_left step ops t.

(** The pairs (position, note) an operation adds: every note of the argument at the given position,
    or at the current length; nothing if the position is rejected. *)
Definition additions (t : track) (o : op) : list (sig * note) :=
  match o with
  | OAdd w None => map (fun n => (track_length t, n)) (notes_of w)
  | OAdd w (Some a) => match position_of a with
                       | Some p => map (fun n => (p, n)) (notes_of w)
                       | None => []
                       end
  | _ => []
  end.
Fixpoint log (t : track) (ops : list op) : list (sig * note) :=
  match ops with
  | [] => []
  | o :: r => additions t o ++ log (step t o) r
  end.

(** What iterating over the track yields. *)
Definition yields (t : track) : list (sig * note) := snd (track_iter sort t).
End History.

(** A note at its place: the position as a rational number (in lowest terms). *)
Definition placed (e : sig * note) : Q * note := (Qred (sval (fst e)), snd e).

(** Everything that matters about a placed note, as numbers: position, pitch, duration, velocity. *)
Definition value_of (e : sig * note) : Q * Z * Q * Q :=
  (Qred (sval (fst e)), pitch (n_tone (snd e)), Qred (sval (n_duration (snd e))),
   Qred (fval (n_velocity (snd e)))).

(** Position and pitch only. *)
Definition place_pitch (e : sig * note) : Q * Z :=
  (Qred (sval (fst e)), pitch (n_tone (snd e))).

(** e may stand before f in an iteration: smaller position, or the same one and no higher tone. *)
Definition in_order (e f : sig * note) : Prop :=
  (sval (fst e) < sval (fst f))%Q \/
  ((sval (fst e) == sval (fst f))%Q /\ pitch (n_tone (snd e)) <= pitch (n_tone (snd f))).

(** The lexicographic order on (position, note). *)
Definition value_before (e f : sig * note) : Prop :=
  (sval (fst e) < sval (fst f))%Q \/
  ((sval (fst e) == sval (fst f))%Q /\ note_before (snd e) (snd f)).

(** Notes that share position and tone but differ in duration have durations with the same
    denominator.  (In particular when no two notes share position and tone, or all durations have
    the same denominator.) *)
Definition consistent (l : list (sig * note)) : Prop :=
  forall e f, In e l -> In f l ->
    (sval (fst e) == sval (fst f))%Q ->
    pitch (n_tone (snd e)) = pitch (n_tone (snd f)) ->
    (sval (n_duration (snd e)) == sval (n_duration (snd f)))%Q \/
    denominator (n_duration (snd e)) = denominator (n_duration (snd f)).

(** The end of a placed note and the right-most end (0 if there is no note). *)
Definition note_end (e : sig * note) : Q := sval (fst e) + sval (n_duration (snd e)).
Fixpoint right_most (l : list (sig * note)) : Q :=
  match l with
  | [] => 0
  | e :: r => if Qle_bool (right_most r) (note_end e) then note_end e else right_most r
  end.
