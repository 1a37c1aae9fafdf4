(** Model of src/melodia/core/track.py.  No proofs in this file. *)
From Coq Require Import String.
From Verif Require Import Py PyFloat PySort Signature Tone Note.
Open Scope Z_scope.

(** An entry of the heap: (position, note) (track.py 41). *)
Notation entry := (sig * note)%type.

(** Comparison [<] of two (position, note) tuples: the first component that differs by ==
    decides (used by heapq.heappush, track.py 108, and list.sort, track.py 140). *)
Definition entry_lt (a b : entry) : bool :=
  if negb (sig_eq (fst a) (fst b)) then sig_lt (fst a) (fst b)
  else if negb (note_eq (snd a) (snd b)) then note_lt (snd a) (snd b)
  else false.

(** class Track, its slots (track.py 13-19). *)
Record track := mkTrack {
  t_signature : sig;
  t_max_denominator : Z;
  t_max_position : sig;
  t_heap : list entry;
  t_sorted : bool
}.

(** The assignments of Track.__init__ once the signature is known (track.py 40-44). *)
Definition track_empty (s : sig) : track :=
  {| t_signature := s; t_max_denominator := 1; t_max_position := mkSig 0 1;
     t_heap := []; t_sorted := true |}.

Definition set_max_denominator (t : track) (d : Z) : track :=
  {| t_signature := t_signature t; t_max_denominator := d; t_max_position := t_max_position t;
     t_heap := t_heap t; t_sorted := t_sorted t |}.
Definition set_heap (t : track) (h : list entry) (srt : bool) : track :=
  {| t_signature := t_signature t; t_max_denominator := t_max_denominator t;
     t_max_position := t_max_position t; t_heap := h; t_sorted := srt |}.
Definition set_max_position (t : track) (p : sig) : track :=
  {| t_signature := t_signature t; t_max_denominator := t_max_denominator t; t_max_position := p;
     t_heap := t_heap t; t_sorted := t_sorted t |}.

(** Adding one note at a known position (track.py 100-113).  The state is returned with the
    outcome: whatever was assigned before an exception stays assigned. *)
Definition add_note (t : track) (n : note) (position : sig) : track * res unit :=
  (* track.py 102-104 *)
  let '(t1, r1) :=
    if denominator position >? t_max_denominator t then
      let t' := set_max_denominator t (denominator position) in
      match map_res (fun e : entry =>
                       let! s := sig_to (fst e) (t_max_denominator t') in Ok (s, snd e))
                    (t_heap t') with
      | Ok h => (set_heap t' h (t_sorted t'), Ok tt)
      | Err e => (t', Err e)
      end
    else (t, Ok tt) in
  match r1 with
  | Err e => (t1, Err e)
  | Ok _ =>
      (* track.py 106 *)
      match sig_to position (t_max_denominator t1) with
      | Err e => (t1, Err e)
      | Ok position_transformed =>
          (* track.py 108-109 *)
          let t2 := set_heap t1 (heappush entry_lt (t_heap t1) (position_transformed, n)) false in
          (* track.py 111-113 *)
          match sig_add position_transformed (n_duration n) with
          | Err e => (t2, Err e)
          | Ok end_position =>
              if sig_gt end_position (t_max_position t2)
              then (set_max_position t2 end_position, Ok tt)
              else (t2, Ok tt)
          end
      end
  end.

(** Argument [what] of add: a note, or an iterable of such arguments. *)
Inductive what := WNote (n : note) | WIter (l : list what).

(** Track.add once the position is known (track.py 95-113); the recursive call (track.py 97) passes
    the position on, so it is the position there too. *)
Fixpoint add_at (w : what) (position : sig) (t : track) {struct w} : track * res unit :=
  match w with
  | WNote n => add_note t n position
  | WIter l =>
      (fix go (l : list what) (t : track) {struct l} : track * res unit :=
         match l with
         | [] => (t, Ok tt)
         | x :: r =>
             match add_at x position t with
             | (t', Ok _) => go r t'
             | (t', Err e) => (t', Err e)
             end
         end) l t
  end.

(** Track.add (track.py 70-113); [None] is an omitted position. *)
Definition track_add (t : track) (w : what) (where_ : option sig_arg) : track * res unit :=
  match (match where_ with
         | None => Ok (t_max_position t)
         | Some a => sig_of_arg a
         end) with
  | Err e => (t, Err e)
  | Ok position => add_at w position t
  end.

(** The loop over [content] in Track.__init__ (track.py 46-48). *)
Fixpoint add_content (t : track) (content : list (what * option sig_arg)) : res track :=
  match content with
  | [] => Ok t
  | (w, p) :: r =>
      match track_add t w p with
      | (t', Ok _) => add_content t' r
      | (_, Err e) => Err e
      end
  end.

(** Track.__init__ (track.py 21-48). *)
Definition track_new (sa : sig_arg) (content : list (what * option sig_arg)) : res track :=
  let! s := sig_of_arg sa in
  add_content (track_empty s) content.

(** Track.length (track.py 59-68). *)
Definition track_length (t : track) : sig := t_max_position t.

(** Track.__len__ (track.py 145-151). *)
Definition track_len (t : track) : Z := Z.of_nat (length (t_heap t)).

(** Track.__str__ (track.py 153-159). *)
Definition track_str (t : track) : pystr :=
  lit "Track " ++ sig_str (t_signature t) ++ lit " with " ++ str_of_Z (track_len t) ++ lit " notes".

Section Sort.
Variable sort : sort_fn.

(** Track.__iter__ (track.py 132-143): sorts in place if needed, yields the entries. *)
Definition track_iter (t : track) : track * list entry :=
  let t' := if t_sorted t then t else set_heap t (sort entry entry_lt (t_heap t)) true in
  (t', t_heap t').

(** The zip loop of Track.__eq__ (track.py 126-130): stops at the end of the shorter iterator. *)
Fixpoint zip_eq (a b : list entry) : bool :=
  match a, b with
  | (ap, an) :: a', (bp, bn) :: b' =>
      if negb (note_eq an bn) || negb (sig_eq ap bp) then false else zip_eq a' b'
  | _, _ => true
  end.

(** Track.__eq__ (track.py 115-130); both tracks may get sorted on the way. *)
Definition track_eq (a b : track) : bool * track * track :=
  if negb (sig_eq (t_signature a) (t_signature b)) then (false, a, b)
  else
    let (a', la) := track_iter a in
    let (b', lb) := track_iter b in
    (zip_eq la lb, a', b').
End Sort.
