(** Model of src/melodia/core/tone.py (to_frequency is in Frequency.v).  No proofs in this file. *)
From Coq Require Import String.
From Verif Require Import Py.
Open Scope Z_scope.

(** class Tone, its only slot (tone.py 21, 46). *)
Record tone := mkTone { pitch : Z }.

(** Tone.__init__ on an int (tone.py 23-46); the ValueError for other types is in [tone_of_arg] of
    Note.v, where arguments of other types arise. *)
Definition tone_new (p : Z) : tone := mkTone p.

(** Tone.octave (tone.py 57-71): Python's // is floor division, as is Coq's. *)
Definition tone_octave (t : tone) : Z := pitch t / 12.

(** _tone_mapping (tone.py 5-13), keyed by the code points of C D E F G A B. *)
Definition tone_mapping : dict Z :=
  [(67, 0); (68, 2); (69, 4); (70, 5); (71, 7); (65, 9); (66, 11)].

(** _reverse_tone_mapping (tone.py 14). *)
Definition reverse_tone_mapping : dict Z := map (fun kv => (snd kv, fst kv)) tone_mapping.

(** The class [ABCDEFG] of the regular expression (tone.py 4). *)
Definition is_letter (c : Z) : bool := (65 <=? c) && (c <=? 71).

(** The class [#b] (tone.py 4): '#' is 35, 'b' is 98. *)
Definition is_accidental (c : Z) : bool := (c =? 35) || (c =? 98).

(** Longest prefix of characters satisfying [f], and the rest: the greedy star. *)
Fixpoint span (f : Z -> bool) (s : pystr) : pystr * pystr :=
  match s with
  | [] => ([], [])
  | c :: r => if f c then let (a, b) := span f r in (c :: a, b) else ([], s)
  end.

Section Digits.
(** The decimal digits of Python's [\d] on str and of [int()]: any Unicode character of category
    Nd, with its digit value.  The table depends on the Python version, so it is a parameter. *)
Variable nd : Z -> option Z.

Definition is_digit (c : Z) : bool := match nd c with Some _ => true | None => false end.

(** [int(s)] on a non-empty string of digits. *)
Definition int_of_digits (s : pystr) : Z :=
  fold_left (fun acc c => acc * 10 + match nd c with Some v => v | None => 0 end) s 0.

(** The groups matched by _notation_regex.match(notation) (tone.py 4, 98): letter, accidentals and
    the octave (sign and digits) if present.  [match] anchors at the start only: what follows the
    match is ignored, as in the code. *)
Definition notation_match (s : pystr) : option (Z * pystr * option (bool * pystr)) :=
  match s with
  | [] => None
  | c :: r =>
      if is_letter c then
        let (acc, r1) := span is_accidental r in
        let (neg, r2) := match r1 with
                         | 45 :: r2 => (true, r2)
                         | _ => (false, r1)
                         end in
        let (ds, _) := span is_digit r2 in
        let octave := match ds with [] => None | _ :: _ => Some (neg, ds) end in
        Some (c, acc, octave)
      else None
  end.

(** Tone.from_notation (tone.py 73-108).  The group octave is never an empty string, so the test
    [if octave_raw] (tone.py 106) is a test for its presence. *)
Definition from_notation (s : pystr) : res tone :=
  match notation_match s with
  | None => Err ValueError
  | Some (c, acc, oct) =>
      match dict_get tone_mapping c with
      | None => Err KeyError
      | Some base =>
          let transposition :=
            fold_left (fun a x => a + (if x =? 35 then 1 else -1)) acc 0 in
          let octave :=
            match oct with
            | None => 0
            | Some (neg, ds) => if neg then - int_of_digits ds else int_of_digits ds
            end in
          Ok (tone_new (12 * octave + base + transposition))
      end
  end.
End Digits.

(** The decimal digits of ASCII. *)
Definition ascii_digit (c : Z) : option Z :=
  if (48 <=? c) && (c <=? 57) then Some (c - 48) else None.

(** [d[k]] on a dictionary: KeyError when absent. *)
Definition dict_index {A} (d : dict A) (k : Z) : res A :=
  match dict_get d k with Some v => Ok v | None => Err KeyError end.

(** Tone.to_notation (tone.py 110-146). *)
Definition to_notation (t : tone) (transpose_down : bool) : res pystr :=
  let base_pitch := pitch t mod 12 in
  let octave := pitch t / 12 in
  match dict_get reverse_tone_mapping base_pitch with
  | Some c => Ok (c :: str_of_Z octave)
  | None =>
      if transpose_down then
        let! c := dict_index reverse_tone_mapping (base_pitch + 1) in
        Ok (c :: lit "b" ++ str_of_Z octave)
      else
        let! c := dict_index reverse_tone_mapping (base_pitch - 1) in
        Ok (c :: lit "#" ++ str_of_Z octave)
  end.

(** Tone.transposed (tone.py 158-178). *)
Definition tone_transposed (t : tone) (k : Z) : tone := tone_new (pitch t + k).

(** Tone.__str__ (tone.py 180-186). *)
Definition tone_str (t : tone) : res pystr := to_notation t false.

(** Tone.__repr__ (tone.py 188-194). *)
Definition tone_repr (t : tone) : pystr := lit "Tone(pitch=" ++ str_of_Z (pitch t) ++ lit ")".

(** Tone.__eq__, __le__, __lt__, __ge__, __gt__ (tone.py 196-239). *)
Definition tone_eq (a b : tone) : bool := pitch a =? pitch b.
Definition tone_le (a b : tone) : bool := pitch a <=? pitch b.
Definition tone_lt (a b : tone) : bool := pitch a <? pitch b.
Definition tone_ge (a b : tone) : bool := pitch a >=? pitch b.
Definition tone_gt (a b : tone) : bool := pitch a >? pitch b.
