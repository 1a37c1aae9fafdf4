(** Model of the printed forms of notes and tracks (src/melodia/core/note.py 124-143,
    src/melodia/core/track.py 161-174).  No proofs in this file. *)
From Coq Require Import ZArith List String.
From Verif Require Import Py PyFloat PySort Signature Tone Note Track.
Import ListNotations.
Open Scope Z_scope.

Definition zeros (n : Z) : pystr := repeat 48 (Z.to_nat n).

(** ** repr(float) *)

(** The string for the digits of [D] (its decimal digits, no trailing zeros) with the value D * 10^j
    (CPython format_float_short, format code 'r', with Py_DTSF_ADD_DOT_0): [p] is the place of the
    decimal point; the exponent has at least two digits. *)
Definition repr_decimal (D j : Z) : pystr :=
  let s := str_of_Z D in
  let n := Z.of_nat (List.length s) in
  let p := n + j in
  if (-4 <? p) && (p <=? 16) then
    if p <=? 0 then lit "0." ++ zeros (- p) ++ s
    else if n <=? p then s ++ zeros (p - n) ++ lit ".0"
    else firstn (Z.to_nat p) s ++ lit "." ++ skipn (Z.to_nat p) s
  else
    firstn 1 s ++ (if 1 <? n then lit "." ++ skipn 1 s else [])
      ++ lit "e" ++ lit (if p - 1 <? 0 then "-" else "+")
      ++ (if Z.abs (p - 1) <? 10 then lit "0" else []) ++ str_of_Z (Z.abs (p - 1)).

Section Digits.
(** [digits m e] are the digits chosen for the float m * 2^e (David Gay's dtoa in mode 0); what is
    assumed of them is [digits_contract] of ShowSpec.v. *)
Variable digits : positive -> Z -> Z * Z.

Definition repr_float (v : float) : pystr :=
  match v with
  | S754_zero s => lit (if s then "-0.0" else "0.0")
  | S754_infinity s => lit (if s then "-inf" else "inf")
  | S754_nan => lit "nan"
  | S754_finite s m e => lit (if s then "-" else "") ++ let (D, j) := digits m e in repr_decimal D j
  end.

(** Note.__repr__ (note.py 132-143), for the class itself (no subclass).  The string ends in a space. *)
Definition note_repr (n : note) : pystr :=
  lit "Note(tone=" ++ str_of_Z (pitch (n_tone n))
    ++ lit ", duration=(" ++ str_of_Z (nominator (n_duration n)) ++ lit ", " ++ str_of_Z (denominator (n_duration n))
    ++ lit "), velocity=" ++ repr_float (n_velocity n) ++ lit ") ".

(** ", ".join (track.py 174). *)
Fixpoint join (sep : pystr) (l : list pystr) : pystr :=
  match l with
  | [] => []
  | [x] => x
  | x :: r => x ++ sep ++ join sep r
  end.

(** One element of [contents] (track.py 172). *)
Definition entry_repr (e : entry) : pystr :=
  lit "(" ++ note_repr (snd e) ++ lit ", (" ++ str_of_Z (nominator (fst e)) ++ lit ", " ++ str_of_Z (denominator (fst e)) ++ lit "))".

(** Track.__repr__ (track.py 161-174): the loop sorts the track. *)
Definition track_repr (sort : sort_fn) (t : track) : track * pystr :=
  let (t', l) := track_iter sort t in
  (t', lit "Track(signature=(" ++ str_of_Z (nominator (t_signature t)) ++ lit ", " ++ str_of_Z (denominator (t_signature t))
         ++ lit "), content=[" ++ join (lit ", ") (map entry_repr l) ++ lit "])").
End Digits.

(** ** The format .3f *)

(** n / d for d > 0, rounded to the nearest integer, ties to even. *)
Definition half_even (n d : Z) : Z :=
  let q := n / d in
  let r := n mod d in
  if 2 * r <? d then q
  else if d <? 2 * r then q + 1
  else if Z.even q then q else q + 1.

(** Three decimals, from the exact value of the float (dtoa in mode 3). *)
Definition fixed3 (v : float) : pystr :=
  match v with
  | S754_zero s => lit (if s then "-0.000" else "0.000")
  | S754_infinity s => lit (if s then "-inf" else "inf")
  | S754_nan => lit "nan"
  | S754_finite s m e =>
      let k := if 0 <=? e then 1000 * Z.pos m * 2 ^ e else half_even (1000 * Z.pos m) (2 ^ (- e)) in
      let f := str_of_Z (k mod 1000) in
      lit (if s then "-" else "") ++ str_of_Z (k / 1000) ++ lit "." ++ zeros (3 - Z.of_nat (List.length f)) ++ f
  end.

(** Note.__str__ (note.py 124-130). *)
Definition note_str (n : note) : res pystr :=
  let! t := tone_str (n_tone n) in
  Ok (lit "Note " ++ sig_str (n_duration n) ++ lit " " ++ t ++ lit " (" ++ fixed3 (n_velocity n) ++ lit ")").

(** ** A choice of digits: as few as possible *)

(** The number of decimal digits before the point, for numbers of at least 10^-331. *)
Definition point (m : positive) (e : Z) : Z :=
  Z.of_nat (List.length (str_of_Z (if 0 <=? e then Z.pos m * 2 ^ e * 10 ^ 330 else Z.pos m * 10 ^ 330 / 2 ^ (- e)))) - 330.

(** m * 2^e / 10^j rounded to an integer. *)
Definition scaled_decimal (m : positive) (e j : Z) : Z :=
  half_even (Z.pos m * 2 ^ Z.max e 0 * 10 ^ Z.max (- j) 0) (2 ^ Z.max (- e) 0 * 10 ^ Z.max j 0).

(** D * 10^j lies between the two numbers half way to the neighbours of m * 2^e. *)
Definition reads_back (m : positive) (e D j : Z) : bool :=
  let a := D * 10 ^ Z.max j 0 * 2 ^ Z.max (2 - e) 0 in
  let b := 10 ^ Z.max (- j) 0 * 2 ^ Z.max (e - 2) 0 in
  let lo := if (Z.pos m =? 2 ^ 52) && (-1074 <? e) then 4 * Z.pos m - 1 else 4 * Z.pos m - 2 in
  (lo * b <? a) && (a <? (4 * Z.pos m + 2) * b).

Fixpoint strip_zeros (fuel : nat) (D j : Z) : Z * Z :=
  match fuel with
  | O => (D, j)
  | S f => if D mod 10 =? 0 then strip_zeros f (D / 10) (j + 1) else (D, j)
  end.

Fixpoint search_digits (fuel : nat) (m : positive) (e k n : Z) : Z * Z :=
  let j := k - n in
  let D := scaled_decimal m e j in
  match fuel with
  | O => (D, j)
  | S f => if reads_back m e D j then (D, j) else search_digits f m e k (n + 1)
  end.

Definition shortest_digits (m : positive) (e : Z) : Z * Z :=
  let (D, j) := search_digits 16 m e (point m e) 1 in
  strip_zeros 20 D j.
