(** Model of scripts/generate_chords.py, the program that wrote src/melodia/music/chord.py: the text
    written to the output file.  Parsing the command line and writing the file (lines 116-118, 151-152)
    are not modelled.  No proofs in this file. *)
From Coq Require Import String.
From Verif Require Import Py.
Open Scope Z_scope.

(** ** String methods *)

(** [str.isspace] of one character. *)
Definition is_space (c : Z) : bool :=
  ((9 <=? c) && (c <=? 13)) || ((28 <=? c) && (c <=? 32)) || (c =? 133) || (c =? 160) || (c =? 5760)
  || ((8192 <=? c) && (c <=? 8202)) || (c =? 8232) || (c =? 8233) || (c =? 8239) || (c =? 8287) || (c =? 12288).

(** [s.strip()]. *)
Fixpoint lstrip (s : pystr) : pystr :=
  match s with
  | c :: r => if is_space c then lstrip r else s
  | [] => []
  end.
Definition strip (s : pystr) : pystr := rev (lstrip (rev (lstrip s))).

(** [s.split(',')], [cur] being the characters since the last comma, backwards. *)
Fixpoint split_from (cur : pystr) (s : pystr) : list pystr :=
  match s with
  | [] => [rev cur]
  | c :: r => if c =? 44 then rev cur :: split_from [] r else split_from (c :: cur) r
  end.
Definition split_commas (s : pystr) : list pystr := split_from [] s.

(** [sep.join(l)]. *)
Fixpoint join (sep : pystr) (l : list pystr) : pystr :=
  match l with
  | [] => []
  | [x] => x
  | x :: r => x ++ sep ++ join sep r
  end.

(** [s.format] with named fields only: no conversions, no format specifications, no attributes
    or indices (a field name is all the text between the braces).  [field] is the name read so far,
    backwards, when inside braces. *)
Fixpoint format_from (fields : list (pystr * pystr)) (field : option pystr) (s : pystr) : res pystr :=
  match field, s with
  | None, [] => Ok []
  | Some _, [] => Err ValueError
  | None, 123 :: 123 :: r => let! t := format_from fields None r in Ok (123 :: t)
  | None, 125 :: 125 :: r => let! t := format_from fields None r in Ok (125 :: t)
  | None, c :: r =>
      if c =? 123 then format_from fields (Some []) r
      else if c =? 125 then Err ValueError
      else let! t := format_from fields None r in Ok (c :: t)
  | Some cur, c :: r =>
      if c =? 125 then
        match find (fun p => if list_eq_dec Z.eq_dec (fst p) (rev cur) then true else false) fields with
        | Some (_, v) => let! t := format_from fields None r in Ok (v ++ t)
        | None => Err KeyError
        end
      else format_from fields (Some (c :: cur)) r
  end.
Definition format (s : pystr) (fields : list (pystr * pystr)) : res pystr := format_from fields None s.

(** ** The script *)

(** indent (line 5). *)
Definition indent : pystr := lit "    ".

(** file_template (lines 7-50). *)
Definition file_template : pystr := lit "
# DO NOT EDIT! This file is auto generated by scripts/generate_chords.py.
from typing import Union, Tuple, Optional

from melodia.core import Tone, Note, Signature


def _get_parameters(
        base: Union[int, str, Tone, Note],
        duration: Union[Tuple[int, int], Signature, None] = None,
        velocity: Optional[float] = None
) -> Tuple[Tone, Signature, float]:
    if isinstance(base, int):
        base_tone = Tone(base)
    elif isinstance(base, str):
        base_tone = Tone.from_notation(base)
    elif isinstance(base, Tone):
        base_tone = base
    elif isinstance(base, Note):
        base_tone = base.tone
    else:
        raise ValueError('base must be int, str, Tone or Note')

    if duration is None:
        if isinstance(base, Note):
            base_duration = base.duration
        else:
            base_duration = Signature(1, 4)
    else:
        base_duration = duration

    if velocity is None:
        if isinstance(base, Note):
            base_velocity = base.velocity
        else:
            base_velocity = 0.75
    else:
        base_velocity = velocity

    return base_tone, base_duration, base_velocity


{functions}
".

(** function_template (lines 52-72). *)
Definition function_template : pystr := lit "
def {name}(
        base: Union[int, str, Tone, Note],
        duration: Union[Tuple[int, int], Signature, None] = None,
        velocity: Optional[float] = None
) -> {return_type}:
    """"""
    Generates {full_name} chord. If note is provided as the first argument, duration and 
    velocity of this note will be used as default values for chord duration and velocity.
    Otherwise :class:`~melodia.core.note.Note` defaults will be used.

    :param base: base tone
    (can be integer, string, :class:`~melodia.core.tone.Tone` or :class:`~melodia.core.note.Note`)
    :param duration: duration of the chord (default: None)
    :param velocity: velocity of the chord (default: None)
    :return: tuple of {number} notes
    """"""
    base_tone, base_duration, base_velocity = _get_parameters(base, duration, velocity)

    return {return_statement}
".

(** class Chord (lines 75-79). *)
Record chord_row := mkChord { c_name : pystr; c_full_name : pystr; c_notation : list Z }.

(** chords (lines 82-112). *)
Definition chords : list chord_row :=
  [mkChord (lit "major,maj") (lit "Major Triad") [0; 4; 7];
   mkChord (lit "minor,min") (lit "Minor Triad") [0; 3; 7];
   mkChord (lit "augmented,aug") (lit "Augmented Triad") [0; 4; 8];
   mkChord (lit "diminished,dim") (lit "Diminished Triad") [0; 3; 6];
   mkChord (lit "suspended4,sus4") (lit "Suspended Fourth") [0; 5; 7];
   mkChord (lit "suspended2,sus2") (lit "Suspended Second") [0; 2; 7];
   mkChord (lit "major7,maj7") (lit "Major Seventh") [0; 4; 7; 11];
   mkChord (lit "minor7,min7") (lit "Minor Seventh") [0; 3; 7; 10];
   mkChord (lit "dominant7,dom7") (lit "Dominant Seventh") [0; 4; 7; 10];
   mkChord (lit "dominant7b5,dom7b5") (lit "Dominant Seventh Flat Five") [0; 4; 6; 10];
   mkChord (lit "diminished7,dim7") (lit "Diminished Seventh") [0; 3; 6; 9];
   mkChord (lit "minor7b5,min7b5") (lit "Half Diminished Seventh") [0; 3; 6; 10];
   mkChord (lit "diminished_major7") (lit "Diminished Major Seventh") [0; 3; 6; 11];
   mkChord (lit "minor_major7") (lit "Minor Major Seventh") [0; 3; 7; 11];
   mkChord (lit "augmented_major7,major7s5,maj7s5") (lit "Augmented Major Seventh") [0; 4; 8; 11];
   mkChord (lit "augmented_minor7,augmented7,aug7") (lit "Augmented Minor Seventh") [0; 4; 8; 10];
   mkChord (lit "major9,maj9") (lit "Major Ninth") [0; 4; 7; 11; 14];
   mkChord (lit "minor9,min9") (lit "Minor Ninth") [0; 3; 7; 10; 14];
   mkChord (lit "dominant9,dom9") (lit "Dominant Ninth") [0; 4; 7; 10; 14];
   mkChord (lit "dominant_minor9,min7b9") (lit "Dominant Minor Ninth") [0; 4; 7; 10; 13];
   mkChord (lit "minor69,min69") (lit "6/9") [0; 4; 7; 9; 14];
   mkChord (lit "added9,add9") (lit "Added Ninth") [0; 4; 14];
   mkChord (lit "major11,maj11") (lit "Major Eleventh") [0; 4; 7; 11; 14; 17];
   mkChord (lit "minor11,min11") (lit "Minor Eleventh") [0; 3; 7; 10; 14; 17];
   mkChord (lit "dominant11,dom11") (lit "Dominant Eleventh") [0; 4; 7; 10; 14; 17]].

(** The text for one note (lines 127-132). *)
Definition statement (n : Z) : pystr :=
  if n =? 0 then lit "Note(base_tone, base_duration, base_velocity)"
  else if n >? 0 then lit "Note(base_tone.transposed(+" ++ str_of_Z (Z.abs n) ++ lit "), base_duration, base_velocity)"
  else lit "Note(base_tone.transposed(-" ++ str_of_Z (Z.abs n) ++ lit "), base_duration, base_velocity)".

(** return_type and return_statement (lines 123-136). *)
Definition return_type (notation : list Z) : pystr :=
  lit "Tuple[" ++ join (lit ", ") (repeat (lit "Note") (List.length notation)) ++ lit "]".
Definition return_statement (notation : list Z) : pystr :=
  (40 :: 10 :: indent ++ indent) ++ join (44 :: 10 :: indent ++ indent) (map statement notation) ++ (10 :: indent ++ lit ")").

(** One function (lines 139-147). *)
Definition function_text (c : chord_row) (name : pystr) : res pystr :=
  format (strip function_template)
    [(lit "name", strip name); (lit "full_name", c_full_name c);
     (lit "number", str_of_Z (Z.of_nat (List.length (c_notation c))));
     (lit "return_type", return_type (c_notation c)); (lit "return_statement", return_statement (c_notation c))].

(** The loop over the names of a chord (lines 138-147), and the loop over the chords (lines 122-147). *)
Definition chord_texts (c : chord_row) : res (list pystr) := map_res (function_text c) (split_commas (c_name c)).
Fixpoint functions_of (table : list chord_row) : res (list pystr) :=
  match table with
  | [] => Ok []
  | c :: r =>
      let! a := chord_texts c in
      let! b := functions_of r in
      Ok (a ++ b)
  end.

(** What main writes (lines 149-152). *)
Definition generate (table : list chord_row) : res pystr :=
  let! functions := functions_of table in
  let! text := format (strip file_template) [(lit "functions", join [10; 10; 10] functions)] in
  Ok (text ++ [10]).
