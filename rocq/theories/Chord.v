(** Model of src/melodia/music/chord.py.  No proofs in this file. *)
From Coq Require Import String.
From Verif Require Import Py PyFloat Signature Tone Note.
Open Scope Z_scope.

(** Argument [base] of the chord functions: "int, str, Tone or Note". *)
Inductive base_arg :=
| BA_int (z : Z) | BA_str (s : pystr) | BA_tone (t : tone) | BA_note (n : note) | BA_other.

(** How one note of a returned tuple is written in the code: [Note(base_tone, ...)] or
    [Note(base_tone.transposed(+k), ...)]. *)
Inductive chord_note := CBase | CTransposed (k : Z).

Section Digits.
Variable nd : Z -> option Z.

(** _get_parameters (chord.py 7-39). *)
Definition get_parameters (base : base_arg) (duration : option sig_arg) (velocity : option float)
  : res (tone * sig_arg * float) :=
  let! base_tone :=
    match base with
    | BA_int z => Ok (tone_new z)
    | BA_str s => from_notation nd s
    | BA_tone t => Ok t
    | BA_note n => Ok (n_tone n)
    | BA_other => Err ValueError
    end in
  let base_duration :=
    match duration with
    | None => match base with
              | BA_note n => SA_sig (n_duration n)
              | _ => SA_sig (mkSig 1 4)
              end
    | Some d => d
    end in
  let base_velocity :=
    match velocity with
    | None => match base with
              | BA_note n => n_velocity n
              | _ => f_three_quarters
              end
    | Some v => v
    end in
  Ok (base_tone, base_duration, base_velocity).

(** The common body of the 50 chord functions (e.g. chord.py 58-64): get the parameters, then build
    the notes of the tuple from left to right. *)
Definition build_chord (shape : list chord_note)
           (base : base_arg) (duration : option sig_arg) (velocity : option float)
  : res (list note) :=
  let! (t, d, v) := get_parameters base duration velocity in
  map_res (fun c => note_new nd (TA_tone (match c with
                                          | CBase => t
                                          | CTransposed k => tone_transposed t k
                                          end)) d v) shape.

(** major (chord.py 42-64). *)
Definition chord_major :=
  build_chord [CBase; CTransposed 4; CTransposed 7].
(** maj (chord.py 67-89). *)
Definition chord_maj :=
  build_chord [CBase; CTransposed 4; CTransposed 7].
(** minor (chord.py 92-114). *)
Definition chord_minor :=
  build_chord [CBase; CTransposed 3; CTransposed 7].
(** min (chord.py 117-139). *)
Definition chord_min :=
  build_chord [CBase; CTransposed 3; CTransposed 7].
(** augmented (chord.py 142-164). *)
Definition chord_augmented :=
  build_chord [CBase; CTransposed 4; CTransposed 8].
(** aug (chord.py 167-189). *)
Definition chord_aug :=
  build_chord [CBase; CTransposed 4; CTransposed 8].
(** diminished (chord.py 192-214). *)
Definition chord_diminished :=
  build_chord [CBase; CTransposed 3; CTransposed 6].
(** dim (chord.py 217-239). *)
Definition chord_dim :=
  build_chord [CBase; CTransposed 3; CTransposed 6].
(** suspended4 (chord.py 242-264). *)
Definition chord_suspended4 :=
  build_chord [CBase; CTransposed 5; CTransposed 7].
(** sus4 (chord.py 267-289). *)
Definition chord_sus4 :=
  build_chord [CBase; CTransposed 5; CTransposed 7].
(** suspended2 (chord.py 292-314). *)
Definition chord_suspended2 :=
  build_chord [CBase; CTransposed 2; CTransposed 7].
(** sus2 (chord.py 317-339). *)
Definition chord_sus2 :=
  build_chord [CBase; CTransposed 2; CTransposed 7].
(** major7 (chord.py 342-365). *)
Definition chord_major7 :=
  build_chord [CBase; CTransposed 4; CTransposed 7; CTransposed 11].
(** maj7 (chord.py 368-391). *)
Definition chord_maj7 :=
  build_chord [CBase; CTransposed 4; CTransposed 7; CTransposed 11].
(** minor7 (chord.py 394-417). *)
Definition chord_minor7 :=
  build_chord [CBase; CTransposed 3; CTransposed 7; CTransposed 10].
(** min7 (chord.py 420-443). *)
Definition chord_min7 :=
  build_chord [CBase; CTransposed 3; CTransposed 7; CTransposed 10].
(** dominant7 (chord.py 446-469). *)
Definition chord_dominant7 :=
  build_chord [CBase; CTransposed 4; CTransposed 7; CTransposed 10].
(** dom7 (chord.py 472-495). *)
Definition chord_dom7 :=
  build_chord [CBase; CTransposed 4; CTransposed 7; CTransposed 10].
(** dominant7b5 (chord.py 498-521). *)
Definition chord_dominant7b5 :=
  build_chord [CBase; CTransposed 4; CTransposed 6; CTransposed 10].
(** dom7b5 (chord.py 524-547). *)
Definition chord_dom7b5 :=
  build_chord [CBase; CTransposed 4; CTransposed 6; CTransposed 10].
(** diminished7 (chord.py 550-573). *)
Definition chord_diminished7 :=
  build_chord [CBase; CTransposed 3; CTransposed 6; CTransposed 9].
(** dim7 (chord.py 576-599). *)
Definition chord_dim7 :=
  build_chord [CBase; CTransposed 3; CTransposed 6; CTransposed 9].
(** minor7b5 (chord.py 602-625). *)
Definition chord_minor7b5 :=
  build_chord [CBase; CTransposed 3; CTransposed 6; CTransposed 10].
(** min7b5 (chord.py 628-651). *)
Definition chord_min7b5 :=
  build_chord [CBase; CTransposed 3; CTransposed 6; CTransposed 10].
(** diminished_major7 (chord.py 654-677). *)
Definition chord_diminished_major7 :=
  build_chord [CBase; CTransposed 3; CTransposed 6; CTransposed 11].
(** minor_major7 (chord.py 680-703). *)
Definition chord_minor_major7 :=
  build_chord [CBase; CTransposed 3; CTransposed 7; CTransposed 11].
(** augmented_major7 (chord.py 706-729). *)
Definition chord_augmented_major7 :=
  build_chord [CBase; CTransposed 4; CTransposed 8; CTransposed 11].
(** major7s5 (chord.py 732-755). *)
Definition chord_major7s5 :=
  build_chord [CBase; CTransposed 4; CTransposed 8; CTransposed 11].
(** maj7s5 (chord.py 758-781). *)
Definition chord_maj7s5 :=
  build_chord [CBase; CTransposed 4; CTransposed 8; CTransposed 11].
(** augmented_minor7 (chord.py 784-807). *)
Definition chord_augmented_minor7 :=
  build_chord [CBase; CTransposed 4; CTransposed 8; CTransposed 10].
(** augmented7 (chord.py 810-833). *)
Definition chord_augmented7 :=
  build_chord [CBase; CTransposed 4; CTransposed 8; CTransposed 10].
(** aug7 (chord.py 836-859). *)
Definition chord_aug7 :=
  build_chord [CBase; CTransposed 4; CTransposed 8; CTransposed 10].
(** major9 (chord.py 862-886). *)
Definition chord_major9 :=
  build_chord [CBase; CTransposed 4; CTransposed 7; CTransposed 11; CTransposed 14].
(** maj9 (chord.py 889-913). *)
Definition chord_maj9 :=
  build_chord [CBase; CTransposed 4; CTransposed 7; CTransposed 11; CTransposed 14].
(** minor9 (chord.py 916-940). *)
Definition chord_minor9 :=
  build_chord [CBase; CTransposed 3; CTransposed 7; CTransposed 10; CTransposed 14].
(** min9 (chord.py 943-967). *)
Definition chord_min9 :=
  build_chord [CBase; CTransposed 3; CTransposed 7; CTransposed 10; CTransposed 14].
(** dominant9 (chord.py 970-994). *)
Definition chord_dominant9 :=
  build_chord [CBase; CTransposed 4; CTransposed 7; CTransposed 10; CTransposed 14].
(** dom9 (chord.py 997-1021). *)
Definition chord_dom9 :=
  build_chord [CBase; CTransposed 4; CTransposed 7; CTransposed 10; CTransposed 14].
(** dominant_minor9 (chord.py 1024-1048). *)
Definition chord_dominant_minor9 :=
  build_chord [CBase; CTransposed 4; CTransposed 7; CTransposed 10; CTransposed 13].
(** min7b9 (chord.py 1051-1075). *)
Definition chord_min7b9 :=
  build_chord [CBase; CTransposed 4; CTransposed 7; CTransposed 10; CTransposed 13].
(** minor69 (chord.py 1078-1102). *)
Definition chord_minor69 :=
  build_chord [CBase; CTransposed 4; CTransposed 7; CTransposed 9; CTransposed 14].
(** min69 (chord.py 1105-1129). *)
Definition chord_min69 :=
  build_chord [CBase; CTransposed 4; CTransposed 7; CTransposed 9; CTransposed 14].
(** added9 (chord.py 1132-1154). *)
Definition chord_added9 :=
  build_chord [CBase; CTransposed 4; CTransposed 14].
(** add9 (chord.py 1157-1179). *)
Definition chord_add9 :=
  build_chord [CBase; CTransposed 4; CTransposed 14].
(** major11 (chord.py 1182-1207). *)
Definition chord_major11 :=
  build_chord [CBase; CTransposed 4; CTransposed 7; CTransposed 11; CTransposed 14; CTransposed 17].
(** maj11 (chord.py 1210-1235). *)
Definition chord_maj11 :=
  build_chord [CBase; CTransposed 4; CTransposed 7; CTransposed 11; CTransposed 14; CTransposed 17].
(** minor11 (chord.py 1238-1263). *)
Definition chord_minor11 :=
  build_chord [CBase; CTransposed 3; CTransposed 7; CTransposed 10; CTransposed 14; CTransposed 17].
(** min11 (chord.py 1266-1291). *)
Definition chord_min11 :=
  build_chord [CBase; CTransposed 3; CTransposed 7; CTransposed 10; CTransposed 14; CTransposed 17].
(** dominant11 (chord.py 1294-1319). *)
Definition chord_dominant11 :=
  build_chord [CBase; CTransposed 4; CTransposed 7; CTransposed 10; CTransposed 14; CTransposed 17].
(** dom11 (chord.py 1322-1347). *)
Definition chord_dom11 :=
  build_chord [CBase; CTransposed 4; CTransposed 7; CTransposed 10; CTransposed 14; CTransposed 17].

(** The functions of the module by name. *)
Definition chord_functions
  : list (string * (base_arg -> option sig_arg -> option float -> res (list note))) :=
  [ ("major"%string, chord_major);
    ("maj"%string, chord_maj);
    ("minor"%string, chord_minor);
    ("min"%string, chord_min);
    ("augmented"%string, chord_augmented);
    ("aug"%string, chord_aug);
    ("diminished"%string, chord_diminished);
    ("dim"%string, chord_dim);
    ("suspended4"%string, chord_suspended4);
    ("sus4"%string, chord_sus4);
    ("suspended2"%string, chord_suspended2);
    ("sus2"%string, chord_sus2);
    ("major7"%string, chord_major7);
    ("maj7"%string, chord_maj7);
    ("minor7"%string, chord_minor7);
    ("min7"%string, chord_min7);
    ("dominant7"%string, chord_dominant7);
    ("dom7"%string, chord_dom7);
    ("dominant7b5"%string, chord_dominant7b5);
    ("dom7b5"%string, chord_dom7b5);
    ("diminished7"%string, chord_diminished7);
    ("dim7"%string, chord_dim7);
    ("minor7b5"%string, chord_minor7b5);
    ("min7b5"%string, chord_min7b5);
    ("diminished_major7"%string, chord_diminished_major7);
    ("minor_major7"%string, chord_minor_major7);
    ("augmented_major7"%string, chord_augmented_major7);
    ("major7s5"%string, chord_major7s5);
    ("maj7s5"%string, chord_maj7s5);
    ("augmented_minor7"%string, chord_augmented_minor7);
    ("augmented7"%string, chord_augmented7);
    ("aug7"%string, chord_aug7);
    ("major9"%string, chord_major9);
    ("maj9"%string, chord_maj9);
    ("minor9"%string, chord_minor9);
    ("min9"%string, chord_min9);
    ("dominant9"%string, chord_dominant9);
    ("dom9"%string, chord_dom9);
    ("dominant_minor9"%string, chord_dominant_minor9);
    ("min7b9"%string, chord_min7b9);
    ("minor69"%string, chord_minor69);
    ("min69"%string, chord_min69);
    ("added9"%string, chord_added9);
    ("add9"%string, chord_add9);
    ("major11"%string, chord_major11);
    ("maj11"%string, chord_maj11);
    ("minor11"%string, chord_minor11);
    ("min11"%string, chord_min11);
    ("dominant11"%string, chord_dominant11);
    ("dom11"%string, chord_dom11) ].
End Digits.
