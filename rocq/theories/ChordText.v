(** The text of src/melodia/music/chord.py (lines 1-1347), character by character, cut before each
    function.  No proofs in this file. *)
From Coq Require Import String List.
From Verif Require Import Py.
Import ListNotations.

(** Lines 1-6. *)
Definition part_0 : string := "# DO NOT EDIT! This file is auto generated by scripts/generate_chords.py.
from typing import Union, Tuple, Optional

from melodia.core import Tone, Note, Signature


".
(** Lines 7-41. *)
Definition part_1 : string := "def _get_parameters(
        base: Union[int, str, Tone, Note],
        duration: Union[Tuple[int, int], Signature, None] = None,
        velocity: Optional[float] = None
) -> Tuple[Tone, Signature, float]:
    if isinstance(base, int):
        base_tone = Tone(base)
    elif isinstance(base, str):
        base_tone = Tone.from_notation(base)
    elif isinstance(base, Tone):
        base_tone = base
    elif isinstance(base, Note):
        base_tone = base.tone
    else:
        raise ValueError('base must be int, str, Tone or Note')

    if duration is None:
        if isinstance(base, Note):
            base_duration = base.duration
        else:
            base_duration = Signature(1, 4)
    else:
        base_duration = duration

    if velocity is None:
        if isinstance(base, Note):
            base_velocity = base.velocity
        else:
            base_velocity = 0.75
    else:
        base_velocity = velocity

    return base_tone, base_duration, base_velocity


".
(** Lines 42-66. *)
Definition part_2 : string := "def major(
        base: Union[int, str, Tone, Note],
        duration: Union[Tuple[int, int], Signature, None] = None,
        velocity: Optional[float] = None
) -> Tuple[Note, Note, Note]:
    """"""
    Generates Major Triad chord. If note is provided as the first argument, duration and 
    velocity of this note will be used as default values for chord duration and velocity.
    Otherwise :class:`~melodia.core.note.Note` defaults will be used.

    :param base: base tone
    (can be integer, string, :class:`~melodia.core.tone.Tone` or :class:`~melodia.core.note.Note`)
    :param duration: duration of the chord (default: None)
    :param velocity: velocity of the chord (default: None)
    :return: tuple of 3 notes
    """"""
    base_tone, base_duration, base_velocity = _get_parameters(base, duration, velocity)

    return (
        Note(base_tone, base_duration, base_velocity),
        Note(base_tone.transposed(+4), base_duration, base_velocity),
        Note(base_tone.transposed(+7), base_duration, base_velocity)
    )


".
(** Lines 67-91. *)
Definition part_3 : string := "def maj(
        base: Union[int, str, Tone, Note],
        duration: Union[Tuple[int, int], Signature, None] = None,
        velocity: Optional[float] = None
) -> Tuple[Note, Note, Note]:
    """"""
    Generates Major Triad chord. If note is provided as the first argument, duration and 
    velocity of this note will be used as default values for chord duration and velocity.
    Otherwise :class:`~melodia.core.note.Note` defaults will be used.

    :param base: base tone
    (can be integer, string, :class:`~melodia.core.tone.Tone` or :class:`~melodia.core.note.Note`)
    :param duration: duration of the chord (default: None)
    :param velocity: velocity of the chord (default: None)
    :return: tuple of 3 notes
    """"""
    base_tone, base_duration, base_velocity = _get_parameters(base, duration, velocity)

    return (
        Note(base_tone, base_duration, base_velocity),
        Note(base_tone.transposed(+4), base_duration, base_velocity),
        Note(base_tone.transposed(+7), base_duration, base_velocity)
    )


".
(** Lines 92-116. *)
Definition part_4 : string := "def minor(
        base: Union[int, str, Tone, Note],
        duration: Union[Tuple[int, int], Signature, None] = None,
        velocity: Optional[float] = None
) -> Tuple[Note, Note, Note]:
    """"""
    Generates Minor Triad chord. If note is provided as the first argument, duration and 
    velocity of this note will be used as default values for chord duration and velocity.
    Otherwise :class:`~melodia.core.note.Note` defaults will be used.

    :param base: base tone
    (can be integer, string, :class:`~melodia.core.tone.Tone` or :class:`~melodia.core.note.Note`)
    :param duration: duration of the chord (default: None)
    :param velocity: velocity of the chord (default: None)
    :return: tuple of 3 notes
    """"""
    base_tone, base_duration, base_velocity = _get_parameters(base, duration, velocity)

    return (
        Note(base_tone, base_duration, base_velocity),
        Note(base_tone.transposed(+3), base_duration, base_velocity),
        Note(base_tone.transposed(+7), base_duration, base_velocity)
    )


".
(** Lines 117-141. *)
Definition part_5 : string := "def min(
        base: Union[int, str, Tone, Note],
        duration: Union[Tuple[int, int], Signature, None] = None,
        velocity: Optional[float] = None
) -> Tuple[Note, Note, Note]:
    """"""
    Generates Minor Triad chord. If note is provided as the first argument, duration and 
    velocity of this note will be used as default values for chord duration and velocity.
    Otherwise :class:`~melodia.core.note.Note` defaults will be used.

    :param base: base tone
    (can be integer, string, :class:`~melodia.core.tone.Tone` or :class:`~melodia.core.note.Note`)
    :param duration: duration of the chord (default: None)
    :param velocity: velocity of the chord (default: None)
    :return: tuple of 3 notes
    """"""
    base_tone, base_duration, base_velocity = _get_parameters(base, duration, velocity)

    return (
        Note(base_tone, base_duration, base_velocity),
        Note(base_tone.transposed(+3), base_duration, base_velocity),
        Note(base_tone.transposed(+7), base_duration, base_velocity)
    )


".
(** Lines 142-166. *)
Definition part_6 : string := "def augmented(
        base: Union[int, str, Tone, Note],
        duration: Union[Tuple[int, int], Signature, None] = None,
        velocity: Optional[float] = None
) -> Tuple[Note, Note, Note]:
    """"""
    Generates Augmented Triad chord. If note is provided as the first argument, duration and 
    velocity of this note will be used as default values for chord duration and velocity.
    Otherwise :class:`~melodia.core.note.Note` defaults will be used.

    :param base: base tone
    (can be integer, string, :class:`~melodia.core.tone.Tone` or :class:`~melodia.core.note.Note`)
    :param duration: duration of the chord (default: None)
    :param velocity: velocity of the chord (default: None)
    :return: tuple of 3 notes
    """"""
    base_tone, base_duration, base_velocity = _get_parameters(base, duration, velocity)

    return (
        Note(base_tone, base_duration, base_velocity),
        Note(base_tone.transposed(+4), base_duration, base_velocity),
        Note(base_tone.transposed(+8), base_duration, base_velocity)
    )


".
(** Lines 167-191. *)
Definition part_7 : string := "def aug(
        base: Union[int, str, Tone, Note],
        duration: Union[Tuple[int, int], Signature, None] = None,
        velocity: Optional[float] = None
) -> Tuple[Note, Note, Note]:
    """"""
    Generates Augmented Triad chord. If note is provided as the first argument, duration and 
    velocity of this note will be used as default values for chord duration and velocity.
    Otherwise :class:`~melodia.core.note.Note` defaults will be used.

    :param base: base tone
    (can be integer, string, :class:`~melodia.core.tone.Tone` or :class:`~melodia.core.note.Note`)
    :param duration: duration of the chord (default: None)
    :param velocity: velocity of the chord (default: None)
    :return: tuple of 3 notes
    """"""
    base_tone, base_duration, base_velocity = _get_parameters(base, duration, velocity)

    return (
        Note(base_tone, base_duration, base_velocity),
        Note(base_tone.transposed(+4), base_duration, base_velocity),
        Note(base_tone.transposed(+8), base_duration, base_velocity)
    )


".
(** Lines 192-216. *)
Definition part_8 : string := "def diminished(
        base: Union[int, str, Tone, Note],
        duration: Union[Tuple[int, int], Signature, None] = None,
        velocity: Optional[float] = None
) -> Tuple[Note, Note, Note]:
    """"""
    Generates Diminished Triad chord. If note is provided as the first argument, duration and 
    velocity of this note will be used as default values for chord duration and velocity.
    Otherwise :class:`~melodia.core.note.Note` defaults will be used.

    :param base: base tone
    (can be integer, string, :class:`~melodia.core.tone.Tone` or :class:`~melodia.core.note.Note`)
    :param duration: duration of the chord (default: None)
    :param velocity: velocity of the chord (default: None)
    :return: tuple of 3 notes
    """"""
    base_tone, base_duration, base_velocity = _get_parameters(base, duration, velocity)

    return (
        Note(base_tone, base_duration, base_velocity),
        Note(base_tone.transposed(+3), base_duration, base_velocity),
        Note(base_tone.transposed(+6), base_duration, base_velocity)
    )


".
(** Lines 217-241. *)
Definition part_9 : string := "def dim(
        base: Union[int, str, Tone, Note],
        duration: Union[Tuple[int, int], Signature, None] = None,
        velocity: Optional[float] = None
) -> Tuple[Note, Note, Note]:
    """"""
    Generates Diminished Triad chord. If note is provided as the first argument, duration and 
    velocity of this note will be used as default values for chord duration and velocity.
    Otherwise :class:`~melodia.core.note.Note` defaults will be used.

    :param base: base tone
    (can be integer, string, :class:`~melodia.core.tone.Tone` or :class:`~melodia.core.note.Note`)
    :param duration: duration of the chord (default: None)
    :param velocity: velocity of the chord (default: None)
    :return: tuple of 3 notes
    """"""
    base_tone, base_duration, base_velocity = _get_parameters(base, duration, velocity)

    return (
        Note(base_tone, base_duration, base_velocity),
        Note(base_tone.transposed(+3), base_duration, base_velocity),
        Note(base_tone.transposed(+6), base_duration, base_velocity)
    )


".
(** Lines 242-266. *)
Definition part_10 : string := "def suspended4(
        base: Union[int, str, Tone, Note],
        duration: Union[Tuple[int, int], Signature, None] = None,
        velocity: Optional[float] = None
) -> Tuple[Note, Note, Note]:
    """"""
    Generates Suspended Fourth chord. If note is provided as the first argument, duration and 
    velocity of this note will be used as default values for chord duration and velocity.
    Otherwise :class:`~melodia.core.note.Note` defaults will be used.

    :param base: base tone
    (can be integer, string, :class:`~melodia.core.tone.Tone` or :class:`~melodia.core.note.Note`)
    :param duration: duration of the chord (default: None)
    :param velocity: velocity of the chord (default: None)
    :return: tuple of 3 notes
    """"""
    base_tone, base_duration, base_velocity = _get_parameters(base, duration, velocity)

    return (
        Note(base_tone, base_duration, base_velocity),
        Note(base_tone.transposed(+5), base_duration, base_velocity),
        Note(base_tone.transposed(+7), base_duration, base_velocity)
    )


".
(** Lines 267-291. *)
Definition part_11 : string := "def sus4(
        base: Union[int, str, Tone, Note],
        duration: Union[Tuple[int, int], Signature, None] = None,
        velocity: Optional[float] = None
) -> Tuple[Note, Note, Note]:
    """"""
    Generates Suspended Fourth chord. If note is provided as the first argument, duration and 
    velocity of this note will be used as default values for chord duration and velocity.
    Otherwise :class:`~melodia.core.note.Note` defaults will be used.

    :param base: base tone
    (can be integer, string, :class:`~melodia.core.tone.Tone` or :class:`~melodia.core.note.Note`)
    :param duration: duration of the chord (default: None)
    :param velocity: velocity of the chord (default: None)
    :return: tuple of 3 notes
    """"""
    base_tone, base_duration, base_velocity = _get_parameters(base, duration, velocity)

    return (
        Note(base_tone, base_duration, base_velocity),
        Note(base_tone.transposed(+5), base_duration, base_velocity),
        Note(base_tone.transposed(+7), base_duration, base_velocity)
    )


".
(** Lines 292-316. *)
Definition part_12 : string := "def suspended2(
        base: Union[int, str, Tone, Note],
        duration: Union[Tuple[int, int], Signature, None] = None,
        velocity: Optional[float] = None
) -> Tuple[Note, Note, Note]:
    """"""
    Generates Suspended Second chord. If note is provided as the first argument, duration and 
    velocity of this note will be used as default values for chord duration and velocity.
    Otherwise :class:`~melodia.core.note.Note` defaults will be used.

    :param base: base tone
    (can be integer, string, :class:`~melodia.core.tone.Tone` or :class:`~melodia.core.note.Note`)
    :param duration: duration of the chord (default: None)
    :param velocity: velocity of the chord (default: None)
    :return: tuple of 3 notes
    """"""
    base_tone, base_duration, base_velocity = _get_parameters(base, duration, velocity)

    return (
        Note(base_tone, base_duration, base_velocity),
        Note(base_tone.transposed(+2), base_duration, base_velocity),
        Note(base_tone.transposed(+7), base_duration, base_velocity)
    )


".
(** Lines 317-341. *)
Definition part_13 : string := "def sus2(
        base: Union[int, str, Tone, Note],
        duration: Union[Tuple[int, int], Signature, None] = None,
        velocity: Optional[float] = None
) -> Tuple[Note, Note, Note]:
    """"""
    Generates Suspended Second chord. If note is provided as the first argument, duration and 
    velocity of this note will be used as default values for chord duration and velocity.
    Otherwise :class:`~melodia.core.note.Note` defaults will be used.

    :param base: base tone
    (can be integer, string, :class:`~melodia.core.tone.Tone` or :class:`~melodia.core.note.Note`)
    :param duration: duration of the chord (default: None)
    :param velocity: velocity of the chord (default: None)
    :return: tuple of 3 notes
    """"""
    base_tone, base_duration, base_velocity = _get_parameters(base, duration, velocity)

    return (
        Note(base_tone, base_duration, base_velocity),
        Note(base_tone.transposed(+2), base_duration, base_velocity),
        Note(base_tone.transposed(+7), base_duration, base_velocity)
    )


".
(** Lines 342-367. *)
Definition part_14 : string := "def major7(
        base: Union[int, str, Tone, Note],
        duration: Union[Tuple[int, int], Signature, None] = None,
        velocity: Optional[float] = None
) -> Tuple[Note, Note, Note, Note]:
    """"""
    Generates Major Seventh chord. If note is provided as the first argument, duration and 
    velocity of this note will be used as default values for chord duration and velocity.
    Otherwise :class:`~melodia.core.note.Note` defaults will be used.

    :param base: base tone
    (can be integer, string, :class:`~melodia.core.tone.Tone` or :class:`~melodia.core.note.Note`)
    :param duration: duration of the chord (default: None)
    :param velocity: velocity of the chord (default: None)
    :return: tuple of 4 notes
    """"""
    base_tone, base_duration, base_velocity = _get_parameters(base, duration, velocity)

    return (
        Note(base_tone, base_duration, base_velocity),
        Note(base_tone.transposed(+4), base_duration, base_velocity),
        Note(base_tone.transposed(+7), base_duration, base_velocity),
        Note(base_tone.transposed(+11), base_duration, base_velocity)
    )


".
(** Lines 368-393. *)
Definition part_15 : string := "def maj7(
        base: Union[int, str, Tone, Note],
        duration: Union[Tuple[int, int], Signature, None] = None,
        velocity: Optional[float] = None
) -> Tuple[Note, Note, Note, Note]:
    """"""
    Generates Major Seventh chord. If note is provided as the first argument, duration and 
    velocity of this note will be used as default values for chord duration and velocity.
    Otherwise :class:`~melodia.core.note.Note` defaults will be used.

    :param base: base tone
    (can be integer, string, :class:`~melodia.core.tone.Tone` or :class:`~melodia.core.note.Note`)
    :param duration: duration of the chord (default: None)
    :param velocity: velocity of the chord (default: None)
    :return: tuple of 4 notes
    """"""
    base_tone, base_duration, base_velocity = _get_parameters(base, duration, velocity)

    return (
        Note(base_tone, base_duration, base_velocity),
        Note(base_tone.transposed(+4), base_duration, base_velocity),
        Note(base_tone.transposed(+7), base_duration, base_velocity),
        Note(base_tone.transposed(+11), base_duration, base_velocity)
    )


".
(** Lines 394-419. *)
Definition part_16 : string := "def minor7(
        base: Union[int, str, Tone, Note],
        duration: Union[Tuple[int, int], Signature, None] = None,
        velocity: Optional[float] = None
) -> Tuple[Note, Note, Note, Note]:
    """"""
    Generates Minor Seventh chord. If note is provided as the first argument, duration and 
    velocity of this note will be used as default values for chord duration and velocity.
    Otherwise :class:`~melodia.core.note.Note` defaults will be used.

    :param base: base tone
    (can be integer, string, :class:`~melodia.core.tone.Tone` or :class:`~melodia.core.note.Note`)
    :param duration: duration of the chord (default: None)
    :param velocity: velocity of the chord (default: None)
    :return: tuple of 4 notes
    """"""
    base_tone, base_duration, base_velocity = _get_parameters(base, duration, velocity)

    return (
        Note(base_tone, base_duration, base_velocity),
        Note(base_tone.transposed(+3), base_duration, base_velocity),
        Note(base_tone.transposed(+7), base_duration, base_velocity),
        Note(base_tone.transposed(+10), base_duration, base_velocity)
    )


".
(** Lines 420-445. *)
Definition part_17 : string := "def min7(
        base: Union[int, str, Tone, Note],
        duration: Union[Tuple[int, int], Signature, None] = None,
        velocity: Optional[float] = None
) -> Tuple[Note, Note, Note, Note]:
    """"""
    Generates Minor Seventh chord. If note is provided as the first argument, duration and 
    velocity of this note will be used as default values for chord duration and velocity.
    Otherwise :class:`~melodia.core.note.Note` defaults will be used.

    :param base: base tone
    (can be integer, string, :class:`~melodia.core.tone.Tone` or :class:`~melodia.core.note.Note`)
    :param duration: duration of the chord (default: None)
    :param velocity: velocity of the chord (default: None)
    :return: tuple of 4 notes
    """"""
    base_tone, base_duration, base_velocity = _get_parameters(base, duration, velocity)

    return (
        Note(base_tone, base_duration, base_velocity),
        Note(base_tone.transposed(+3), base_duration, base_velocity),
        Note(base_tone.transposed(+7), base_duration, base_velocity),
        Note(base_tone.transposed(+10), base_duration, base_velocity)
    )


".
(** Lines 446-471. *)
Definition part_18 : string := "def dominant7(
        base: Union[int, str, Tone, Note],
        duration: Union[Tuple[int, int], Signature, None] = None,
        velocity: Optional[float] = None
) -> Tuple[Note, Note, Note, Note]:
    """"""
    Generates Dominant Seventh chord. If note is provided as the first argument, duration and 
    velocity of this note will be used as default values for chord duration and velocity.
    Otherwise :class:`~melodia.core.note.Note` defaults will be used.

    :param base: base tone
    (can be integer, string, :class:`~melodia.core.tone.Tone` or :class:`~melodia.core.note.Note`)
    :param duration: duration of the chord (default: None)
    :param velocity: velocity of the chord (default: None)
    :return: tuple of 4 notes
    """"""
    base_tone, base_duration, base_velocity = _get_parameters(base, duration, velocity)

    return (
        Note(base_tone, base_duration, base_velocity),
        Note(base_tone.transposed(+4), base_duration, base_velocity),
        Note(base_tone.transposed(+7), base_duration, base_velocity),
        Note(base_tone.transposed(+10), base_duration, base_velocity)
    )


".
(** Lines 472-497. *)
Definition part_19 : string := "def dom7(
        base: Union[int, str, Tone, Note],
        duration: Union[Tuple[int, int], Signature, None] = None,
        velocity: Optional[float] = None
) -> Tuple[Note, Note, Note, Note]:
    """"""
    Generates Dominant Seventh chord. If note is provided as the first argument, duration and 
    velocity of this note will be used as default values for chord duration and velocity.
    Otherwise :class:`~melodia.core.note.Note` defaults will be used.

    :param base: base tone
    (can be integer, string, :class:`~melodia.core.tone.Tone` or :class:`~melodia.core.note.Note`)
    :param duration: duration of the chord (default: None)
    :param velocity: velocity of the chord (default: None)
    :return: tuple of 4 notes
    """"""
    base_tone, base_duration, base_velocity = _get_parameters(base, duration, velocity)

    return (
        Note(base_tone, base_duration, base_velocity),
        Note(base_tone.transposed(+4), base_duration, base_velocity),
        Note(base_tone.transposed(+7), base_duration, base_velocity),
        Note(base_tone.transposed(+10), base_duration, base_velocity)
    )


".
(** Lines 498-523. *)
Definition part_20 : string := "def dominant7b5(
        base: Union[int, str, Tone, Note],
        duration: Union[Tuple[int, int], Signature, None] = None,
        velocity: Optional[float] = None
) -> Tuple[Note, Note, Note, Note]:
    """"""
    Generates Dominant Seventh Flat Five chord. If note is provided as the first argument, duration and 
    velocity of this note will be used as default values for chord duration and velocity.
    Otherwise :class:`~melodia.core.note.Note` defaults will be used.

    :param base: base tone
    (can be integer, string, :class:`~melodia.core.tone.Tone` or :class:`~melodia.core.note.Note`)
    :param duration: duration of the chord (default: None)
    :param velocity: velocity of the chord (default: None)
    :return: tuple of 4 notes
    """"""
    base_tone, base_duration, base_velocity = _get_parameters(base, duration, velocity)

    return (
        Note(base_tone, base_duration, base_velocity),
        Note(base_tone.transposed(+4), base_duration, base_velocity),
        Note(base_tone.transposed(+6), base_duration, base_velocity),
        Note(base_tone.transposed(+10), base_duration, base_velocity)
    )


".
(** Lines 524-549. *)
Definition part_21 : string := "def dom7b5(
        base: Union[int, str, Tone, Note],
        duration: Union[Tuple[int, int], Signature, None] = None,
        velocity: Optional[float] = None
) -> Tuple[Note, Note, Note, Note]:
    """"""
    Generates Dominant Seventh Flat Five chord. If note is provided as the first argument, duration and 
    velocity of this note will be used as default values for chord duration and velocity.
    Otherwise :class:`~melodia.core.note.Note` defaults will be used.

    :param base: base tone
    (can be integer, string, :class:`~melodia.core.tone.Tone` or :class:`~melodia.core.note.Note`)
    :param duration: duration of the chord (default: None)
    :param velocity: velocity of the chord (default: None)
    :return: tuple of 4 notes
    """"""
    base_tone, base_duration, base_velocity = _get_parameters(base, duration, velocity)

    return (
        Note(base_tone, base_duration, base_velocity),
        Note(base_tone.transposed(+4), base_duration, base_velocity),
        Note(base_tone.transposed(+6), base_duration, base_velocity),
        Note(base_tone.transposed(+10), base_duration, base_velocity)
    )


".
(** Lines 550-575. *)
Definition part_22 : string := "def diminished7(
        base: Union[int, str, Tone, Note],
        duration: Union[Tuple[int, int], Signature, None] = None,
        velocity: Optional[float] = None
) -> Tuple[Note, Note, Note, Note]:
    """"""
    Generates Diminished Seventh chord. If note is provided as the first argument, duration and 
    velocity of this note will be used as default values for chord duration and velocity.
    Otherwise :class:`~melodia.core.note.Note` defaults will be used.

    :param base: base tone
    (can be integer, string, :class:`~melodia.core.tone.Tone` or :class:`~melodia.core.note.Note`)
    :param duration: duration of the chord (default: None)
    :param velocity: velocity of the chord (default: None)
    :return: tuple of 4 notes
    """"""
    base_tone, base_duration, base_velocity = _get_parameters(base, duration, velocity)

    return (
        Note(base_tone, base_duration, base_velocity),
        Note(base_tone.transposed(+3), base_duration, base_velocity),
        Note(base_tone.transposed(+6), base_duration, base_velocity),
        Note(base_tone.transposed(+9), base_duration, base_velocity)
    )


".
(** Lines 576-601. *)
Definition part_23 : string := "def dim7(
        base: Union[int, str, Tone, Note],
        duration: Union[Tuple[int, int], Signature, None] = None,
        velocity: Optional[float] = None
) -> Tuple[Note, Note, Note, Note]:
    """"""
    Generates Diminished Seventh chord. If note is provided as the first argument, duration and 
    velocity of this note will be used as default values for chord duration and velocity.
    Otherwise :class:`~melodia.core.note.Note` defaults will be used.

    :param base: base tone
    (can be integer, string, :class:`~melodia.core.tone.Tone` or :class:`~melodia.core.note.Note`)
    :param duration: duration of the chord (default: None)
    :param velocity: velocity of the chord (default: None)
    :return: tuple of 4 notes
    """"""
    base_tone, base_duration, base_velocity = _get_parameters(base, duration, velocity)

    return (
        Note(base_tone, base_duration, base_velocity),
        Note(base_tone.transposed(+3), base_duration, base_velocity),
        Note(base_tone.transposed(+6), base_duration, base_velocity),
        Note(base_tone.transposed(+9), base_duration, base_velocity)
    )


".
(** Lines 602-627. *)
Definition part_24 : string := "def minor7b5(
        base: Union[int, str, Tone, Note],
        duration: Union[Tuple[int, int], Signature, None] = None,
        velocity: Optional[float] = None
) -> Tuple[Note, Note, Note, Note]:
    """"""
    Generates Half Diminished Seventh chord. If note is provided as the first argument, duration and 
    velocity of this note will be used as default values for chord duration and velocity.
    Otherwise :class:`~melodia.core.note.Note` defaults will be used.

    :param base: base tone
    (can be integer, string, :class:`~melodia.core.tone.Tone` or :class:`~melodia.core.note.Note`)
    :param duration: duration of the chord (default: None)
    :param velocity: velocity of the chord (default: None)
    :return: tuple of 4 notes
    """"""
    base_tone, base_duration, base_velocity = _get_parameters(base, duration, velocity)

    return (
        Note(base_tone, base_duration, base_velocity),
        Note(base_tone.transposed(+3), base_duration, base_velocity),
        Note(base_tone.transposed(+6), base_duration, base_velocity),
        Note(base_tone.transposed(+10), base_duration, base_velocity)
    )


".
(** Lines 628-653. *)
Definition part_25 : string := "def min7b5(
        base: Union[int, str, Tone, Note],
        duration: Union[Tuple[int, int], Signature, None] = None,
        velocity: Optional[float] = None
) -> Tuple[Note, Note, Note, Note]:
    """"""
    Generates Half Diminished Seventh chord. If note is provided as the first argument, duration and 
    velocity of this note will be used as default values for chord duration and velocity.
    Otherwise :class:`~melodia.core.note.Note` defaults will be used.

    :param base: base tone
    (can be integer, string, :class:`~melodia.core.tone.Tone` or :class:`~melodia.core.note.Note`)
    :param duration: duration of the chord (default: None)
    :param velocity: velocity of the chord (default: None)
    :return: tuple of 4 notes
    """"""
    base_tone, base_duration, base_velocity = _get_parameters(base, duration, velocity)

    return (
        Note(base_tone, base_duration, base_velocity),
        Note(base_tone.transposed(+3), base_duration, base_velocity),
        Note(base_tone.transposed(+6), base_duration, base_velocity),
        Note(base_tone.transposed(+10), base_duration, base_velocity)
    )


".
(** Lines 654-679. *)
Definition part_26 : string := "def diminished_major7(
        base: Union[int, str, Tone, Note],
        duration: Union[Tuple[int, int], Signature, None] = None,
        velocity: Optional[float] = None
) -> Tuple[Note, Note, Note, Note]:
    """"""
    Generates Diminished Major Seventh chord. If note is provided as the first argument, duration and 
    velocity of this note will be used as default values for chord duration and velocity.
    Otherwise :class:`~melodia.core.note.Note` defaults will be used.

    :param base: base tone
    (can be integer, string, :class:`~melodia.core.tone.Tone` or :class:`~melodia.core.note.Note`)
    :param duration: duration of the chord (default: None)
    :param velocity: velocity of the chord (default: None)
    :return: tuple of 4 notes
    """"""
    base_tone, base_duration, base_velocity = _get_parameters(base, duration, velocity)

    return (
        Note(base_tone, base_duration, base_velocity),
        Note(base_tone.transposed(+3), base_duration, base_velocity),
        Note(base_tone.transposed(+6), base_duration, base_velocity),
        Note(base_tone.transposed(+11), base_duration, base_velocity)
    )


".
(** Lines 680-705. *)
Definition part_27 : string := "def minor_major7(
        base: Union[int, str, Tone, Note],
        duration: Union[Tuple[int, int], Signature, None] = None,
        velocity: Optional[float] = None
) -> Tuple[Note, Note, Note, Note]:
    """"""
    Generates Minor Major Seventh chord. If note is provided as the first argument, duration and 
    velocity of this note will be used as default values for chord duration and velocity.
    Otherwise :class:`~melodia.core.note.Note` defaults will be used.

    :param base: base tone
    (can be integer, string, :class:`~melodia.core.tone.Tone` or :class:`~melodia.core.note.Note`)
    :param duration: duration of the chord (default: None)
    :param velocity: velocity of the chord (default: None)
    :return: tuple of 4 notes
    """"""
    base_tone, base_duration, base_velocity = _get_parameters(base, duration, velocity)

    return (
        Note(base_tone, base_duration, base_velocity),
        Note(base_tone.transposed(+3), base_duration, base_velocity),
        Note(base_tone.transposed(+7), base_duration, base_velocity),
        Note(base_tone.transposed(+11), base_duration, base_velocity)
    )


".
(** Lines 706-731. *)
Definition part_28 : string := "def augmented_major7(
        base: Union[int, str, Tone, Note],
        duration: Union[Tuple[int, int], Signature, None] = None,
        velocity: Optional[float] = None
) -> Tuple[Note, Note, Note, Note]:
    """"""
    Generates Augmented Major Seventh chord. If note is provided as the first argument, duration and 
    velocity of this note will be used as default values for chord duration and velocity.
    Otherwise :class:`~melodia.core.note.Note` defaults will be used.

    :param base: base tone
    (can be integer, string, :class:`~melodia.core.tone.Tone` or :class:`~melodia.core.note.Note`)
    :param duration: duration of the chord (default: None)
    :param velocity: velocity of the chord (default: None)
    :return: tuple of 4 notes
    """"""
    base_tone, base_duration, base_velocity = _get_parameters(base, duration, velocity)

    return (
        Note(base_tone, base_duration, base_velocity),
        Note(base_tone.transposed(+4), base_duration, base_velocity),
        Note(base_tone.transposed(+8), base_duration, base_velocity),
        Note(base_tone.transposed(+11), base_duration, base_velocity)
    )


".
(** Lines 732-757. *)
Definition part_29 : string := "def major7s5(
        base: Union[int, str, Tone, Note],
        duration: Union[Tuple[int, int], Signature, None] = None,
        velocity: Optional[float] = None
) -> Tuple[Note, Note, Note, Note]:
    """"""
    Generates Augmented Major Seventh chord. If note is provided as the first argument, duration and 
    velocity of this note will be used as default values for chord duration and velocity.
    Otherwise :class:`~melodia.core.note.Note` defaults will be used.

    :param base: base tone
    (can be integer, string, :class:`~melodia.core.tone.Tone` or :class:`~melodia.core.note.Note`)
    :param duration: duration of the chord (default: None)
    :param velocity: velocity of the chord (default: None)
    :return: tuple of 4 notes
    """"""
    base_tone, base_duration, base_velocity = _get_parameters(base, duration, velocity)

    return (
        Note(base_tone, base_duration, base_velocity),
        Note(base_tone.transposed(+4), base_duration, base_velocity),
        Note(base_tone.transposed(+8), base_duration, base_velocity),
        Note(base_tone.transposed(+11), base_duration, base_velocity)
    )


".
(** Lines 758-783. *)
Definition part_30 : string := "def maj7s5(
        base: Union[int, str, Tone, Note],
        duration: Union[Tuple[int, int], Signature, None] = None,
        velocity: Optional[float] = None
) -> Tuple[Note, Note, Note, Note]:
    """"""
    Generates Augmented Major Seventh chord. If note is provided as the first argument, duration and 
    velocity of this note will be used as default values for chord duration and velocity.
    Otherwise :class:`~melodia.core.note.Note` defaults will be used.

    :param base: base tone
    (can be integer, string, :class:`~melodia.core.tone.Tone` or :class:`~melodia.core.note.Note`)
    :param duration: duration of the chord (default: None)
    :param velocity: velocity of the chord (default: None)
    :return: tuple of 4 notes
    """"""
    base_tone, base_duration, base_velocity = _get_parameters(base, duration, velocity)

    return (
        Note(base_tone, base_duration, base_velocity),
        Note(base_tone.transposed(+4), base_duration, base_velocity),
        Note(base_tone.transposed(+8), base_duration, base_velocity),
        Note(base_tone.transposed(+11), base_duration, base_velocity)
    )


".
(** Lines 784-809. *)
Definition part_31 : string := "def augmented_minor7(
        base: Union[int, str, Tone, Note],
        duration: Union[Tuple[int, int], Signature, None] = None,
        velocity: Optional[float] = None
) -> Tuple[Note, Note, Note, Note]:
    """"""
    Generates Augmented Minor Seventh chord. If note is provided as the first argument, duration and 
    velocity of this note will be used as default values for chord duration and velocity.
    Otherwise :class:`~melodia.core.note.Note` defaults will be used.

    :param base: base tone
    (can be integer, string, :class:`~melodia.core.tone.Tone` or :class:`~melodia.core.note.Note`)
    :param duration: duration of the chord (default: None)
    :param velocity: velocity of the chord (default: None)
    :return: tuple of 4 notes
    """"""
    base_tone, base_duration, base_velocity = _get_parameters(base, duration, velocity)

    return (
        Note(base_tone, base_duration, base_velocity),
        Note(base_tone.transposed(+4), base_duration, base_velocity),
        Note(base_tone.transposed(+8), base_duration, base_velocity),
        Note(base_tone.transposed(+10), base_duration, base_velocity)
    )


".
(** Lines 810-835. *)
Definition part_32 : string := "def augmented7(
        base: Union[int, str, Tone, Note],
        duration: Union[Tuple[int, int], Signature, None] = None,
        velocity: Optional[float] = None
) -> Tuple[Note, Note, Note, Note]:
    """"""
    Generates Augmented Minor Seventh chord. If note is provided as the first argument, duration and 
    velocity of this note will be used as default values for chord duration and velocity.
    Otherwise :class:`~melodia.core.note.Note` defaults will be used.

    :param base: base tone
    (can be integer, string, :class:`~melodia.core.tone.Tone` or :class:`~melodia.core.note.Note`)
    :param duration: duration of the chord (default: None)
    :param velocity: velocity of the chord (default: None)
    :return: tuple of 4 notes
    """"""
    base_tone, base_duration, base_velocity = _get_parameters(base, duration, velocity)

    return (
        Note(base_tone, base_duration, base_velocity),
        Note(base_tone.transposed(+4), base_duration, base_velocity),
        Note(base_tone.transposed(+8), base_duration, base_velocity),
        Note(base_tone.transposed(+10), base_duration, base_velocity)
    )


".
(** Lines 836-861. *)
Definition part_33 : string := "def aug7(
        base: Union[int, str, Tone, Note],
        duration: Union[Tuple[int, int], Signature, None] = None,
        velocity: Optional[float] = None
) -> Tuple[Note, Note, Note, Note]:
    """"""
    Generates Augmented Minor Seventh chord. If note is provided as the first argument, duration and 
    velocity of this note will be used as default values for chord duration and velocity.
    Otherwise :class:`~melodia.core.note.Note` defaults will be used.

    :param base: base tone
    (can be integer, string, :class:`~melodia.core.tone.Tone` or :class:`~melodia.core.note.Note`)
    :param duration: duration of the chord (default: None)
    :param velocity: velocity of the chord (default: None)
    :return: tuple of 4 notes
    """"""
    base_tone, base_duration, base_velocity = _get_parameters(base, duration, velocity)

    return (
        Note(base_tone, base_duration, base_velocity),
        Note(base_tone.transposed(+4), base_duration, base_velocity),
        Note(base_tone.transposed(+8), base_duration, base_velocity),
        Note(base_tone.transposed(+10), base_duration, base_velocity)
    )


".
(** Lines 862-888. *)
Definition part_34 : string := "def major9(
        base: Union[int, str, Tone, Note],
        duration: Union[Tuple[int, int], Signature, None] = None,
        velocity: Optional[float] = None
) -> Tuple[Note, Note, Note, Note, Note]:
    """"""
    Generates Major Ninth chord. If note is provided as the first argument, duration and 
    velocity of this note will be used as default values for chord duration and velocity.
    Otherwise :class:`~melodia.core.note.Note` defaults will be used.

    :param base: base tone
    (can be integer, string, :class:`~melodia.core.tone.Tone` or :class:`~melodia.core.note.Note`)
    :param duration: duration of the chord (default: None)
    :param velocity: velocity of the chord (default: None)
    :return: tuple of 5 notes
    """"""
    base_tone, base_duration, base_velocity = _get_parameters(base, duration, velocity)

    return (
        Note(base_tone, base_duration, base_velocity),
        Note(base_tone.transposed(+4), base_duration, base_velocity),
        Note(base_tone.transposed(+7), base_duration, base_velocity),
        Note(base_tone.transposed(+11), base_duration, base_velocity),
        Note(base_tone.transposed(+14), base_duration, base_velocity)
    )


".
(** Lines 889-915. *)
Definition part_35 : string := "def maj9(
        base: Union[int, str, Tone, Note],
        duration: Union[Tuple[int, int], Signature, None] = None,
        velocity: Optional[float] = None
) -> Tuple[Note, Note, Note, Note, Note]:
    """"""
    Generates Major Ninth chord. If note is provided as the first argument, duration and 
    velocity of this note will be used as default values for chord duration and velocity.
    Otherwise :class:`~melodia.core.note.Note` defaults will be used.

    :param base: base tone
    (can be integer, string, :class:`~melodia.core.tone.Tone` or :class:`~melodia.core.note.Note`)
    :param duration: duration of the chord (default: None)
    :param velocity: velocity of the chord (default: None)
    :return: tuple of 5 notes
    """"""
    base_tone, base_duration, base_velocity = _get_parameters(base, duration, velocity)

    return (
        Note(base_tone, base_duration, base_velocity),
        Note(base_tone.transposed(+4), base_duration, base_velocity),
        Note(base_tone.transposed(+7), base_duration, base_velocity),
        Note(base_tone.transposed(+11), base_duration, base_velocity),
        Note(base_tone.transposed(+14), base_duration, base_velocity)
    )


".
(** Lines 916-942. *)
Definition part_36 : string := "def minor9(
        base: Union[int, str, Tone, Note],
        duration: Union[Tuple[int, int], Signature, None] = None,
        velocity: Optional[float] = None
) -> Tuple[Note, Note, Note, Note, Note]:
    """"""
    Generates Minor Ninth chord. If note is provided as the first argument, duration and 
    velocity of this note will be used as default values for chord duration and velocity.
    Otherwise :class:`~melodia.core.note.Note` defaults will be used.

    :param base: base tone
    (can be integer, string, :class:`~melodia.core.tone.Tone` or :class:`~melodia.core.note.Note`)
    :param duration: duration of the chord (default: None)
    :param velocity: velocity of the chord (default: None)
    :return: tuple of 5 notes
    """"""
    base_tone, base_duration, base_velocity = _get_parameters(base, duration, velocity)

    return (
        Note(base_tone, base_duration, base_velocity),
        Note(base_tone.transposed(+3), base_duration, base_velocity),
        Note(base_tone.transposed(+7), base_duration, base_velocity),
        Note(base_tone.transposed(+10), base_duration, base_velocity),
        Note(base_tone.transposed(+14), base_duration, base_velocity)
    )


".
(** Lines 943-969. *)
Definition part_37 : string := "def min9(
        base: Union[int, str, Tone, Note],
        duration: Union[Tuple[int, int], Signature, None] = None,
        velocity: Optional[float] = None
) -> Tuple[Note, Note, Note, Note, Note]:
    """"""
    Generates Minor Ninth chord. If note is provided as the first argument, duration and 
    velocity of this note will be used as default values for chord duration and velocity.
    Otherwise :class:`~melodia.core.note.Note` defaults will be used.

    :param base: base tone
    (can be integer, string, :class:`~melodia.core.tone.Tone` or :class:`~melodia.core.note.Note`)
    :param duration: duration of the chord (default: None)
    :param velocity: velocity of the chord (default: None)
    :return: tuple of 5 notes
    """"""
    base_tone, base_duration, base_velocity = _get_parameters(base, duration, velocity)

    return (
        Note(base_tone, base_duration, base_velocity),
        Note(base_tone.transposed(+3), base_duration, base_velocity),
        Note(base_tone.transposed(+7), base_duration, base_velocity),
        Note(base_tone.transposed(+10), base_duration, base_velocity),
        Note(base_tone.transposed(+14), base_duration, base_velocity)
    )


".
(** Lines 970-996. *)
Definition part_38 : string := "def dominant9(
        base: Union[int, str, Tone, Note],
        duration: Union[Tuple[int, int], Signature, None] = None,
        velocity: Optional[float] = None
) -> Tuple[Note, Note, Note, Note, Note]:
    """"""
    Generates Dominant Ninth chord. If note is provided as the first argument, duration and 
    velocity of this note will be used as default values for chord duration and velocity.
    Otherwise :class:`~melodia.core.note.Note` defaults will be used.

    :param base: base tone
    (can be integer, string, :class:`~melodia.core.tone.Tone` or :class:`~melodia.core.note.Note`)
    :param duration: duration of the chord (default: None)
    :param velocity: velocity of the chord (default: None)
    :return: tuple of 5 notes
    """"""
    base_tone, base_duration, base_velocity = _get_parameters(base, duration, velocity)

    return (
        Note(base_tone, base_duration, base_velocity),
        Note(base_tone.transposed(+4), base_duration, base_velocity),
        Note(base_tone.transposed(+7), base_duration, base_velocity),
        Note(base_tone.transposed(+10), base_duration, base_velocity),
        Note(base_tone.transposed(+14), base_duration, base_velocity)
    )


".
(** Lines 997-1023. *)
Definition part_39 : string := "def dom9(
        base: Union[int, str, Tone, Note],
        duration: Union[Tuple[int, int], Signature, None] = None,
        velocity: Optional[float] = None
) -> Tuple[Note, Note, Note, Note, Note]:
    """"""
    Generates Dominant Ninth chord. If note is provided as the first argument, duration and 
    velocity of this note will be used as default values for chord duration and velocity.
    Otherwise :class:`~melodia.core.note.Note` defaults will be used.

    :param base: base tone
    (can be integer, string, :class:`~melodia.core.tone.Tone` or :class:`~melodia.core.note.Note`)
    :param duration: duration of the chord (default: None)
    :param velocity: velocity of the chord (default: None)
    :return: tuple of 5 notes
    """"""
    base_tone, base_duration, base_velocity = _get_parameters(base, duration, velocity)

    return (
        Note(base_tone, base_duration, base_velocity),
        Note(base_tone.transposed(+4), base_duration, base_velocity),
        Note(base_tone.transposed(+7), base_duration, base_velocity),
        Note(base_tone.transposed(+10), base_duration, base_velocity),
        Note(base_tone.transposed(+14), base_duration, base_velocity)
    )


".
(** Lines 1024-1050. *)
Definition part_40 : string := "def dominant_minor9(
        base: Union[int, str, Tone, Note],
        duration: Union[Tuple[int, int], Signature, None] = None,
        velocity: Optional[float] = None
) -> Tuple[Note, Note, Note, Note, Note]:
    """"""
    Generates Dominant Minor Ninth chord. If note is provided as the first argument, duration and 
    velocity of this note will be used as default values for chord duration and velocity.
    Otherwise :class:`~melodia.core.note.Note` defaults will be used.

    :param base: base tone
    (can be integer, string, :class:`~melodia.core.tone.Tone` or :class:`~melodia.core.note.Note`)
    :param duration: duration of the chord (default: None)
    :param velocity: velocity of the chord (default: None)
    :return: tuple of 5 notes
    """"""
    base_tone, base_duration, base_velocity = _get_parameters(base, duration, velocity)

    return (
        Note(base_tone, base_duration, base_velocity),
        Note(base_tone.transposed(+4), base_duration, base_velocity),
        Note(base_tone.transposed(+7), base_duration, base_velocity),
        Note(base_tone.transposed(+10), base_duration, base_velocity),
        Note(base_tone.transposed(+13), base_duration, base_velocity)
    )


".
(** Lines 1051-1077. *)
Definition part_41 : string := "def min7b9(
        base: Union[int, str, Tone, Note],
        duration: Union[Tuple[int, int], Signature, None] = None,
        velocity: Optional[float] = None
) -> Tuple[Note, Note, Note, Note, Note]:
    """"""
    Generates Dominant Minor Ninth chord. If note is provided as the first argument, duration and 
    velocity of this note will be used as default values for chord duration and velocity.
    Otherwise :class:`~melodia.core.note.Note` defaults will be used.

    :param base: base tone
    (can be integer, string, :class:`~melodia.core.tone.Tone` or :class:`~melodia.core.note.Note`)
    :param duration: duration of the chord (default: None)
    :param velocity: velocity of the chord (default: None)
    :return: tuple of 5 notes
    """"""
    base_tone, base_duration, base_velocity = _get_parameters(base, duration, velocity)

    return (
        Note(base_tone, base_duration, base_velocity),
        Note(base_tone.transposed(+4), base_duration, base_velocity),
        Note(base_tone.transposed(+7), base_duration, base_velocity),
        Note(base_tone.transposed(+10), base_duration, base_velocity),
        Note(base_tone.transposed(+13), base_duration, base_velocity)
    )


".
(** Lines 1078-1104. *)
Definition part_42 : string := "def minor69(
        base: Union[int, str, Tone, Note],
        duration: Union[Tuple[int, int], Signature, None] = None,
        velocity: Optional[float] = None
) -> Tuple[Note, Note, Note, Note, Note]:
    """"""
    Generates 6/9 chord. If note is provided as the first argument, duration and 
    velocity of this note will be used as default values for chord duration and velocity.
    Otherwise :class:`~melodia.core.note.Note` defaults will be used.

    :param base: base tone
    (can be integer, string, :class:`~melodia.core.tone.Tone` or :class:`~melodia.core.note.Note`)
    :param duration: duration of the chord (default: None)
    :param velocity: velocity of the chord (default: None)
    :return: tuple of 5 notes
    """"""
    base_tone, base_duration, base_velocity = _get_parameters(base, duration, velocity)

    return (
        Note(base_tone, base_duration, base_velocity),
        Note(base_tone.transposed(+4), base_duration, base_velocity),
        Note(base_tone.transposed(+7), base_duration, base_velocity),
        Note(base_tone.transposed(+9), base_duration, base_velocity),
        Note(base_tone.transposed(+14), base_duration, base_velocity)
    )


".
(** Lines 1105-1131. *)
Definition part_43 : string := "def min69(
        base: Union[int, str, Tone, Note],
        duration: Union[Tuple[int, int], Signature, None] = None,
        velocity: Optional[float] = None
) -> Tuple[Note, Note, Note, Note, Note]:
    """"""
    Generates 6/9 chord. If note is provided as the first argument, duration and 
    velocity of this note will be used as default values for chord duration and velocity.
    Otherwise :class:`~melodia.core.note.Note` defaults will be used.

    :param base: base tone
    (can be integer, string, :class:`~melodia.core.tone.Tone` or :class:`~melodia.core.note.Note`)
    :param duration: duration of the chord (default: None)
    :param velocity: velocity of the chord (default: None)
    :return: tuple of 5 notes
    """"""
    base_tone, base_duration, base_velocity = _get_parameters(base, duration, velocity)

    return (
        Note(base_tone, base_duration, base_velocity),
        Note(base_tone.transposed(+4), base_duration, base_velocity),
        Note(base_tone.transposed(+7), base_duration, base_velocity),
        Note(base_tone.transposed(+9), base_duration, base_velocity),
        Note(base_tone.transposed(+14), base_duration, base_velocity)
    )


".
(** Lines 1132-1156. *)
Definition part_44 : string := "def added9(
        base: Union[int, str, Tone, Note],
        duration: Union[Tuple[int, int], Signature, None] = None,
        velocity: Optional[float] = None
) -> Tuple[Note, Note, Note]:
    """"""
    Generates Added Ninth chord. If note is provided as the first argument, duration and 
    velocity of this note will be used as default values for chord duration and velocity.
    Otherwise :class:`~melodia.core.note.Note` defaults will be used.

    :param base: base tone
    (can be integer, string, :class:`~melodia.core.tone.Tone` or :class:`~melodia.core.note.Note`)
    :param duration: duration of the chord (default: None)
    :param velocity: velocity of the chord (default: None)
    :return: tuple of 3 notes
    """"""
    base_tone, base_duration, base_velocity = _get_parameters(base, duration, velocity)

    return (
        Note(base_tone, base_duration, base_velocity),
        Note(base_tone.transposed(+4), base_duration, base_velocity),
        Note(base_tone.transposed(+14), base_duration, base_velocity)
    )


".
(** Lines 1157-1181. *)
Definition part_45 : string := "def add9(
        base: Union[int, str, Tone, Note],
        duration: Union[Tuple[int, int], Signature, None] = None,
        velocity: Optional[float] = None
) -> Tuple[Note, Note, Note]:
    """"""
    Generates Added Ninth chord. If note is provided as the first argument, duration and 
    velocity of this note will be used as default values for chord duration and velocity.
    Otherwise :class:`~melodia.core.note.Note` defaults will be used.

    :param base: base tone
    (can be integer, string, :class:`~melodia.core.tone.Tone` or :class:`~melodia.core.note.Note`)
    :param duration: duration of the chord (default: None)
    :param velocity: velocity of the chord (default: None)
    :return: tuple of 3 notes
    """"""
    base_tone, base_duration, base_velocity = _get_parameters(base, duration, velocity)

    return (
        Note(base_tone, base_duration, base_velocity),
        Note(base_tone.transposed(+4), base_duration, base_velocity),
        Note(base_tone.transposed(+14), base_duration, base_velocity)
    )


".
(** Lines 1182-1209. *)
Definition part_46 : string := "def major11(
        base: Union[int, str, Tone, Note],
        duration: Union[Tuple[int, int], Signature, None] = None,
        velocity: Optional[float] = None
) -> Tuple[Note, Note, Note, Note, Note, Note]:
    """"""
    Generates Major Eleventh chord. If note is provided as the first argument, duration and 
    velocity of this note will be used as default values for chord duration and velocity.
    Otherwise :class:`~melodia.core.note.Note` defaults will be used.

    :param base: base tone
    (can be integer, string, :class:`~melodia.core.tone.Tone` or :class:`~melodia.core.note.Note`)
    :param duration: duration of the chord (default: None)
    :param velocity: velocity of the chord (default: None)
    :return: tuple of 6 notes
    """"""
    base_tone, base_duration, base_velocity = _get_parameters(base, duration, velocity)

    return (
        Note(base_tone, base_duration, base_velocity),
        Note(base_tone.transposed(+4), base_duration, base_velocity),
        Note(base_tone.transposed(+7), base_duration, base_velocity),
        Note(base_tone.transposed(+11), base_duration, base_velocity),
        Note(base_tone.transposed(+14), base_duration, base_velocity),
        Note(base_tone.transposed(+17), base_duration, base_velocity)
    )


".
(** Lines 1210-1237. *)
Definition part_47 : string := "def maj11(
        base: Union[int, str, Tone, Note],
        duration: Union[Tuple[int, int], Signature, None] = None,
        velocity: Optional[float] = None
) -> Tuple[Note, Note, Note, Note, Note, Note]:
    """"""
    Generates Major Eleventh chord. If note is provided as the first argument, duration and 
    velocity of this note will be used as default values for chord duration and velocity.
    Otherwise :class:`~melodia.core.note.Note` defaults will be used.

    :param base: base tone
    (can be integer, string, :class:`~melodia.core.tone.Tone` or :class:`~melodia.core.note.Note`)
    :param duration: duration of the chord (default: None)
    :param velocity: velocity of the chord (default: None)
    :return: tuple of 6 notes
    """"""
    base_tone, base_duration, base_velocity = _get_parameters(base, duration, velocity)

    return (
        Note(base_tone, base_duration, base_velocity),
        Note(base_tone.transposed(+4), base_duration, base_velocity),
        Note(base_tone.transposed(+7), base_duration, base_velocity),
        Note(base_tone.transposed(+11), base_duration, base_velocity),
        Note(base_tone.transposed(+14), base_duration, base_velocity),
        Note(base_tone.transposed(+17), base_duration, base_velocity)
    )


".
(** Lines 1238-1265. *)
Definition part_48 : string := "def minor11(
        base: Union[int, str, Tone, Note],
        duration: Union[Tuple[int, int], Signature, None] = None,
        velocity: Optional[float] = None
) -> Tuple[Note, Note, Note, Note, Note, Note]:
    """"""
    Generates Minor Eleventh chord. If note is provided as the first argument, duration and 
    velocity of this note will be used as default values for chord duration and velocity.
    Otherwise :class:`~melodia.core.note.Note` defaults will be used.

    :param base: base tone
    (can be integer, string, :class:`~melodia.core.tone.Tone` or :class:`~melodia.core.note.Note`)
    :param duration: duration of the chord (default: None)
    :param velocity: velocity of the chord (default: None)
    :return: tuple of 6 notes
    """"""
    base_tone, base_duration, base_velocity = _get_parameters(base, duration, velocity)

    return (
        Note(base_tone, base_duration, base_velocity),
        Note(base_tone.transposed(+3), base_duration, base_velocity),
        Note(base_tone.transposed(+7), base_duration, base_velocity),
        Note(base_tone.transposed(+10), base_duration, base_velocity),
        Note(base_tone.transposed(+14), base_duration, base_velocity),
        Note(base_tone.transposed(+17), base_duration, base_velocity)
    )


".
(** Lines 1266-1293. *)
Definition part_49 : string := "def min11(
        base: Union[int, str, Tone, Note],
        duration: Union[Tuple[int, int], Signature, None] = None,
        velocity: Optional[float] = None
) -> Tuple[Note, Note, Note, Note, Note, Note]:
    """"""
    Generates Minor Eleventh chord. If note is provided as the first argument, duration and 
    velocity of this note will be used as default values for chord duration and velocity.
    Otherwise :class:`~melodia.core.note.Note` defaults will be used.

    :param base: base tone
    (can be integer, string, :class:`~melodia.core.tone.Tone` or :class:`~melodia.core.note.Note`)
    :param duration: duration of the chord (default: None)
    :param velocity: velocity of the chord (default: None)
    :return: tuple of 6 notes
    """"""
    base_tone, base_duration, base_velocity = _get_parameters(base, duration, velocity)

    return (
        Note(base_tone, base_duration, base_velocity),
        Note(base_tone.transposed(+3), base_duration, base_velocity),
        Note(base_tone.transposed(+7), base_duration, base_velocity),
        Note(base_tone.transposed(+10), base_duration, base_velocity),
        Note(base_tone.transposed(+14), base_duration, base_velocity),
        Note(base_tone.transposed(+17), base_duration, base_velocity)
    )


".
(** Lines 1294-1321. *)
Definition part_50 : string := "def dominant11(
        base: Union[int, str, Tone, Note],
        duration: Union[Tuple[int, int], Signature, None] = None,
        velocity: Optional[float] = None
) -> Tuple[Note, Note, Note, Note, Note, Note]:
    """"""
    Generates Dominant Eleventh chord. If note is provided as the first argument, duration and 
    velocity of this note will be used as default values for chord duration and velocity.
    Otherwise :class:`~melodia.core.note.Note` defaults will be used.

    :param base: base tone
    (can be integer, string, :class:`~melodia.core.tone.Tone` or :class:`~melodia.core.note.Note`)
    :param duration: duration of the chord (default: None)
    :param velocity: velocity of the chord (default: None)
    :return: tuple of 6 notes
    """"""
    base_tone, base_duration, base_velocity = _get_parameters(base, duration, velocity)

    return (
        Note(base_tone, base_duration, base_velocity),
        Note(base_tone.transposed(+4), base_duration, base_velocity),
        Note(base_tone.transposed(+7), base_duration, base_velocity),
        Note(base_tone.transposed(+10), base_duration, base_velocity),
        Note(base_tone.transposed(+14), base_duration, base_velocity),
        Note(base_tone.transposed(+17), base_duration, base_velocity)
    )


".
(** Lines 1322-1347. *)
Definition part_51 : string := "def dom11(
        base: Union[int, str, Tone, Note],
        duration: Union[Tuple[int, int], Signature, None] = None,
        velocity: Optional[float] = None
) -> Tuple[Note, Note, Note, Note, Note, Note]:
    """"""
    Generates Dominant Eleventh chord. If note is provided as the first argument, duration and 
    velocity of this note will be used as default values for chord duration and velocity.
    Otherwise :class:`~melodia.core.note.Note` defaults will be used.

    :param base: base tone
    (can be integer, string, :class:`~melodia.core.tone.Tone` or :class:`~melodia.core.note.Note`)
    :param duration: duration of the chord (default: None)
    :param velocity: velocity of the chord (default: None)
    :return: tuple of 6 notes
    """"""
    base_tone, base_duration, base_velocity = _get_parameters(base, duration, velocity)

    return (
        Note(base_tone, base_duration, base_velocity),
        Note(base_tone.transposed(+4), base_duration, base_velocity),
        Note(base_tone.transposed(+7), base_duration, base_velocity),
        Note(base_tone.transposed(+10), base_duration, base_velocity),
        Note(base_tone.transposed(+14), base_duration, base_velocity),
        Note(base_tone.transposed(+17), base_duration, base_velocity)
    )
".

(** The whole file. *)
Definition chord_py : pystr := flat_map lit
  [part_0; part_1; part_2; part_3; part_4; part_5; part_6; part_7; part_8; part_9; part_10; part_11; part_12; part_13; part_14; part_15; part_16; part_17; part_18; part_19; part_20; part_21; part_22; part_23; part_24; part_25; part_26; part_27; part_28; part_29; part_30; part_31; part_32; part_33; part_34; part_35; part_36; part_37; part_38; part_39; part_40; part_41; part_42; part_43; part_44; part_45; part_46; part_47; part_48; part_49; part_50; part_51].
