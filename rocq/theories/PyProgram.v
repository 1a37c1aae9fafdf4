(** The program made of all modules of melodia: the functions and classes of PySource.v, the values of
    module level names and of default arguments (that the machine of PySem.v computes these values from
    the source is proved in RefineImport.v).  No proofs in this file. *)
From Coq Require Import ZArith List String.
From Verif Require Import Py PyFloat MidiReader PyAst PySource PySem.
Import ListNotations.
Open Scope Z_scope.
Open Scope string_scope.

(** ** Instances as values *)
Definition v_signature (n d : Z) : value := VObj "Signature" [("_nominator", VInt n); ("_denominator", VInt d)].
Definition v_tone (p : Z) : value := VObj "Tone" [("_pitch", VInt p)].

(** core/tone.py 4-14 and io/midi.py 254-308. *)
Definition pattern : pystr := lit "(?P<tone>[ABCDEFG])(?P<transposition>[#b]*)(?P<octave>-?\d+)?".
Definition globals : list (string * value) :=
  [("_notation_regex", VRegex pattern);
   ("_tone_mapping", VDict [(VStr (lit "C"), VInt 0); (VStr (lit "D"), VInt 2); (VStr (lit "E"), VInt 4);
                            (VStr (lit "F"), VInt 5); (VStr (lit "G"), VInt 7); (VStr (lit "A"), VInt 9);
                            (VStr (lit "B"), VInt 11)]);
   ("_reverse_tone_mapping",
     VDict [(VInt 0, VStr (lit "C")); (VInt 2, VStr (lit "D")); (VInt 4, VStr (lit "E"));
            (VInt 5, VStr (lit "F")); (VInt 7, VStr (lit "G")); (VInt 9, VStr (lit "A"));
            (VInt 11, VStr (lit "B"))]);
   ("_event_lengths", VList (map VInt event_lengths))].

(** The defaults of the parameters, by function. *)
Definition defaults : list (string * list (string * value)) :=
  let chord := [("duration", VNone); ("velocity", VNone)] in
  [("Tone.to_notation", [("transpose_down", VBool false)]);
   ("Tone.to_frequency", [("base", VFloat (S754_finite false 7740561859543040 (-44)))]);
   ("Note.__init__", [("duration", v_signature 1 4); ("velocity", VFloat (S754_finite false 6755399441055744 (-53)))]);
   ("Track.__init__", [("signature", v_signature 4 4); ("content", VNone)]);
   ("Track.add", [("where", VNone)]);
   ("MIDIWriter.__init__", [("pulses_per_quarter", VInt 96); ("middle_c", v_tone 36);
                            ("bpm", VFloat (S754_finite false 8444249301319680 (-46))); ("channel", VInt 0)]);
   ("MIDIReader.__init__", [("middle_c", v_tone 36)]);
   ("MIDIReader._parse_track.read_event", [("status", VNone)]);
   ("MIDIReader.load", [("channel", VNone)]);
   ("MIDIReader.loads", [("channel", VNone)]);
   ("midi.dump", [("bpm", VFloat (S754_finite false 8444249301319680 (-46))); ("channel", VInt 0)]);
   ("midi.dumps", [("bpm", VFloat (S754_finite false 8444249301319680 (-46))); ("channel", VInt 0)]);
   ("midi.load", [("channel", VNone)]);
   ("midi.loads", [("channel", VNone)]);
   ("processing.randomize_velocities",
     [("minimum", VFloat (S754_finite false 4503599627370496 (-53)));
      ("maximum", VFloat (S754_finite false 4503599627370496 (-52)));
      ("mean", VFloat (S754_finite false 6755399441055744 (-53)));
      ("variance", VFloat (S754_finite false 5764607523034235 (-59)))])]
  ++ map (fun f => (fst f, chord))
         (filter (fun f => String.prefix "chord." (fst f)) functions).

Definition melodia : program := mkProgram functions classes globals defaults.
