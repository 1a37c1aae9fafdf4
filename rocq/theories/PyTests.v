(** The tests of the project as syntax trees of PyAst.v, written out by tools/source_trees.py: each test without its
    [with pytest.raises] blocks, and for each of these the statements before it and its body.  Left out:
    test_tone_to_frequency, test_track_add, test_track_eq, test_midi_read_chunks,
    and what follows an assignment to an attribute of a note.  No proofs in this file. *)
From Coq Require Import ZArith List String SpecFloat.
From Verif Require Import Py PyFloat PyAst.
Import ListNotations.
Open Scope Z_scope.
Open Scope string_scope.

(** test_signature.test_signature_basics (tests/melodia/core/test_signature.py 6-32). *)
Definition src_test_signature_test_signature_basics : fundef :=
  mkFun "test_signature.test_signature_basics"
    []
    [] false
    [SExpr (EOp (OCall [APos; APos]) [(EName "Signature"); (EConst (VInt 0)); (EConst (VInt 1))]);
     SExpr (EOp (OCall [APos; APos]) [(EName "Signature"); (EConst (VInt 1)); (EConst (VInt 2))]);
     SExpr (EOp (OCall [APos; APos]) [(EName "Signature"); (EConst (VInt 2)); (EConst (VInt 4))]);
     SExpr (EOp (OCall [APos; APos]) [(EName "Signature"); (EConst (VInt 3)); (EConst (VInt 4))]);
     SExpr (EOp (OCall [APos; APos]) [(EName "Signature"); (EConst (VInt 4)); (EConst (VInt 4))]);
     SExpr (EOp (OCall [APos; APos]) [(EName "Signature"); (EConst (VInt 1000)); (EConst (VInt 4))]);
     SAssign (TName "s") (EOp (OCall [APos; APos]) [(EName "Signature"); (EConst (VInt 43)); (EConst (VInt 4))]);
     SIf (ECmp (EOp (OAttr "nominator") [(EName "s")]) [(CEq, (EConst (VInt 43)))])
       []
       [SRaise (EOp (OCall []) [EName "AssertionError"])];
     SIf (ECmp (EOp (OAttr "_denominator") [(EName "s")]) [(CEq, (EConst (VInt 4)))])
       []
       [SRaise (EOp (OCall []) [EName "AssertionError"])]].

(** test_signature.test_signature_basics_raises1 (tests/melodia/core/test_signature.py 6-32). *)
Definition src_test_signature_test_signature_basics_raises1 : fundef :=
  mkFun "test_signature.test_signature_basics_raises1"
    []
    [] false
    [SExpr (EOp (OCall [APos; APos]) [(EName "Signature"); (EConst (VInt 0)); (EConst (VInt 1))]);
     SExpr (EOp (OCall [APos; APos]) [(EName "Signature"); (EConst (VInt 1)); (EConst (VInt 2))]);
     SExpr (EOp (OCall [APos; APos]) [(EName "Signature"); (EConst (VInt 2)); (EConst (VInt 4))]);
     SExpr (EOp (OCall [APos; APos]) [(EName "Signature"); (EConst (VInt 3)); (EConst (VInt 4))]);
     SExpr (EOp (OCall [APos; APos]) [(EName "Signature"); (EConst (VInt 4)); (EConst (VInt 4))]);
     SExpr (EOp (OCall [APos; APos]) [(EName "Signature"); (EConst (VInt 1000)); (EConst (VInt 4))]);
     SExpr (EOp (OCall [APos; APos]) [(EName "Signature"); (EOp ONeg [(EConst (VInt 1))]); (EConst (VInt 4))])].

(** test_signature.test_signature_basics_raises2 (tests/melodia/core/test_signature.py 6-32). *)
Definition src_test_signature_test_signature_basics_raises2 : fundef :=
  mkFun "test_signature.test_signature_basics_raises2"
    []
    [] false
    [SExpr (EOp (OCall [APos; APos]) [(EName "Signature"); (EConst (VInt 0)); (EConst (VInt 1))]);
     SExpr (EOp (OCall [APos; APos]) [(EName "Signature"); (EConst (VInt 1)); (EConst (VInt 2))]);
     SExpr (EOp (OCall [APos; APos]) [(EName "Signature"); (EConst (VInt 2)); (EConst (VInt 4))]);
     SExpr (EOp (OCall [APos; APos]) [(EName "Signature"); (EConst (VInt 3)); (EConst (VInt 4))]);
     SExpr (EOp (OCall [APos; APos]) [(EName "Signature"); (EConst (VInt 4)); (EConst (VInt 4))]);
     SExpr (EOp (OCall [APos; APos]) [(EName "Signature"); (EConst (VInt 1000)); (EConst (VInt 4))]);
     SExpr (EOp (OCall [APos; APos]) [(EName "Signature"); (EConst (VInt 0)); (EConst (VInt 0))])].

(** test_signature.test_signature_basics_raises3 (tests/melodia/core/test_signature.py 6-32). *)
Definition src_test_signature_test_signature_basics_raises3 : fundef :=
  mkFun "test_signature.test_signature_basics_raises3"
    []
    [] false
    [SExpr (EOp (OCall [APos; APos]) [(EName "Signature"); (EConst (VInt 0)); (EConst (VInt 1))]);
     SExpr (EOp (OCall [APos; APos]) [(EName "Signature"); (EConst (VInt 1)); (EConst (VInt 2))]);
     SExpr (EOp (OCall [APos; APos]) [(EName "Signature"); (EConst (VInt 2)); (EConst (VInt 4))]);
     SExpr (EOp (OCall [APos; APos]) [(EName "Signature"); (EConst (VInt 3)); (EConst (VInt 4))]);
     SExpr (EOp (OCall [APos; APos]) [(EName "Signature"); (EConst (VInt 4)); (EConst (VInt 4))]);
     SExpr (EOp (OCall [APos; APos]) [(EName "Signature"); (EConst (VInt 1000)); (EConst (VInt 4))]);
     SExpr (EOp (OCall [APos; APos]) [(EName "Signature"); (EConst (VInt 0)); (EOp ONeg [(EConst (VInt 1))])])].

(** test_signature.test_signature_basics_raises4 (tests/melodia/core/test_signature.py 6-32). *)
Definition src_test_signature_test_signature_basics_raises4 : fundef :=
  mkFun "test_signature.test_signature_basics_raises4"
    []
    [] false
    [SExpr (EOp (OCall [APos; APos]) [(EName "Signature"); (EConst (VInt 0)); (EConst (VInt 1))]);
     SExpr (EOp (OCall [APos; APos]) [(EName "Signature"); (EConst (VInt 1)); (EConst (VInt 2))]);
     SExpr (EOp (OCall [APos; APos]) [(EName "Signature"); (EConst (VInt 2)); (EConst (VInt 4))]);
     SExpr (EOp (OCall [APos; APos]) [(EName "Signature"); (EConst (VInt 3)); (EConst (VInt 4))]);
     SExpr (EOp (OCall [APos; APos]) [(EName "Signature"); (EConst (VInt 4)); (EConst (VInt 4))]);
     SExpr (EOp (OCall [APos; APos]) [(EName "Signature"); (EConst (VInt 1000)); (EConst (VInt 4))]);
     SExpr (EOp (OCall [APos; APos]) [(EName "Signature"); (EConst (VInt 1)); (EConst (VInt 5))])].

(** test_signature.test_signature_basics_raises5 (tests/melodia/core/test_signature.py 6-32). *)
Definition src_test_signature_test_signature_basics_raises5 : fundef :=
  mkFun "test_signature.test_signature_basics_raises5"
    []
    [] false
    [SExpr (EOp (OCall [APos; APos]) [(EName "Signature"); (EConst (VInt 0)); (EConst (VInt 1))]);
     SExpr (EOp (OCall [APos; APos]) [(EName "Signature"); (EConst (VInt 1)); (EConst (VInt 2))]);
     SExpr (EOp (OCall [APos; APos]) [(EName "Signature"); (EConst (VInt 2)); (EConst (VInt 4))]);
     SExpr (EOp (OCall [APos; APos]) [(EName "Signature"); (EConst (VInt 3)); (EConst (VInt 4))]);
     SExpr (EOp (OCall [APos; APos]) [(EName "Signature"); (EConst (VInt 4)); (EConst (VInt 4))]);
     SExpr (EOp (OCall [APos; APos]) [(EName "Signature"); (EConst (VInt 1000)); (EConst (VInt 4))]);
     SExpr (EOp (OCall [APos; APos]) [(EName "Signature"); (EConst (VInt 1)); (EConst (VInt 333))])].

(** test_signature.test_signature_to (tests/melodia/core/test_signature.py 35-42). *)
Definition src_test_signature_test_signature_to : fundef :=
  mkFun "test_signature.test_signature_to"
    []
    [] false
    [SAssign (TName "s1") (EOp (OCall [APos; APos]) [(EName "Signature"); (EConst (VInt 1)); (EConst (VInt 2))]);
     SAssign (TName "s2") (EOp (OCall [APos]) [(EOp (OAttr "to") [(EName "s1")]); (EConst (VInt 8))]);
     SIf (ECmp (EOp (OAttr "nominator") [(EName "s1")]) [(CEq, (EConst (VInt 1)))])
       []
       [SRaise (EOp (OCall []) [EName "AssertionError"])];
     SIf (ECmp (EOp (OAttr "denominator") [(EName "s1")]) [(CEq, (EConst (VInt 2)))])
       []
       [SRaise (EOp (OCall []) [EName "AssertionError"])];
     SIf (ECmp (EOp (OAttr "nominator") [(EName "s2")]) [(CEq, (EConst (VInt 4)))])
       []
       [SRaise (EOp (OCall []) [EName "AssertionError"])];
     SIf (ECmp (EOp (OAttr "denominator") [(EName "s2")]) [(CEq, (EConst (VInt 8)))])
       []
       [SRaise (EOp (OCall []) [EName "AssertionError"])]].

(** test_signature.test_signature_normalized (tests/melodia/core/test_signature.py 45-52). *)
Definition src_test_signature_test_signature_normalized : fundef :=
  mkFun "test_signature.test_signature_normalized"
    []
    [] false
    [SAssign (TName "s1") (EOp (OCall [APos; APos]) [(EName "Signature"); (EConst (VInt 6)); (EConst (VInt 8))]);
     SAssign (TName "s2") (EOp (OCall []) [(EOp (OAttr "normalized") [(EName "s1")])]);
     SIf (ECmp (EOp (OAttr "nominator") [(EName "s1")]) [(CEq, (EConst (VInt 6)))])
       []
       [SRaise (EOp (OCall []) [EName "AssertionError"])];
     SIf (ECmp (EOp (OAttr "denominator") [(EName "s1")]) [(CEq, (EConst (VInt 8)))])
       []
       [SRaise (EOp (OCall []) [EName "AssertionError"])];
     SIf (ECmp (EOp (OAttr "nominator") [(EName "s2")]) [(CEq, (EConst (VInt 3)))])
       []
       [SRaise (EOp (OCall []) [EName "AssertionError"])];
     SIf (ECmp (EOp (OAttr "denominator") [(EName "s2")]) [(CEq, (EConst (VInt 4)))])
       []
       [SRaise (EOp (OCall []) [EName "AssertionError"])]].

(** test_signature.test_signature_eq (tests/melodia/core/test_signature.py 55-58). *)
Definition src_test_signature_test_signature_eq : fundef :=
  mkFun "test_signature.test_signature_eq"
    []
    [] false
    [SIf (ECmp (EOp (OCall [APos; APos]) [(EName "Signature"); (EConst (VInt 0)); (EConst (VInt 1))]) [(CEq, (EOp (OCall [APos; APos]) [(EName "Signature"); (EConst (VInt 0)); (EConst (VInt 4))]))])
       []
       [SRaise (EOp (OCall []) [EName "AssertionError"])];
     SIf (ECmp (EOp (OCall [APos; APos]) [(EName "Signature"); (EConst (VInt 1)); (EConst (VInt 4))]) [(CEq, (EOp (OCall [APos; APos]) [(EName "Signature"); (EConst (VInt 8)); (EConst (VInt 32))]))])
       []
       [SRaise (EOp (OCall []) [EName "AssertionError"])];
     SIf (ECmp (EOp (OCall [APos; APos]) [(EName "Signature"); (EConst (VInt 3)); (EConst (VInt 2))]) [(CEq, (EOp (OCall [APos; APos]) [(EName "Signature"); (EConst (VInt 6)); (EConst (VInt 4))]))])
       []
       [SRaise (EOp (OCall []) [EName "AssertionError"])]].

(** test_signature.test_signature_comp (tests/melodia/core/test_signature.py 61-67). *)
Definition src_test_signature_test_signature_comp : fundef :=
  mkFun "test_signature.test_signature_comp"
    []
    [] false
    [SIf (ECmp (EOp (OCall [APos; APos]) [(EName "Signature"); (EConst (VInt 2)); (EConst (VInt 4))]) [(CGe, (EOp (OCall [APos; APos]) [(EName "Signature"); (EConst (VInt 1)); (EConst (VInt 2))]))])
       []
       [SRaise (EOp (OCall []) [EName "AssertionError"])];
     SIf (ECmp (EOp (OCall [APos; APos]) [(EName "Signature"); (EConst (VInt 2)); (EConst (VInt 4))]) [(CLe, (EOp (OCall [APos; APos]) [(EName "Signature"); (EConst (VInt 1)); (EConst (VInt 2))]))])
       []
       [SRaise (EOp (OCall []) [EName "AssertionError"])];
     SIf (ECmp (EOp (OCall [APos; APos]) [(EName "Signature"); (EConst (VInt 2)); (EConst (VInt 4))]) [(CGt, (EOp (OCall [APos; APos]) [(EName "Signature"); (EConst (VInt 1)); (EConst (VInt 4))]))])
       []
       [SRaise (EOp (OCall []) [EName "AssertionError"])];
     SIf (ECmp (EOp (OCall [APos; APos]) [(EName "Signature"); (EConst (VInt 2)); (EConst (VInt 4))]) [(CGe, (EOp (OCall [APos; APos]) [(EName "Signature"); (EConst (VInt 1)); (EConst (VInt 4))]))])
       []
       [SRaise (EOp (OCall []) [EName "AssertionError"])];
     SIf (ECmp (EOp (OCall [APos; APos]) [(EName "Signature"); (EConst (VInt 2)); (EConst (VInt 4))]) [(CLt, (EOp (OCall [APos; APos]) [(EName "Signature"); (EConst (VInt 3)); (EConst (VInt 4))]))])
       []
       [SRaise (EOp (OCall []) [EName "AssertionError"])];
     SIf (ECmp (EOp (OCall [APos; APos]) [(EName "Signature"); (EConst (VInt 2)); (EConst (VInt 4))]) [(CLe, (EOp (OCall [APos; APos]) [(EName "Signature"); (EConst (VInt 3)); (EConst (VInt 4))]))])
       []
       [SRaise (EOp (OCall []) [EName "AssertionError"])]].

(** test_signature.test_signature_sum (tests/melodia/core/test_signature.py 70-73). *)
Definition src_test_signature_test_signature_sum : fundef :=
  mkFun "test_signature.test_signature_sum"
    []
    [] false
    [SIf (ECmp (EOp (OBin Add) [(EOp (OCall [APos; APos]) [(EName "Signature"); (EConst (VInt 0)); (EConst (VInt 1))]); (EOp (OCall [APos; APos]) [(EName "Signature"); (EConst (VInt 0)); (EConst (VInt 1))])]) [(CEq, (EOp (OCall [APos; APos]) [(EName "Signature"); (EConst (VInt 0)); (EConst (VInt 1))]))])
       []
       [SRaise (EOp (OCall []) [EName "AssertionError"])];
     SIf (ECmp (EOp (OBin Add) [(EOp (OCall [APos; APos]) [(EName "Signature"); (EConst (VInt 1)); (EConst (VInt 2))]); (EOp (OCall [APos; APos]) [(EName "Signature"); (EConst (VInt 1)); (EConst (VInt 2))])]) [(CEq, (EOp (OCall [APos; APos]) [(EName "Signature"); (EConst (VInt 1)); (EConst (VInt 1))]))])
       []
       [SRaise (EOp (OCall []) [EName "AssertionError"])];
     SIf (ECmp (EOp (OBin Add) [(EOp (OCall [APos; APos]) [(EName "Signature"); (EConst (VInt 1)); (EConst (VInt 2))]); (EOp (OCall [APos; APos]) [(EName "Signature"); (EConst (VInt 1)); (EConst (VInt 4))])]) [(CEq, (EOp (OCall [APos; APos]) [(EName "Signature"); (EConst (VInt 3)); (EConst (VInt 4))]))])
       []
       [SRaise (EOp (OCall []) [EName "AssertionError"])]].

(** test_signature.test_signature_mul (tests/melodia/core/test_signature.py 76-79). *)
Definition src_test_signature_test_signature_mul : fundef :=
  mkFun "test_signature.test_signature_mul"
    []
    [] false
    [SIf (ECmp (EOp (OBin Mult) [(EOp (OCall [APos; APos]) [(EName "Signature"); (EConst (VInt 1)); (EConst (VInt 4))]); (EOp (OCall [APos; APos]) [(EName "Signature"); (EConst (VInt 2)); (EConst (VInt 2))])]) [(CEq, (EOp (OCall [APos; APos]) [(EName "Signature"); (EConst (VInt 2)); (EConst (VInt 8))]))])
       []
       [SRaise (EOp (OCall []) [EName "AssertionError"])];
     SIf (ECmp (EOp (OBin Mult) [(EOp (OCall [APos; APos]) [(EName "Signature"); (EConst (VInt 3)); (EConst (VInt 4))]); (EOp (OCall [APos; APos]) [(EName "Signature"); (EConst (VInt 5)); (EConst (VInt 4))])]) [(CEq, (EOp (OCall [APos; APos]) [(EName "Signature"); (EConst (VInt 15)); (EConst (VInt 16))]))])
       []
       [SRaise (EOp (OCall []) [EName "AssertionError"])];
     SIf (ECmp (EOp (OBin Mult) [(EOp (OCall [APos; APos]) [(EName "Signature"); (EConst (VInt 1)); (EConst (VInt 1))]); (EOp (OCall [APos; APos]) [(EName "Signature"); (EConst (VInt 2)); (EConst (VInt 1))])]) [(CEq, (EOp (OCall [APos; APos]) [(EName "Signature"); (EConst (VInt 2)); (EConst (VInt 1))]))])
       []
       [SRaise (EOp (OCall []) [EName "AssertionError"])]].

(** test_signature.test_signature_abs (tests/melodia/core/test_signature.py 82-83). *)
Definition src_test_signature_test_signature_abs : fundef :=
  mkFun "test_signature.test_signature_abs"
    []
    [] false
    [SIf (ECmp (EOp (OCall [APos]) [(EName "abs"); (EOp (OCall [APos; APos]) [(EName "Signature"); (EConst (VInt 3)); (EConst (VInt 8))])]) [(CEq, (EOp (OCall [APos; APos]) [(EName "Signature"); (EConst (VInt 3)); (EConst (VInt 8))]))])
       []
       [SRaise (EOp (OCall []) [EName "AssertionError"])]].

(** test_tone.test_tone_str (tests/melodia/core/test_tone.py 6-9). *)
Definition src_test_tone_test_tone_str : fundef :=
  mkFun "test_tone.test_tone_str"
    []
    [] false
    [SFor (TName "i") (EOp (OCall [APos]) [(EName "range"); (EConst (VInt 30))])
       [SAssign (TName "tone") (EOp (OCall [APos]) [(EName "Tone"); (EName "i")]);
        SIf (ECmp (EOp (OCall [APos]) [(EName "str"); (EName "tone")]) [(CEq, (EOp (OCall []) [(EOp (OAttr "to_notation") [(EName "tone")])]))])
          []
          [SRaise (EOp (OCall []) [EName "AssertionError"])]]].

(** test_tone.test_tone_from_notation (tests/melodia/core/test_tone.py 12-41). *)
Definition src_test_tone_test_tone_from_notation : fundef :=
  mkFun "test_tone.test_tone_from_notation"
    []
    [] false
    [SFor (TTuple [(TName "notation"); (TName "pitch")]) (EOp OList [(EOp OTuple [(EConst (VStr (lit "C"))); (EConst (VInt 0))]); (EOp OTuple [(EConst (VStr (lit "C#"))); (EConst (VInt 1))]); (EOp OTuple [(EConst (VStr (lit "D"))); (EConst (VInt 2))]); (EOp OTuple [(EConst (VStr (lit "D#"))); (EConst (VInt 3))]); (EOp OTuple [(EConst (VStr (lit "E"))); (EConst (VInt 4))]); (EOp OTuple [(EConst (VStr (lit "F"))); (EConst (VInt 5))]); (EOp OTuple [(EConst (VStr (lit "F#"))); (EConst (VInt 6))]); (EOp OTuple [(EConst (VStr (lit "G"))); (EConst (VInt 7))]); (EOp OTuple [(EConst (VStr (lit "G#"))); (EConst (VInt 8))]); (EOp OTuple [(EConst (VStr (lit "A"))); (EConst (VInt 9))]); (EOp OTuple [(EConst (VStr (lit "A#"))); (EConst (VInt 10))]); (EOp OTuple [(EConst (VStr (lit "B"))); (EConst (VInt 11))]); (EOp OTuple [(EConst (VStr (lit "C1"))); (EConst (VInt 12))]); (EOp OTuple [(EConst (VStr (lit "C#1"))); (EConst (VInt 13))]); (EOp OTuple [(EConst (VStr (lit "Db"))); (EConst (VInt 1))]); (EOp OTuple [(EConst (VStr (lit "Eb"))); (EConst (VInt 3))]); (EOp OTuple [(EConst (VStr (lit "Fb"))); (EConst (VInt 4))]); (EOp OTuple [(EConst (VStr (lit "E#"))); (EConst (VInt 5))]); (EOp OTuple [(EConst (VStr (lit "Ab"))); (EConst (VInt 8))]); (EOp OTuple [(EConst (VStr (lit "C2"))); (EConst (VInt 24))]); (EOp OTuple [(EConst (VStr (lit "C3"))); (EConst (VInt 36))]); (EOp OTuple [(EConst (VStr (lit "C#3"))); (EConst (VInt 37))]); (EOp OTuple [(EConst (VStr (lit "Db3"))); (EConst (VInt 37))]); (EOp OTuple [(EConst (VStr (lit "C-1"))); (EOp ONeg [(EConst (VInt 12))])]); (EOp OTuple [(EConst (VStr (lit "C#-1"))); (EOp ONeg [(EConst (VInt 11))])]); (EOp OTuple [(EConst (VStr (lit "B-1"))); (EOp ONeg [(EConst (VInt 1))])])])
       [SIf (ECmp (EOp (OAttr "pitch") [(EOp (OCall [APos]) [(EOp (OAttr "from_notation") [(EName "Tone")]); (EName "notation")])]) [(CEq, (EName "pitch"))])
          []
          [SRaise (EOp (OCall []) [EName "AssertionError"])]]].

(** test_tone.test_tone_to_notation (tests/melodia/core/test_tone.py 44-59). *)
Definition src_test_tone_test_tone_to_notation : fundef :=
  mkFun "test_tone.test_tone_to_notation"
    []
    [] false
    [SIf (ECmp (EOp (OCall []) [(EOp (OAttr "to_notation") [(EOp (OCall [APos]) [(EOp (OAttr "from_notation") [(EName "Tone")]); (EConst (VStr (lit "C#")))])])]) [(CEq, (EConst (VStr (lit "C#0"))))])
       []
       [SRaise (EOp (OCall []) [EName "AssertionError"])];
     SIf (ECmp (EOp (OCall []) [(EOp (OAttr "to_notation") [(EOp (OCall [APos]) [(EOp (OAttr "from_notation") [(EName "Tone")]); (EConst (VStr (lit "C#b")))])])]) [(CEq, (EConst (VStr (lit "C0"))))])
       []
       [SRaise (EOp (OCall []) [EName "AssertionError"])];
     SIf (ECmp (EOp (OCall []) [(EOp (OAttr "to_notation") [(EOp (OCall [APos]) [(EOp (OAttr "from_notation") [(EName "Tone")]); (EConst (VStr (lit "C##b")))])])]) [(CEq, (EConst (VStr (lit "C#0"))))])
       []
       [SRaise (EOp (OCall []) [EName "AssertionError"])];
     SIf (ECmp (EOp (OCall []) [(EOp (OAttr "to_notation") [(EOp (OCall [APos]) [(EOp (OAttr "from_notation") [(EName "Tone")]); (EConst (VStr (lit "C#b#")))])])]) [(CEq, (EConst (VStr (lit "C#0"))))])
       []
       [SRaise (EOp (OCall []) [EName "AssertionError"])];
     SIf (ECmp (EOp (OCall []) [(EOp (OAttr "to_notation") [(EOp (OCall [APos]) [(EOp (OAttr "from_notation") [(EName "Tone")]); (EConst (VStr (lit "Cb##")))])])]) [(CEq, (EConst (VStr (lit "C#0"))))])
       []
       [SRaise (EOp (OCall []) [EName "AssertionError"])];
     SIf (ECmp (EOp (OCall []) [(EOp (OAttr "to_notation") [(EOp (OCall [APos]) [(EOp (OAttr "from_notation") [(EName "Tone")]); (EConst (VStr (lit "Ab##43")))])])]) [(CEq, (EConst (VStr (lit "A#43"))))])
       []
       [SRaise (EOp (OCall []) [EName "AssertionError"])];
     SIf (ECmp (EOp (OCall []) [(EOp (OAttr "to_notation") [(EOp (OCall [APos]) [(EOp (OAttr "from_notation") [(EName "Tone")]); (EConst (VStr (lit "Ab##-43")))])])]) [(CEq, (EConst (VStr (lit "A#-43"))))])
       []
       [SRaise (EOp (OCall []) [EName "AssertionError"])];
     SIf (ECmp (EOp (OCall [AKey "transpose_down"]) [(EOp (OAttr "to_notation") [(EOp (OCall [APos]) [(EOp (OAttr "from_notation") [(EName "Tone")]); (EConst (VStr (lit "C#")))])]); (EConst (VBool true))]) [(CEq, (EConst (VStr (lit "Db0"))))])
       []
       [SRaise (EOp (OCall []) [EName "AssertionError"])];
     SIf (ECmp (EOp (OCall [AKey "transpose_down"]) [(EOp (OAttr "to_notation") [(EOp (OCall [APos]) [(EOp (OAttr "from_notation") [(EName "Tone")]); (EConst (VStr (lit "C#b")))])]); (EConst (VBool true))]) [(CEq, (EConst (VStr (lit "C0"))))])
       []
       [SRaise (EOp (OCall []) [EName "AssertionError"])];
     SIf (ECmp (EOp (OCall [AKey "transpose_down"]) [(EOp (OAttr "to_notation") [(EOp (OCall [APos]) [(EOp (OAttr "from_notation") [(EName "Tone")]); (EConst (VStr (lit "C##b")))])]); (EConst (VBool true))]) [(CEq, (EConst (VStr (lit "Db0"))))])
       []
       [SRaise (EOp (OCall []) [EName "AssertionError"])];
     SIf (ECmp (EOp (OCall [AKey "transpose_down"]) [(EOp (OAttr "to_notation") [(EOp (OCall [APos]) [(EOp (OAttr "from_notation") [(EName "Tone")]); (EConst (VStr (lit "C#b#")))])]); (EConst (VBool true))]) [(CEq, (EConst (VStr (lit "Db0"))))])
       []
       [SRaise (EOp (OCall []) [EName "AssertionError"])];
     SIf (ECmp (EOp (OCall [AKey "transpose_down"]) [(EOp (OAttr "to_notation") [(EOp (OCall [APos]) [(EOp (OAttr "from_notation") [(EName "Tone")]); (EConst (VStr (lit "Cb##")))])]); (EConst (VBool true))]) [(CEq, (EConst (VStr (lit "Db0"))))])
       []
       [SRaise (EOp (OCall []) [EName "AssertionError"])];
     SIf (ECmp (EOp (OCall [AKey "transpose_down"]) [(EOp (OAttr "to_notation") [(EOp (OCall [APos]) [(EOp (OAttr "from_notation") [(EName "Tone")]); (EConst (VStr (lit "Ab##43")))])]); (EConst (VBool true))]) [(CEq, (EConst (VStr (lit "Bb43"))))])
       []
       [SRaise (EOp (OCall []) [EName "AssertionError"])];
     SIf (ECmp (EOp (OCall [AKey "transpose_down"]) [(EOp (OAttr "to_notation") [(EOp (OCall [APos]) [(EOp (OAttr "from_notation") [(EName "Tone")]); (EConst (VStr (lit "Ab##-43")))])]); (EConst (VBool true))]) [(CEq, (EConst (VStr (lit "Bb-43"))))])
       []
       [SRaise (EOp (OCall []) [EName "AssertionError"])]].

(** test_tone.test_tone_octave (tests/melodia/core/test_tone.py 79-82). *)
Definition src_test_tone_test_tone_octave : fundef :=
  mkFun "test_tone.test_tone_octave"
    []
    [] false
    [SFor (TName "tone") (EConst (VStr (lit "ABCDEFG")))
       [SFor (TName "octave") (EOp (OCall [APos; APos]) [(EName "range"); (EOp ONeg [(EConst (VInt 5))]); (EConst (VInt 5))])
          [SIf (ECmp (EOp (OAttr "octave") [(EOp (OCall [APos]) [(EOp (OAttr "from_notation") [(EName "Tone")]); (EOp (OFormat [FVal ""; FVal ""]) [(EName "tone"); (EName "octave")])])]) [(CEq, (EName "octave"))])
             []
             [SRaise (EOp (OCall []) [EName "AssertionError"])]]]].

(** test_tone.test_note_with_transposed (tests/melodia/core/test_tone.py 85-98). *)
Definition src_test_tone_test_note_with_transposed : fundef :=
  mkFun "test_tone.test_note_with_transposed"
    []
    [] false
    [SAssign (TName "n1") (EOp (OCall [APos]) [(EOp (OAttr "from_notation") [(EName "Tone")]); (EConst (VStr (lit "C4")))]);
     SAssign (TName "n2") (EOp (OCall [APos]) [(EOp (OAttr "transposed") [(EName "n1")]); (EConst (VInt 1))]);
     SIf (ECmp (EOp (OCall []) [(EOp (OAttr "to_notation") [(EName "n1")])]) [(CEq, (EConst (VStr (lit "C4"))))])
       []
       [SRaise (EOp (OCall []) [EName "AssertionError"])];
     SIf (ECmp (EOp (OCall []) [(EOp (OAttr "to_notation") [(EName "n2")])]) [(CEq, (EConst (VStr (lit "C#4"))))])
       []
       [SRaise (EOp (OCall []) [EName "AssertionError"])];
     SIf (ECmp (EOp (OCall []) [(EOp (OAttr "to_notation") [(EOp (OCall [APos]) [(EOp (OAttr "transposed") [(EOp (OCall [APos]) [(EOp (OAttr "from_notation") [(EName "Tone")]); (EConst (VStr (lit "C4")))])]); (EConst (VInt 2))])])]) [(CEq, (EConst (VStr (lit "D4"))))])
       []
       [SRaise (EOp (OCall []) [EName "AssertionError"])];
     SIf (ECmp (EOp (OCall []) [(EOp (OAttr "to_notation") [(EOp (OCall [APos]) [(EOp (OAttr "transposed") [(EOp (OCall [APos]) [(EOp (OAttr "from_notation") [(EName "Tone")]); (EConst (VStr (lit "C4")))])]); (EOp ONeg [(EConst (VInt 1))])])])]) [(CEq, (EConst (VStr (lit "B3"))))])
       []
       [SRaise (EOp (OCall []) [EName "AssertionError"])];
     SIf (ECmp (EOp (OCall []) [(EOp (OAttr "to_notation") [(EOp (OCall [APos]) [(EOp (OAttr "transposed") [(EOp (OCall [APos]) [(EOp (OAttr "from_notation") [(EName "Tone")]); (EConst (VStr (lit "C4")))])]); (EOp ONeg [(EConst (VInt 2))])])])]) [(CEq, (EConst (VStr (lit "A#3"))))])
       []
       [SRaise (EOp (OCall []) [EName "AssertionError"])];
     SAssign (TName "n") (EOp (OCall [APos]) [(EName "Tone"); (EConst (VInt 152))]);
     SIf (ECmp (EOp (OCall [APos]) [(EOp (OAttr "transposed") [(EOp (OCall [APos]) [(EOp (OAttr "transposed") [(EOp (OCall [APos]) [(EOp (OAttr "transposed") [(EName "n")]); (EConst (VInt 1))])]); (EConst (VInt 5))])]); (EOp ONeg [(EConst (VInt 3))])]) [(CEq, (EOp (OCall [APos]) [(EOp (OAttr "transposed") [(EName "n")]); (EConst (VInt 3))]))])
       []
       [SRaise (EOp (OCall []) [EName "AssertionError"])]].

(** test_tone.test_tone_eq (tests/melodia/core/test_tone.py 101-103). *)
Definition src_test_tone_test_tone_eq : fundef :=
  mkFun "test_tone.test_tone_eq"
    []
    [] false
    [SIf (ECmp (EOp (OCall [APos]) [(EName "Tone"); (EConst (VInt 0))]) [(CEq, (EOp (OCall [APos]) [(EName "Tone"); (EConst (VInt 0))]))])
       []
       [SRaise (EOp (OCall []) [EName "AssertionError"])];
     SIf (ECmp (EOp (OCall [APos]) [(EName "Tone"); (EConst (VInt 0))]) [(CNe, (EOp (OCall [APos]) [(EName "Tone"); (EConst (VInt 1))]))])
       []
       [SRaise (EOp (OCall []) [EName "AssertionError"])]].

(** test_tone.test_tone_comp (tests/melodia/core/test_tone.py 106-110). *)
Definition src_test_tone_test_tone_comp : fundef :=
  mkFun "test_tone.test_tone_comp"
    []
    [] false
    [SIf (ECmp (EOp (OCall [APos]) [(EName "Tone"); (EConst (VInt 42))]) [(CLt, (EOp (OCall [APos]) [(EName "Tone"); (EConst (VInt 43))]))])
       []
       [SRaise (EOp (OCall []) [EName "AssertionError"])];
     SIf (ECmp (EOp (OCall [APos]) [(EName "Tone"); (EConst (VInt 42))]) [(CLe, (EOp (OCall [APos]) [(EName "Tone"); (EConst (VInt 42))]))])
       []
       [SRaise (EOp (OCall []) [EName "AssertionError"])];
     SIf (ECmp (EOp (OCall [APos]) [(EName "Tone"); (EConst (VInt 42))]) [(CGe, (EOp (OCall [APos]) [(EName "Tone"); (EConst (VInt 42))]))])
       []
       [SRaise (EOp (OCall []) [EName "AssertionError"])];
     SIf (ECmp (EOp (OCall [APos]) [(EName "Tone"); (EConst (VInt 42))]) [(CGt, (EOp (OCall [APos]) [(EName "Tone"); (EConst (VInt 41))]))])
       []
       [SRaise (EOp (OCall []) [EName "AssertionError"])]].

(** test_note.test_note_basics (tests/melodia/core/test_note.py 6-24). *)
Definition src_test_note_test_note_basics : fundef :=
  mkFun "test_note.test_note_basics"
    []
    [] false
    [SIf (ECmp (EOp (OCall [APos]) [(EName "Note"); (EOp (OCall [APos]) [(EName "Tone"); (EConst (VInt 60))])]) [(CEq, (EOp (OCall [APos]) [(EName "Note"); (EConst (VInt 60))]))])
       []
       [SRaise (EOp (OCall []) [EName "AssertionError"])];
     SIf (ECmp (EOp (OCall [APos]) [(EName "Note"); (EOp (OCall [APos]) [(EOp (OAttr "from_notation") [(EName "Tone")]); (EConst (VStr (lit "A4")))])]) [(CEq, (EOp (OCall [APos]) [(EName "Note"); (EConst (VStr (lit "A4")))]))])
       []
       [SRaise (EOp (OCall []) [EName "AssertionError"])];
     SIf (ECmp (EOp (OCall [APos; APos]) [(EName "Note"); (EOp (OCall [APos]) [(EName "Tone"); (EConst (VInt 60))]); (EOp (OCall [APos; APos]) [(EName "Signature"); (EConst (VInt 3)); (EConst (VInt 4))])]) [(CEq, (EOp (OCall [APos; APos]) [(EName "Note"); (EConst (VInt 60)); (EOp OTuple [(EConst (VInt 3)); (EConst (VInt 4))])]))])
       []
       [SRaise (EOp (OCall []) [EName "AssertionError"])];
     SExpr (EOp (OCall [APos; AKey "velocity"]) [(EName "Note"); (EConst (VStr (lit "A4"))); (EConst (VFloat (S754_finite false 4503599627370496 (-53))))])].

(** test_note.test_note_basics_raises1 (tests/melodia/core/test_note.py 6-24). *)
Definition src_test_note_test_note_basics_raises1 : fundef :=
  mkFun "test_note.test_note_basics_raises1"
    []
    [] false
    [SIf (ECmp (EOp (OCall [APos]) [(EName "Note"); (EOp (OCall [APos]) [(EName "Tone"); (EConst (VInt 60))])]) [(CEq, (EOp (OCall [APos]) [(EName "Note"); (EConst (VInt 60))]))])
       []
       [SRaise (EOp (OCall []) [EName "AssertionError"])];
     SIf (ECmp (EOp (OCall [APos]) [(EName "Note"); (EOp (OCall [APos]) [(EOp (OAttr "from_notation") [(EName "Tone")]); (EConst (VStr (lit "A4")))])]) [(CEq, (EOp (OCall [APos]) [(EName "Note"); (EConst (VStr (lit "A4")))]))])
       []
       [SRaise (EOp (OCall []) [EName "AssertionError"])];
     SIf (ECmp (EOp (OCall [APos; APos]) [(EName "Note"); (EOp (OCall [APos]) [(EName "Tone"); (EConst (VInt 60))]); (EOp (OCall [APos; APos]) [(EName "Signature"); (EConst (VInt 3)); (EConst (VInt 4))])]) [(CEq, (EOp (OCall [APos; APos]) [(EName "Note"); (EConst (VInt 60)); (EOp OTuple [(EConst (VInt 3)); (EConst (VInt 4))])]))])
       []
       [SRaise (EOp (OCall []) [EName "AssertionError"])];
     SExpr (EOp (OCall [APos; AKey "velocity"]) [(EName "Note"); (EConst (VStr (lit "A4"))); (EConst (VFloat (S754_finite false 4503599627370496 (-53))))]);
     SExpr (EOp (OCall [APos]) [(EName "Note"); (EConst (VStr (lit "re")))])].

(** test_note.test_note_basics_raises2 (tests/melodia/core/test_note.py 6-24). *)
Definition src_test_note_test_note_basics_raises2 : fundef :=
  mkFun "test_note.test_note_basics_raises2"
    []
    [] false
    [SIf (ECmp (EOp (OCall [APos]) [(EName "Note"); (EOp (OCall [APos]) [(EName "Tone"); (EConst (VInt 60))])]) [(CEq, (EOp (OCall [APos]) [(EName "Note"); (EConst (VInt 60))]))])
       []
       [SRaise (EOp (OCall []) [EName "AssertionError"])];
     SIf (ECmp (EOp (OCall [APos]) [(EName "Note"); (EOp (OCall [APos]) [(EOp (OAttr "from_notation") [(EName "Tone")]); (EConst (VStr (lit "A4")))])]) [(CEq, (EOp (OCall [APos]) [(EName "Note"); (EConst (VStr (lit "A4")))]))])
       []
       [SRaise (EOp (OCall []) [EName "AssertionError"])];
     SIf (ECmp (EOp (OCall [APos; APos]) [(EName "Note"); (EOp (OCall [APos]) [(EName "Tone"); (EConst (VInt 60))]); (EOp (OCall [APos; APos]) [(EName "Signature"); (EConst (VInt 3)); (EConst (VInt 4))])]) [(CEq, (EOp (OCall [APos; APos]) [(EName "Note"); (EConst (VInt 60)); (EOp OTuple [(EConst (VInt 3)); (EConst (VInt 4))])]))])
       []
       [SRaise (EOp (OCall []) [EName "AssertionError"])];
     SExpr (EOp (OCall [APos; AKey "velocity"]) [(EName "Note"); (EConst (VStr (lit "A4"))); (EConst (VFloat (S754_finite false 4503599627370496 (-53))))]);
     SExpr (EOp (OCall [APos; APos]) [(EName "Note"); (EConst (VStr (lit "A4"))); (EConst (VStr (lit "1/4")))])].

(** test_note.test_note_basics_raises3 (tests/melodia/core/test_note.py 6-24). *)
Definition src_test_note_test_note_basics_raises3 : fundef :=
  mkFun "test_note.test_note_basics_raises3"
    []
    [] false
    [SIf (ECmp (EOp (OCall [APos]) [(EName "Note"); (EOp (OCall [APos]) [(EName "Tone"); (EConst (VInt 60))])]) [(CEq, (EOp (OCall [APos]) [(EName "Note"); (EConst (VInt 60))]))])
       []
       [SRaise (EOp (OCall []) [EName "AssertionError"])];
     SIf (ECmp (EOp (OCall [APos]) [(EName "Note"); (EOp (OCall [APos]) [(EOp (OAttr "from_notation") [(EName "Tone")]); (EConst (VStr (lit "A4")))])]) [(CEq, (EOp (OCall [APos]) [(EName "Note"); (EConst (VStr (lit "A4")))]))])
       []
       [SRaise (EOp (OCall []) [EName "AssertionError"])];
     SIf (ECmp (EOp (OCall [APos; APos]) [(EName "Note"); (EOp (OCall [APos]) [(EName "Tone"); (EConst (VInt 60))]); (EOp (OCall [APos; APos]) [(EName "Signature"); (EConst (VInt 3)); (EConst (VInt 4))])]) [(CEq, (EOp (OCall [APos; APos]) [(EName "Note"); (EConst (VInt 60)); (EOp OTuple [(EConst (VInt 3)); (EConst (VInt 4))])]))])
       []
       [SRaise (EOp (OCall []) [EName "AssertionError"])];
     SExpr (EOp (OCall [APos; AKey "velocity"]) [(EName "Note"); (EConst (VStr (lit "A4"))); (EConst (VFloat (S754_finite false 4503599627370496 (-53))))]);
     SExpr (EOp (OCall [APos; AKey "velocity"]) [(EName "Note"); (EConst (VStr (lit "A4"))); (EConst (VFloat (S754_finite true 4503599627370496 (-52))))])].

(** test_note.test_note_basics_raises4 (tests/melodia/core/test_note.py 6-24). *)
Definition src_test_note_test_note_basics_raises4 : fundef :=
  mkFun "test_note.test_note_basics_raises4"
    []
    [] false
    [SIf (ECmp (EOp (OCall [APos]) [(EName "Note"); (EOp (OCall [APos]) [(EName "Tone"); (EConst (VInt 60))])]) [(CEq, (EOp (OCall [APos]) [(EName "Note"); (EConst (VInt 60))]))])
       []
       [SRaise (EOp (OCall []) [EName "AssertionError"])];
     SIf (ECmp (EOp (OCall [APos]) [(EName "Note"); (EOp (OCall [APos]) [(EOp (OAttr "from_notation") [(EName "Tone")]); (EConst (VStr (lit "A4")))])]) [(CEq, (EOp (OCall [APos]) [(EName "Note"); (EConst (VStr (lit "A4")))]))])
       []
       [SRaise (EOp (OCall []) [EName "AssertionError"])];
     SIf (ECmp (EOp (OCall [APos; APos]) [(EName "Note"); (EOp (OCall [APos]) [(EName "Tone"); (EConst (VInt 60))]); (EOp (OCall [APos; APos]) [(EName "Signature"); (EConst (VInt 3)); (EConst (VInt 4))])]) [(CEq, (EOp (OCall [APos; APos]) [(EName "Note"); (EConst (VInt 60)); (EOp OTuple [(EConst (VInt 3)); (EConst (VInt 4))])]))])
       []
       [SRaise (EOp (OCall []) [EName "AssertionError"])];
     SExpr (EOp (OCall [APos; AKey "velocity"]) [(EName "Note"); (EConst (VStr (lit "A4"))); (EConst (VFloat (S754_finite false 4503599627370496 (-53))))]);
     SExpr (EOp (OCall [APos; AKey "velocity"]) [(EName "Note"); (EConst (VStr (lit "A4"))); (EConst (VFloat (S754_finite false 4953959590107546 (-52))))])].

(** test_note.test_note_properties (tests/melodia/core/test_note.py 27-33). *)
Definition src_test_note_test_note_properties : fundef :=
  mkFun "test_note.test_note_properties"
    []
    [] false
    [SAssign (TName "n") (EOp (OCall [APos; APos; APos]) [(EName "Note"); (EConst (VStr (lit "B#6"))); (EOp OTuple [(EConst (VInt 3)); (EConst (VInt 8))]); (EConst (VFloat (S754_finite false 5098074778183401 (-55))))]);
     SIf (ECmp (EOp (OAttr "tone") [(EName "n")]) [(CEq, (EOp (OCall [APos]) [(EOp (OAttr "from_notation") [(EName "Tone")]); (EConst (VStr (lit "B#6")))]))])
       []
       [SRaise (EOp (OCall []) [EName "AssertionError"])];
     SIf (ECmp (EOp (OAttr "nominator") [(EOp (OAttr "duration") [(EName "n")])]) [(CEq, (EConst (VInt 3)))])
       []
       [SRaise (EOp (OCall []) [EName "AssertionError"])];
     SIf (ECmp (EOp (OAttr "denominator") [(EOp (OAttr "duration") [(EName "n")])]) [(CEq, (EConst (VInt 8)))])
       []
       [SRaise (EOp (OCall []) [EName "AssertionError"])];
     SIf (ECmp (EOp (OAttr "velocity") [(EName "n")]) [(CEq, (EConst (VFloat (S754_finite false 5098074778183401 (-55)))))])
       []
       [SRaise (EOp (OCall []) [EName "AssertionError"])]].

(** test_note.test_note_transposed (tests/melodia/core/test_note.py 36-45). *)
Definition src_test_note_test_note_transposed : fundef :=
  mkFun "test_note.test_note_transposed"
    []
    [] false
    [SAssign (TName "n1") (EOp (OCall [APos]) [(EName "Note"); (EConst (VStr (lit "A4")))]);
     SAssign (TName "n2") (EOp (OCall [APos]) [(EOp (OAttr "transposed") [(EName "n1")]); (EOp OPos [(EConst (VInt 3))])]);
     SIf (ECmp (EOp (OAttr "tone") [(EName "n1")]) [(CEq, (EOp (OCall [APos]) [(EOp (OAttr "from_notation") [(EName "Tone")]); (EConst (VStr (lit "A4")))]))])
       []
       [SRaise (EOp (OCall []) [EName "AssertionError"])];
     SIf (ECmp (EOp (OAttr "tone") [(EName "n2")]) [(CEq, (EOp (OCall [APos]) [(EOp (OAttr "from_notation") [(EName "Tone")]); (EConst (VStr (lit "C5")))]))])
       []
       [SRaise (EOp (OCall []) [EName "AssertionError"])];
     SIf (ECmp (EOp (OAttr "nominator") [(EOp (OAttr "duration") [(EName "n1")])]) [(CEq, (EOp (OAttr "nominator") [(EOp (OAttr "duration") [(EName "n2")])]))])
       []
       [SRaise (EOp (OCall []) [EName "AssertionError"])];
     SIf (ECmp (EOp (OAttr "denominator") [(EOp (OAttr "duration") [(EName "n1")])]) [(CEq, (EOp (OAttr "denominator") [(EOp (OAttr "duration") [(EName "n2")])]))])
       []
       [SRaise (EOp (OCall []) [EName "AssertionError"])];
     SIf (ECmp (EOp (OAttr "velocity") [(EName "n1")]) [(CEq, (EOp (OAttr "velocity") [(EName "n2")]))])
       []
       [SRaise (EOp (OCall []) [EName "AssertionError"])]].

(** test_note.test_note_with_duration (tests/melodia/core/test_note.py 48-57). *)
Definition src_test_note_test_note_with_duration : fundef :=
  mkFun "test_note.test_note_with_duration"
    []
    [] false
    [SAssign (TName "n1") (EOp (OCall [APos; APos]) [(EName "Note"); (EConst (VStr (lit "A4"))); (EOp OTuple [(EConst (VInt 3)); (EConst (VInt 8))])]);
     SAssign (TName "n2") (EOp (OCall [APos]) [(EOp (OAttr "with_duration") [(EName "n1")]); (EOp OTuple [(EConst (VInt 7)); (EConst (VInt 4))])]);
     SIf (ECmp (EOp (OAttr "tone") [(EName "n1")]) [(CEq, (EOp (OAttr "tone") [(EName "n2")]))])
       []
       [SRaise (EOp (OCall []) [EName "AssertionError"])];
     SIf (ECmp (EOp (OAttr "duration") [(EName "n1")]) [(CEq, (EOp (OCall [APos; APos]) [(EName "Signature"); (EConst (VInt 3)); (EConst (VInt 8))]))])
       []
       [SRaise (EOp (OCall []) [EName "AssertionError"])];
     SIf (ECmp (EOp (OAttr "duration") [(EName "n2")]) [(CEq, (EOp (OCall [APos; APos]) [(EName "Signature"); (EConst (VInt 7)); (EConst (VInt 4))]))])
       []
       [SRaise (EOp (OCall []) [EName "AssertionError"])];
     SIf (ECmp (EOp (OAttr "velocity") [(EName "n1")]) [(CEq, (EOp (OAttr "velocity") [(EName "n2")]))])
       []
       [SRaise (EOp (OCall []) [EName "AssertionError"])]].

(** test_note.test_note_with_velocity (tests/melodia/core/test_note.py 60-69). *)
Definition src_test_note_test_note_with_velocity : fundef :=
  mkFun "test_note.test_note_with_velocity"
    []
    [] false
    [SAssign (TName "n1") (EOp (OCall [APos; APos; AKey "velocity"]) [(EName "Note"); (EConst (VStr (lit "A4"))); (EOp OTuple [(EConst (VInt 3)); (EConst (VInt 8))]); (EConst (VFloat (S754_finite false 7746191359077253 (-54))))]);
     SAssign (TName "n2") (EOp (OCall [APos]) [(EOp (OAttr "with_velocity") [(EName "n1")]); (EConst (VFloat (S754_finite false 7746191359077253 (-53))))]);
     SIf (ECmp (EOp (OAttr "tone") [(EName "n1")]) [(CEq, (EOp (OAttr "tone") [(EName "n2")]))])
       []
       [SRaise (EOp (OCall []) [EName "AssertionError"])];
     SIf (ECmp (EOp (OAttr "nominator") [(EOp (OAttr "duration") [(EName "n1")])]) [(CEq, (EOp (OAttr "nominator") [(EOp (OAttr "duration") [(EName "n2")])]))])
       []
       [SRaise (EOp (OCall []) [EName "AssertionError"])];
     SIf (ECmp (EOp (OAttr "denominator") [(EOp (OAttr "duration") [(EName "n1")])]) [(CEq, (EOp (OAttr "denominator") [(EOp (OAttr "duration") [(EName "n2")])]))])
       []
       [SRaise (EOp (OCall []) [EName "AssertionError"])];
     SIf (ECmp (EOp (OAttr "velocity") [(EName "n1")]) [(CEq, (EConst (VFloat (S754_finite false 7746191359077253 (-54)))))])
       []
       [SRaise (EOp (OCall []) [EName "AssertionError"])];
     SIf (ECmp (EOp (OAttr "velocity") [(EName "n2")]) [(CEq, (EConst (VFloat (S754_finite false 7746191359077253 (-53)))))])
       []
       [SRaise (EOp (OCall []) [EName "AssertionError"])]].

(** test_note.test_note_eq (tests/melodia/core/test_note.py 72-77). *)
Definition src_test_note_test_note_eq : fundef :=
  mkFun "test_note.test_note_eq"
    []
    [] false
    [SIf (ECmp (EOp (OCall [APos]) [(EName "Note"); (EConst (VStr (lit "C4")))]) [(CEq, (EOp (OCall [APos]) [(EName "Note"); (EConst (VStr (lit "C4")))]))])
       []
       [SRaise (EOp (OCall []) [EName "AssertionError"])];
     SIf (ECmp (EOp (OCall [APos]) [(EName "Note"); (EConst (VStr (lit "C4")))]) [(CNe, (EOp (OCall [APos]) [(EName "Note"); (EConst (VStr (lit "C5")))]))])
       []
       [SRaise (EOp (OCall []) [EName "AssertionError"])];
     SIf (ECmp (EOp (OCall [APos; APos; APos]) [(EName "Note"); (EConst (VStr (lit "C4"))); (EOp OTuple [(EConst (VInt 1)); (EConst (VInt 2))]); (EConst (VFloat (S754_finite false 5404319552844595 (-54))))]) [(CEq, (EOp (OCall [APos; APos; APos]) [(EName "Note"); (EConst (VStr (lit "C4"))); (EOp OTuple [(EConst (VInt 2)); (EConst (VInt 4))]); (EConst (VFloat (S754_finite false 5404319552844595 (-54))))]))])
       []
       [SRaise (EOp (OCall []) [EName "AssertionError"])];
     SIf (ECmp (EOp (OCall [APos; APos; APos]) [(EName "Note"); (EConst (VStr (lit "C4"))); (EOp OTuple [(EConst (VInt 1)); (EConst (VInt 2))]); (EConst (VFloat (S754_finite false 5404319552844595 (-54))))]) [(CNe, (EOp (OCall [APos; APos; APos]) [(EName "Note"); (EConst (VStr (lit "C4"))); (EOp OTuple [(EConst (VInt 2)); (EConst (VInt 4))]); (EConst (VFloat (S754_finite false 7205759403792794 (-54))))]))])
       []
       [SRaise (EOp (OCall []) [EName "AssertionError"])]].

(** test_note.test_note_comp (tests/melodia/core/test_note.py 80-84). *)
Definition src_test_note_test_note_comp : fundef :=
  mkFun "test_note.test_note_comp"
    []
    [] false
    [SIf (ECmp (EOp (OCall [APos]) [(EName "Note"); (EConst (VStr (lit "C#4")))]) [(CGe, (EOp (OCall [APos]) [(EName "Note"); (EConst (VStr (lit "C4")))]))])
       []
       [SRaise (EOp (OCall []) [EName "AssertionError"])];
     SIf (ECmp (EOp (OCall [APos]) [(EName "Note"); (EConst (VStr (lit "C#4")))]) [(CGt, (EOp (OCall [APos]) [(EName "Note"); (EConst (VStr (lit "C4")))]))])
       []
       [SRaise (EOp (OCall []) [EName "AssertionError"])];
     SIf (ECmp (EOp (OCall [APos]) [(EName "Note"); (EConst (VStr (lit "C#4")))]) [(CLe, (EOp (OCall [APos]) [(EName "Note"); (EConst (VStr (lit "D4")))]))])
       []
       [SRaise (EOp (OCall []) [EName "AssertionError"])];
     SIf (ECmp (EOp (OCall [APos]) [(EName "Note"); (EConst (VStr (lit "C#4")))]) [(CLt, (EOp (OCall [APos]) [(EName "Note"); (EConst (VStr (lit "D4")))]))])
       []
       [SRaise (EOp (OCall []) [EName "AssertionError"])]].

(** test_track.test_track_basics (tests/melodia/core/test_track.py 19-25). *)
Definition src_test_track_test_track_basics : fundef :=
  mkFun "test_track.test_track_basics"
    []
    [] false
    [SExpr (EOp (OCall []) [(EName "Track")]);
     SExpr (EOp (OCall [APos]) [(EName "Track"); (EOp OTuple [(EConst (VInt 1)); (EConst (VInt 4))])]);
     SExpr (EOp (OCall [APos]) [(EName "Track"); (EOp (OCall [APos; APos]) [(EName "Signature"); (EConst (VInt 1)); (EConst (VInt 4))])])].

(** test_track.test_track_basics_raises1 (tests/melodia/core/test_track.py 19-25). *)
Definition src_test_track_test_track_basics_raises1 : fundef :=
  mkFun "test_track.test_track_basics_raises1"
    []
    [] false
    [SExpr (EOp (OCall []) [(EName "Track")]);
     SExpr (EOp (OCall [APos]) [(EName "Track"); (EOp OTuple [(EConst (VInt 1)); (EConst (VInt 4))])]);
     SExpr (EOp (OCall [APos]) [(EName "Track"); (EOp (OCall [APos; APos]) [(EName "Signature"); (EConst (VInt 1)); (EConst (VInt 4))])]);
     SExpr (EOp (OCall [APos]) [(EName "Track"); (EOp OTuple [(EConst (VInt 1)); (EConst (VInt 6))])])].

(** test_track.test_track_signature (tests/melodia/core/test_track.py 28-31). *)
Definition src_test_track_test_track_signature : fundef :=
  mkFun "test_track.test_track_signature"
    []
    [] false
    [SAssign (TName "t") (EOp (OCall [APos]) [(EName "Track"); (EOp OTuple [(EConst (VInt 3)); (EConst (VInt 8))])]);
     SIf (ECmp (EOp (OAttr "nominator") [(EOp (OAttr "signature") [(EName "t")])]) [(CEq, (EConst (VInt 3)))])
       []
       [SRaise (EOp (OCall []) [EName "AssertionError"])];
     SIf (ECmp (EOp (OAttr "denominator") [(EOp (OAttr "signature") [(EName "t")])]) [(CEq, (EConst (VInt 8)))])
       []
       [SRaise (EOp (OCall []) [EName "AssertionError"])]].

(** test_track.test_track_length (tests/melodia/core/test_track.py 34-45). *)
Definition src_test_track_test_track_length : fundef :=
  mkFun "test_track.test_track_length"
    []
    [] false
    [SIf (ECmp (EOp (OAttr "length") [(EOp (OCall []) [(EName "Track")])]) [(CEq, (EOp (OCall [APos; APos]) [(EName "Signature"); (EConst (VInt 0)); (EConst (VInt 1))]))])
       []
       [SRaise (EOp (OCall []) [EName "AssertionError"])];
     SAssign (TName "t") (EOp (OCall []) [(EName "Track")]);
     SExpr (EOp (OCall [APos]) [(EOp (OAttr "add") [(EName "t")]); (EOp (OCall [APos; APos]) [(EName "Note"); (EConst (VInt 0)); (EOp OTuple [(EConst (VInt 10)); (EConst (VInt 4))])])]);
     SIf (ECmp (EOp (OAttr "length") [(EName "t")]) [(CEq, (EOp (OCall [APos; APos]) [(EName "Signature"); (EConst (VInt 10)); (EConst (VInt 4))]))])
       []
       [SRaise (EOp (OCall []) [EName "AssertionError"])];
     SExpr (EOp (OCall [APos; APos]) [(EOp (OAttr "add") [(EName "t")]); (EOp (OCall [APos; APos]) [(EName "Note"); (EConst (VInt 0)); (EOp OTuple [(EConst (VInt 30)); (EConst (VInt 8))])]); (EOp OTuple [(EConst (VInt 40)); (EConst (VInt 2))])]);
     SIf (ECmp (EOp (OAttr "length") [(EName "t")]) [(CEq, (EOp (OCall [APos; APos]) [(EName "Signature"); (EConst (VInt 190)); (EConst (VInt 8))]))])
       []
       [SRaise (EOp (OCall []) [EName "AssertionError"])];
     SExpr (EOp (OCall [APos]) [(EOp (OAttr "add") [(EName "t")]); (EOp (OCall [APos; APos]) [(EName "Note"); (EConst (VInt 0)); (EOp OTuple [(EConst (VInt 1)); (EConst (VInt 4))])])]);
     SIf (ECmp (EOp (OAttr "length") [(EName "t")]) [(CEq, (EOp (OCall [APos; APos]) [(EName "Signature"); (EConst (VInt 192)); (EConst (VInt 8))]))])
       []
       [SRaise (EOp (OCall []) [EName "AssertionError"])]].

(** test_midi_read.test_reader (tests/melodia/io/test_midi_read.py 9-38). *)
Definition src_test_midi_read_test_reader : fundef :=
  mkFun "test_midi_read.test_reader"
    []
    [] false
    [SAssign (TName "r1") (EOp (OCall [APos]) [(EName "_Reader"); (EConst (VBytes [97; 98; 99; 100; 101; 102]))]);
     SIf (ECmp (EOp (OCall [APos]) [(EName "len"); (EName "r1")]) [(CEq, (EConst (VInt 6)))])
       []
       [SRaise (EOp (OCall []) [EName "AssertionError"])];
     SIf (ECmp (EOp (OCall [APos]) [(EOp (OAttr "read") [(EName "r1")]); (EConst (VInt 2))]) [(CEq, (EConst (VBytes [97; 98])))])
       []
       [SRaise (EOp (OCall []) [EName "AssertionError"])];
     SIf (ECmp (EOp (OCall [APos]) [(EOp (OAttr "read") [(EName "r1")]); (EConst (VInt 3))]) [(CEq, (EConst (VBytes [99; 100; 101])))])
       []
       [SRaise (EOp (OCall []) [EName "AssertionError"])];
     SExpr (EOp (OCall [APos]) [(EOp (OAttr "shift") [(EName "r1")]); (EOp ONeg [(EConst (VInt 2))])]);
     SIf (ECmp (EOp (OCall [APos]) [(EOp (OAttr "read") [(EName "r1")]); (EConst (VInt 3))]) [(CEq, (EConst (VBytes [100; 101; 102])))])
       []
       [SRaise (EOp (OCall []) [EName "AssertionError"])];
     SIf (ECmp (EOp (OCall [APos]) [(EName "len"); (EName "r1")]) [(CEq, (EConst (VInt 6)))])
       []
       [SRaise (EOp (OCall []) [EName "AssertionError"])];
     SIf (ECmp (EOp (OCall [APos]) [(EName "len"); (EName "r1")]) [(CEq, (EConst (VInt 6)))])
       []
       [SRaise (EOp (OCall []) [EName "AssertionError"])];
     SIf (ECmp (EOp (OCall [APos]) [(EOp (OAttr "read") [(EName "r1")]); (EConst (VInt 0))]) [(CEq, (EConst (VBytes [])))])
       []
       [SRaise (EOp (OCall []) [EName "AssertionError"])];
     SExpr (EOp (OCall [APos]) [(EOp (OAttr "shift") [(EName "r1")]); (EOp ONeg [(EConst (VInt 6))])]);
     SIf (ECmp (EOp (OCall [APos]) [(EOp (OAttr "read") [(EName "r1")]); (EConst (VInt 6))]) [(CEq, (EConst (VBytes [97; 98; 99; 100; 101; 102])))])
       []
       [SRaise (EOp (OCall []) [EName "AssertionError"])]].

(** test_midi_read.test_reader_raises1 (tests/melodia/io/test_midi_read.py 9-38). *)
Definition src_test_midi_read_test_reader_raises1 : fundef :=
  mkFun "test_midi_read.test_reader_raises1"
    []
    [] false
    [SAssign (TName "r1") (EOp (OCall [APos]) [(EName "_Reader"); (EConst (VBytes [97; 98; 99; 100; 101; 102]))]);
     SIf (ECmp (EOp (OCall [APos]) [(EName "len"); (EName "r1")]) [(CEq, (EConst (VInt 6)))])
       []
       [SRaise (EOp (OCall []) [EName "AssertionError"])];
     SIf (ECmp (EOp (OCall [APos]) [(EOp (OAttr "read") [(EName "r1")]); (EConst (VInt 2))]) [(CEq, (EConst (VBytes [97; 98])))])
       []
       [SRaise (EOp (OCall []) [EName "AssertionError"])];
     SIf (ECmp (EOp (OCall [APos]) [(EOp (OAttr "read") [(EName "r1")]); (EConst (VInt 3))]) [(CEq, (EConst (VBytes [99; 100; 101])))])
       []
       [SRaise (EOp (OCall []) [EName "AssertionError"])];
     SExpr (EOp (OCall [APos]) [(EOp (OAttr "shift") [(EName "r1")]); (EOp ONeg [(EConst (VInt 2))])]);
     SIf (ECmp (EOp (OCall [APos]) [(EOp (OAttr "read") [(EName "r1")]); (EConst (VInt 3))]) [(CEq, (EConst (VBytes [100; 101; 102])))])
       []
       [SRaise (EOp (OCall []) [EName "AssertionError"])];
     SIf (ECmp (EOp (OCall [APos]) [(EName "len"); (EName "r1")]) [(CEq, (EConst (VInt 6)))])
       []
       [SRaise (EOp (OCall []) [EName "AssertionError"])];
     SExpr (EOp (OCall [APos]) [(EOp (OAttr "read") [(EName "r1")]); (EConst (VInt 1))])].

(** test_midi_read.test_reader_raises2 (tests/melodia/io/test_midi_read.py 9-38). *)
Definition src_test_midi_read_test_reader_raises2 : fundef :=
  mkFun "test_midi_read.test_reader_raises2"
    []
    [] false
    [SAssign (TName "r1") (EOp (OCall [APos]) [(EName "_Reader"); (EConst (VBytes [97; 98; 99; 100; 101; 102]))]);
     SIf (ECmp (EOp (OCall [APos]) [(EName "len"); (EName "r1")]) [(CEq, (EConst (VInt 6)))])
       []
       [SRaise (EOp (OCall []) [EName "AssertionError"])];
     SIf (ECmp (EOp (OCall [APos]) [(EOp (OAttr "read") [(EName "r1")]); (EConst (VInt 2))]) [(CEq, (EConst (VBytes [97; 98])))])
       []
       [SRaise (EOp (OCall []) [EName "AssertionError"])];
     SIf (ECmp (EOp (OCall [APos]) [(EOp (OAttr "read") [(EName "r1")]); (EConst (VInt 3))]) [(CEq, (EConst (VBytes [99; 100; 101])))])
       []
       [SRaise (EOp (OCall []) [EName "AssertionError"])];
     SExpr (EOp (OCall [APos]) [(EOp (OAttr "shift") [(EName "r1")]); (EOp ONeg [(EConst (VInt 2))])]);
     SIf (ECmp (EOp (OCall [APos]) [(EOp (OAttr "read") [(EName "r1")]); (EConst (VInt 3))]) [(CEq, (EConst (VBytes [100; 101; 102])))])
       []
       [SRaise (EOp (OCall []) [EName "AssertionError"])];
     SIf (ECmp (EOp (OCall [APos]) [(EName "len"); (EName "r1")]) [(CEq, (EConst (VInt 6)))])
       []
       [SRaise (EOp (OCall []) [EName "AssertionError"])];
     SExpr (EOp (OCall [APos]) [(EOp (OAttr "read") [(EName "r1")]); (EConst (VInt 10))])].

(** test_midi_read.test_reader_raises3 (tests/melodia/io/test_midi_read.py 9-38). *)
Definition src_test_midi_read_test_reader_raises3 : fundef :=
  mkFun "test_midi_read.test_reader_raises3"
    []
    [] false
    [SAssign (TName "r1") (EOp (OCall [APos]) [(EName "_Reader"); (EConst (VBytes [97; 98; 99; 100; 101; 102]))]);
     SIf (ECmp (EOp (OCall [APos]) [(EName "len"); (EName "r1")]) [(CEq, (EConst (VInt 6)))])
       []
       [SRaise (EOp (OCall []) [EName "AssertionError"])];
     SIf (ECmp (EOp (OCall [APos]) [(EOp (OAttr "read") [(EName "r1")]); (EConst (VInt 2))]) [(CEq, (EConst (VBytes [97; 98])))])
       []
       [SRaise (EOp (OCall []) [EName "AssertionError"])];
     SIf (ECmp (EOp (OCall [APos]) [(EOp (OAttr "read") [(EName "r1")]); (EConst (VInt 3))]) [(CEq, (EConst (VBytes [99; 100; 101])))])
       []
       [SRaise (EOp (OCall []) [EName "AssertionError"])];
     SExpr (EOp (OCall [APos]) [(EOp (OAttr "shift") [(EName "r1")]); (EOp ONeg [(EConst (VInt 2))])]);
     SIf (ECmp (EOp (OCall [APos]) [(EOp (OAttr "read") [(EName "r1")]); (EConst (VInt 3))]) [(CEq, (EConst (VBytes [100; 101; 102])))])
       []
       [SRaise (EOp (OCall []) [EName "AssertionError"])];
     SIf (ECmp (EOp (OCall [APos]) [(EName "len"); (EName "r1")]) [(CEq, (EConst (VInt 6)))])
       []
       [SRaise (EOp (OCall []) [EName "AssertionError"])];
     SExpr (EOp (OCall [APos]) [(EOp (OAttr "read") [(EName "r1")]); (EConst (VInt 1))])].

(** test_midi_read.test_reader_raises4 (tests/melodia/io/test_midi_read.py 9-38). *)
Definition src_test_midi_read_test_reader_raises4 : fundef :=
  mkFun "test_midi_read.test_reader_raises4"
    []
    [] false
    [SAssign (TName "r1") (EOp (OCall [APos]) [(EName "_Reader"); (EConst (VBytes [97; 98; 99; 100; 101; 102]))]);
     SIf (ECmp (EOp (OCall [APos]) [(EName "len"); (EName "r1")]) [(CEq, (EConst (VInt 6)))])
       []
       [SRaise (EOp (OCall []) [EName "AssertionError"])];
     SIf (ECmp (EOp (OCall [APos]) [(EOp (OAttr "read") [(EName "r1")]); (EConst (VInt 2))]) [(CEq, (EConst (VBytes [97; 98])))])
       []
       [SRaise (EOp (OCall []) [EName "AssertionError"])];
     SIf (ECmp (EOp (OCall [APos]) [(EOp (OAttr "read") [(EName "r1")]); (EConst (VInt 3))]) [(CEq, (EConst (VBytes [99; 100; 101])))])
       []
       [SRaise (EOp (OCall []) [EName "AssertionError"])];
     SExpr (EOp (OCall [APos]) [(EOp (OAttr "shift") [(EName "r1")]); (EOp ONeg [(EConst (VInt 2))])]);
     SIf (ECmp (EOp (OCall [APos]) [(EOp (OAttr "read") [(EName "r1")]); (EConst (VInt 3))]) [(CEq, (EConst (VBytes [100; 101; 102])))])
       []
       [SRaise (EOp (OCall []) [EName "AssertionError"])];
     SIf (ECmp (EOp (OCall [APos]) [(EName "len"); (EName "r1")]) [(CEq, (EConst (VInt 6)))])
       []
       [SRaise (EOp (OCall []) [EName "AssertionError"])];
     SIf (ECmp (EOp (OCall [APos]) [(EName "len"); (EName "r1")]) [(CEq, (EConst (VInt 6)))])
       []
       [SRaise (EOp (OCall []) [EName "AssertionError"])];
     SIf (ECmp (EOp (OCall [APos]) [(EOp (OAttr "read") [(EName "r1")]); (EConst (VInt 0))]) [(CEq, (EConst (VBytes [])))])
       []
       [SRaise (EOp (OCall []) [EName "AssertionError"])];
     SExpr (EOp (OCall [APos]) [(EOp (OAttr "shift") [(EName "r1")]); (EOp ONeg [(EConst (VInt 6))])]);
     SIf (ECmp (EOp (OCall [APos]) [(EOp (OAttr "read") [(EName "r1")]); (EConst (VInt 6))]) [(CEq, (EConst (VBytes [97; 98; 99; 100; 101; 102])))])
       []
       [SRaise (EOp (OCall []) [EName "AssertionError"])];
     SExpr (EOp (OCall [APos]) [(EOp (OAttr "read") [(EName "r1")]); (EConst (VInt 1))])].

(** test_midi_read.test_midi_parse_header (tests/melodia/io/test_midi_read.py 55-59). *)
Definition src_test_midi_read_test_midi_parse_header : fundef :=
  mkFun "test_midi_read.test_midi_parse_header"
    []
    [] false
    [SAssign (TName "parse_header") (EOp (OAttr "_parse_header") [(EName "MIDIReader")]);
     SAssign (TName "data") (EConst (VBytes [0; 1; 0; 2; 0; 3]));
     SIf (ECmp (EOp (OCall [APos]) [(EName "parse_header"); (EOp (OCall [APos]) [(EName "_Reader"); (EName "data")])]) [(CEq, (EOp OTuple [(EConst (VInt 1)); (EConst (VInt 2)); (EConst (VInt 3))]))])
       []
       [SRaise (EOp (OCall []) [EName "AssertionError"])]].

(** test_midi_read.test_midi_time_to_signature (tests/melodia/io/test_midi_read.py 62-86). *)
Definition src_test_midi_read_test_midi_time_to_signature : fundef :=
  mkFun "test_midi_read.test_midi_time_to_signature"
    []
    [] false
    [SAssign (TName "time_to_signature") (EOp (OAttr "_time_to_signature") [(EName "MIDIReader")]);
     SIf (ECmp (EOp (OCall [APos; APos]) [(EName "time_to_signature"); (EConst (VInt 1)); (EConst (VInt 1))]) [(CEq, (EOp (OCall [APos; APos]) [(EName "Signature"); (EConst (VInt 1)); (EConst (VInt 4))]))])
       []
       [SRaise (EOp (OCall []) [EName "AssertionError"])];
     SIf (ECmp (EOp (OCall [APos; APos]) [(EName "time_to_signature"); (EConst (VInt 2)); (EConst (VInt 1))]) [(CEq, (EOp (OCall [APos; APos]) [(EName "Signature"); (EConst (VInt 2)); (EConst (VInt 4))]))])
       []
       [SRaise (EOp (OCall []) [EName "AssertionError"])];
     SIf (ECmp (EOp (OCall [APos; APos]) [(EName "time_to_signature"); (EConst (VInt 3)); (EConst (VInt 1))]) [(CEq, (EOp (OCall [APos; APos]) [(EName "Signature"); (EConst (VInt 3)); (EConst (VInt 4))]))])
       []
       [SRaise (EOp (OCall []) [EName "AssertionError"])];
     SIf (ECmp (EOp (OCall [APos; APos]) [(EName "time_to_signature"); (EConst (VInt 4)); (EConst (VInt 1))]) [(CEq, (EOp (OCall [APos; APos]) [(EName "Signature"); (EConst (VInt 4)); (EConst (VInt 4))]))])
       []
       [SRaise (EOp (OCall []) [EName "AssertionError"])];
     SIf (ECmp (EOp (OCall [APos; APos]) [(EName "time_to_signature"); (EConst (VInt 5)); (EConst (VInt 1))]) [(CEq, (EOp (OCall [APos; APos]) [(EName "Signature"); (EConst (VInt 5)); (EConst (VInt 4))]))])
       []
       [SRaise (EOp (OCall []) [EName "AssertionError"])];
     SIf (ECmp (EOp (OCall [APos; APos]) [(EName "time_to_signature"); (EConst (VInt 6)); (EConst (VInt 1))]) [(CEq, (EOp (OCall [APos; APos]) [(EName "Signature"); (EConst (VInt 6)); (EConst (VInt 4))]))])
       []
       [SRaise (EOp (OCall []) [EName "AssertionError"])];
     SIf (ECmp (EOp (OCall [APos; APos]) [(EName "time_to_signature"); (EConst (VInt 7)); (EConst (VInt 1))]) [(CEq, (EOp (OCall [APos; APos]) [(EName "Signature"); (EConst (VInt 7)); (EConst (VInt 4))]))])
       []
       [SRaise (EOp (OCall []) [EName "AssertionError"])];
     SIf (ECmp (EOp (OCall [APos; APos]) [(EName "time_to_signature"); (EConst (VInt 8)); (EConst (VInt 1))]) [(CEq, (EOp (OCall [APos; APos]) [(EName "Signature"); (EConst (VInt 8)); (EConst (VInt 4))]))])
       []
       [SRaise (EOp (OCall []) [EName "AssertionError"])];
     SIf (ECmp (EOp (OCall [APos; APos]) [(EName "time_to_signature"); (EConst (VInt 5)); (EConst (VInt 10))]) [(CEq, (EOp (OCall [APos; APos]) [(EName "Signature"); (EConst (VInt 1)); (EConst (VInt 8))]))])
       []
       [SRaise (EOp (OCall []) [EName "AssertionError"])];
     SIf (ECmp (EOp (OCall [APos; APos]) [(EName "time_to_signature"); (EConst (VInt 10)); (EConst (VInt 10))]) [(CEq, (EOp (OCall [APos; APos]) [(EName "Signature"); (EConst (VInt 1)); (EConst (VInt 4))]))])
       []
       [SRaise (EOp (OCall []) [EName "AssertionError"])];
     SIf (ECmp (EOp (OCall [APos; APos]) [(EName "time_to_signature"); (EConst (VInt 100)); (EConst (VInt 10))]) [(CEq, (EOp (OCall [APos; APos]) [(EName "Signature"); (EConst (VInt 10)); (EConst (VInt 4))]))])
       []
       [SRaise (EOp (OCall []) [EName "AssertionError"])];
     SIf (ECmp (EOp (OCall [APos; APos]) [(EName "time_to_signature"); (EConst (VInt 1000)); (EConst (VInt 10))]) [(CEq, (EOp (OCall [APos; APos]) [(EName "Signature"); (EConst (VInt 100)); (EConst (VInt 4))]))])
       []
       [SRaise (EOp (OCall []) [EName "AssertionError"])];
     SIf (ECmp (EOp (OCall [APos; APos]) [(EName "time_to_signature"); (EConst (VInt 500)); (EConst (VInt 10))]) [(CEq, (EOp (OCall [APos; APos]) [(EName "Signature"); (EConst (VInt 50)); (EConst (VInt 4))]))])
       []
       [SRaise (EOp (OCall []) [EName "AssertionError"])];
     SIf (ECmp (EOp (OCall [APos; APos]) [(EName "time_to_signature"); (EConst (VInt 3)); (EConst (VInt 96))]) [(CEq, (EOp (OCall [APos; APos]) [(EName "Signature"); (EConst (VInt 1)); (EConst (VInt 128))]))])
       []
       [SRaise (EOp (OCall []) [EName "AssertionError"])]].

(** test_midi_read.test_midi_time_to_signature_raises1 (tests/melodia/io/test_midi_read.py 62-86). *)
Definition src_test_midi_read_test_midi_time_to_signature_raises1 : fundef :=
  mkFun "test_midi_read.test_midi_time_to_signature_raises1"
    []
    [] false
    [SAssign (TName "time_to_signature") (EOp (OAttr "_time_to_signature") [(EName "MIDIReader")]);
     SExpr (EOp (OCall [APos; APos]) [(EName "time_to_signature"); (EConst (VInt 0)); (EConst (VInt 0))])].

(** test_midi_read.test_midi_time_to_signature_raises2 (tests/melodia/io/test_midi_read.py 62-86). *)
Definition src_test_midi_read_test_midi_time_to_signature_raises2 : fundef :=
  mkFun "test_midi_read.test_midi_time_to_signature_raises2"
    []
    [] false
    [SAssign (TName "time_to_signature") (EOp (OAttr "_time_to_signature") [(EName "MIDIReader")]);
     SExpr (EOp (OCall [APos; APos]) [(EName "time_to_signature"); (EConst (VInt 0)); (EOp ONeg [(EConst (VInt 10))])])].

(** test_midi_read.test_midi_pitch_to_tone (tests/melodia/io/test_midi_read.py 89-94). *)
Definition src_test_midi_read_test_midi_pitch_to_tone : fundef :=
  mkFun "test_midi_read.test_midi_pitch_to_tone"
    []
    [] false
    [SAssign (TName "midi") (EOp (OCall [AKey "middle_c"]) [(EName "MIDIReader"); (EConst (VStr (lit "C3")))]);
     SIf (ECmp (EOp (OCall [APos]) [(EOp (OAttr "_pitch_to_tone") [(EName "midi")]); (EConst (VInt 60))]) [(CEq, (EOp (OCall [APos]) [(EOp (OAttr "from_notation") [(EName "Tone")]); (EConst (VStr (lit "C3")))]))])
       []
       [SRaise (EOp (OCall []) [EName "AssertionError"])];
     SIf (ECmp (EOp (OCall [APos]) [(EOp (OAttr "_pitch_to_tone") [(EName "midi")]); (EConst (VInt 66))]) [(CEq, (EOp (OCall [APos]) [(EOp (OAttr "from_notation") [(EName "Tone")]); (EConst (VStr (lit "F#3")))]))])
       []
       [SRaise (EOp (OCall []) [EName "AssertionError"])];
     SIf (ECmp (EOp (OCall [APos]) [(EOp (OAttr "_pitch_to_tone") [(EName "midi")]); (EConst (VInt 59))]) [(CEq, (EOp (OCall [APos]) [(EOp (OAttr "from_notation") [(EName "Tone")]); (EConst (VStr (lit "B2")))]))])
       []
       [SRaise (EOp (OCall []) [EName "AssertionError"])];
     SIf (ECmp (EOp (OCall [APos]) [(EOp (OAttr "_pitch_to_tone") [(EName "midi")]); (EConst (VInt 83))]) [(CEq, (EOp (OCall [APos]) [(EOp (OAttr "from_notation") [(EName "Tone")]); (EConst (VStr (lit "B4")))]))])
       []
       [SRaise (EOp (OCall []) [EName "AssertionError"])]].

(** test_midi_read.test_midi_read_var_len (tests/melodia/io/test_midi_read.py 97-109). *)
Definition src_test_midi_read_test_midi_read_var_len : fundef :=
  mkFun "test_midi_read.test_midi_read_var_len"
    []
    [] false
    [SAssign (TName "read_var_len") (EOp (OAttr "_read_var_len") [(EName "MIDIReader")]);
     SFor (TTuple [(TName "data"); (TName "value")]) (EOp OList [(EOp OTuple [(EConst (VBytes [0])); (EConst (VInt 0))]); (EOp OTuple [(EConst (VBytes [127])); (EConst (VInt 127))]); (EOp OTuple [(EConst (VBytes [129; 0])); (EConst (VInt 128))]); (EOp OTuple [(EConst (VBytes [192; 128; 0])); (EConst (VInt 1048576))]); (EOp OTuple [(EConst (VBytes [255; 255; 127])); (EConst (VInt 2097151))]); (EOp OTuple [(EConst (VBytes [129; 128; 128; 0])); (EConst (VInt 2097152))]); (EOp OTuple [(EConst (VBytes [255; 255; 255; 127])); (EConst (VInt 268435455))])])
       [SIf (ECmp (EOp (OCall [APos]) [(EName "read_var_len"); (EOp (OCall [APos]) [(EName "_Reader"); (EName "data")])]) [(CEq, (EName "value"))])
          []
          [SRaise (EOp (OCall []) [EName "AssertionError"])]]].

(** test_midi_write.test_midi_basics (tests/melodia/io/test_midi_write.py 7-21). *)
Definition src_test_midi_write_test_midi_basics : fundef :=
  mkFun "test_midi_write.test_midi_basics"
    []
    [] false
    [].

(** test_midi_write.test_midi_basics_raises1 (tests/melodia/io/test_midi_write.py 7-21). *)
Definition src_test_midi_write_test_midi_basics_raises1 : fundef :=
  mkFun "test_midi_write.test_midi_basics_raises1"
    []
    [] false
    [SExpr (EOp (OCall [AKey "pulses_per_quarter"]) [(EName "MIDIWriter"); (EConst (VInt 0))])].

(** test_midi_write.test_midi_basics_raises2 (tests/melodia/io/test_midi_write.py 7-21). *)
Definition src_test_midi_write_test_midi_basics_raises2 : fundef :=
  mkFun "test_midi_write.test_midi_basics_raises2"
    []
    [] false
    [SExpr (EOp (OCall [AKey "pulses_per_quarter"]) [(EName "MIDIWriter"); (EOp ONeg [(EConst (VInt 10))])])].

(** test_midi_write.test_midi_basics_raises3 (tests/melodia/io/test_midi_write.py 7-21). *)
Definition src_test_midi_write_test_midi_basics_raises3 : fundef :=
  mkFun "test_midi_write.test_midi_basics_raises3"
    []
    [] false
    [SExpr (EOp (OCall [AKey "pulses_per_quarter"]) [(EName "MIDIWriter"); (EConst (VInt 32768))])].

(** test_midi_write.test_midi_basics_raises4 (tests/melodia/io/test_midi_write.py 7-21). *)
Definition src_test_midi_write_test_midi_basics_raises4 : fundef :=
  mkFun "test_midi_write.test_midi_basics_raises4"
    []
    [] false
    [SExpr (EOp (OCall [AKey "channel"]) [(EName "MIDIWriter"); (EOp ONeg [(EConst (VInt 1))])])].

(** test_midi_write.test_midi_basics_raises5 (tests/melodia/io/test_midi_write.py 7-21). *)
Definition src_test_midi_write_test_midi_basics_raises5 : fundef :=
  mkFun "test_midi_write.test_midi_basics_raises5"
    []
    [] false
    [SExpr (EOp (OCall [AKey "channel"]) [(EName "MIDIWriter"); (EConst (VInt 16))])].

(** test_midi_write.test_midi_signature_to_pulses (tests/melodia/io/test_midi_write.py 24-52). *)
Definition src_test_midi_write_test_midi_signature_to_pulses : fundef :=
  mkFun "test_midi_write.test_midi_signature_to_pulses"
    []
    [] false
    [SIf (ECmp (EOp (OCall [APos]) [(EOp (OAttr "_signature_to_pulses") [(EOp (OCall [AKey "pulses_per_quarter"]) [(EName "MIDIWriter"); (EConst (VInt 1))])]); (EOp (OCall [APos; APos]) [(EName "Signature"); (EConst (VInt 0)); (EConst (VInt 1))])]) [(CEq, (EConst (VInt 0)))])
       []
       [SRaise (EOp (OCall []) [EName "AssertionError"])];
     SIf (ECmp (EOp (OCall [APos]) [(EOp (OAttr "_signature_to_pulses") [(EOp (OCall [AKey "pulses_per_quarter"]) [(EName "MIDIWriter"); (EConst (VInt 1))])]); (EOp (OCall [APos; APos]) [(EName "Signature"); (EConst (VInt 1)); (EConst (VInt 1))])]) [(CEq, (EConst (VInt 4)))])
       []
       [SRaise (EOp (OCall []) [EName "AssertionError"])];
     SIf (ECmp (EOp (OCall [APos]) [(EOp (OAttr "_signature_to_pulses") [(EOp (OCall [AKey "pulses_per_quarter"]) [(EName "MIDIWriter"); (EConst (VInt 1))])]); (EOp (OCall [APos; APos]) [(EName "Signature"); (EConst (VInt 1)); (EConst (VInt 2))])]) [(CEq, (EConst (VInt 2)))])
       []
       [SRaise (EOp (OCall []) [EName "AssertionError"])];
     SIf (ECmp (EOp (OCall [APos]) [(EOp (OAttr "_signature_to_pulses") [(EOp (OCall [AKey "pulses_per_quarter"]) [(EName "MIDIWriter"); (EConst (VInt 1))])]); (EOp (OCall [APos; APos]) [(EName "Signature"); (EConst (VInt 1)); (EConst (VInt 4))])]) [(CEq, (EConst (VInt 1)))])
       []
       [SRaise (EOp (OCall []) [EName "AssertionError"])];
     SIf (ECmp (EOp (OCall [APos]) [(EOp (OAttr "_signature_to_pulses") [(EOp (OCall [AKey "pulses_per_quarter"]) [(EName "MIDIWriter"); (EConst (VInt 1))])]); (EOp (OCall [APos; APos]) [(EName "Signature"); (EConst (VInt 1)); (EConst (VInt 8))])]) [(CEq, (EConst (VInt 0)))])
       []
       [SRaise (EOp (OCall []) [EName "AssertionError"])];
     SIf (ECmp (EOp (OCall [APos]) [(EOp (OAttr "_signature_to_pulses") [(EOp (OCall [AKey "pulses_per_quarter"]) [(EName "MIDIWriter"); (EConst (VInt 1))])]); (EOp (OCall [APos; APos]) [(EName "Signature"); (EConst (VInt 1)); (EConst (VInt 16))])]) [(CEq, (EConst (VInt 0)))])
       []
       [SRaise (EOp (OCall []) [EName "AssertionError"])];
     SIf (ECmp (EOp (OCall [APos]) [(EOp (OAttr "_signature_to_pulses") [(EOp (OCall [AKey "pulses_per_quarter"]) [(EName "MIDIWriter"); (EConst (VInt 1))])]); (EOp (OCall [APos; APos]) [(EName "Signature"); (EConst (VInt 0)); (EConst (VInt 16))])]) [(CEq, (EConst (VInt 0)))])
       []
       [SRaise (EOp (OCall []) [EName "AssertionError"])];
     SIf (ECmp (EOp (OCall [APos]) [(EOp (OAttr "_signature_to_pulses") [(EOp (OCall [AKey "pulses_per_quarter"]) [(EName "MIDIWriter"); (EConst (VInt 1))])]); (EOp (OCall [APos; APos]) [(EName "Signature"); (EConst (VInt 1)); (EConst (VInt 16))])]) [(CEq, (EConst (VInt 0)))])
       []
       [SRaise (EOp (OCall []) [EName "AssertionError"])];
     SIf (ECmp (EOp (OCall [APos]) [(EOp (OAttr "_signature_to_pulses") [(EOp (OCall [AKey "pulses_per_quarter"]) [(EName "MIDIWriter"); (EConst (VInt 1))])]); (EOp (OCall [APos; APos]) [(EName "Signature"); (EConst (VInt 2)); (EConst (VInt 16))])]) [(CEq, (EConst (VInt 0)))])
       []
       [SRaise (EOp (OCall []) [EName "AssertionError"])];
     SIf (ECmp (EOp (OCall [APos]) [(EOp (OAttr "_signature_to_pulses") [(EOp (OCall [AKey "pulses_per_quarter"]) [(EName "MIDIWriter"); (EConst (VInt 1))])]); (EOp (OCall [APos; APos]) [(EName "Signature"); (EConst (VInt 3)); (EConst (VInt 16))])]) [(CEq, (EConst (VInt 0)))])
       []
       [SRaise (EOp (OCall []) [EName "AssertionError"])];
     SIf (ECmp (EOp (OCall [APos]) [(EOp (OAttr "_signature_to_pulses") [(EOp (OCall [AKey "pulses_per_quarter"]) [(EName "MIDIWriter"); (EConst (VInt 1))])]); (EOp (OCall [APos; APos]) [(EName "Signature"); (EConst (VInt 4)); (EConst (VInt 16))])]) [(CEq, (EConst (VInt 1)))])
       []
       [SRaise (EOp (OCall []) [EName "AssertionError"])];
     SIf (ECmp (EOp (OCall [APos]) [(EOp (OAttr "_signature_to_pulses") [(EOp (OCall [AKey "pulses_per_quarter"]) [(EName "MIDIWriter"); (EConst (VInt 1))])]); (EOp (OCall [APos; APos]) [(EName "Signature"); (EConst (VInt 5)); (EConst (VInt 16))])]) [(CEq, (EConst (VInt 1)))])
       []
       [SRaise (EOp (OCall []) [EName "AssertionError"])];
     SIf (ECmp (EOp (OCall [APos]) [(EOp (OAttr "_signature_to_pulses") [(EOp (OCall [AKey "pulses_per_quarter"]) [(EName "MIDIWriter"); (EConst (VInt 1))])]); (EOp (OCall [APos; APos]) [(EName "Signature"); (EConst (VInt 6)); (EConst (VInt 16))])]) [(CEq, (EConst (VInt 1)))])
       []
       [SRaise (EOp (OCall []) [EName "AssertionError"])];
     SIf (ECmp (EOp (OCall [APos]) [(EOp (OAttr "_signature_to_pulses") [(EOp (OCall [AKey "pulses_per_quarter"]) [(EName "MIDIWriter"); (EConst (VInt 1))])]); (EOp (OCall [APos; APos]) [(EName "Signature"); (EConst (VInt 7)); (EConst (VInt 16))])]) [(CEq, (EConst (VInt 1)))])
       []
       [SRaise (EOp (OCall []) [EName "AssertionError"])];
     SIf (ECmp (EOp (OCall [APos]) [(EOp (OAttr "_signature_to_pulses") [(EOp (OCall [AKey "pulses_per_quarter"]) [(EName "MIDIWriter"); (EConst (VInt 1))])]); (EOp (OCall [APos; APos]) [(EName "Signature"); (EConst (VInt 8)); (EConst (VInt 16))])]) [(CEq, (EConst (VInt 2)))])
       []
       [SRaise (EOp (OCall []) [EName "AssertionError"])];
     SIf (ECmp (EOp (OCall [APos]) [(EOp (OAttr "_signature_to_pulses") [(EOp (OCall [AKey "pulses_per_quarter"]) [(EName "MIDIWriter"); (EConst (VInt 1))])]); (EOp (OCall [APos; APos]) [(EName "Signature"); (EConst (VInt 9)); (EConst (VInt 16))])]) [(CEq, (EConst (VInt 2)))])
       []
       [SRaise (EOp (OCall []) [EName "AssertionError"])];
     SIf (ECmp (EOp (OCall [APos]) [(EOp (OAttr "_signature_to_pulses") [(EOp (OCall [AKey "pulses_per_quarter"]) [(EName "MIDIWriter"); (EConst (VInt 1))])]); (EOp (OCall [APos; APos]) [(EName "Signature"); (EConst (VInt 10)); (EConst (VInt 16))])]) [(CEq, (EConst (VInt 2)))])
       []
       [SRaise (EOp (OCall []) [EName "AssertionError"])];
     SIf (ECmp (EOp (OCall [APos]) [(EOp (OAttr "_signature_to_pulses") [(EOp (OCall [AKey "pulses_per_quarter"]) [(EName "MIDIWriter"); (EConst (VInt 1))])]); (EOp (OCall [APos; APos]) [(EName "Signature"); (EConst (VInt 11)); (EConst (VInt 16))])]) [(CEq, (EConst (VInt 2)))])
       []
       [SRaise (EOp (OCall []) [EName "AssertionError"])];
     SIf (ECmp (EOp (OCall [APos]) [(EOp (OAttr "_signature_to_pulses") [(EOp (OCall [AKey "pulses_per_quarter"]) [(EName "MIDIWriter"); (EConst (VInt 1))])]); (EOp (OCall [APos; APos]) [(EName "Signature"); (EConst (VInt 12)); (EConst (VInt 16))])]) [(CEq, (EConst (VInt 3)))])
       []
       [SRaise (EOp (OCall []) [EName "AssertionError"])];
     SIf (ECmp (EOp (OCall [APos]) [(EOp (OAttr "_signature_to_pulses") [(EOp (OCall [AKey "pulses_per_quarter"]) [(EName "MIDIWriter"); (EConst (VInt 1))])]); (EOp (OCall [APos; APos]) [(EName "Signature"); (EConst (VInt 13)); (EConst (VInt 16))])]) [(CEq, (EConst (VInt 3)))])
       []
       [SRaise (EOp (OCall []) [EName "AssertionError"])];
     SIf (ECmp (EOp (OCall [APos]) [(EOp (OAttr "_signature_to_pulses") [(EOp (OCall [AKey "pulses_per_quarter"]) [(EName "MIDIWriter"); (EConst (VInt 1))])]); (EOp (OCall [APos; APos]) [(EName "Signature"); (EConst (VInt 14)); (EConst (VInt 16))])]) [(CEq, (EConst (VInt 3)))])
       []
       [SRaise (EOp (OCall []) [EName "AssertionError"])];
     SIf (ECmp (EOp (OCall [APos]) [(EOp (OAttr "_signature_to_pulses") [(EOp (OCall [AKey "pulses_per_quarter"]) [(EName "MIDIWriter"); (EConst (VInt 1))])]); (EOp (OCall [APos; APos]) [(EName "Signature"); (EConst (VInt 15)); (EConst (VInt 16))])]) [(CEq, (EConst (VInt 3)))])
       []
       [SRaise (EOp (OCall []) [EName "AssertionError"])];
     SIf (ECmp (EOp (OCall [APos]) [(EOp (OAttr "_signature_to_pulses") [(EOp (OCall [AKey "pulses_per_quarter"]) [(EName "MIDIWriter"); (EConst (VInt 1))])]); (EOp (OCall [APos; APos]) [(EName "Signature"); (EConst (VInt 16)); (EConst (VInt 16))])]) [(CEq, (EConst (VInt 4)))])
       []
       [SRaise (EOp (OCall []) [EName "AssertionError"])];
     SIf (ECmp (EOp (OCall [APos]) [(EOp (OAttr "_signature_to_pulses") [(EOp (OCall [AKey "pulses_per_quarter"]) [(EName "MIDIWriter"); (EConst (VInt 32))])]); (EOp (OCall [APos; APos]) [(EName "Signature"); (EConst (VInt 1)); (EConst (VInt 8))])]) [(CEq, (EConst (VInt 16)))])
       []
       [SRaise (EOp (OCall []) [EName "AssertionError"])];
     SIf (ECmp (EOp (OCall [APos]) [(EOp (OAttr "_signature_to_pulses") [(EOp (OCall [AKey "pulses_per_quarter"]) [(EName "MIDIWriter"); (EConst (VInt 1000))])]); (EOp (OCall [APos; APos]) [(EName "Signature"); (EConst (VInt 1)); (EConst (VInt 2))])]) [(CEq, (EConst (VInt 2000)))])
       []
       [SRaise (EOp (OCall []) [EName "AssertionError"])]].

(** test_midi_write.test_midi_format_note_on (tests/melodia/io/test_midi_write.py 55-86). *)
Definition src_test_midi_write_test_midi_format_note_on : fundef :=
  mkFun "test_midi_write.test_midi_format_note_on"
    []
    [] false
    [SAssign (TName "midi_c4") (EOp (OCall [AKey "middle_c"; AKey "channel"]) [(EName "MIDIWriter"); (EConst (VStr (lit "C4"))); (EConst (VInt 3))]);
     SAssign (TName "midi_c3") (EOp (OCall [AKey "middle_c"; AKey "channel"]) [(EName "MIDIWriter"); (EConst (VStr (lit "C3"))); (EConst (VInt 3))]);
     SExpr (EOp (OCall [APos]) [(EOp (OAttr "_format_note_on") [(EName "midi_c3")]); (EOp (OCall [APos]) [(EName "Note"); (EConst (VStr (lit "C-2")))])]);
     SIf (ECmp (EOp (OCall [APos]) [(EOp (OAttr "_format_note_on") [(EName "midi_c3")]); (EOp (OCall [APos; AKey "velocity"]) [(EName "Note"); (EConst (VStr (lit "C3"))); (EConst (VFloat (S754_finite false 4503599627370496 (-52))))])]) [(CEq, (EConst (VBytes [147; 60; 127])))])
       []
       [SRaise (EOp (OCall []) [EName "AssertionError"])];
     SIf (ECmp (EOp (OCall [APos]) [(EOp (OAttr "_format_note_on") [(EName "midi_c3")]); (EOp (OCall [APos; AKey "velocity"]) [(EName "Note"); (EConst (VStr (lit "C4"))); (EConst (VFloat (S754_zero false)))])]) [(CEq, (EConst (VBytes [147; 72; 0])))])
       []
       [SRaise (EOp (OCall []) [EName "AssertionError"])];
     SIf (ECmp (EOp (OCall [APos]) [(EOp (OAttr "_format_note_on") [(EName "midi_c4")]); (EOp (OCall [APos; AKey "velocity"]) [(EName "Note"); (EConst (VStr (lit "C4"))); (EConst (VFloat (S754_zero false)))])]) [(CEq, (EConst (VBytes [147; 60; 0])))])
       []
       [SRaise (EOp (OCall []) [EName "AssertionError"])];
     SAssign (TName "n") (EOp (OCall [APos]) [(EName "Note"); (EConst (VStr (lit "C4")))])].

(** test_midi_write.test_midi_format_note_on_raises1 (tests/melodia/io/test_midi_write.py 55-86). *)
Definition src_test_midi_write_test_midi_format_note_on_raises1 : fundef :=
  mkFun "test_midi_write.test_midi_format_note_on_raises1"
    []
    [] false
    [SAssign (TName "midi_c4") (EOp (OCall [AKey "middle_c"; AKey "channel"]) [(EName "MIDIWriter"); (EConst (VStr (lit "C4"))); (EConst (VInt 3))]);
     SExpr (EOp (OCall [APos]) [(EOp (OAttr "_format_note_on") [(EName "midi_c4")]); (EOp (OCall [APos]) [(EName "Note"); (EConst (VStr (lit "C-2")))])])].

(** test_midi_write.test_midi_format_note_on_raises2 (tests/melodia/io/test_midi_write.py 55-86). *)
Definition src_test_midi_write_test_midi_format_note_on_raises2 : fundef :=
  mkFun "test_midi_write.test_midi_format_note_on_raises2"
    []
    [] false
    [SAssign (TName "midi_c4") (EOp (OCall [AKey "middle_c"; AKey "channel"]) [(EName "MIDIWriter"); (EConst (VStr (lit "C4"))); (EConst (VInt 3))]);
     SExpr (EOp (OCall [APos]) [(EOp (OAttr "_format_note_on") [(EName "midi_c4")]); (EOp (OCall [APos]) [(EName "Note"); (EConst (VStr (lit "C10")))])])].

(** test_midi_write.test_midi_format_note_on_raises3 (tests/melodia/io/test_midi_write.py 55-86). *)
Definition src_test_midi_write_test_midi_format_note_on_raises3 : fundef :=
  mkFun "test_midi_write.test_midi_format_note_on_raises3"
    []
    [] false
    [SAssign (TName "midi_c4") (EOp (OCall [AKey "middle_c"; AKey "channel"]) [(EName "MIDIWriter"); (EConst (VStr (lit "C4"))); (EConst (VInt 3))]);
     SExpr (EOp (OCall [APos]) [(EOp (OAttr "_format_note_on") [(EName "midi_c4")]); (EOp (OCall [APos]) [(EName "Note"); (EConst (VStr (lit "D11")))])])].

(** test_midi_write.test_midi_format_note_on_raises4 (tests/melodia/io/test_midi_write.py 55-86). *)
Definition src_test_midi_write_test_midi_format_note_on_raises4 : fundef :=
  mkFun "test_midi_write.test_midi_format_note_on_raises4"
    []
    [] false
    [SAssign (TName "midi_c4") (EOp (OCall [AKey "middle_c"; AKey "channel"]) [(EName "MIDIWriter"); (EConst (VStr (lit "C4"))); (EConst (VInt 3))]);
     SAssign (TName "midi_c3") (EOp (OCall [AKey "middle_c"; AKey "channel"]) [(EName "MIDIWriter"); (EConst (VStr (lit "C3"))); (EConst (VInt 3))]);
     SExpr (EOp (OCall [APos]) [(EOp (OAttr "_format_note_on") [(EName "midi_c3")]); (EOp (OCall [APos]) [(EName "Note"); (EConst (VStr (lit "C-2")))])]);
     SExpr (EOp (OCall [APos]) [(EOp (OAttr "_format_note_on") [(EName "midi_c3")]); (EOp (OCall [APos]) [(EName "Note"); (EConst (VStr (lit "C-3")))])])].

(** test_midi_write.test_midi_format_note_off (tests/melodia/io/test_midi_write.py 89-120). *)
Definition src_test_midi_write_test_midi_format_note_off : fundef :=
  mkFun "test_midi_write.test_midi_format_note_off"
    []
    [] false
    [SAssign (TName "midi_c4") (EOp (OCall [AKey "middle_c"; AKey "channel"]) [(EName "MIDIWriter"); (EConst (VStr (lit "C4"))); (EConst (VInt 3))]);
     SAssign (TName "midi_c3") (EOp (OCall [AKey "middle_c"; AKey "channel"]) [(EName "MIDIWriter"); (EConst (VStr (lit "C3"))); (EConst (VInt 3))]);
     SExpr (EOp (OCall [APos]) [(EOp (OAttr "_format_note_off") [(EName "midi_c3")]); (EOp (OCall [APos]) [(EName "Note"); (EConst (VStr (lit "C-2")))])]);
     SIf (ECmp (EOp (OCall [APos]) [(EOp (OAttr "_format_note_off") [(EName "midi_c3")]); (EOp (OCall [APos; AKey "velocity"]) [(EName "Note"); (EConst (VStr (lit "C3"))); (EConst (VFloat (S754_finite false 4503599627370496 (-52))))])]) [(CEq, (EConst (VBytes [131; 60; 64])))])
       []
       [SRaise (EOp (OCall []) [EName "AssertionError"])];
     SIf (ECmp (EOp (OCall [APos]) [(EOp (OAttr "_format_note_off") [(EName "midi_c3")]); (EOp (OCall [APos; AKey "velocity"]) [(EName "Note"); (EConst (VStr (lit "C4"))); (EConst (VFloat (S754_zero false)))])]) [(CEq, (EConst (VBytes [131; 72; 64])))])
       []
       [SRaise (EOp (OCall []) [EName "AssertionError"])];
     SIf (ECmp (EOp (OCall [APos]) [(EOp (OAttr "_format_note_off") [(EName "midi_c4")]); (EOp (OCall [APos; AKey "velocity"]) [(EName "Note"); (EConst (VStr (lit "C4"))); (EConst (VFloat (S754_zero false)))])]) [(CEq, (EConst (VBytes [131; 60; 64])))])
       []
       [SRaise (EOp (OCall []) [EName "AssertionError"])];
     SAssign (TName "n") (EOp (OCall [APos]) [(EName "Note"); (EConst (VStr (lit "C4")))])].

(** test_midi_write.test_midi_format_note_off_raises1 (tests/melodia/io/test_midi_write.py 89-120). *)
Definition src_test_midi_write_test_midi_format_note_off_raises1 : fundef :=
  mkFun "test_midi_write.test_midi_format_note_off_raises1"
    []
    [] false
    [SAssign (TName "midi_c4") (EOp (OCall [AKey "middle_c"; AKey "channel"]) [(EName "MIDIWriter"); (EConst (VStr (lit "C4"))); (EConst (VInt 3))]);
     SExpr (EOp (OCall [APos]) [(EOp (OAttr "_format_note_off") [(EName "midi_c4")]); (EOp (OCall [APos]) [(EName "Note"); (EConst (VStr (lit "C-2")))])])].

(** test_midi_write.test_midi_format_note_off_raises2 (tests/melodia/io/test_midi_write.py 89-120). *)
Definition src_test_midi_write_test_midi_format_note_off_raises2 : fundef :=
  mkFun "test_midi_write.test_midi_format_note_off_raises2"
    []
    [] false
    [SAssign (TName "midi_c4") (EOp (OCall [AKey "middle_c"; AKey "channel"]) [(EName "MIDIWriter"); (EConst (VStr (lit "C4"))); (EConst (VInt 3))]);
     SExpr (EOp (OCall [APos]) [(EOp (OAttr "_format_note_off") [(EName "midi_c4")]); (EOp (OCall [APos]) [(EName "Note"); (EConst (VStr (lit "C10")))])])].

(** test_midi_write.test_midi_format_note_off_raises3 (tests/melodia/io/test_midi_write.py 89-120). *)
Definition src_test_midi_write_test_midi_format_note_off_raises3 : fundef :=
  mkFun "test_midi_write.test_midi_format_note_off_raises3"
    []
    [] false
    [SAssign (TName "midi_c4") (EOp (OCall [AKey "middle_c"; AKey "channel"]) [(EName "MIDIWriter"); (EConst (VStr (lit "C4"))); (EConst (VInt 3))]);
     SExpr (EOp (OCall [APos]) [(EOp (OAttr "_format_note_off") [(EName "midi_c4")]); (EOp (OCall [APos]) [(EName "Note"); (EConst (VStr (lit "D11")))])])].

(** test_midi_write.test_midi_format_note_off_raises4 (tests/melodia/io/test_midi_write.py 89-120). *)
Definition src_test_midi_write_test_midi_format_note_off_raises4 : fundef :=
  mkFun "test_midi_write.test_midi_format_note_off_raises4"
    []
    [] false
    [SAssign (TName "midi_c4") (EOp (OCall [AKey "middle_c"; AKey "channel"]) [(EName "MIDIWriter"); (EConst (VStr (lit "C4"))); (EConst (VInt 3))]);
     SAssign (TName "midi_c3") (EOp (OCall [AKey "middle_c"; AKey "channel"]) [(EName "MIDIWriter"); (EConst (VStr (lit "C3"))); (EConst (VInt 3))]);
     SExpr (EOp (OCall [APos]) [(EOp (OAttr "_format_note_off") [(EName "midi_c3")]); (EOp (OCall [APos]) [(EName "Note"); (EConst (VStr (lit "C-2")))])]);
     SExpr (EOp (OCall [APos]) [(EOp (OAttr "_format_note_off") [(EName "midi_c3")]); (EOp (OCall [APos]) [(EName "Note"); (EConst (VStr (lit "C-3")))])])].

(** test_midi_write.test_midi_format_var_len (tests/melodia/io/test_midi_write.py 123-137). *)
Definition src_test_midi_write_test_midi_format_var_len : fundef :=
  mkFun "test_midi_write.test_midi_format_var_len"
    []
    [] false
    [SAssign (TName "format_var_len") (EOp (OAttr "_format_var_len") [(EName "MIDIWriter")]);
     SIf (ECmp (EOp (OCall [APos]) [(EName "format_var_len"); (EConst (VInt 0))]) [(CEq, (EConst (VBytes [0])))])
       []
       [SRaise (EOp (OCall []) [EName "AssertionError"])];
     SIf (ECmp (EOp (OCall [APos]) [(EName "format_var_len"); (EConst (VInt 64))]) [(CEq, (EConst (VBytes [64])))])
       []
       [SRaise (EOp (OCall []) [EName "AssertionError"])];
     SIf (ECmp (EOp (OCall [APos]) [(EName "format_var_len"); (EConst (VInt 127))]) [(CEq, (EConst (VBytes [127])))])
       []
       [SRaise (EOp (OCall []) [EName "AssertionError"])];
     SIf (ECmp (EOp (OCall [APos]) [(EName "format_var_len"); (EConst (VInt 128))]) [(CEq, (EConst (VBytes [129; 0])))])
       []
       [SRaise (EOp (OCall []) [EName "AssertionError"])];
     SIf (ECmp (EOp (OCall [APos]) [(EName "format_var_len"); (EConst (VInt 8192))]) [(CEq, (EConst (VBytes [192; 0])))])
       []
       [SRaise (EOp (OCall []) [EName "AssertionError"])];
     SIf (ECmp (EOp (OCall [APos]) [(EName "format_var_len"); (EConst (VInt 16383))]) [(CEq, (EConst (VBytes [255; 127])))])
       []
       [SRaise (EOp (OCall []) [EName "AssertionError"])];
     SIf (ECmp (EOp (OCall [APos]) [(EName "format_var_len"); (EConst (VInt 16384))]) [(CEq, (EConst (VBytes [129; 128; 0])))])
       []
       [SRaise (EOp (OCall []) [EName "AssertionError"])];
     SIf (ECmp (EOp (OCall [APos]) [(EName "format_var_len"); (EConst (VInt 1048576))]) [(CEq, (EConst (VBytes [192; 128; 0])))])
       []
       [SRaise (EOp (OCall []) [EName "AssertionError"])];
     SIf (ECmp (EOp (OCall [APos]) [(EName "format_var_len"); (EConst (VInt 2097151))]) [(CEq, (EConst (VBytes [255; 255; 127])))])
       []
       [SRaise (EOp (OCall []) [EName "AssertionError"])];
     SIf (ECmp (EOp (OCall [APos]) [(EName "format_var_len"); (EConst (VInt 2097152))]) [(CEq, (EConst (VBytes [129; 128; 128; 0])))])
       []
       [SRaise (EOp (OCall []) [EName "AssertionError"])];
     SIf (ECmp (EOp (OCall [APos]) [(EName "format_var_len"); (EConst (VInt 134217728))]) [(CEq, (EConst (VBytes [192; 128; 128; 0])))])
       []
       [SRaise (EOp (OCall []) [EName "AssertionError"])];
     SIf (ECmp (EOp (OCall [APos]) [(EName "format_var_len"); (EConst (VInt 268435455))]) [(CEq, (EConst (VBytes [255; 255; 255; 127])))])
       []
       [SRaise (EOp (OCall []) [EName "AssertionError"])]].

(** test_midi_write.test_midi_format_signature (tests/melodia/io/test_midi_write.py 140-164). *)
Definition src_test_midi_write_test_midi_format_signature : fundef :=
  mkFun "test_midi_write.test_midi_format_signature"
    []
    [] false
    [SAssign (TName "midi") (EOp (OCall []) [(EName "MIDIWriter")]);
     SIf (ECmp (EOp (OCall [APos; APos; APos]) [(EOp (OAttr "_format_signature") [(EName "midi")]); (EOp (OCall [APos; APos]) [(EName "Signature"); (EConst (VInt 0)); (EConst (VInt 1))]); (EConst (VInt 16)); (EConst (VInt 32))]) [(CEq, (EConst (VBytes [255; 88; 4; 0; 0; 16; 32])))])
       []
       [SRaise (EOp (OCall []) [EName "AssertionError"])];
     SIf (ECmp (EOp (OCall [APos; APos; APos]) [(EOp (OAttr "_format_signature") [(EName "midi")]); (EOp (OCall [APos; APos]) [(EName "Signature"); (EConst (VInt 3)); (EConst (VInt 4))]); (EConst (VInt 16)); (EConst (VInt 32))]) [(CEq, (EConst (VBytes [255; 88; 4; 3; 2; 16; 32])))])
       []
       [SRaise (EOp (OCall []) [EName "AssertionError"])];
     SIf (ECmp (EOp (OCall [APos; APos; APos]) [(EOp (OAttr "_format_signature") [(EName "midi")]); (EOp (OCall [APos; APos]) [(EName "Signature"); (EConst (VInt 127)); (EConst (VInt 170141183460469231731687303715884105728))]); (EConst (VInt 16)); (EConst (VInt 32))]) [(CEq, (EConst (VBytes [255; 88; 4; 127; 127; 16; 32])))])
       []
       [SRaise (EOp (OCall []) [EName "AssertionError"])];
     SIf (ECmp (EOp (OCall [APos; APos; APos]) [(EOp (OAttr "_format_signature") [(EName "midi")]); (EOp (OCall [APos; APos]) [(EName "Signature"); (EConst (VInt 255)); (EConst (VInt 170141183460469231731687303715884105728))]); (EConst (VInt 16)); (EConst (VInt 32))]) [(CEq, (EConst (VBytes [255; 88; 4; 255; 127; 16; 32])))])
       []
       [SRaise (EOp (OCall []) [EName "AssertionError"])]].

(** test_midi_write.test_midi_format_signature_raises1 (tests/melodia/io/test_midi_write.py 140-164). *)
Definition src_test_midi_write_test_midi_format_signature_raises1 : fundef :=
  mkFun "test_midi_write.test_midi_format_signature_raises1"
    []
    [] false
    [SAssign (TName "midi") (EOp (OCall []) [(EName "MIDIWriter")]);
     SIf (ECmp (EOp (OCall [APos; APos; APos]) [(EOp (OAttr "_format_signature") [(EName "midi")]); (EOp (OCall [APos; APos]) [(EName "Signature"); (EConst (VInt 0)); (EConst (VInt 1))]); (EConst (VInt 16)); (EConst (VInt 32))]) [(CEq, (EConst (VBytes [255; 88; 4; 0; 0; 16; 32])))])
       []
       [SRaise (EOp (OCall []) [EName "AssertionError"])];
     SIf (ECmp (EOp (OCall [APos; APos; APos]) [(EOp (OAttr "_format_signature") [(EName "midi")]); (EOp (OCall [APos; APos]) [(EName "Signature"); (EConst (VInt 3)); (EConst (VInt 4))]); (EConst (VInt 16)); (EConst (VInt 32))]) [(CEq, (EConst (VBytes [255; 88; 4; 3; 2; 16; 32])))])
       []
       [SRaise (EOp (OCall []) [EName "AssertionError"])];
     SIf (ECmp (EOp (OCall [APos; APos; APos]) [(EOp (OAttr "_format_signature") [(EName "midi")]); (EOp (OCall [APos; APos]) [(EName "Signature"); (EConst (VInt 127)); (EConst (VInt 170141183460469231731687303715884105728))]); (EConst (VInt 16)); (EConst (VInt 32))]) [(CEq, (EConst (VBytes [255; 88; 4; 127; 127; 16; 32])))])
       []
       [SRaise (EOp (OCall []) [EName "AssertionError"])];
     SIf (ECmp (EOp (OCall [APos; APos; APos]) [(EOp (OAttr "_format_signature") [(EName "midi")]); (EOp (OCall [APos; APos]) [(EName "Signature"); (EConst (VInt 255)); (EConst (VInt 170141183460469231731687303715884105728))]); (EConst (VInt 16)); (EConst (VInt 32))]) [(CEq, (EConst (VBytes [255; 88; 4; 255; 127; 16; 32])))])
       []
       [SRaise (EOp (OCall []) [EName "AssertionError"])];
     SExpr (EOp (OCall [APos; APos; APos]) [(EOp (OAttr "_format_signature") [(EName "midi")]); (EOp (OCall [APos; APos]) [(EName "Signature"); (EConst (VInt 512)); (EConst (VInt 512))]); (EConst (VInt 16)); (EConst (VInt 32))])].

(** test_midi_write.test_midi_format_signature_raises2 (tests/melodia/io/test_midi_write.py 140-164). *)
Definition src_test_midi_write_test_midi_format_signature_raises2 : fundef :=
  mkFun "test_midi_write.test_midi_format_signature_raises2"
    []
    [] false
    [SAssign (TName "midi") (EOp (OCall []) [(EName "MIDIWriter")]);
     SIf (ECmp (EOp (OCall [APos; APos; APos]) [(EOp (OAttr "_format_signature") [(EName "midi")]); (EOp (OCall [APos; APos]) [(EName "Signature"); (EConst (VInt 0)); (EConst (VInt 1))]); (EConst (VInt 16)); (EConst (VInt 32))]) [(CEq, (EConst (VBytes [255; 88; 4; 0; 0; 16; 32])))])
       []
       [SRaise (EOp (OCall []) [EName "AssertionError"])];
     SIf (ECmp (EOp (OCall [APos; APos; APos]) [(EOp (OAttr "_format_signature") [(EName "midi")]); (EOp (OCall [APos; APos]) [(EName "Signature"); (EConst (VInt 3)); (EConst (VInt 4))]); (EConst (VInt 16)); (EConst (VInt 32))]) [(CEq, (EConst (VBytes [255; 88; 4; 3; 2; 16; 32])))])
       []
       [SRaise (EOp (OCall []) [EName "AssertionError"])];
     SIf (ECmp (EOp (OCall [APos; APos; APos]) [(EOp (OAttr "_format_signature") [(EName "midi")]); (EOp (OCall [APos; APos]) [(EName "Signature"); (EConst (VInt 127)); (EConst (VInt 170141183460469231731687303715884105728))]); (EConst (VInt 16)); (EConst (VInt 32))]) [(CEq, (EConst (VBytes [255; 88; 4; 127; 127; 16; 32])))])
       []
       [SRaise (EOp (OCall []) [EName "AssertionError"])];
     SIf (ECmp (EOp (OCall [APos; APos; APos]) [(EOp (OAttr "_format_signature") [(EName "midi")]); (EOp (OCall [APos; APos]) [(EName "Signature"); (EConst (VInt 255)); (EConst (VInt 170141183460469231731687303715884105728))]); (EConst (VInt 16)); (EConst (VInt 32))]) [(CEq, (EConst (VBytes [255; 88; 4; 255; 127; 16; 32])))])
       []
       [SRaise (EOp (OCall []) [EName "AssertionError"])];
     SExpr (EOp (OCall [APos; APos; APos]) [(EOp (OAttr "_format_signature") [(EName "midi")]); (EOp (OCall [APos; APos]) [(EName "Signature"); (EConst (VInt 1)); (EConst (VInt 4))]); (EOp ONeg [(EConst (VInt 16))]); (EConst (VInt 32))])].

(** test_midi_write.test_midi_format_signature_raises3 (tests/melodia/io/test_midi_write.py 140-164). *)
Definition src_test_midi_write_test_midi_format_signature_raises3 : fundef :=
  mkFun "test_midi_write.test_midi_format_signature_raises3"
    []
    [] false
    [SAssign (TName "midi") (EOp (OCall []) [(EName "MIDIWriter")]);
     SIf (ECmp (EOp (OCall [APos; APos; APos]) [(EOp (OAttr "_format_signature") [(EName "midi")]); (EOp (OCall [APos; APos]) [(EName "Signature"); (EConst (VInt 0)); (EConst (VInt 1))]); (EConst (VInt 16)); (EConst (VInt 32))]) [(CEq, (EConst (VBytes [255; 88; 4; 0; 0; 16; 32])))])
       []
       [SRaise (EOp (OCall []) [EName "AssertionError"])];
     SIf (ECmp (EOp (OCall [APos; APos; APos]) [(EOp (OAttr "_format_signature") [(EName "midi")]); (EOp (OCall [APos; APos]) [(EName "Signature"); (EConst (VInt 3)); (EConst (VInt 4))]); (EConst (VInt 16)); (EConst (VInt 32))]) [(CEq, (EConst (VBytes [255; 88; 4; 3; 2; 16; 32])))])
       []
       [SRaise (EOp (OCall []) [EName "AssertionError"])];
     SIf (ECmp (EOp (OCall [APos; APos; APos]) [(EOp (OAttr "_format_signature") [(EName "midi")]); (EOp (OCall [APos; APos]) [(EName "Signature"); (EConst (VInt 127)); (EConst (VInt 170141183460469231731687303715884105728))]); (EConst (VInt 16)); (EConst (VInt 32))]) [(CEq, (EConst (VBytes [255; 88; 4; 127; 127; 16; 32])))])
       []
       [SRaise (EOp (OCall []) [EName "AssertionError"])];
     SIf (ECmp (EOp (OCall [APos; APos; APos]) [(EOp (OAttr "_format_signature") [(EName "midi")]); (EOp (OCall [APos; APos]) [(EName "Signature"); (EConst (VInt 255)); (EConst (VInt 170141183460469231731687303715884105728))]); (EConst (VInt 16)); (EConst (VInt 32))]) [(CEq, (EConst (VBytes [255; 88; 4; 255; 127; 16; 32])))])
       []
       [SRaise (EOp (OCall []) [EName "AssertionError"])];
     SExpr (EOp (OCall [APos; APos; APos]) [(EOp (OAttr "_format_signature") [(EName "midi")]); (EOp (OCall [APos; APos]) [(EName "Signature"); (EConst (VInt 1)); (EConst (VInt 4))]); (EConst (VInt 16)); (EOp ONeg [(EConst (VInt 32))])])].

(** test_midi_write.test_midi_format_signature_raises4 (tests/melodia/io/test_midi_write.py 140-164). *)
Definition src_test_midi_write_test_midi_format_signature_raises4 : fundef :=
  mkFun "test_midi_write.test_midi_format_signature_raises4"
    []
    [] false
    [SAssign (TName "midi") (EOp (OCall []) [(EName "MIDIWriter")]);
     SIf (ECmp (EOp (OCall [APos; APos; APos]) [(EOp (OAttr "_format_signature") [(EName "midi")]); (EOp (OCall [APos; APos]) [(EName "Signature"); (EConst (VInt 0)); (EConst (VInt 1))]); (EConst (VInt 16)); (EConst (VInt 32))]) [(CEq, (EConst (VBytes [255; 88; 4; 0; 0; 16; 32])))])
       []
       [SRaise (EOp (OCall []) [EName "AssertionError"])];
     SIf (ECmp (EOp (OCall [APos; APos; APos]) [(EOp (OAttr "_format_signature") [(EName "midi")]); (EOp (OCall [APos; APos]) [(EName "Signature"); (EConst (VInt 3)); (EConst (VInt 4))]); (EConst (VInt 16)); (EConst (VInt 32))]) [(CEq, (EConst (VBytes [255; 88; 4; 3; 2; 16; 32])))])
       []
       [SRaise (EOp (OCall []) [EName "AssertionError"])];
     SIf (ECmp (EOp (OCall [APos; APos; APos]) [(EOp (OAttr "_format_signature") [(EName "midi")]); (EOp (OCall [APos; APos]) [(EName "Signature"); (EConst (VInt 127)); (EConst (VInt 170141183460469231731687303715884105728))]); (EConst (VInt 16)); (EConst (VInt 32))]) [(CEq, (EConst (VBytes [255; 88; 4; 127; 127; 16; 32])))])
       []
       [SRaise (EOp (OCall []) [EName "AssertionError"])];
     SIf (ECmp (EOp (OCall [APos; APos; APos]) [(EOp (OAttr "_format_signature") [(EName "midi")]); (EOp (OCall [APos; APos]) [(EName "Signature"); (EConst (VInt 255)); (EConst (VInt 170141183460469231731687303715884105728))]); (EConst (VInt 16)); (EConst (VInt 32))]) [(CEq, (EConst (VBytes [255; 88; 4; 255; 127; 16; 32])))])
       []
       [SRaise (EOp (OCall []) [EName "AssertionError"])];
     SExpr (EOp (OCall [APos; APos; APos]) [(EOp (OAttr "_format_signature") [(EName "midi")]); (EOp (OCall [APos; APos]) [(EName "Signature"); (EConst (VInt 1)); (EConst (VInt 4))]); (EConst (VInt 300)); (EConst (VInt 32))])].

(** test_midi_write.test_midi_format_signature_raises5 (tests/melodia/io/test_midi_write.py 140-164). *)
Definition src_test_midi_write_test_midi_format_signature_raises5 : fundef :=
  mkFun "test_midi_write.test_midi_format_signature_raises5"
    []
    [] false
    [SAssign (TName "midi") (EOp (OCall []) [(EName "MIDIWriter")]);
     SIf (ECmp (EOp (OCall [APos; APos; APos]) [(EOp (OAttr "_format_signature") [(EName "midi")]); (EOp (OCall [APos; APos]) [(EName "Signature"); (EConst (VInt 0)); (EConst (VInt 1))]); (EConst (VInt 16)); (EConst (VInt 32))]) [(CEq, (EConst (VBytes [255; 88; 4; 0; 0; 16; 32])))])
       []
       [SRaise (EOp (OCall []) [EName "AssertionError"])];
     SIf (ECmp (EOp (OCall [APos; APos; APos]) [(EOp (OAttr "_format_signature") [(EName "midi")]); (EOp (OCall [APos; APos]) [(EName "Signature"); (EConst (VInt 3)); (EConst (VInt 4))]); (EConst (VInt 16)); (EConst (VInt 32))]) [(CEq, (EConst (VBytes [255; 88; 4; 3; 2; 16; 32])))])
       []
       [SRaise (EOp (OCall []) [EName "AssertionError"])];
     SIf (ECmp (EOp (OCall [APos; APos; APos]) [(EOp (OAttr "_format_signature") [(EName "midi")]); (EOp (OCall [APos; APos]) [(EName "Signature"); (EConst (VInt 127)); (EConst (VInt 170141183460469231731687303715884105728))]); (EConst (VInt 16)); (EConst (VInt 32))]) [(CEq, (EConst (VBytes [255; 88; 4; 127; 127; 16; 32])))])
       []
       [SRaise (EOp (OCall []) [EName "AssertionError"])];
     SIf (ECmp (EOp (OCall [APos; APos; APos]) [(EOp (OAttr "_format_signature") [(EName "midi")]); (EOp (OCall [APos; APos]) [(EName "Signature"); (EConst (VInt 255)); (EConst (VInt 170141183460469231731687303715884105728))]); (EConst (VInt 16)); (EConst (VInt 32))]) [(CEq, (EConst (VBytes [255; 88; 4; 255; 127; 16; 32])))])
       []
       [SRaise (EOp (OCall []) [EName "AssertionError"])];
     SExpr (EOp (OCall [APos; APos; APos]) [(EOp (OAttr "_format_signature") [(EName "midi")]); (EOp (OCall [APos; APos]) [(EName "Signature"); (EConst (VInt 1)); (EConst (VInt 4))]); (EConst (VInt 16)); (EConst (VInt 300))])].

(** test_midi_write.test_midi_format_chunk (tests/melodia/io/test_midi_write.py 167-191). *)
Definition src_test_midi_write_test_midi_format_chunk : fundef :=
  mkFun "test_midi_write.test_midi_format_chunk"
    []
    [] false
    [SAssign (TName "format_chunk") (EOp (OAttr "_format_chunk") [(EName "MIDIWriter")]);
     SIf (ECmp (EOp (OCall [APos; APos]) [(EName "format_chunk"); (EConst (VBytes [77; 84; 104; 100])); (EConst (VBytes [0; 127; 0; 128; 144; 255; 118]))]) [(CEq, (EConst (VBytes [77; 84; 104; 100; 0; 0; 0; 7; 0; 127; 0; 128; 144; 255; 118])))])
       []
       [SRaise (EOp (OCall []) [EName "AssertionError"])];
     SIf (ECmp (EOp (OCall [APos; APos]) [(EName "format_chunk"); (EConst (VBytes [77; 84; 104; 100])); (EConst (VBytes []))]) [(CEq, (EConst (VBytes [77; 84; 104; 100; 0; 0; 0; 0])))])
       []
       [SRaise (EOp (OCall []) [EName "AssertionError"])];
     SIf (ECmp (EOp (OCall [APos; APos]) [(EName "format_chunk"); (EConst (VBytes [77; 84; 104; 100])); (EConst (VBytes [0]))]) [(CEq, (EConst (VBytes [77; 84; 104; 100; 0; 0; 0; 1; 0])))])
       []
       [SRaise (EOp (OCall []) [EName "AssertionError"])];
     SIf (ECmp (EOp (OCall [APos; APos]) [(EName "format_chunk"); (EConst (VBytes [97; 98; 99; 100])); (EConst (VBytes []))]) [(CEq, (EConst (VBytes [97; 98; 99; 100; 0; 0; 0; 0])))])
       []
       [SRaise (EOp (OCall []) [EName "AssertionError"])]].

(** test_midi_write.test_midi_format_chunk_raises1 (tests/melodia/io/test_midi_write.py 167-191). *)
Definition src_test_midi_write_test_midi_format_chunk_raises1 : fundef :=
  mkFun "test_midi_write.test_midi_format_chunk_raises1"
    []
    [] false
    [SAssign (TName "format_chunk") (EOp (OAttr "_format_chunk") [(EName "MIDIWriter")]);
     SIf (ECmp (EOp (OCall [APos; APos]) [(EName "format_chunk"); (EConst (VBytes [77; 84; 104; 100])); (EConst (VBytes [0; 127; 0; 128; 144; 255; 118]))]) [(CEq, (EConst (VBytes [77; 84; 104; 100; 0; 0; 0; 7; 0; 127; 0; 128; 144; 255; 118])))])
       []
       [SRaise (EOp (OCall []) [EName "AssertionError"])];
     SIf (ECmp (EOp (OCall [APos; APos]) [(EName "format_chunk"); (EConst (VBytes [77; 84; 104; 100])); (EConst (VBytes []))]) [(CEq, (EConst (VBytes [77; 84; 104; 100; 0; 0; 0; 0])))])
       []
       [SRaise (EOp (OCall []) [EName "AssertionError"])];
     SIf (ECmp (EOp (OCall [APos; APos]) [(EName "format_chunk"); (EConst (VBytes [77; 84; 104; 100])); (EConst (VBytes [0]))]) [(CEq, (EConst (VBytes [77; 84; 104; 100; 0; 0; 0; 1; 0])))])
       []
       [SRaise (EOp (OCall []) [EName "AssertionError"])];
     SExpr (EOp (OCall [APos; APos]) [(EName "format_chunk"); (EConst (VBytes [])); (EConst (VBytes []))])].

(** test_midi_write.test_midi_format_chunk_raises2 (tests/melodia/io/test_midi_write.py 167-191). *)
Definition src_test_midi_write_test_midi_format_chunk_raises2 : fundef :=
  mkFun "test_midi_write.test_midi_format_chunk_raises2"
    []
    [] false
    [SAssign (TName "format_chunk") (EOp (OAttr "_format_chunk") [(EName "MIDIWriter")]);
     SIf (ECmp (EOp (OCall [APos; APos]) [(EName "format_chunk"); (EConst (VBytes [77; 84; 104; 100])); (EConst (VBytes [0; 127; 0; 128; 144; 255; 118]))]) [(CEq, (EConst (VBytes [77; 84; 104; 100; 0; 0; 0; 7; 0; 127; 0; 128; 144; 255; 118])))])
       []
       [SRaise (EOp (OCall []) [EName "AssertionError"])];
     SIf (ECmp (EOp (OCall [APos; APos]) [(EName "format_chunk"); (EConst (VBytes [77; 84; 104; 100])); (EConst (VBytes []))]) [(CEq, (EConst (VBytes [77; 84; 104; 100; 0; 0; 0; 0])))])
       []
       [SRaise (EOp (OCall []) [EName "AssertionError"])];
     SIf (ECmp (EOp (OCall [APos; APos]) [(EName "format_chunk"); (EConst (VBytes [77; 84; 104; 100])); (EConst (VBytes [0]))]) [(CEq, (EConst (VBytes [77; 84; 104; 100; 0; 0; 0; 1; 0])))])
       []
       [SRaise (EOp (OCall []) [EName "AssertionError"])];
     SExpr (EOp (OCall [APos; APos]) [(EName "format_chunk"); (EConst (VBytes [97])); (EConst (VBytes []))])].

(** test_midi_write.test_midi_format_chunk_raises3 (tests/melodia/io/test_midi_write.py 167-191). *)
Definition src_test_midi_write_test_midi_format_chunk_raises3 : fundef :=
  mkFun "test_midi_write.test_midi_format_chunk_raises3"
    []
    [] false
    [SAssign (TName "format_chunk") (EOp (OAttr "_format_chunk") [(EName "MIDIWriter")]);
     SIf (ECmp (EOp (OCall [APos; APos]) [(EName "format_chunk"); (EConst (VBytes [77; 84; 104; 100])); (EConst (VBytes [0; 127; 0; 128; 144; 255; 118]))]) [(CEq, (EConst (VBytes [77; 84; 104; 100; 0; 0; 0; 7; 0; 127; 0; 128; 144; 255; 118])))])
       []
       [SRaise (EOp (OCall []) [EName "AssertionError"])];
     SIf (ECmp (EOp (OCall [APos; APos]) [(EName "format_chunk"); (EConst (VBytes [77; 84; 104; 100])); (EConst (VBytes []))]) [(CEq, (EConst (VBytes [77; 84; 104; 100; 0; 0; 0; 0])))])
       []
       [SRaise (EOp (OCall []) [EName "AssertionError"])];
     SIf (ECmp (EOp (OCall [APos; APos]) [(EName "format_chunk"); (EConst (VBytes [77; 84; 104; 100])); (EConst (VBytes [0]))]) [(CEq, (EConst (VBytes [77; 84; 104; 100; 0; 0; 0; 1; 0])))])
       []
       [SRaise (EOp (OCall []) [EName "AssertionError"])];
     SExpr (EOp (OCall [APos; APos]) [(EName "format_chunk"); (EConst (VBytes [97; 98])); (EConst (VBytes []))])].

(** test_midi_write.test_midi_format_chunk_raises4 (tests/melodia/io/test_midi_write.py 167-191). *)
Definition src_test_midi_write_test_midi_format_chunk_raises4 : fundef :=
  mkFun "test_midi_write.test_midi_format_chunk_raises4"
    []
    [] false
    [SAssign (TName "format_chunk") (EOp (OAttr "_format_chunk") [(EName "MIDIWriter")]);
     SIf (ECmp (EOp (OCall [APos; APos]) [(EName "format_chunk"); (EConst (VBytes [77; 84; 104; 100])); (EConst (VBytes [0; 127; 0; 128; 144; 255; 118]))]) [(CEq, (EConst (VBytes [77; 84; 104; 100; 0; 0; 0; 7; 0; 127; 0; 128; 144; 255; 118])))])
       []
       [SRaise (EOp (OCall []) [EName "AssertionError"])];
     SIf (ECmp (EOp (OCall [APos; APos]) [(EName "format_chunk"); (EConst (VBytes [77; 84; 104; 100])); (EConst (VBytes []))]) [(CEq, (EConst (VBytes [77; 84; 104; 100; 0; 0; 0; 0])))])
       []
       [SRaise (EOp (OCall []) [EName "AssertionError"])];
     SIf (ECmp (EOp (OCall [APos; APos]) [(EName "format_chunk"); (EConst (VBytes [77; 84; 104; 100])); (EConst (VBytes [0]))]) [(CEq, (EConst (VBytes [77; 84; 104; 100; 0; 0; 0; 1; 0])))])
       []
       [SRaise (EOp (OCall []) [EName "AssertionError"])];
     SExpr (EOp (OCall [APos; APos]) [(EName "format_chunk"); (EConst (VBytes [97; 98; 99])); (EConst (VBytes []))])].

(** test_midi_write.test_midi_format_chunk_raises5 (tests/melodia/io/test_midi_write.py 167-191). *)
Definition src_test_midi_write_test_midi_format_chunk_raises5 : fundef :=
  mkFun "test_midi_write.test_midi_format_chunk_raises5"
    []
    [] false
    [SAssign (TName "format_chunk") (EOp (OAttr "_format_chunk") [(EName "MIDIWriter")]);
     SIf (ECmp (EOp (OCall [APos; APos]) [(EName "format_chunk"); (EConst (VBytes [77; 84; 104; 100])); (EConst (VBytes [0; 127; 0; 128; 144; 255; 118]))]) [(CEq, (EConst (VBytes [77; 84; 104; 100; 0; 0; 0; 7; 0; 127; 0; 128; 144; 255; 118])))])
       []
       [SRaise (EOp (OCall []) [EName "AssertionError"])];
     SIf (ECmp (EOp (OCall [APos; APos]) [(EName "format_chunk"); (EConst (VBytes [77; 84; 104; 100])); (EConst (VBytes []))]) [(CEq, (EConst (VBytes [77; 84; 104; 100; 0; 0; 0; 0])))])
       []
       [SRaise (EOp (OCall []) [EName "AssertionError"])];
     SIf (ECmp (EOp (OCall [APos; APos]) [(EName "format_chunk"); (EConst (VBytes [77; 84; 104; 100])); (EConst (VBytes [0]))]) [(CEq, (EConst (VBytes [77; 84; 104; 100; 0; 0; 0; 1; 0])))])
       []
       [SRaise (EOp (OCall []) [EName "AssertionError"])];
     SIf (ECmp (EOp (OCall [APos; APos]) [(EName "format_chunk"); (EConst (VBytes [97; 98; 99; 100])); (EConst (VBytes []))]) [(CEq, (EConst (VBytes [97; 98; 99; 100; 0; 0; 0; 0])))])
       []
       [SRaise (EOp (OCall []) [EName "AssertionError"])];
     SExpr (EOp (OCall [APos; APos]) [(EName "format_chunk"); (EConst (VBytes [97; 98; 99; 100; 101])); (EConst (VBytes []))])].

(** test_midi_write.test_midi_format_header_chunk (tests/melodia/io/test_midi_write.py 194-212). *)
Definition src_test_midi_write_test_midi_format_header_chunk : fundef :=
  mkFun "test_midi_write.test_midi_format_header_chunk"
    []
    [] false
    [SAssign (TName "midi") (EOp (OCall [AKey "pulses_per_quarter"]) [(EName "MIDIWriter"); (EConst (VInt 1))]);
     SIf (ECmp (EOp (OCall [APos; APos]) [(EOp (OAttr "_format_header_chunk") [(EName "midi")]); (EConst (VInt 0)); (EConst (VInt 1))]) [(CEq, (EConst (VBytes [77; 84; 104; 100; 0; 0; 0; 6; 0; 0; 0; 1; 0; 1])))])
       []
       [SRaise (EOp (OCall []) [EName "AssertionError"])];
     SIf (ECmp (EOp (OCall [APos; APos]) [(EOp (OAttr "_format_header_chunk") [(EName "midi")]); (EConst (VInt 1)); (EConst (VInt 110))]) [(CEq, (EConst (VBytes [77; 84; 104; 100; 0; 0; 0; 6; 0; 1; 0; 110; 0; 1])))])
       []
       [SRaise (EOp (OCall []) [EName "AssertionError"])];
     SIf (ECmp (EOp (OCall [APos; APos]) [(EOp (OAttr "_format_header_chunk") [(EName "midi")]); (EConst (VInt 1)); (EConst (VInt 65535))]) [(CEq, (EConst (VBytes [77; 84; 104; 100; 0; 0; 0; 6; 0; 1; 255; 255; 0; 1])))])
       []
       [SRaise (EOp (OCall []) [EName "AssertionError"])];
     SAssign (TName "midi") (EOp (OCall [AKey "pulses_per_quarter"]) [(EName "MIDIWriter"); (EConst (VInt 8199))]);
     SIf (ECmp (EOp (OCall [APos; APos]) [(EOp (OAttr "_format_header_chunk") [(EName "midi")]); (EConst (VInt 2)); (EConst (VInt 6550))]) [(CEq, (EConst (VBytes [77; 84; 104; 100; 0; 0; 0; 6; 0; 2; 25; 150; 32; 7])))])
       []
       [SRaise (EOp (OCall []) [EName "AssertionError"])]].

(** test_midi_write.test_midi_format_header_chunk_raises1 (tests/melodia/io/test_midi_write.py 194-212). *)
Definition src_test_midi_write_test_midi_format_header_chunk_raises1 : fundef :=
  mkFun "test_midi_write.test_midi_format_header_chunk_raises1"
    []
    [] false
    [SAssign (TName "midi") (EOp (OCall [AKey "pulses_per_quarter"]) [(EName "MIDIWriter"); (EConst (VInt 1))]);
     SIf (ECmp (EOp (OCall [APos; APos]) [(EOp (OAttr "_format_header_chunk") [(EName "midi")]); (EConst (VInt 0)); (EConst (VInt 1))]) [(CEq, (EConst (VBytes [77; 84; 104; 100; 0; 0; 0; 6; 0; 0; 0; 1; 0; 1])))])
       []
       [SRaise (EOp (OCall []) [EName "AssertionError"])];
     SIf (ECmp (EOp (OCall [APos; APos]) [(EOp (OAttr "_format_header_chunk") [(EName "midi")]); (EConst (VInt 1)); (EConst (VInt 110))]) [(CEq, (EConst (VBytes [77; 84; 104; 100; 0; 0; 0; 6; 0; 1; 0; 110; 0; 1])))])
       []
       [SRaise (EOp (OCall []) [EName "AssertionError"])];
     SIf (ECmp (EOp (OCall [APos; APos]) [(EOp (OAttr "_format_header_chunk") [(EName "midi")]); (EConst (VInt 1)); (EConst (VInt 65535))]) [(CEq, (EConst (VBytes [77; 84; 104; 100; 0; 0; 0; 6; 0; 1; 255; 255; 0; 1])))])
       []
       [SRaise (EOp (OCall []) [EName "AssertionError"])];
     SAssign (TName "midi") (EOp (OCall [AKey "pulses_per_quarter"]) [(EName "MIDIWriter"); (EConst (VInt 8199))]);
     SIf (ECmp (EOp (OCall [APos; APos]) [(EOp (OAttr "_format_header_chunk") [(EName "midi")]); (EConst (VInt 2)); (EConst (VInt 6550))]) [(CEq, (EConst (VBytes [77; 84; 104; 100; 0; 0; 0; 6; 0; 2; 25; 150; 32; 7])))])
       []
       [SRaise (EOp (OCall []) [EName "AssertionError"])];
     SExpr (EOp (OCall [APos; APos]) [(EOp (OAttr "_format_header_chunk") [(EName "midi")]); (EConst (VInt 3)); (EConst (VInt 6550))])].

(** test_midi_write.test_midi_format_header_chunk_raises2 (tests/melodia/io/test_midi_write.py 194-212). *)
Definition src_test_midi_write_test_midi_format_header_chunk_raises2 : fundef :=
  mkFun "test_midi_write.test_midi_format_header_chunk_raises2"
    []
    [] false
    [SAssign (TName "midi") (EOp (OCall [AKey "pulses_per_quarter"]) [(EName "MIDIWriter"); (EConst (VInt 1))]);
     SIf (ECmp (EOp (OCall [APos; APos]) [(EOp (OAttr "_format_header_chunk") [(EName "midi")]); (EConst (VInt 0)); (EConst (VInt 1))]) [(CEq, (EConst (VBytes [77; 84; 104; 100; 0; 0; 0; 6; 0; 0; 0; 1; 0; 1])))])
       []
       [SRaise (EOp (OCall []) [EName "AssertionError"])];
     SIf (ECmp (EOp (OCall [APos; APos]) [(EOp (OAttr "_format_header_chunk") [(EName "midi")]); (EConst (VInt 1)); (EConst (VInt 110))]) [(CEq, (EConst (VBytes [77; 84; 104; 100; 0; 0; 0; 6; 0; 1; 0; 110; 0; 1])))])
       []
       [SRaise (EOp (OCall []) [EName "AssertionError"])];
     SIf (ECmp (EOp (OCall [APos; APos]) [(EOp (OAttr "_format_header_chunk") [(EName "midi")]); (EConst (VInt 1)); (EConst (VInt 65535))]) [(CEq, (EConst (VBytes [77; 84; 104; 100; 0; 0; 0; 6; 0; 1; 255; 255; 0; 1])))])
       []
       [SRaise (EOp (OCall []) [EName "AssertionError"])];
     SAssign (TName "midi") (EOp (OCall [AKey "pulses_per_quarter"]) [(EName "MIDIWriter"); (EConst (VInt 8199))]);
     SIf (ECmp (EOp (OCall [APos; APos]) [(EOp (OAttr "_format_header_chunk") [(EName "midi")]); (EConst (VInt 2)); (EConst (VInt 6550))]) [(CEq, (EConst (VBytes [77; 84; 104; 100; 0; 0; 0; 6; 0; 2; 25; 150; 32; 7])))])
       []
       [SRaise (EOp (OCall []) [EName "AssertionError"])];
     SExpr (EOp (OCall [APos; APos]) [(EOp (OAttr "_format_header_chunk") [(EName "midi")]); (EConst (VInt 4)); (EConst (VInt 6550))])].

(** test_midi_write.test_midi_format_header_chunk_raises3 (tests/melodia/io/test_midi_write.py 194-212). *)
Definition src_test_midi_write_test_midi_format_header_chunk_raises3 : fundef :=
  mkFun "test_midi_write.test_midi_format_header_chunk_raises3"
    []
    [] false
    [SAssign (TName "midi") (EOp (OCall [AKey "pulses_per_quarter"]) [(EName "MIDIWriter"); (EConst (VInt 1))]);
     SIf (ECmp (EOp (OCall [APos; APos]) [(EOp (OAttr "_format_header_chunk") [(EName "midi")]); (EConst (VInt 0)); (EConst (VInt 1))]) [(CEq, (EConst (VBytes [77; 84; 104; 100; 0; 0; 0; 6; 0; 0; 0; 1; 0; 1])))])
       []
       [SRaise (EOp (OCall []) [EName "AssertionError"])];
     SIf (ECmp (EOp (OCall [APos; APos]) [(EOp (OAttr "_format_header_chunk") [(EName "midi")]); (EConst (VInt 1)); (EConst (VInt 110))]) [(CEq, (EConst (VBytes [77; 84; 104; 100; 0; 0; 0; 6; 0; 1; 0; 110; 0; 1])))])
       []
       [SRaise (EOp (OCall []) [EName "AssertionError"])];
     SIf (ECmp (EOp (OCall [APos; APos]) [(EOp (OAttr "_format_header_chunk") [(EName "midi")]); (EConst (VInt 1)); (EConst (VInt 65535))]) [(CEq, (EConst (VBytes [77; 84; 104; 100; 0; 0; 0; 6; 0; 1; 255; 255; 0; 1])))])
       []
       [SRaise (EOp (OCall []) [EName "AssertionError"])];
     SAssign (TName "midi") (EOp (OCall [AKey "pulses_per_quarter"]) [(EName "MIDIWriter"); (EConst (VInt 8199))]);
     SIf (ECmp (EOp (OCall [APos; APos]) [(EOp (OAttr "_format_header_chunk") [(EName "midi")]); (EConst (VInt 2)); (EConst (VInt 6550))]) [(CEq, (EConst (VBytes [77; 84; 104; 100; 0; 0; 0; 6; 0; 2; 25; 150; 32; 7])))])
       []
       [SRaise (EOp (OCall []) [EName "AssertionError"])];
     SExpr (EOp (OCall [APos; APos]) [(EOp (OAttr "_format_header_chunk") [(EName "midi")]); (EOp ONeg [(EConst (VInt 1))]); (EConst (VInt 6550))])].

(** The tests and how they should end. *)
Definition tests : list (fundef * res value) :=
  [(src_test_signature_test_signature_basics, Ok VNone);
   (src_test_signature_test_signature_basics_raises1, Err ValueError);
   (src_test_signature_test_signature_basics_raises2, Err ValueError);
   (src_test_signature_test_signature_basics_raises3, Err ValueError);
   (src_test_signature_test_signature_basics_raises4, Err ValueError);
   (src_test_signature_test_signature_basics_raises5, Err ValueError);
   (src_test_signature_test_signature_to, Ok VNone);
   (src_test_signature_test_signature_normalized, Ok VNone);
   (src_test_signature_test_signature_eq, Ok VNone);
   (src_test_signature_test_signature_comp, Ok VNone);
   (src_test_signature_test_signature_sum, Ok VNone);
   (src_test_signature_test_signature_mul, Ok VNone);
   (src_test_signature_test_signature_abs, Ok VNone);
   (src_test_tone_test_tone_str, Ok VNone);
   (src_test_tone_test_tone_from_notation, Ok VNone);
   (src_test_tone_test_tone_to_notation, Ok VNone);
   (src_test_tone_test_tone_octave, Ok VNone);
   (src_test_tone_test_note_with_transposed, Ok VNone);
   (src_test_tone_test_tone_eq, Ok VNone);
   (src_test_tone_test_tone_comp, Ok VNone);
   (src_test_note_test_note_basics, Ok VNone);
   (src_test_note_test_note_basics_raises1, Err ValueError);
   (src_test_note_test_note_basics_raises2, Err TypeError);
   (src_test_note_test_note_basics_raises3, Err ValueError);
   (src_test_note_test_note_basics_raises4, Err ValueError);
   (src_test_note_test_note_properties, Ok VNone);
   (src_test_note_test_note_transposed, Ok VNone);
   (src_test_note_test_note_with_duration, Ok VNone);
   (src_test_note_test_note_with_velocity, Ok VNone);
   (src_test_note_test_note_eq, Ok VNone);
   (src_test_note_test_note_comp, Ok VNone);
   (src_test_track_test_track_basics, Ok VNone);
   (src_test_track_test_track_basics_raises1, Err ValueError);
   (src_test_track_test_track_signature, Ok VNone);
   (src_test_track_test_track_length, Ok VNone);
   (src_test_midi_read_test_reader, Ok VNone);
   (src_test_midi_read_test_reader_raises1, Err MIDIParsingError);
   (src_test_midi_read_test_reader_raises2, Err MIDIParsingError);
   (src_test_midi_read_test_reader_raises3, Err MIDIParsingError);
   (src_test_midi_read_test_reader_raises4, Err MIDIParsingError);
   (src_test_midi_read_test_midi_parse_header, Ok VNone);
   (src_test_midi_read_test_midi_time_to_signature, Ok VNone);
   (src_test_midi_read_test_midi_time_to_signature_raises1, Err AssertionError);
   (src_test_midi_read_test_midi_time_to_signature_raises2, Err AssertionError);
   (src_test_midi_read_test_midi_pitch_to_tone, Ok VNone);
   (src_test_midi_read_test_midi_read_var_len, Ok VNone);
   (src_test_midi_write_test_midi_basics, Ok VNone);
   (src_test_midi_write_test_midi_basics_raises1, Err ValueError);
   (src_test_midi_write_test_midi_basics_raises2, Err ValueError);
   (src_test_midi_write_test_midi_basics_raises3, Err ValueError);
   (src_test_midi_write_test_midi_basics_raises4, Err ValueError);
   (src_test_midi_write_test_midi_basics_raises5, Err ValueError);
   (src_test_midi_write_test_midi_signature_to_pulses, Ok VNone);
   (src_test_midi_write_test_midi_format_note_on, Ok VNone);
   (src_test_midi_write_test_midi_format_note_on_raises1, Err ValueError);
   (src_test_midi_write_test_midi_format_note_on_raises2, Err ValueError);
   (src_test_midi_write_test_midi_format_note_on_raises3, Err ValueError);
   (src_test_midi_write_test_midi_format_note_on_raises4, Err ValueError);
   (src_test_midi_write_test_midi_format_note_off, Ok VNone);
   (src_test_midi_write_test_midi_format_note_off_raises1, Err ValueError);
   (src_test_midi_write_test_midi_format_note_off_raises2, Err ValueError);
   (src_test_midi_write_test_midi_format_note_off_raises3, Err ValueError);
   (src_test_midi_write_test_midi_format_note_off_raises4, Err ValueError);
   (src_test_midi_write_test_midi_format_var_len, Ok VNone);
   (src_test_midi_write_test_midi_format_signature, Ok VNone);
   (src_test_midi_write_test_midi_format_signature_raises1, Err OverflowError);
   (src_test_midi_write_test_midi_format_signature_raises2, Err OverflowError);
   (src_test_midi_write_test_midi_format_signature_raises3, Err OverflowError);
   (src_test_midi_write_test_midi_format_signature_raises4, Err OverflowError);
   (src_test_midi_write_test_midi_format_signature_raises5, Err OverflowError);
   (src_test_midi_write_test_midi_format_chunk, Ok VNone);
   (src_test_midi_write_test_midi_format_chunk_raises1, Err AssertionError);
   (src_test_midi_write_test_midi_format_chunk_raises2, Err AssertionError);
   (src_test_midi_write_test_midi_format_chunk_raises3, Err AssertionError);
   (src_test_midi_write_test_midi_format_chunk_raises4, Err AssertionError);
   (src_test_midi_write_test_midi_format_chunk_raises5, Err AssertionError);
   (src_test_midi_write_test_midi_format_header_chunk, Ok VNone);
   (src_test_midi_write_test_midi_format_header_chunk_raises1, Err AssertionError);
   (src_test_midi_write_test_midi_format_header_chunk_raises2, Err AssertionError);
   (src_test_midi_write_test_midi_format_header_chunk_raises3, Err AssertionError)].
