(** The source text of melodia as syntax trees of PyAst.v, written out by a script from the files of
    the repository (Python's own parser gives the trees).  No proofs in this file. *)
From Coq Require Import ZArith List String.
From Verif Require Import Py PyFloat PyAst.
Import ListNotations.
Open Scope Z_scope.
Open Scope string_scope.

(** Signature.__init__ (core/signature.py 10-34). *)
Definition src_Signature___init__ : fundef :=
  mkFun "Signature.__init__"
    [("self", None); ("nominator", None); ("denominator", None)]
    [] false
    [SIf (EOp ONot [(EAnd (ECmp (EName "nominator") [(CGe, (EConst (VInt 0)))]) (EAnd (ECmp (EName "denominator") [(CGt, (EConst (VInt 0)))]) (ECmp (EOp (OBin BitAnd) [(EName "denominator"); (EOp (OBin Sub) [(EName "denominator"); (EConst (VInt 1))])]) [(CEq, (EConst (VInt 0)))])))])
       [SRaise (EOp (OCall [APos]) [(EName "ValueError"); (EConst (VStr (lit "Invalid time signature (the nominator must be non-negative and the denominator must be a positive power of two)")))])]
       [];
     SAssign (TAttr "self" "_nominator") (EName "nominator");
     SAssign (TAttr "self" "_denominator") (EName "denominator")].

(** Signature.nominator (core/signature.py 37-43). *)
Definition src_Signature_nominator : fundef :=
  mkFun "Signature.nominator"
    [("self", None)]
    [] false
    [SReturn (EOp (OAttr "_nominator") [(EName "self")])].

(** Signature.denominator (core/signature.py 46-52). *)
Definition src_Signature_denominator : fundef :=
  mkFun "Signature.denominator"
    [("self", None)]
    [] false
    [SReturn (EOp (OAttr "_denominator") [(EName "self")])].

(** Signature.to (core/signature.py 54-81). *)
Definition src_Signature_to : fundef :=
  mkFun "Signature.to"
    [("self", None); ("denominator", None)]
    [] false
    [SIf (EOp ONot [(EAnd (ECmp (EName "denominator") [(CGt, (EConst (VInt 0)))]) (ECmp (EOp (OBin BitAnd) [(EName "denominator"); (EOp (OBin Sub) [(EName "denominator"); (EConst (VInt 1))])]) [(CEq, (EConst (VInt 0)))]))])
       [SRaise (EOp (OCall [APos]) [(EName "ValueError"); (EConst (VStr (lit "Invalid denominator (must be a positive power of two)")))])]
       [];
     SIf (ECmp (EName "denominator") [(CEq, (EOp (OAttr "_denominator") [(EName "self")]))])
       [SReturn (EOp (OCall [APos; APos]) [(EName "Signature"); (EOp (OAttr "_nominator") [(EName "self")]); (EOp (OAttr "_denominator") [(EName "self")])])]
       [];
     SIf (ECmp (EName "denominator") [(CGt, (EOp (OAttr "_denominator") [(EName "self")]))])
       [SAssign (TName "nominator") (EOp (OBin Mult) [(EOp (OBin FloorDiv) [(EName "denominator"); (EOp (OAttr "_denominator") [(EName "self")])]); (EOp (OAttr "_nominator") [(EName "self")])]);
        SReturn (EOp (OCall [APos; APos]) [(EName "Signature"); (EName "nominator"); (EName "denominator")])]
       [];
     SRaise (EOp (OCall [APos]) [(EName "ValueError"); (EOp (OFormat [FLit "New denominator must be >= "; FVal ""]) [(EOp (OAttr "_denominator") [(EName "self")])])])].

(** Signature.normalized (core/signature.py 83-105). *)
Definition src_Signature_normalized : fundef :=
  mkFun "Signature.normalized"
    [("self", None)]
    [] false
    [SAssign (TTuple [(TName "n"); (TName "d")]) (EOp OTuple [(EOp (OAttr "_nominator") [(EName "self")]); (EOp (OAttr "_denominator") [(EName "self")])]);
     SWhile (EAnd (ECmp (EOp (OBin BitAnd) [(EName "n"); (EConst (VInt 1))]) [(CEq, (EConst (VInt 0)))]) (ECmp (EName "d") [(CGt, (EConst (VInt 1)))]))
       [SAssign (TName "n") (EOp (OBin RShift) [(EName "n"); (EConst (VInt 1))]);
        SAssign (TName "d") (EOp (OBin RShift) [(EName "d"); (EConst (VInt 1))])];
     SReturn (EOp (OCall [APos; APos]) [(EName "Signature"); (EName "n"); (EName "d")])].

(** Signature._to_common_denominator (core/signature.py 107-117). *)
Definition src_Signature__to_common_denominator : fundef :=
  mkFun "Signature._to_common_denominator"
    [("self", None); ("other", None)]
    [] false
    [SAssign (TTuple [(TName "n1"); (TName "d1")]) (EOp OTuple [(EOp (OAttr "_nominator") [(EName "self")]); (EOp (OAttr "_denominator") [(EName "self")])]);
     SAssign (TTuple [(TName "n2"); (TName "d2")]) (EOp OTuple [(EOp (OAttr "_nominator") [(EName "other")]); (EOp (OAttr "_denominator") [(EName "other")])]);
     SIf (ECmp (EName "d1") [(CEq, (EName "d2"))])
       [SReturn (EOp OTuple [(EName "n1"); (EName "n2"); (EName "d1")])]
       [];
     SIf (ECmp (EName "d1") [(CGt, (EName "d2"))])
       [SReturn (EOp OTuple [(EName "n1"); (EOp (OBin Mult) [(EOp (OBin FloorDiv) [(EName "d1"); (EName "d2")]); (EName "n2")]); (EName "d1")])]
       [];
     SReturn (EOp OTuple [(EName "n2"); (EOp (OBin Mult) [(EOp (OBin FloorDiv) [(EName "d2"); (EName "d1")]); (EName "n1")]); (EName "d2")])].

(** Signature.__str__ (core/signature.py 119-125). *)
Definition src_Signature___str__ : fundef :=
  mkFun "Signature.__str__"
    [("self", None)]
    [] false
    [SReturn (EOp (OFormat [FVal ""; FLit "/"; FVal ""]) [(EOp (OAttr "_nominator") [(EName "self")]); (EOp (OAttr "_denominator") [(EName "self")])])].

(** Signature.__repr__ (core/signature.py 127-133). *)
Definition src_Signature___repr__ : fundef :=
  mkFun "Signature.__repr__"
    [("self", None)]
    [] false
    [SReturn (EOp (OFormat [FVal ""; FLit "("; FVal ""; FLit ", "; FVal ""; FLit ")"]) [(EOp (OAttr "__name__") [(EOp (OAttr "__class__") [(EName "self")])]); (EOp (OAttr "_nominator") [(EName "self")]); (EOp (OAttr "_denominator") [(EName "self")])])].

(** Signature.__eq__ (core/signature.py 135-144). *)
Definition src_Signature___eq__ : fundef :=
  mkFun "Signature.__eq__"
    [("self", None); ("other", None)]
    [] false
    [SAssign (TTuple [(TName "n1"); (TName "n2"); (TName "_")]) (EOp (OCall [APos]) [(EOp (OAttr "_to_common_denominator") [(EName "self")]); (EName "other")]);
     SReturn (ECmp (EName "n1") [(CEq, (EName "n2"))])].

(** Signature.__le__ (core/signature.py 146-155). *)
Definition src_Signature___le__ : fundef :=
  mkFun "Signature.__le__"
    [("self", None); ("other", None)]
    [] false
    [SAssign (TTuple [(TName "n1"); (TName "n2"); (TName "_")]) (EOp (OCall [APos]) [(EOp (OAttr "_to_common_denominator") [(EName "self")]); (EName "other")]);
     SReturn (ECmp (EName "n1") [(CLe, (EName "n2"))])].

(** Signature.__lt__ (core/signature.py 157-166). *)
Definition src_Signature___lt__ : fundef :=
  mkFun "Signature.__lt__"
    [("self", None); ("other", None)]
    [] false
    [SAssign (TTuple [(TName "n1"); (TName "n2"); (TName "_")]) (EOp (OCall [APos]) [(EOp (OAttr "_to_common_denominator") [(EName "self")]); (EName "other")]);
     SReturn (ECmp (EName "n1") [(CLt, (EName "n2"))])].

(** Signature.__ge__ (core/signature.py 168-177). *)
Definition src_Signature___ge__ : fundef :=
  mkFun "Signature.__ge__"
    [("self", None); ("other", None)]
    [] false
    [SAssign (TTuple [(TName "n1"); (TName "n2"); (TName "_")]) (EOp (OCall [APos]) [(EOp (OAttr "_to_common_denominator") [(EName "self")]); (EName "other")]);
     SReturn (ECmp (EName "n1") [(CGe, (EName "n2"))])].

(** Signature.__gt__ (core/signature.py 179-188). *)
Definition src_Signature___gt__ : fundef :=
  mkFun "Signature.__gt__"
    [("self", None); ("other", None)]
    [] false
    [SAssign (TTuple [(TName "n1"); (TName "n2"); (TName "_")]) (EOp (OCall [APos]) [(EOp (OAttr "_to_common_denominator") [(EName "self")]); (EName "other")]);
     SReturn (ECmp (EName "n1") [(CGt, (EName "n2"))])].

(** Signature.__add__ (core/signature.py 190-199). *)
Definition src_Signature___add__ : fundef :=
  mkFun "Signature.__add__"
    [("self", None); ("other", None)]
    [] false
    [SAssign (TTuple [(TName "n1"); (TName "n2"); (TName "d")]) (EOp (OCall [APos]) [(EOp (OAttr "_to_common_denominator") [(EName "self")]); (EName "other")]);
     SReturn (EOp (OCall [APos; APos]) [(EName "Signature"); (EOp (OBin Add) [(EName "n1"); (EName "n2")]); (EName "d")])].

(** Signature.__mul__ (core/signature.py 201-208). *)
Definition src_Signature___mul__ : fundef :=
  mkFun "Signature.__mul__"
    [("self", None); ("other", None)]
    [] false
    [SReturn (EOp (OCall [APos; APos]) [(EName "Signature"); (EOp (OBin Mult) [(EOp (OAttr "_nominator") [(EName "self")]); (EOp (OAttr "_nominator") [(EName "other")])]); (EOp (OBin Mult) [(EOp (OAttr "_denominator") [(EName "self")]); (EOp (OAttr "_denominator") [(EName "other")])])])].

(** Signature.__abs__ (core/signature.py 210-216). *)
Definition src_Signature___abs__ : fundef :=
  mkFun "Signature.__abs__"
    [("self", None)]
    [] false
    [SReturn (EOp (OCall [APos; APos]) [(EName "Signature"); (EOp (OCall [APos]) [(EName "abs"); (EOp (OAttr "_nominator") [(EName "self")])]); (EOp (OAttr "_denominator") [(EName "self")])])].

(** Tone.__init__ (core/tone.py 23-46). *)
Definition src_Tone___init__ : fundef :=
  mkFun "Tone.__init__"
    [("self", None); ("pitch", None)]
    [] false
    [SIf (EOp ONot [(EOp (OCall [APos; APos]) [(EName "isinstance"); (EName "pitch"); (EName "int")])])
       [SRaise (EOp (OCall [APos]) [(EName "ValueError"); (EConst (VStr (lit "Pitch must be an integer, to construct tone from notation use Tone.from_notation")))])]
       [];
     SAssign (TAttr "self" "_pitch") (EName "pitch")].

(** Tone.pitch (core/tone.py 49-55). *)
Definition src_Tone_pitch : fundef :=
  mkFun "Tone.pitch"
    [("self", None)]
    [] false
    [SReturn (EOp (OAttr "_pitch") [(EName "self")])].

(** Tone.octave (core/tone.py 58-71). *)
Definition src_Tone_octave : fundef :=
  mkFun "Tone.octave"
    [("self", None)]
    [] false
    [SReturn (EOp (OBin FloorDiv) [(EOp (OAttr "_pitch") [(EName "self")]); (EConst (VInt 12))])].

(** Tone.from_notation (core/tone.py 74-108). *)
Definition src_Tone_from_notation : fundef :=
  mkFun "Tone.from_notation"
    [("cls", None); ("notation", None)]
    [] false
    [SAssign (TName "match") (EOp (OCall [APos]) [(EOp (OAttr "match") [(EName "_notation_regex")]); (EName "notation")]);
     SIf (ECmp (EName "match") [(CIs, (EConst VNone))])
       [SRaise (EOp (OCall [APos]) [(EName "ValueError"); (EConst (VStr (lit "Invalid notation")))])]
       [];
     SAssign (TName "base_pitch") (EOp OIndex [(EName "_tone_mapping"); (EOp (OCall [APos]) [(EOp (OAttr "group") [(EName "match")]); (EConst (VStr (lit "tone")))])]);
     SAssign (TName "transposition") (EOp (OCall [APos]) [(EName "sum"); (EComp CompGen (EIf (ECmp (EName "t") [(CEq, (EConst (VStr (lit "#"))))]) (EOp OPos [(EConst (VInt 1))]) (EOp ONeg [(EConst (VInt 1))])) (TName "t") (EOp (OCall [APos]) [(EOp (OAttr "group") [(EName "match")]); (EConst (VStr (lit "transposition")))]))]);
     SAssign (TName "octave_raw") (EOp (OCall [APos]) [(EOp (OAttr "group") [(EName "match")]); (EConst (VStr (lit "octave")))]);
     SAssign (TName "octave") (EIf (EName "octave_raw") (EOp (OCall [APos]) [(EName "int"); (EName "octave_raw")]) (EConst (VInt 0)));
     SReturn (EOp (OCall [APos]) [(EName "cls"); (EOp (OBin Add) [(EOp (OBin Add) [(EOp (OBin Mult) [(EConst (VInt 12)); (EName "octave")]); (EName "base_pitch")]); (EName "transposition")])])].

(** Tone.to_notation (core/tone.py 110-146). *)
Definition src_Tone_to_notation : fundef :=
  mkFun "Tone.to_notation"
    [("self", None); ("transpose_down", Some (EConst (VBool false)))]
    [] false
    [SAssign (TName "base_pitch") (EOp (OBin Mod) [(EOp (OAttr "_pitch") [(EName "self")]); (EConst (VInt 12))]);
     SAssign (TName "octave") (EOp (OBin FloorDiv) [(EOp (OAttr "_pitch") [(EName "self")]); (EConst (VInt 12))]);
     SIf (ECmp (EName "base_pitch") [(CIn, (EName "_reverse_tone_mapping"))])
       [SAssign (TName "tone") (EOp OIndex [(EName "_reverse_tone_mapping"); (EName "base_pitch")]);
        SAssign (TName "transposition") (EConst (VStr (lit "")))]
       [SIf (EName "transpose_down")
          [SAssign (TName "tone") (EOp OIndex [(EName "_reverse_tone_mapping"); (EOp (OBin Add) [(EName "base_pitch"); (EConst (VInt 1))])]);
           SAssign (TName "transposition") (EConst (VStr (lit "b")))]
          [SAssign (TName "tone") (EOp OIndex [(EName "_reverse_tone_mapping"); (EOp (OBin Sub) [(EName "base_pitch"); (EConst (VInt 1))])]);
           SAssign (TName "transposition") (EConst (VStr (lit "#")))]];
     SReturn (EOp (OFormat [FVal "s"; FVal "s"; FVal "d"]) [(EName "tone"); (EName "transposition"); (EName "octave")])].

(** Tone.to_frequency (core/tone.py 148-156). *)
Definition src_Tone_to_frequency : fundef :=
  mkFun "Tone.to_frequency"
    [("self", None); ("base", Some (EConst (VFloat (S754_finite false 7740561859543040 (-44)))))]
    [] false
    [SReturn (EOp (OBin Mult) [(EName "base"); (EOp (OBin Pow) [(EConst (VInt 2)); (EOp (OBin Div) [(EOp (OBin Sub) [(EOp (OAttr "_pitch") [(EName "self")]); (EConst (VInt 57))]); (EConst (VInt 12))])])])].

(** Tone.transposed (core/tone.py 158-178). *)
Definition src_Tone_transposed : fundef :=
  mkFun "Tone.transposed"
    [("self", None); ("transposition", None)]
    [] false
    [SReturn (EOp (OCall [AKey "pitch"]) [(EName "Tone"); (EOp (OBin Add) [(EOp (OAttr "_pitch") [(EName "self")]); (EName "transposition")])])].

(** Tone.__str__ (core/tone.py 180-186). *)
Definition src_Tone___str__ : fundef :=
  mkFun "Tone.__str__"
    [("self", None)]
    [] false
    [SReturn (EOp (OCall []) [(EOp (OAttr "to_notation") [(EName "self")])])].

(** Tone.__repr__ (core/tone.py 188-194). *)
Definition src_Tone___repr__ : fundef :=
  mkFun "Tone.__repr__"
    [("self", None)]
    [] false
    [SReturn (EOp (OFormat [FVal ""; FLit "(pitch="; FVal ""; FLit ")"]) [(EOp (OAttr "__name__") [(EOp (OAttr "__class__") [(EName "self")])]); (EOp (OAttr "_pitch") [(EName "self")])])].

(** Tone.__eq__ (core/tone.py 196-203). *)
Definition src_Tone___eq__ : fundef :=
  mkFun "Tone.__eq__"
    [("self", None); ("other", None)]
    [] false
    [SReturn (ECmp (EOp (OAttr "_pitch") [(EName "self")]) [(CEq, (EOp (OAttr "_pitch") [(EName "other")]))])].

(** Tone.__le__ (core/tone.py 205-212). *)
Definition src_Tone___le__ : fundef :=
  mkFun "Tone.__le__"
    [("self", None); ("other", None)]
    [] false
    [SReturn (ECmp (EOp (OAttr "_pitch") [(EName "self")]) [(CLe, (EOp (OAttr "_pitch") [(EName "other")]))])].

(** Tone.__lt__ (core/tone.py 214-221). *)
Definition src_Tone___lt__ : fundef :=
  mkFun "Tone.__lt__"
    [("self", None); ("other", None)]
    [] false
    [SReturn (ECmp (EOp (OAttr "_pitch") [(EName "self")]) [(CLt, (EOp (OAttr "_pitch") [(EName "other")]))])].

(** Tone.__ge__ (core/tone.py 223-230). *)
Definition src_Tone___ge__ : fundef :=
  mkFun "Tone.__ge__"
    [("self", None); ("other", None)]
    [] false
    [SReturn (ECmp (EOp (OAttr "_pitch") [(EName "self")]) [(CGe, (EOp (OAttr "_pitch") [(EName "other")]))])].

(** Tone.__gt__ (core/tone.py 232-239). *)
Definition src_Tone___gt__ : fundef :=
  mkFun "Tone.__gt__"
    [("self", None); ("other", None)]
    [] false
    [SReturn (ECmp (EOp (OAttr "_pitch") [(EName "self")]) [(CGt, (EOp (OAttr "_pitch") [(EName "other")]))])].

(** The module level assignments and loops of core/tone.py. *)
Definition src_module_tone : list stmt :=
    [SAssign (TName "_notation_regex") (EOp (OCall [APos]) [(EOp (OAttr "compile") [(EName "re")]); (EConst (VStr (lit "(?P<tone>[ABCDEFG])(?P<transposition>[#b]*)(?P<octave>-?\d+)?")))]);
     SAssign (TName "_tone_mapping") (EOp ODict [(EConst (VStr (lit "C"))); (EConst (VInt 0)); (EConst (VStr (lit "D"))); (EConst (VInt 2)); (EConst (VStr (lit "E"))); (EConst (VInt 4)); (EConst (VStr (lit "F"))); (EConst (VInt 5)); (EConst (VStr (lit "G"))); (EConst (VInt 7)); (EConst (VStr (lit "A"))); (EConst (VInt 9)); (EConst (VStr (lit "B"))); (EConst (VInt 11))]);
     SAssign (TName "_reverse_tone_mapping") (EComp CompDict (EOp OTuple [(EName "v"); (EName "k")]) (TTuple [(TName "k"); (TName "v")]) (EOp (OCall []) [(EOp (OAttr "items") [(EName "_tone_mapping")])]))].

(** Note.__init__ (core/note.py 13-53). *)
Definition src_Note___init__ : fundef :=
  mkFun "Note.__init__"
    [("self", None); ("tone", None); ("duration", Some (EOp (OCall [APos; APos]) [(EName "Signature"); (EConst (VInt 1)); (EConst (VInt 4))])); ("velocity", Some (EConst (VFloat (S754_finite false 6755399441055744 (-53)))))]
    [] false
    [SIf (EOp (OCall [APos; APos]) [(EName "isinstance"); (EName "tone"); (EName "Tone")])
       [SAssign (TAttr "self" "_tone") (EName "tone")]
       [SIf (EOp (OCall [APos; APos]) [(EName "isinstance"); (EName "tone"); (EName "int")])
          [SAssign (TAttr "self" "_tone") (EOp (OCall [APos]) [(EName "Tone"); (EName "tone")])]
          [SIf (EOp (OCall [APos; APos]) [(EName "isinstance"); (EName "tone"); (EName "str")])
             [SAssign (TAttr "self" "_tone") (EOp (OCall [APos]) [(EOp (OAttr "from_notation") [(EName "Tone")]); (EName "tone")])]
             [SRaise (EOp (OCall [APos]) [(EName "TypeError"); (EConst (VStr (lit "tone must be a Tone object, an integer or a string")))])]]];
     SIf (EOp (OCall [APos; APos]) [(EName "isinstance"); (EName "duration"); (EName "Signature")])
       [SAssign (TAttr "self" "_duration") (EName "duration")]
       [SIf (EOp (OCall [APos; APos]) [(EName "isinstance"); (EName "duration"); (EName "Iterable")])
          [SAssign (TAttr "self" "_duration") (EOp (OCall [AStar]) [(EName "Signature"); (EName "duration")])]
          [SRaise (EOp (OCall [APos]) [(EName "TypeError"); (EConst (VStr (lit "duration must be a Signature object or a pair of integers")))])]];
     SIf (EOp ONot [(ECmp (EConst (VFloat (S754_zero false))) [(CLe, (EName "velocity")); (CLe, (EConst (VFloat (S754_finite false 4503599627370496 (-52)))))])])
       [SRaise (EOp (OCall [APos]) [(EName "ValueError"); (EConst (VStr (lit "velocity must be in range [0.0, 1.0]")))])]
       [];
     SAssign (TAttr "self" "_velocity") (EName "velocity")].

(** Note.tone (core/note.py 56-62). *)
Definition src_Note_tone : fundef :=
  mkFun "Note.tone"
    [("self", None)]
    [] false
    [SReturn (EOp (OAttr "_tone") [(EName "self")])].

(** Note.velocity (core/note.py 65-71). *)
Definition src_Note_velocity : fundef :=
  mkFun "Note.velocity"
    [("self", None)]
    [] false
    [SReturn (EOp (OAttr "_velocity") [(EName "self")])].

(** Note.duration (core/note.py 74-80). *)
Definition src_Note_duration : fundef :=
  mkFun "Note.duration"
    [("self", None)]
    [] false
    [SReturn (EOp (OAttr "_duration") [(EName "self")])].

(** Note.transposed (core/note.py 82-93). *)
Definition src_Note_transposed : fundef :=
  mkFun "Note.transposed"
    [("self", None); ("transposition", None)]
    [] false
    [SReturn (EOp (OCall [AKey "tone"; AKey "duration"; AKey "velocity"]) [(EName "Note"); (EOp (OCall [APos]) [(EOp (OAttr "transposed") [(EOp (OAttr "_tone") [(EName "self")])]); (EName "transposition")]); (EOp (OAttr "_duration") [(EName "self")]); (EOp (OAttr "_velocity") [(EName "self")])])].

(** Note.with_duration (core/note.py 95-106). *)
Definition src_Note_with_duration : fundef :=
  mkFun "Note.with_duration"
    [("self", None); ("duration", None)]
    [] false
    [SReturn (EOp (OCall [AKey "tone"; AKey "duration"; AKey "velocity"]) [(EName "Note"); (EOp (OAttr "_tone") [(EName "self")]); (EName "duration"); (EOp (OAttr "_velocity") [(EName "self")])])].

(** Note.with_velocity (core/note.py 108-119). *)
Definition src_Note_with_velocity : fundef :=
  mkFun "Note.with_velocity"
    [("self", None); ("velocity", None)]
    [] false
    [SReturn (EOp (OCall [AKey "tone"; AKey "duration"; AKey "velocity"]) [(EName "Note"); (EOp (OAttr "_tone") [(EName "self")]); (EOp (OAttr "_duration") [(EName "self")]); (EName "velocity")])].

(** Note._as_triplet (core/note.py 121-122). *)
Definition src_Note__as_triplet : fundef :=
  mkFun "Note._as_triplet"
    [("self", None)]
    [] false
    [SReturn (EOp OTuple [(EOp (OAttr "_tone") [(EName "self")]); (EOp (OAttr "_duration") [(EName "self")]); (EOp (OAttr "_velocity") [(EName "self")])])].

(** Note.__str__ (core/note.py 124-130). *)
Definition src_Note___str__ : fundef :=
  mkFun "Note.__str__"
    [("self", None)]
    [] false
    [SReturn (EOp (OFormat [FLit "Note "; FVal ""; FLit " "; FVal ""; FLit " ("; FVal ".3f"; FLit ")"]) [(EOp (OCall [APos]) [(EName "str"); (EOp (OAttr "_duration") [(EName "self")])]); (EOp (OCall [APos]) [(EName "str"); (EOp (OAttr "_tone") [(EName "self")])]); (EOp (OAttr "_velocity") [(EName "self")])])].

(** Note.__repr__ (core/note.py 132-143). *)
Definition src_Note___repr__ : fundef :=
  mkFun "Note.__repr__"
    [("self", None)]
    [] false
    [SAssign (TName "name") (EOp (OAttr "__name__") [(EOp (OAttr "__class__") [(EName "self")])]);
     SAssign (TName "pitch") (EOp (OAttr "pitch") [(EOp (OAttr "_tone") [(EName "self")])]);
     SAssign (TName "velocity") (EOp (OAttr "_velocity") [(EName "self")]);
     SAssign (TName "duration") (EOp (OFormat [FLit "("; FVal ""; FLit ", "; FVal ""; FLit ")"]) [(EOp (OAttr "nominator") [(EOp (OAttr "_duration") [(EName "self")])]); (EOp (OAttr "denominator") [(EOp (OAttr "_duration") [(EName "self")])])]);
     SReturn (EOp (OFormat [FVal ""; FLit "(tone="; FVal ""; FLit ", duration="; FVal ""; FLit ", velocity="; FVal ""; FLit ") "]) [(EName "name"); (EName "pitch"); (EName "duration"); (EName "velocity")])].

(** Note.__eq__ (core/note.py 145-152). *)
Definition src_Note___eq__ : fundef :=
  mkFun "Note.__eq__"
    [("self", None); ("other", None)]
    [] false
    [SReturn (ECmp (EOp (OCall []) [(EOp (OAttr "_as_triplet") [(EName "self")])]) [(CEq, (EOp (OCall []) [(EOp (OAttr "_as_triplet") [(EName "other")])]))])].

(** Note.__le__ (core/note.py 154-161). *)
Definition src_Note___le__ : fundef :=
  mkFun "Note.__le__"
    [("self", None); ("other", None)]
    [] false
    [SReturn (ECmp (EOp (OCall []) [(EOp (OAttr "_as_triplet") [(EName "self")])]) [(CLe, (EOp (OCall []) [(EOp (OAttr "_as_triplet") [(EName "other")])]))])].

(** Note.__lt__ (core/note.py 163-170). *)
Definition src_Note___lt__ : fundef :=
  mkFun "Note.__lt__"
    [("self", None); ("other", None)]
    [] false
    [SReturn (ECmp (EOp (OCall []) [(EOp (OAttr "_as_triplet") [(EName "self")])]) [(CLt, (EOp (OCall []) [(EOp (OAttr "_as_triplet") [(EName "other")])]))])].

(** Note.__ge__ (core/note.py 172-179). *)
Definition src_Note___ge__ : fundef :=
  mkFun "Note.__ge__"
    [("self", None); ("other", None)]
    [] false
    [SReturn (ECmp (EOp (OCall []) [(EOp (OAttr "_as_triplet") [(EName "self")])]) [(CGe, (EOp (OCall []) [(EOp (OAttr "_as_triplet") [(EName "other")])]))])].

(** Note.__gt__ (core/note.py 181-188). *)
Definition src_Note___gt__ : fundef :=
  mkFun "Note.__gt__"
    [("self", None); ("other", None)]
    [] false
    [SReturn (ECmp (EOp (OCall []) [(EOp (OAttr "_as_triplet") [(EName "self")])]) [(CGt, (EOp (OCall []) [(EOp (OAttr "_as_triplet") [(EName "other")])]))])].

(** Track.__init__ (core/track.py 21-48). *)
Definition src_Track___init__ : fundef :=
  mkFun "Track.__init__"
    [("self", None); ("signature", Some (EOp (OCall [APos; APos]) [(EName "Signature"); (EConst (VInt 4)); (EConst (VInt 4))])); ("content", Some (EConst VNone))]
    [] false
    [SIf (EOp (OCall [APos; APos]) [(EName "isinstance"); (EName "signature"); (EName "Signature")])
       [SAssign (TAttr "self" "_signature") (EName "signature")]
       [SIf (EOp (OCall [APos; APos]) [(EName "isinstance"); (EName "signature"); (EName "Iterable")])
          [SAssign (TAttr "self" "_signature") (EOp (OCall [AStar]) [(EName "Signature"); (EName "signature")])]
          [SRaise (EOp (OCall [APos]) [(EName "TypeError"); (EConst (VStr (lit "signature must be a Signature object or a pair of integers")))])]];
     SAssign (TAttr "self" "_max_denominator") (EConst (VInt 1));
     SAssign (TAttr "self" "_heap") (EOp OList []);
     SAssign (TAttr "self" "_max_position") (EOp (OCall [APos; APos]) [(EName "Signature"); (EConst (VInt 0)); (EConst (VInt 1))]);
     SAssign (TAttr "self" "_sorted") (EConst (VBool true));
     SIf (ECmp (EName "content") [(CIsNot, (EConst VNone))])
       [SFor (TTuple [(TName "note"); (TName "position")]) (EName "content")
          [SExpr (EOp (OCall [APos; AKey "where"]) [(EOp (OAttr "add") [(EName "self")]); (EName "note"); (EName "position")])]]
       []].

(** Track.signature (core/track.py 51-57). *)
Definition src_Track_signature : fundef :=
  mkFun "Track.signature"
    [("self", None)]
    [] false
    [SReturn (EOp (OAttr "_signature") [(EName "self")])].

(** Track.length (core/track.py 60-68). *)
Definition src_Track_length : fundef :=
  mkFun "Track.length"
    [("self", None)]
    [] false
    [SReturn (EOp (OAttr "_max_position") [(EName "self")])].

(** Track.add (core/track.py 70-113). *)
Definition src_Track_add : fundef :=
  mkFun "Track.add"
    [("self", None); ("what", None); ("where", Some (EConst VNone))]
    [] false
    [SIf (ECmp (EName "where") [(CIs, (EConst VNone))])
       [SAssign (TName "position") (EOp (OAttr "_max_position") [(EName "self")])]
       [SIf (EOp (OCall [APos; APos]) [(EName "isinstance"); (EName "where"); (EName "Signature")])
          [SAssign (TName "position") (EName "where")]
          [SIf (EOp (OCall [APos; APos]) [(EName "isinstance"); (EName "where"); (EName "Iterable")])
             [SAssign (TName "position") (EOp (OCall [AStar]) [(EName "Signature"); (EName "where")])]
             [SRaise (EOp (OCall [APos]) [(EName "TypeError"); (EConst (VStr (lit "where must be a Signature object or a pair of integers")))])]]];
     SIf (EOp (OCall [APos; APos]) [(EName "isinstance"); (EName "what"); (EName "Iterable")])
       [SFor (TName "x") (EName "what")
          [SExpr (EOp (OCall [AKey "what"; AKey "where"]) [(EOp (OAttr "add") [(EName "self")]); (EName "x"); (EName "position")])];
        SReturn (EConst VNone)]
       [];
     SAssign (TName "note") (EName "what");
     SIf (ECmp (EOp (OAttr "denominator") [(EName "position")]) [(CGt, (EOp (OAttr "_max_denominator") [(EName "self")]))])
       [SAssign (TAttr "self" "_max_denominator") (EOp (OAttr "denominator") [(EName "position")]);
        SAssign (TAttr "self" "_heap") (EComp CompList (EOp OTuple [(EOp (OCall [APos]) [(EOp (OAttr "to") [(EName "s")]); (EOp (OAttr "_max_denominator") [(EName "self")])]); (EName "n")]) (TTuple [(TName "s"); (TName "n")]) (EOp (OAttr "_heap") [(EName "self")]))]
       [];
     SAssign (TName "position_transformed") (EOp (OCall [APos]) [(EOp (OAttr "to") [(EName "position")]); (EOp (OAttr "_max_denominator") [(EName "self")])]);
     SExpr (EOp (OCall [APos; APos]) [(EOp (OAttr "heappush") [(EName "heapq")]); (EOp (OAttr "_heap") [(EName "self")]); (EOp OTuple [(EName "position_transformed"); (EName "note")])]);
     SAssign (TAttr "self" "_sorted") (EConst (VBool false));
     SAssign (TName "end_position") (EOp (OBin Add) [(EName "position_transformed"); (EOp (OAttr "duration") [(EName "note")])]);
     SIf (ECmp (EName "end_position") [(CGt, (EOp (OAttr "_max_position") [(EName "self")]))])
       [SAssign (TAttr "self" "_max_position") (EName "end_position")]
       []].

(** Track.__eq__ (core/track.py 115-130). *)
Definition src_Track___eq__ : fundef :=
  mkFun "Track.__eq__"
    [("self", None); ("other", None)]
    [] false
    [SIf (ECmp (EOp (OAttr "_signature") [(EName "self")]) [(CNe, (EOp (OAttr "_signature") [(EName "other")]))])
       [SReturn (EConst (VBool false))]
       [];
     SFor (TTuple [(TTuple [(TName "ap"); (TName "an")]); (TTuple [(TName "bp"); (TName "bn")])]) (EOp (OCall [APos; APos]) [(EName "zip"); (EName "self"); (EName "other")])
       [SIf (EOr (ECmp (EName "an") [(CNe, (EName "bn"))]) (ECmp (EName "ap") [(CNe, (EName "bp"))]))
          [SReturn (EConst (VBool false))]
          []];
     SReturn (EConst (VBool true))].

(** Track.__iter__ (core/track.py 132-143). *)
Definition src_Track___iter__ : fundef :=
  mkFun "Track.__iter__"
    [("self", None)]
    [] false
    [SIf (EOp ONot [(EOp (OAttr "_sorted") [(EName "self")])])
       [SExpr (EOp (OCall []) [(EOp (OAttr "sort") [(EOp (OAttr "_heap") [(EName "self")])])]);
        SAssign (TAttr "self" "_sorted") (EConst (VBool true))]
       [];
     SReturn (EOp (OCall [APos]) [(EName "iter"); (EOp (OAttr "_heap") [(EName "self")])])].

(** Track.__len__ (core/track.py 145-151). *)
Definition src_Track___len__ : fundef :=
  mkFun "Track.__len__"
    [("self", None)]
    [] false
    [SReturn (EOp (OCall [APos]) [(EName "len"); (EOp (OAttr "_heap") [(EName "self")])])].

(** Track.__str__ (core/track.py 153-159). *)
Definition src_Track___str__ : fundef :=
  mkFun "Track.__str__"
    [("self", None)]
    [] false
    [SReturn (EOp (OFormat [FLit "Track "; FVal ""; FLit " with "; FVal ""; FLit " notes"]) [(EOp (OCall [APos]) [(EName "str"); (EOp (OAttr "_signature") [(EName "self")])]); (EOp (OCall [APos]) [(EName "len"); (EOp (OAttr "_heap") [(EName "self")])])])].

(** Track.__repr__ (core/track.py 161-174). *)
Definition src_Track___repr__ : fundef :=
  mkFun "Track.__repr__"
    [("self", None)]
    [] false
    [SAssign (TName "name") (EOp (OAttr "__name__") [(EOp (OAttr "__class__") [(EName "self")])]);
     SAssign (TName "signature") (EOp (OFormat [FLit "("; FVal ""; FLit ", "; FVal ""; FLit ")"]) [(EOp (OAttr "nominator") [(EOp (OAttr "_signature") [(EName "self")])]); (EOp (OAttr "denominator") [(EOp (OAttr "_signature") [(EName "self")])])]);
     SAssign (TName "contents") (EOp OList []);
     SFor (TTuple [(TName "position"); (TName "note")]) (EName "self")
       [SExpr (EOp (OCall [APos]) [(EOp (OAttr "append") [(EName "contents")]); (EOp (OFormat [FLit "("; FVal ""; FLit ", ("; FVal ""; FLit ", "; FVal ""; FLit "))"]) [(EOp (OCall [APos]) [(EName "repr"); (EName "note")]); (EOp (OAttr "nominator") [(EName "position")]); (EOp (OAttr "denominator") [(EName "position")])])])];
     SReturn (EOp (OFormat [FVal ""; FLit "(signature="; FVal ""; FLit ", content=["; FVal ""; FLit "])"]) [(EName "name"); (EName "signature"); (EOp (OCall [APos]) [(EOp (OAttr "join") [(EConst (VStr (lit ", ")))]); (EName "contents")])])].

(** chord._get_parameters (music/chord.py 7-39). *)
Definition src_chord__get_parameters : fundef :=
  mkFun "chord._get_parameters"
    [("base", None); ("duration", Some (EConst VNone)); ("velocity", Some (EConst VNone))]
    [] false
    [SIf (EOp (OCall [APos; APos]) [(EName "isinstance"); (EName "base"); (EName "int")])
       [SAssign (TName "base_tone") (EOp (OCall [APos]) [(EName "Tone"); (EName "base")])]
       [SIf (EOp (OCall [APos; APos]) [(EName "isinstance"); (EName "base"); (EName "str")])
          [SAssign (TName "base_tone") (EOp (OCall [APos]) [(EOp (OAttr "from_notation") [(EName "Tone")]); (EName "base")])]
          [SIf (EOp (OCall [APos; APos]) [(EName "isinstance"); (EName "base"); (EName "Tone")])
             [SAssign (TName "base_tone") (EName "base")]
             [SIf (EOp (OCall [APos; APos]) [(EName "isinstance"); (EName "base"); (EName "Note")])
                [SAssign (TName "base_tone") (EOp (OAttr "tone") [(EName "base")])]
                [SRaise (EOp (OCall [APos]) [(EName "ValueError"); (EConst (VStr (lit "base must be int, str, Tone or Note")))])]]]];
     SIf (ECmp (EName "duration") [(CIs, (EConst VNone))])
       [SIf (EOp (OCall [APos; APos]) [(EName "isinstance"); (EName "base"); (EName "Note")])
          [SAssign (TName "base_duration") (EOp (OAttr "duration") [(EName "base")])]
          [SAssign (TName "base_duration") (EOp (OCall [APos; APos]) [(EName "Signature"); (EConst (VInt 1)); (EConst (VInt 4))])]]
       [SAssign (TName "base_duration") (EName "duration")];
     SIf (ECmp (EName "velocity") [(CIs, (EConst VNone))])
       [SIf (EOp (OCall [APos; APos]) [(EName "isinstance"); (EName "base"); (EName "Note")])
          [SAssign (TName "base_velocity") (EOp (OAttr "velocity") [(EName "base")])]
          [SAssign (TName "base_velocity") (EConst (VFloat (S754_finite false 6755399441055744 (-53))))]]
       [SAssign (TName "base_velocity") (EName "velocity")];
     SReturn (EOp OTuple [(EName "base_tone"); (EName "base_duration"); (EName "base_velocity")])].

(** chord.major (music/chord.py 42-64). *)
Definition src_chord_major : fundef :=
  mkFun "chord.major"
    [("base", None); ("duration", Some (EConst VNone)); ("velocity", Some (EConst VNone))]
    [] false
    [SAssign (TTuple [(TName "base_tone"); (TName "base_duration"); (TName "base_velocity")]) (EOp (OCall [APos; APos; APos]) [(EName "chord._get_parameters"); (EName "base"); (EName "duration"); (EName "velocity")]);
     SReturn (EOp OTuple [(EOp (OCall [APos; APos; APos]) [(EName "Note"); (EName "base_tone"); (EName "base_duration"); (EName "base_velocity")]); (EOp (OCall [APos; APos; APos]) [(EName "Note"); (EOp (OCall [APos]) [(EOp (OAttr "transposed") [(EName "base_tone")]); (EOp OPos [(EConst (VInt 4))])]); (EName "base_duration"); (EName "base_velocity")]); (EOp (OCall [APos; APos; APos]) [(EName "Note"); (EOp (OCall [APos]) [(EOp (OAttr "transposed") [(EName "base_tone")]); (EOp OPos [(EConst (VInt 7))])]); (EName "base_duration"); (EName "base_velocity")])])].

(** chord.maj (music/chord.py 67-89). *)
Definition src_chord_maj : fundef :=
  mkFun "chord.maj"
    [("base", None); ("duration", Some (EConst VNone)); ("velocity", Some (EConst VNone))]
    [] false
    [SAssign (TTuple [(TName "base_tone"); (TName "base_duration"); (TName "base_velocity")]) (EOp (OCall [APos; APos; APos]) [(EName "chord._get_parameters"); (EName "base"); (EName "duration"); (EName "velocity")]);
     SReturn (EOp OTuple [(EOp (OCall [APos; APos; APos]) [(EName "Note"); (EName "base_tone"); (EName "base_duration"); (EName "base_velocity")]); (EOp (OCall [APos; APos; APos]) [(EName "Note"); (EOp (OCall [APos]) [(EOp (OAttr "transposed") [(EName "base_tone")]); (EOp OPos [(EConst (VInt 4))])]); (EName "base_duration"); (EName "base_velocity")]); (EOp (OCall [APos; APos; APos]) [(EName "Note"); (EOp (OCall [APos]) [(EOp (OAttr "transposed") [(EName "base_tone")]); (EOp OPos [(EConst (VInt 7))])]); (EName "base_duration"); (EName "base_velocity")])])].

(** chord.minor (music/chord.py 92-114). *)
Definition src_chord_minor : fundef :=
  mkFun "chord.minor"
    [("base", None); ("duration", Some (EConst VNone)); ("velocity", Some (EConst VNone))]
    [] false
    [SAssign (TTuple [(TName "base_tone"); (TName "base_duration"); (TName "base_velocity")]) (EOp (OCall [APos; APos; APos]) [(EName "chord._get_parameters"); (EName "base"); (EName "duration"); (EName "velocity")]);
     SReturn (EOp OTuple [(EOp (OCall [APos; APos; APos]) [(EName "Note"); (EName "base_tone"); (EName "base_duration"); (EName "base_velocity")]); (EOp (OCall [APos; APos; APos]) [(EName "Note"); (EOp (OCall [APos]) [(EOp (OAttr "transposed") [(EName "base_tone")]); (EOp OPos [(EConst (VInt 3))])]); (EName "base_duration"); (EName "base_velocity")]); (EOp (OCall [APos; APos; APos]) [(EName "Note"); (EOp (OCall [APos]) [(EOp (OAttr "transposed") [(EName "base_tone")]); (EOp OPos [(EConst (VInt 7))])]); (EName "base_duration"); (EName "base_velocity")])])].

(** chord.min (music/chord.py 117-139). *)
Definition src_chord_min : fundef :=
  mkFun "chord.min"
    [("base", None); ("duration", Some (EConst VNone)); ("velocity", Some (EConst VNone))]
    [] false
    [SAssign (TTuple [(TName "base_tone"); (TName "base_duration"); (TName "base_velocity")]) (EOp (OCall [APos; APos; APos]) [(EName "chord._get_parameters"); (EName "base"); (EName "duration"); (EName "velocity")]);
     SReturn (EOp OTuple [(EOp (OCall [APos; APos; APos]) [(EName "Note"); (EName "base_tone"); (EName "base_duration"); (EName "base_velocity")]); (EOp (OCall [APos; APos; APos]) [(EName "Note"); (EOp (OCall [APos]) [(EOp (OAttr "transposed") [(EName "base_tone")]); (EOp OPos [(EConst (VInt 3))])]); (EName "base_duration"); (EName "base_velocity")]); (EOp (OCall [APos; APos; APos]) [(EName "Note"); (EOp (OCall [APos]) [(EOp (OAttr "transposed") [(EName "base_tone")]); (EOp OPos [(EConst (VInt 7))])]); (EName "base_duration"); (EName "base_velocity")])])].

(** chord.augmented (music/chord.py 142-164). *)
Definition src_chord_augmented : fundef :=
  mkFun "chord.augmented"
    [("base", None); ("duration", Some (EConst VNone)); ("velocity", Some (EConst VNone))]
    [] false
    [SAssign (TTuple [(TName "base_tone"); (TName "base_duration"); (TName "base_velocity")]) (EOp (OCall [APos; APos; APos]) [(EName "chord._get_parameters"); (EName "base"); (EName "duration"); (EName "velocity")]);
     SReturn (EOp OTuple [(EOp (OCall [APos; APos; APos]) [(EName "Note"); (EName "base_tone"); (EName "base_duration"); (EName "base_velocity")]); (EOp (OCall [APos; APos; APos]) [(EName "Note"); (EOp (OCall [APos]) [(EOp (OAttr "transposed") [(EName "base_tone")]); (EOp OPos [(EConst (VInt 4))])]); (EName "base_duration"); (EName "base_velocity")]); (EOp (OCall [APos; APos; APos]) [(EName "Note"); (EOp (OCall [APos]) [(EOp (OAttr "transposed") [(EName "base_tone")]); (EOp OPos [(EConst (VInt 8))])]); (EName "base_duration"); (EName "base_velocity")])])].

(** chord.aug (music/chord.py 167-189). *)
Definition src_chord_aug : fundef :=
  mkFun "chord.aug"
    [("base", None); ("duration", Some (EConst VNone)); ("velocity", Some (EConst VNone))]
    [] false
    [SAssign (TTuple [(TName "base_tone"); (TName "base_duration"); (TName "base_velocity")]) (EOp (OCall [APos; APos; APos]) [(EName "chord._get_parameters"); (EName "base"); (EName "duration"); (EName "velocity")]);
     SReturn (EOp OTuple [(EOp (OCall [APos; APos; APos]) [(EName "Note"); (EName "base_tone"); (EName "base_duration"); (EName "base_velocity")]); (EOp (OCall [APos; APos; APos]) [(EName "Note"); (EOp (OCall [APos]) [(EOp (OAttr "transposed") [(EName "base_tone")]); (EOp OPos [(EConst (VInt 4))])]); (EName "base_duration"); (EName "base_velocity")]); (EOp (OCall [APos; APos; APos]) [(EName "Note"); (EOp (OCall [APos]) [(EOp (OAttr "transposed") [(EName "base_tone")]); (EOp OPos [(EConst (VInt 8))])]); (EName "base_duration"); (EName "base_velocity")])])].

(** chord.diminished (music/chord.py 192-214). *)
Definition src_chord_diminished : fundef :=
  mkFun "chord.diminished"
    [("base", None); ("duration", Some (EConst VNone)); ("velocity", Some (EConst VNone))]
    [] false
    [SAssign (TTuple [(TName "base_tone"); (TName "base_duration"); (TName "base_velocity")]) (EOp (OCall [APos; APos; APos]) [(EName "chord._get_parameters"); (EName "base"); (EName "duration"); (EName "velocity")]);
     SReturn (EOp OTuple [(EOp (OCall [APos; APos; APos]) [(EName "Note"); (EName "base_tone"); (EName "base_duration"); (EName "base_velocity")]); (EOp (OCall [APos; APos; APos]) [(EName "Note"); (EOp (OCall [APos]) [(EOp (OAttr "transposed") [(EName "base_tone")]); (EOp OPos [(EConst (VInt 3))])]); (EName "base_duration"); (EName "base_velocity")]); (EOp (OCall [APos; APos; APos]) [(EName "Note"); (EOp (OCall [APos]) [(EOp (OAttr "transposed") [(EName "base_tone")]); (EOp OPos [(EConst (VInt 6))])]); (EName "base_duration"); (EName "base_velocity")])])].

(** chord.dim (music/chord.py 217-239). *)
Definition src_chord_dim : fundef :=
  mkFun "chord.dim"
    [("base", None); ("duration", Some (EConst VNone)); ("velocity", Some (EConst VNone))]
    [] false
    [SAssign (TTuple [(TName "base_tone"); (TName "base_duration"); (TName "base_velocity")]) (EOp (OCall [APos; APos; APos]) [(EName "chord._get_parameters"); (EName "base"); (EName "duration"); (EName "velocity")]);
     SReturn (EOp OTuple [(EOp (OCall [APos; APos; APos]) [(EName "Note"); (EName "base_tone"); (EName "base_duration"); (EName "base_velocity")]); (EOp (OCall [APos; APos; APos]) [(EName "Note"); (EOp (OCall [APos]) [(EOp (OAttr "transposed") [(EName "base_tone")]); (EOp OPos [(EConst (VInt 3))])]); (EName "base_duration"); (EName "base_velocity")]); (EOp (OCall [APos; APos; APos]) [(EName "Note"); (EOp (OCall [APos]) [(EOp (OAttr "transposed") [(EName "base_tone")]); (EOp OPos [(EConst (VInt 6))])]); (EName "base_duration"); (EName "base_velocity")])])].

(** chord.suspended4 (music/chord.py 242-264). *)
Definition src_chord_suspended4 : fundef :=
  mkFun "chord.suspended4"
    [("base", None); ("duration", Some (EConst VNone)); ("velocity", Some (EConst VNone))]
    [] false
    [SAssign (TTuple [(TName "base_tone"); (TName "base_duration"); (TName "base_velocity")]) (EOp (OCall [APos; APos; APos]) [(EName "chord._get_parameters"); (EName "base"); (EName "duration"); (EName "velocity")]);
     SReturn (EOp OTuple [(EOp (OCall [APos; APos; APos]) [(EName "Note"); (EName "base_tone"); (EName "base_duration"); (EName "base_velocity")]); (EOp (OCall [APos; APos; APos]) [(EName "Note"); (EOp (OCall [APos]) [(EOp (OAttr "transposed") [(EName "base_tone")]); (EOp OPos [(EConst (VInt 5))])]); (EName "base_duration"); (EName "base_velocity")]); (EOp (OCall [APos; APos; APos]) [(EName "Note"); (EOp (OCall [APos]) [(EOp (OAttr "transposed") [(EName "base_tone")]); (EOp OPos [(EConst (VInt 7))])]); (EName "base_duration"); (EName "base_velocity")])])].

(** chord.sus4 (music/chord.py 267-289). *)
Definition src_chord_sus4 : fundef :=
  mkFun "chord.sus4"
    [("base", None); ("duration", Some (EConst VNone)); ("velocity", Some (EConst VNone))]
    [] false
    [SAssign (TTuple [(TName "base_tone"); (TName "base_duration"); (TName "base_velocity")]) (EOp (OCall [APos; APos; APos]) [(EName "chord._get_parameters"); (EName "base"); (EName "duration"); (EName "velocity")]);
     SReturn (EOp OTuple [(EOp (OCall [APos; APos; APos]) [(EName "Note"); (EName "base_tone"); (EName "base_duration"); (EName "base_velocity")]); (EOp (OCall [APos; APos; APos]) [(EName "Note"); (EOp (OCall [APos]) [(EOp (OAttr "transposed") [(EName "base_tone")]); (EOp OPos [(EConst (VInt 5))])]); (EName "base_duration"); (EName "base_velocity")]); (EOp (OCall [APos; APos; APos]) [(EName "Note"); (EOp (OCall [APos]) [(EOp (OAttr "transposed") [(EName "base_tone")]); (EOp OPos [(EConst (VInt 7))])]); (EName "base_duration"); (EName "base_velocity")])])].

(** chord.suspended2 (music/chord.py 292-314). *)
Definition src_chord_suspended2 : fundef :=
  mkFun "chord.suspended2"
    [("base", None); ("duration", Some (EConst VNone)); ("velocity", Some (EConst VNone))]
    [] false
    [SAssign (TTuple [(TName "base_tone"); (TName "base_duration"); (TName "base_velocity")]) (EOp (OCall [APos; APos; APos]) [(EName "chord._get_parameters"); (EName "base"); (EName "duration"); (EName "velocity")]);
     SReturn (EOp OTuple [(EOp (OCall [APos; APos; APos]) [(EName "Note"); (EName "base_tone"); (EName "base_duration"); (EName "base_velocity")]); (EOp (OCall [APos; APos; APos]) [(EName "Note"); (EOp (OCall [APos]) [(EOp (OAttr "transposed") [(EName "base_tone")]); (EOp OPos [(EConst (VInt 2))])]); (EName "base_duration"); (EName "base_velocity")]); (EOp (OCall [APos; APos; APos]) [(EName "Note"); (EOp (OCall [APos]) [(EOp (OAttr "transposed") [(EName "base_tone")]); (EOp OPos [(EConst (VInt 7))])]); (EName "base_duration"); (EName "base_velocity")])])].

(** chord.sus2 (music/chord.py 317-339). *)
Definition src_chord_sus2 : fundef :=
  mkFun "chord.sus2"
    [("base", None); ("duration", Some (EConst VNone)); ("velocity", Some (EConst VNone))]
    [] false
    [SAssign (TTuple [(TName "base_tone"); (TName "base_duration"); (TName "base_velocity")]) (EOp (OCall [APos; APos; APos]) [(EName "chord._get_parameters"); (EName "base"); (EName "duration"); (EName "velocity")]);
     SReturn (EOp OTuple [(EOp (OCall [APos; APos; APos]) [(EName "Note"); (EName "base_tone"); (EName "base_duration"); (EName "base_velocity")]); (EOp (OCall [APos; APos; APos]) [(EName "Note"); (EOp (OCall [APos]) [(EOp (OAttr "transposed") [(EName "base_tone")]); (EOp OPos [(EConst (VInt 2))])]); (EName "base_duration"); (EName "base_velocity")]); (EOp (OCall [APos; APos; APos]) [(EName "Note"); (EOp (OCall [APos]) [(EOp (OAttr "transposed") [(EName "base_tone")]); (EOp OPos [(EConst (VInt 7))])]); (EName "base_duration"); (EName "base_velocity")])])].

(** chord.major7 (music/chord.py 342-365). *)
Definition src_chord_major7 : fundef :=
  mkFun "chord.major7"
    [("base", None); ("duration", Some (EConst VNone)); ("velocity", Some (EConst VNone))]
    [] false
    [SAssign (TTuple [(TName "base_tone"); (TName "base_duration"); (TName "base_velocity")]) (EOp (OCall [APos; APos; APos]) [(EName "chord._get_parameters"); (EName "base"); (EName "duration"); (EName "velocity")]);
     SReturn (EOp OTuple [(EOp (OCall [APos; APos; APos]) [(EName "Note"); (EName "base_tone"); (EName "base_duration"); (EName "base_velocity")]); (EOp (OCall [APos; APos; APos]) [(EName "Note"); (EOp (OCall [APos]) [(EOp (OAttr "transposed") [(EName "base_tone")]); (EOp OPos [(EConst (VInt 4))])]); (EName "base_duration"); (EName "base_velocity")]); (EOp (OCall [APos; APos; APos]) [(EName "Note"); (EOp (OCall [APos]) [(EOp (OAttr "transposed") [(EName "base_tone")]); (EOp OPos [(EConst (VInt 7))])]); (EName "base_duration"); (EName "base_velocity")]); (EOp (OCall [APos; APos; APos]) [(EName "Note"); (EOp (OCall [APos]) [(EOp (OAttr "transposed") [(EName "base_tone")]); (EOp OPos [(EConst (VInt 11))])]); (EName "base_duration"); (EName "base_velocity")])])].

(** chord.maj7 (music/chord.py 368-391). *)
Definition src_chord_maj7 : fundef :=
  mkFun "chord.maj7"
    [("base", None); ("duration", Some (EConst VNone)); ("velocity", Some (EConst VNone))]
    [] false
    [SAssign (TTuple [(TName "base_tone"); (TName "base_duration"); (TName "base_velocity")]) (EOp (OCall [APos; APos; APos]) [(EName "chord._get_parameters"); (EName "base"); (EName "duration"); (EName "velocity")]);
     SReturn (EOp OTuple [(EOp (OCall [APos; APos; APos]) [(EName "Note"); (EName "base_tone"); (EName "base_duration"); (EName "base_velocity")]); (EOp (OCall [APos; APos; APos]) [(EName "Note"); (EOp (OCall [APos]) [(EOp (OAttr "transposed") [(EName "base_tone")]); (EOp OPos [(EConst (VInt 4))])]); (EName "base_duration"); (EName "base_velocity")]); (EOp (OCall [APos; APos; APos]) [(EName "Note"); (EOp (OCall [APos]) [(EOp (OAttr "transposed") [(EName "base_tone")]); (EOp OPos [(EConst (VInt 7))])]); (EName "base_duration"); (EName "base_velocity")]); (EOp (OCall [APos; APos; APos]) [(EName "Note"); (EOp (OCall [APos]) [(EOp (OAttr "transposed") [(EName "base_tone")]); (EOp OPos [(EConst (VInt 11))])]); (EName "base_duration"); (EName "base_velocity")])])].

(** chord.minor7 (music/chord.py 394-417). *)
Definition src_chord_minor7 : fundef :=
  mkFun "chord.minor7"
    [("base", None); ("duration", Some (EConst VNone)); ("velocity", Some (EConst VNone))]
    [] false
    [SAssign (TTuple [(TName "base_tone"); (TName "base_duration"); (TName "base_velocity")]) (EOp (OCall [APos; APos; APos]) [(EName "chord._get_parameters"); (EName "base"); (EName "duration"); (EName "velocity")]);
     SReturn (EOp OTuple [(EOp (OCall [APos; APos; APos]) [(EName "Note"); (EName "base_tone"); (EName "base_duration"); (EName "base_velocity")]); (EOp (OCall [APos; APos; APos]) [(EName "Note"); (EOp (OCall [APos]) [(EOp (OAttr "transposed") [(EName "base_tone")]); (EOp OPos [(EConst (VInt 3))])]); (EName "base_duration"); (EName "base_velocity")]); (EOp (OCall [APos; APos; APos]) [(EName "Note"); (EOp (OCall [APos]) [(EOp (OAttr "transposed") [(EName "base_tone")]); (EOp OPos [(EConst (VInt 7))])]); (EName "base_duration"); (EName "base_velocity")]); (EOp (OCall [APos; APos; APos]) [(EName "Note"); (EOp (OCall [APos]) [(EOp (OAttr "transposed") [(EName "base_tone")]); (EOp OPos [(EConst (VInt 10))])]); (EName "base_duration"); (EName "base_velocity")])])].

(** chord.min7 (music/chord.py 420-443). *)
Definition src_chord_min7 : fundef :=
  mkFun "chord.min7"
    [("base", None); ("duration", Some (EConst VNone)); ("velocity", Some (EConst VNone))]
    [] false
    [SAssign (TTuple [(TName "base_tone"); (TName "base_duration"); (TName "base_velocity")]) (EOp (OCall [APos; APos; APos]) [(EName "chord._get_parameters"); (EName "base"); (EName "duration"); (EName "velocity")]);
     SReturn (EOp OTuple [(EOp (OCall [APos; APos; APos]) [(EName "Note"); (EName "base_tone"); (EName "base_duration"); (EName "base_velocity")]); (EOp (OCall [APos; APos; APos]) [(EName "Note"); (EOp (OCall [APos]) [(EOp (OAttr "transposed") [(EName "base_tone")]); (EOp OPos [(EConst (VInt 3))])]); (EName "base_duration"); (EName "base_velocity")]); (EOp (OCall [APos; APos; APos]) [(EName "Note"); (EOp (OCall [APos]) [(EOp (OAttr "transposed") [(EName "base_tone")]); (EOp OPos [(EConst (VInt 7))])]); (EName "base_duration"); (EName "base_velocity")]); (EOp (OCall [APos; APos; APos]) [(EName "Note"); (EOp (OCall [APos]) [(EOp (OAttr "transposed") [(EName "base_tone")]); (EOp OPos [(EConst (VInt 10))])]); (EName "base_duration"); (EName "base_velocity")])])].

(** chord.dominant7 (music/chord.py 446-469). *)
Definition src_chord_dominant7 : fundef :=
  mkFun "chord.dominant7"
    [("base", None); ("duration", Some (EConst VNone)); ("velocity", Some (EConst VNone))]
    [] false
    [SAssign (TTuple [(TName "base_tone"); (TName "base_duration"); (TName "base_velocity")]) (EOp (OCall [APos; APos; APos]) [(EName "chord._get_parameters"); (EName "base"); (EName "duration"); (EName "velocity")]);
     SReturn (EOp OTuple [(EOp (OCall [APos; APos; APos]) [(EName "Note"); (EName "base_tone"); (EName "base_duration"); (EName "base_velocity")]); (EOp (OCall [APos; APos; APos]) [(EName "Note"); (EOp (OCall [APos]) [(EOp (OAttr "transposed") [(EName "base_tone")]); (EOp OPos [(EConst (VInt 4))])]); (EName "base_duration"); (EName "base_velocity")]); (EOp (OCall [APos; APos; APos]) [(EName "Note"); (EOp (OCall [APos]) [(EOp (OAttr "transposed") [(EName "base_tone")]); (EOp OPos [(EConst (VInt 7))])]); (EName "base_duration"); (EName "base_velocity")]); (EOp (OCall [APos; APos; APos]) [(EName "Note"); (EOp (OCall [APos]) [(EOp (OAttr "transposed") [(EName "base_tone")]); (EOp OPos [(EConst (VInt 10))])]); (EName "base_duration"); (EName "base_velocity")])])].

(** chord.dom7 (music/chord.py 472-495). *)
Definition src_chord_dom7 : fundef :=
  mkFun "chord.dom7"
    [("base", None); ("duration", Some (EConst VNone)); ("velocity", Some (EConst VNone))]
    [] false
    [SAssign (TTuple [(TName "base_tone"); (TName "base_duration"); (TName "base_velocity")]) (EOp (OCall [APos; APos; APos]) [(EName "chord._get_parameters"); (EName "base"); (EName "duration"); (EName "velocity")]);
     SReturn (EOp OTuple [(EOp (OCall [APos; APos; APos]) [(EName "Note"); (EName "base_tone"); (EName "base_duration"); (EName "base_velocity")]); (EOp (OCall [APos; APos; APos]) [(EName "Note"); (EOp (OCall [APos]) [(EOp (OAttr "transposed") [(EName "base_tone")]); (EOp OPos [(EConst (VInt 4))])]); (EName "base_duration"); (EName "base_velocity")]); (EOp (OCall [APos; APos; APos]) [(EName "Note"); (EOp (OCall [APos]) [(EOp (OAttr "transposed") [(EName "base_tone")]); (EOp OPos [(EConst (VInt 7))])]); (EName "base_duration"); (EName "base_velocity")]); (EOp (OCall [APos; APos; APos]) [(EName "Note"); (EOp (OCall [APos]) [(EOp (OAttr "transposed") [(EName "base_tone")]); (EOp OPos [(EConst (VInt 10))])]); (EName "base_duration"); (EName "base_velocity")])])].

(** chord.dominant7b5 (music/chord.py 498-521). *)
Definition src_chord_dominant7b5 : fundef :=
  mkFun "chord.dominant7b5"
    [("base", None); ("duration", Some (EConst VNone)); ("velocity", Some (EConst VNone))]
    [] false
    [SAssign (TTuple [(TName "base_tone"); (TName "base_duration"); (TName "base_velocity")]) (EOp (OCall [APos; APos; APos]) [(EName "chord._get_parameters"); (EName "base"); (EName "duration"); (EName "velocity")]);
     SReturn (EOp OTuple [(EOp (OCall [APos; APos; APos]) [(EName "Note"); (EName "base_tone"); (EName "base_duration"); (EName "base_velocity")]); (EOp (OCall [APos; APos; APos]) [(EName "Note"); (EOp (OCall [APos]) [(EOp (OAttr "transposed") [(EName "base_tone")]); (EOp OPos [(EConst (VInt 4))])]); (EName "base_duration"); (EName "base_velocity")]); (EOp (OCall [APos; APos; APos]) [(EName "Note"); (EOp (OCall [APos]) [(EOp (OAttr "transposed") [(EName "base_tone")]); (EOp OPos [(EConst (VInt 6))])]); (EName "base_duration"); (EName "base_velocity")]); (EOp (OCall [APos; APos; APos]) [(EName "Note"); (EOp (OCall [APos]) [(EOp (OAttr "transposed") [(EName "base_tone")]); (EOp OPos [(EConst (VInt 10))])]); (EName "base_duration"); (EName "base_velocity")])])].

(** chord.dom7b5 (music/chord.py 524-547). *)
Definition src_chord_dom7b5 : fundef :=
  mkFun "chord.dom7b5"
    [("base", None); ("duration", Some (EConst VNone)); ("velocity", Some (EConst VNone))]
    [] false
    [SAssign (TTuple [(TName "base_tone"); (TName "base_duration"); (TName "base_velocity")]) (EOp (OCall [APos; APos; APos]) [(EName "chord._get_parameters"); (EName "base"); (EName "duration"); (EName "velocity")]);
     SReturn (EOp OTuple [(EOp (OCall [APos; APos; APos]) [(EName "Note"); (EName "base_tone"); (EName "base_duration"); (EName "base_velocity")]); (EOp (OCall [APos; APos; APos]) [(EName "Note"); (EOp (OCall [APos]) [(EOp (OAttr "transposed") [(EName "base_tone")]); (EOp OPos [(EConst (VInt 4))])]); (EName "base_duration"); (EName "base_velocity")]); (EOp (OCall [APos; APos; APos]) [(EName "Note"); (EOp (OCall [APos]) [(EOp (OAttr "transposed") [(EName "base_tone")]); (EOp OPos [(EConst (VInt 6))])]); (EName "base_duration"); (EName "base_velocity")]); (EOp (OCall [APos; APos; APos]) [(EName "Note"); (EOp (OCall [APos]) [(EOp (OAttr "transposed") [(EName "base_tone")]); (EOp OPos [(EConst (VInt 10))])]); (EName "base_duration"); (EName "base_velocity")])])].

(** chord.diminished7 (music/chord.py 550-573). *)
Definition src_chord_diminished7 : fundef :=
  mkFun "chord.diminished7"
    [("base", None); ("duration", Some (EConst VNone)); ("velocity", Some (EConst VNone))]
    [] false
    [SAssign (TTuple [(TName "base_tone"); (TName "base_duration"); (TName "base_velocity")]) (EOp (OCall [APos; APos; APos]) [(EName "chord._get_parameters"); (EName "base"); (EName "duration"); (EName "velocity")]);
     SReturn (EOp OTuple [(EOp (OCall [APos; APos; APos]) [(EName "Note"); (EName "base_tone"); (EName "base_duration"); (EName "base_velocity")]); (EOp (OCall [APos; APos; APos]) [(EName "Note"); (EOp (OCall [APos]) [(EOp (OAttr "transposed") [(EName "base_tone")]); (EOp OPos [(EConst (VInt 3))])]); (EName "base_duration"); (EName "base_velocity")]); (EOp (OCall [APos; APos; APos]) [(EName "Note"); (EOp (OCall [APos]) [(EOp (OAttr "transposed") [(EName "base_tone")]); (EOp OPos [(EConst (VInt 6))])]); (EName "base_duration"); (EName "base_velocity")]); (EOp (OCall [APos; APos; APos]) [(EName "Note"); (EOp (OCall [APos]) [(EOp (OAttr "transposed") [(EName "base_tone")]); (EOp OPos [(EConst (VInt 9))])]); (EName "base_duration"); (EName "base_velocity")])])].

(** chord.dim7 (music/chord.py 576-599). *)
Definition src_chord_dim7 : fundef :=
  mkFun "chord.dim7"
    [("base", None); ("duration", Some (EConst VNone)); ("velocity", Some (EConst VNone))]
    [] false
    [SAssign (TTuple [(TName "base_tone"); (TName "base_duration"); (TName "base_velocity")]) (EOp (OCall [APos; APos; APos]) [(EName "chord._get_parameters"); (EName "base"); (EName "duration"); (EName "velocity")]);
     SReturn (EOp OTuple [(EOp (OCall [APos; APos; APos]) [(EName "Note"); (EName "base_tone"); (EName "base_duration"); (EName "base_velocity")]); (EOp (OCall [APos; APos; APos]) [(EName "Note"); (EOp (OCall [APos]) [(EOp (OAttr "transposed") [(EName "base_tone")]); (EOp OPos [(EConst (VInt 3))])]); (EName "base_duration"); (EName "base_velocity")]); (EOp (OCall [APos; APos; APos]) [(EName "Note"); (EOp (OCall [APos]) [(EOp (OAttr "transposed") [(EName "base_tone")]); (EOp OPos [(EConst (VInt 6))])]); (EName "base_duration"); (EName "base_velocity")]); (EOp (OCall [APos; APos; APos]) [(EName "Note"); (EOp (OCall [APos]) [(EOp (OAttr "transposed") [(EName "base_tone")]); (EOp OPos [(EConst (VInt 9))])]); (EName "base_duration"); (EName "base_velocity")])])].

(** chord.minor7b5 (music/chord.py 602-625). *)
Definition src_chord_minor7b5 : fundef :=
  mkFun "chord.minor7b5"
    [("base", None); ("duration", Some (EConst VNone)); ("velocity", Some (EConst VNone))]
    [] false
    [SAssign (TTuple [(TName "base_tone"); (TName "base_duration"); (TName "base_velocity")]) (EOp (OCall [APos; APos; APos]) [(EName "chord._get_parameters"); (EName "base"); (EName "duration"); (EName "velocity")]);
     SReturn (EOp OTuple [(EOp (OCall [APos; APos; APos]) [(EName "Note"); (EName "base_tone"); (EName "base_duration"); (EName "base_velocity")]); (EOp (OCall [APos; APos; APos]) [(EName "Note"); (EOp (OCall [APos]) [(EOp (OAttr "transposed") [(EName "base_tone")]); (EOp OPos [(EConst (VInt 3))])]); (EName "base_duration"); (EName "base_velocity")]); (EOp (OCall [APos; APos; APos]) [(EName "Note"); (EOp (OCall [APos]) [(EOp (OAttr "transposed") [(EName "base_tone")]); (EOp OPos [(EConst (VInt 6))])]); (EName "base_duration"); (EName "base_velocity")]); (EOp (OCall [APos; APos; APos]) [(EName "Note"); (EOp (OCall [APos]) [(EOp (OAttr "transposed") [(EName "base_tone")]); (EOp OPos [(EConst (VInt 10))])]); (EName "base_duration"); (EName "base_velocity")])])].

(** chord.min7b5 (music/chord.py 628-651). *)
Definition src_chord_min7b5 : fundef :=
  mkFun "chord.min7b5"
    [("base", None); ("duration", Some (EConst VNone)); ("velocity", Some (EConst VNone))]
    [] false
    [SAssign (TTuple [(TName "base_tone"); (TName "base_duration"); (TName "base_velocity")]) (EOp (OCall [APos; APos; APos]) [(EName "chord._get_parameters"); (EName "base"); (EName "duration"); (EName "velocity")]);
     SReturn (EOp OTuple [(EOp (OCall [APos; APos; APos]) [(EName "Note"); (EName "base_tone"); (EName "base_duration"); (EName "base_velocity")]); (EOp (OCall [APos; APos; APos]) [(EName "Note"); (EOp (OCall [APos]) [(EOp (OAttr "transposed") [(EName "base_tone")]); (EOp OPos [(EConst (VInt 3))])]); (EName "base_duration"); (EName "base_velocity")]); (EOp (OCall [APos; APos; APos]) [(EName "Note"); (EOp (OCall [APos]) [(EOp (OAttr "transposed") [(EName "base_tone")]); (EOp OPos [(EConst (VInt 6))])]); (EName "base_duration"); (EName "base_velocity")]); (EOp (OCall [APos; APos; APos]) [(EName "Note"); (EOp (OCall [APos]) [(EOp (OAttr "transposed") [(EName "base_tone")]); (EOp OPos [(EConst (VInt 10))])]); (EName "base_duration"); (EName "base_velocity")])])].

(** chord.diminished_major7 (music/chord.py 654-677). *)
Definition src_chord_diminished_major7 : fundef :=
  mkFun "chord.diminished_major7"
    [("base", None); ("duration", Some (EConst VNone)); ("velocity", Some (EConst VNone))]
    [] false
    [SAssign (TTuple [(TName "base_tone"); (TName "base_duration"); (TName "base_velocity")]) (EOp (OCall [APos; APos; APos]) [(EName "chord._get_parameters"); (EName "base"); (EName "duration"); (EName "velocity")]);
     SReturn (EOp OTuple [(EOp (OCall [APos; APos; APos]) [(EName "Note"); (EName "base_tone"); (EName "base_duration"); (EName "base_velocity")]); (EOp (OCall [APos; APos; APos]) [(EName "Note"); (EOp (OCall [APos]) [(EOp (OAttr "transposed") [(EName "base_tone")]); (EOp OPos [(EConst (VInt 3))])]); (EName "base_duration"); (EName "base_velocity")]); (EOp (OCall [APos; APos; APos]) [(EName "Note"); (EOp (OCall [APos]) [(EOp (OAttr "transposed") [(EName "base_tone")]); (EOp OPos [(EConst (VInt 6))])]); (EName "base_duration"); (EName "base_velocity")]); (EOp (OCall [APos; APos; APos]) [(EName "Note"); (EOp (OCall [APos]) [(EOp (OAttr "transposed") [(EName "base_tone")]); (EOp OPos [(EConst (VInt 11))])]); (EName "base_duration"); (EName "base_velocity")])])].

(** chord.minor_major7 (music/chord.py 680-703). *)
Definition src_chord_minor_major7 : fundef :=
  mkFun "chord.minor_major7"
    [("base", None); ("duration", Some (EConst VNone)); ("velocity", Some (EConst VNone))]
    [] false
    [SAssign (TTuple [(TName "base_tone"); (TName "base_duration"); (TName "base_velocity")]) (EOp (OCall [APos; APos; APos]) [(EName "chord._get_parameters"); (EName "base"); (EName "duration"); (EName "velocity")]);
     SReturn (EOp OTuple [(EOp (OCall [APos; APos; APos]) [(EName "Note"); (EName "base_tone"); (EName "base_duration"); (EName "base_velocity")]); (EOp (OCall [APos; APos; APos]) [(EName "Note"); (EOp (OCall [APos]) [(EOp (OAttr "transposed") [(EName "base_tone")]); (EOp OPos [(EConst (VInt 3))])]); (EName "base_duration"); (EName "base_velocity")]); (EOp (OCall [APos; APos; APos]) [(EName "Note"); (EOp (OCall [APos]) [(EOp (OAttr "transposed") [(EName "base_tone")]); (EOp OPos [(EConst (VInt 7))])]); (EName "base_duration"); (EName "base_velocity")]); (EOp (OCall [APos; APos; APos]) [(EName "Note"); (EOp (OCall [APos]) [(EOp (OAttr "transposed") [(EName "base_tone")]); (EOp OPos [(EConst (VInt 11))])]); (EName "base_duration"); (EName "base_velocity")])])].

(** chord.augmented_major7 (music/chord.py 706-729). *)
Definition src_chord_augmented_major7 : fundef :=
  mkFun "chord.augmented_major7"
    [("base", None); ("duration", Some (EConst VNone)); ("velocity", Some (EConst VNone))]
    [] false
    [SAssign (TTuple [(TName "base_tone"); (TName "base_duration"); (TName "base_velocity")]) (EOp (OCall [APos; APos; APos]) [(EName "chord._get_parameters"); (EName "base"); (EName "duration"); (EName "velocity")]);
     SReturn (EOp OTuple [(EOp (OCall [APos; APos; APos]) [(EName "Note"); (EName "base_tone"); (EName "base_duration"); (EName "base_velocity")]); (EOp (OCall [APos; APos; APos]) [(EName "Note"); (EOp (OCall [APos]) [(EOp (OAttr "transposed") [(EName "base_tone")]); (EOp OPos [(EConst (VInt 4))])]); (EName "base_duration"); (EName "base_velocity")]); (EOp (OCall [APos; APos; APos]) [(EName "Note"); (EOp (OCall [APos]) [(EOp (OAttr "transposed") [(EName "base_tone")]); (EOp OPos [(EConst (VInt 8))])]); (EName "base_duration"); (EName "base_velocity")]); (EOp (OCall [APos; APos; APos]) [(EName "Note"); (EOp (OCall [APos]) [(EOp (OAttr "transposed") [(EName "base_tone")]); (EOp OPos [(EConst (VInt 11))])]); (EName "base_duration"); (EName "base_velocity")])])].

(** chord.major7s5 (music/chord.py 732-755). *)
Definition src_chord_major7s5 : fundef :=
  mkFun "chord.major7s5"
    [("base", None); ("duration", Some (EConst VNone)); ("velocity", Some (EConst VNone))]
    [] false
    [SAssign (TTuple [(TName "base_tone"); (TName "base_duration"); (TName "base_velocity")]) (EOp (OCall [APos; APos; APos]) [(EName "chord._get_parameters"); (EName "base"); (EName "duration"); (EName "velocity")]);
     SReturn (EOp OTuple [(EOp (OCall [APos; APos; APos]) [(EName "Note"); (EName "base_tone"); (EName "base_duration"); (EName "base_velocity")]); (EOp (OCall [APos; APos; APos]) [(EName "Note"); (EOp (OCall [APos]) [(EOp (OAttr "transposed") [(EName "base_tone")]); (EOp OPos [(EConst (VInt 4))])]); (EName "base_duration"); (EName "base_velocity")]); (EOp (OCall [APos; APos; APos]) [(EName "Note"); (EOp (OCall [APos]) [(EOp (OAttr "transposed") [(EName "base_tone")]); (EOp OPos [(EConst (VInt 8))])]); (EName "base_duration"); (EName "base_velocity")]); (EOp (OCall [APos; APos; APos]) [(EName "Note"); (EOp (OCall [APos]) [(EOp (OAttr "transposed") [(EName "base_tone")]); (EOp OPos [(EConst (VInt 11))])]); (EName "base_duration"); (EName "base_velocity")])])].

(** chord.maj7s5 (music/chord.py 758-781). *)
Definition src_chord_maj7s5 : fundef :=
  mkFun "chord.maj7s5"
    [("base", None); ("duration", Some (EConst VNone)); ("velocity", Some (EConst VNone))]
    [] false
    [SAssign (TTuple [(TName "base_tone"); (TName "base_duration"); (TName "base_velocity")]) (EOp (OCall [APos; APos; APos]) [(EName "chord._get_parameters"); (EName "base"); (EName "duration"); (EName "velocity")]);
     SReturn (EOp OTuple [(EOp (OCall [APos; APos; APos]) [(EName "Note"); (EName "base_tone"); (EName "base_duration"); (EName "base_velocity")]); (EOp (OCall [APos; APos; APos]) [(EName "Note"); (EOp (OCall [APos]) [(EOp (OAttr "transposed") [(EName "base_tone")]); (EOp OPos [(EConst (VInt 4))])]); (EName "base_duration"); (EName "base_velocity")]); (EOp (OCall [APos; APos; APos]) [(EName "Note"); (EOp (OCall [APos]) [(EOp (OAttr "transposed") [(EName "base_tone")]); (EOp OPos [(EConst (VInt 8))])]); (EName "base_duration"); (EName "base_velocity")]); (EOp (OCall [APos; APos; APos]) [(EName "Note"); (EOp (OCall [APos]) [(EOp (OAttr "transposed") [(EName "base_tone")]); (EOp OPos [(EConst (VInt 11))])]); (EName "base_duration"); (EName "base_velocity")])])].

(** chord.augmented_minor7 (music/chord.py 784-807). *)
Definition src_chord_augmented_minor7 : fundef :=
  mkFun "chord.augmented_minor7"
    [("base", None); ("duration", Some (EConst VNone)); ("velocity", Some (EConst VNone))]
    [] false
    [SAssign (TTuple [(TName "base_tone"); (TName "base_duration"); (TName "base_velocity")]) (EOp (OCall [APos; APos; APos]) [(EName "chord._get_parameters"); (EName "base"); (EName "duration"); (EName "velocity")]);
     SReturn (EOp OTuple [(EOp (OCall [APos; APos; APos]) [(EName "Note"); (EName "base_tone"); (EName "base_duration"); (EName "base_velocity")]); (EOp (OCall [APos; APos; APos]) [(EName "Note"); (EOp (OCall [APos]) [(EOp (OAttr "transposed") [(EName "base_tone")]); (EOp OPos [(EConst (VInt 4))])]); (EName "base_duration"); (EName "base_velocity")]); (EOp (OCall [APos; APos; APos]) [(EName "Note"); (EOp (OCall [APos]) [(EOp (OAttr "transposed") [(EName "base_tone")]); (EOp OPos [(EConst (VInt 8))])]); (EName "base_duration"); (EName "base_velocity")]); (EOp (OCall [APos; APos; APos]) [(EName "Note"); (EOp (OCall [APos]) [(EOp (OAttr "transposed") [(EName "base_tone")]); (EOp OPos [(EConst (VInt 10))])]); (EName "base_duration"); (EName "base_velocity")])])].

(** chord.augmented7 (music/chord.py 810-833). *)
Definition src_chord_augmented7 : fundef :=
  mkFun "chord.augmented7"
    [("base", None); ("duration", Some (EConst VNone)); ("velocity", Some (EConst VNone))]
    [] false
    [SAssign (TTuple [(TName "base_tone"); (TName "base_duration"); (TName "base_velocity")]) (EOp (OCall [APos; APos; APos]) [(EName "chord._get_parameters"); (EName "base"); (EName "duration"); (EName "velocity")]);
     SReturn (EOp OTuple [(EOp (OCall [APos; APos; APos]) [(EName "Note"); (EName "base_tone"); (EName "base_duration"); (EName "base_velocity")]); (EOp (OCall [APos; APos; APos]) [(EName "Note"); (EOp (OCall [APos]) [(EOp (OAttr "transposed") [(EName "base_tone")]); (EOp OPos [(EConst (VInt 4))])]); (EName "base_duration"); (EName "base_velocity")]); (EOp (OCall [APos; APos; APos]) [(EName "Note"); (EOp (OCall [APos]) [(EOp (OAttr "transposed") [(EName "base_tone")]); (EOp OPos [(EConst (VInt 8))])]); (EName "base_duration"); (EName "base_velocity")]); (EOp (OCall [APos; APos; APos]) [(EName "Note"); (EOp (OCall [APos]) [(EOp (OAttr "transposed") [(EName "base_tone")]); (EOp OPos [(EConst (VInt 10))])]); (EName "base_duration"); (EName "base_velocity")])])].

(** chord.aug7 (music/chord.py 836-859). *)
Definition src_chord_aug7 : fundef :=
  mkFun "chord.aug7"
    [("base", None); ("duration", Some (EConst VNone)); ("velocity", Some (EConst VNone))]
    [] false
    [SAssign (TTuple [(TName "base_tone"); (TName "base_duration"); (TName "base_velocity")]) (EOp (OCall [APos; APos; APos]) [(EName "chord._get_parameters"); (EName "base"); (EName "duration"); (EName "velocity")]);
     SReturn (EOp OTuple [(EOp (OCall [APos; APos; APos]) [(EName "Note"); (EName "base_tone"); (EName "base_duration"); (EName "base_velocity")]); (EOp (OCall [APos; APos; APos]) [(EName "Note"); (EOp (OCall [APos]) [(EOp (OAttr "transposed") [(EName "base_tone")]); (EOp OPos [(EConst (VInt 4))])]); (EName "base_duration"); (EName "base_velocity")]); (EOp (OCall [APos; APos; APos]) [(EName "Note"); (EOp (OCall [APos]) [(EOp (OAttr "transposed") [(EName "base_tone")]); (EOp OPos [(EConst (VInt 8))])]); (EName "base_duration"); (EName "base_velocity")]); (EOp (OCall [APos; APos; APos]) [(EName "Note"); (EOp (OCall [APos]) [(EOp (OAttr "transposed") [(EName "base_tone")]); (EOp OPos [(EConst (VInt 10))])]); (EName "base_duration"); (EName "base_velocity")])])].

(** chord.major9 (music/chord.py 862-886). *)
Definition src_chord_major9 : fundef :=
  mkFun "chord.major9"
    [("base", None); ("duration", Some (EConst VNone)); ("velocity", Some (EConst VNone))]
    [] false
    [SAssign (TTuple [(TName "base_tone"); (TName "base_duration"); (TName "base_velocity")]) (EOp (OCall [APos; APos; APos]) [(EName "chord._get_parameters"); (EName "base"); (EName "duration"); (EName "velocity")]);
     SReturn (EOp OTuple [(EOp (OCall [APos; APos; APos]) [(EName "Note"); (EName "base_tone"); (EName "base_duration"); (EName "base_velocity")]); (EOp (OCall [APos; APos; APos]) [(EName "Note"); (EOp (OCall [APos]) [(EOp (OAttr "transposed") [(EName "base_tone")]); (EOp OPos [(EConst (VInt 4))])]); (EName "base_duration"); (EName "base_velocity")]); (EOp (OCall [APos; APos; APos]) [(EName "Note"); (EOp (OCall [APos]) [(EOp (OAttr "transposed") [(EName "base_tone")]); (EOp OPos [(EConst (VInt 7))])]); (EName "base_duration"); (EName "base_velocity")]); (EOp (OCall [APos; APos; APos]) [(EName "Note"); (EOp (OCall [APos]) [(EOp (OAttr "transposed") [(EName "base_tone")]); (EOp OPos [(EConst (VInt 11))])]); (EName "base_duration"); (EName "base_velocity")]); (EOp (OCall [APos; APos; APos]) [(EName "Note"); (EOp (OCall [APos]) [(EOp (OAttr "transposed") [(EName "base_tone")]); (EOp OPos [(EConst (VInt 14))])]); (EName "base_duration"); (EName "base_velocity")])])].

(** chord.maj9 (music/chord.py 889-913). *)
Definition src_chord_maj9 : fundef :=
  mkFun "chord.maj9"
    [("base", None); ("duration", Some (EConst VNone)); ("velocity", Some (EConst VNone))]
    [] false
    [SAssign (TTuple [(TName "base_tone"); (TName "base_duration"); (TName "base_velocity")]) (EOp (OCall [APos; APos; APos]) [(EName "chord._get_parameters"); (EName "base"); (EName "duration"); (EName "velocity")]);
     SReturn (EOp OTuple [(EOp (OCall [APos; APos; APos]) [(EName "Note"); (EName "base_tone"); (EName "base_duration"); (EName "base_velocity")]); (EOp (OCall [APos; APos; APos]) [(EName "Note"); (EOp (OCall [APos]) [(EOp (OAttr "transposed") [(EName "base_tone")]); (EOp OPos [(EConst (VInt 4))])]); (EName "base_duration"); (EName "base_velocity")]); (EOp (OCall [APos; APos; APos]) [(EName "Note"); (EOp (OCall [APos]) [(EOp (OAttr "transposed") [(EName "base_tone")]); (EOp OPos [(EConst (VInt 7))])]); (EName "base_duration"); (EName "base_velocity")]); (EOp (OCall [APos; APos; APos]) [(EName "Note"); (EOp (OCall [APos]) [(EOp (OAttr "transposed") [(EName "base_tone")]); (EOp OPos [(EConst (VInt 11))])]); (EName "base_duration"); (EName "base_velocity")]); (EOp (OCall [APos; APos; APos]) [(EName "Note"); (EOp (OCall [APos]) [(EOp (OAttr "transposed") [(EName "base_tone")]); (EOp OPos [(EConst (VInt 14))])]); (EName "base_duration"); (EName "base_velocity")])])].

(** chord.minor9 (music/chord.py 916-940). *)
Definition src_chord_minor9 : fundef :=
  mkFun "chord.minor9"
    [("base", None); ("duration", Some (EConst VNone)); ("velocity", Some (EConst VNone))]
    [] false
    [SAssign (TTuple [(TName "base_tone"); (TName "base_duration"); (TName "base_velocity")]) (EOp (OCall [APos; APos; APos]) [(EName "chord._get_parameters"); (EName "base"); (EName "duration"); (EName "velocity")]);
     SReturn (EOp OTuple [(EOp (OCall [APos; APos; APos]) [(EName "Note"); (EName "base_tone"); (EName "base_duration"); (EName "base_velocity")]); (EOp (OCall [APos; APos; APos]) [(EName "Note"); (EOp (OCall [APos]) [(EOp (OAttr "transposed") [(EName "base_tone")]); (EOp OPos [(EConst (VInt 3))])]); (EName "base_duration"); (EName "base_velocity")]); (EOp (OCall [APos; APos; APos]) [(EName "Note"); (EOp (OCall [APos]) [(EOp (OAttr "transposed") [(EName "base_tone")]); (EOp OPos [(EConst (VInt 7))])]); (EName "base_duration"); (EName "base_velocity")]); (EOp (OCall [APos; APos; APos]) [(EName "Note"); (EOp (OCall [APos]) [(EOp (OAttr "transposed") [(EName "base_tone")]); (EOp OPos [(EConst (VInt 10))])]); (EName "base_duration"); (EName "base_velocity")]); (EOp (OCall [APos; APos; APos]) [(EName "Note"); (EOp (OCall [APos]) [(EOp (OAttr "transposed") [(EName "base_tone")]); (EOp OPos [(EConst (VInt 14))])]); (EName "base_duration"); (EName "base_velocity")])])].

(** chord.min9 (music/chord.py 943-967). *)
Definition src_chord_min9 : fundef :=
  mkFun "chord.min9"
    [("base", None); ("duration", Some (EConst VNone)); ("velocity", Some (EConst VNone))]
    [] false
    [SAssign (TTuple [(TName "base_tone"); (TName "base_duration"); (TName "base_velocity")]) (EOp (OCall [APos; APos; APos]) [(EName "chord._get_parameters"); (EName "base"); (EName "duration"); (EName "velocity")]);
     SReturn (EOp OTuple [(EOp (OCall [APos; APos; APos]) [(EName "Note"); (EName "base_tone"); (EName "base_duration"); (EName "base_velocity")]); (EOp (OCall [APos; APos; APos]) [(EName "Note"); (EOp (OCall [APos]) [(EOp (OAttr "transposed") [(EName "base_tone")]); (EOp OPos [(EConst (VInt 3))])]); (EName "base_duration"); (EName "base_velocity")]); (EOp (OCall [APos; APos; APos]) [(EName "Note"); (EOp (OCall [APos]) [(EOp (OAttr "transposed") [(EName "base_tone")]); (EOp OPos [(EConst (VInt 7))])]); (EName "base_duration"); (EName "base_velocity")]); (EOp (OCall [APos; APos; APos]) [(EName "Note"); (EOp (OCall [APos]) [(EOp (OAttr "transposed") [(EName "base_tone")]); (EOp OPos [(EConst (VInt 10))])]); (EName "base_duration"); (EName "base_velocity")]); (EOp (OCall [APos; APos; APos]) [(EName "Note"); (EOp (OCall [APos]) [(EOp (OAttr "transposed") [(EName "base_tone")]); (EOp OPos [(EConst (VInt 14))])]); (EName "base_duration"); (EName "base_velocity")])])].

(** chord.dominant9 (music/chord.py 970-994). *)
Definition src_chord_dominant9 : fundef :=
  mkFun "chord.dominant9"
    [("base", None); ("duration", Some (EConst VNone)); ("velocity", Some (EConst VNone))]
    [] false
    [SAssign (TTuple [(TName "base_tone"); (TName "base_duration"); (TName "base_velocity")]) (EOp (OCall [APos; APos; APos]) [(EName "chord._get_parameters"); (EName "base"); (EName "duration"); (EName "velocity")]);
     SReturn (EOp OTuple [(EOp (OCall [APos; APos; APos]) [(EName "Note"); (EName "base_tone"); (EName "base_duration"); (EName "base_velocity")]); (EOp (OCall [APos; APos; APos]) [(EName "Note"); (EOp (OCall [APos]) [(EOp (OAttr "transposed") [(EName "base_tone")]); (EOp OPos [(EConst (VInt 4))])]); (EName "base_duration"); (EName "base_velocity")]); (EOp (OCall [APos; APos; APos]) [(EName "Note"); (EOp (OCall [APos]) [(EOp (OAttr "transposed") [(EName "base_tone")]); (EOp OPos [(EConst (VInt 7))])]); (EName "base_duration"); (EName "base_velocity")]); (EOp (OCall [APos; APos; APos]) [(EName "Note"); (EOp (OCall [APos]) [(EOp (OAttr "transposed") [(EName "base_tone")]); (EOp OPos [(EConst (VInt 10))])]); (EName "base_duration"); (EName "base_velocity")]); (EOp (OCall [APos; APos; APos]) [(EName "Note"); (EOp (OCall [APos]) [(EOp (OAttr "transposed") [(EName "base_tone")]); (EOp OPos [(EConst (VInt 14))])]); (EName "base_duration"); (EName "base_velocity")])])].

(** chord.dom9 (music/chord.py 997-1021). *)
Definition src_chord_dom9 : fundef :=
  mkFun "chord.dom9"
    [("base", None); ("duration", Some (EConst VNone)); ("velocity", Some (EConst VNone))]
    [] false
    [SAssign (TTuple [(TName "base_tone"); (TName "base_duration"); (TName "base_velocity")]) (EOp (OCall [APos; APos; APos]) [(EName "chord._get_parameters"); (EName "base"); (EName "duration"); (EName "velocity")]);
     SReturn (EOp OTuple [(EOp (OCall [APos; APos; APos]) [(EName "Note"); (EName "base_tone"); (EName "base_duration"); (EName "base_velocity")]); (EOp (OCall [APos; APos; APos]) [(EName "Note"); (EOp (OCall [APos]) [(EOp (OAttr "transposed") [(EName "base_tone")]); (EOp OPos [(EConst (VInt 4))])]); (EName "base_duration"); (EName "base_velocity")]); (EOp (OCall [APos; APos; APos]) [(EName "Note"); (EOp (OCall [APos]) [(EOp (OAttr "transposed") [(EName "base_tone")]); (EOp OPos [(EConst (VInt 7))])]); (EName "base_duration"); (EName "base_velocity")]); (EOp (OCall [APos; APos; APos]) [(EName "Note"); (EOp (OCall [APos]) [(EOp (OAttr "transposed") [(EName "base_tone")]); (EOp OPos [(EConst (VInt 10))])]); (EName "base_duration"); (EName "base_velocity")]); (EOp (OCall [APos; APos; APos]) [(EName "Note"); (EOp (OCall [APos]) [(EOp (OAttr "transposed") [(EName "base_tone")]); (EOp OPos [(EConst (VInt 14))])]); (EName "base_duration"); (EName "base_velocity")])])].

(** chord.dominant_minor9 (music/chord.py 1024-1048). *)
Definition src_chord_dominant_minor9 : fundef :=
  mkFun "chord.dominant_minor9"
    [("base", None); ("duration", Some (EConst VNone)); ("velocity", Some (EConst VNone))]
    [] false
    [SAssign (TTuple [(TName "base_tone"); (TName "base_duration"); (TName "base_velocity")]) (EOp (OCall [APos; APos; APos]) [(EName "chord._get_parameters"); (EName "base"); (EName "duration"); (EName "velocity")]);
     SReturn (EOp OTuple [(EOp (OCall [APos; APos; APos]) [(EName "Note"); (EName "base_tone"); (EName "base_duration"); (EName "base_velocity")]); (EOp (OCall [APos; APos; APos]) [(EName "Note"); (EOp (OCall [APos]) [(EOp (OAttr "transposed") [(EName "base_tone")]); (EOp OPos [(EConst (VInt 4))])]); (EName "base_duration"); (EName "base_velocity")]); (EOp (OCall [APos; APos; APos]) [(EName "Note"); (EOp (OCall [APos]) [(EOp (OAttr "transposed") [(EName "base_tone")]); (EOp OPos [(EConst (VInt 7))])]); (EName "base_duration"); (EName "base_velocity")]); (EOp (OCall [APos; APos; APos]) [(EName "Note"); (EOp (OCall [APos]) [(EOp (OAttr "transposed") [(EName "base_tone")]); (EOp OPos [(EConst (VInt 10))])]); (EName "base_duration"); (EName "base_velocity")]); (EOp (OCall [APos; APos; APos]) [(EName "Note"); (EOp (OCall [APos]) [(EOp (OAttr "transposed") [(EName "base_tone")]); (EOp OPos [(EConst (VInt 13))])]); (EName "base_duration"); (EName "base_velocity")])])].

(** chord.min7b9 (music/chord.py 1051-1075). *)
Definition src_chord_min7b9 : fundef :=
  mkFun "chord.min7b9"
    [("base", None); ("duration", Some (EConst VNone)); ("velocity", Some (EConst VNone))]
    [] false
    [SAssign (TTuple [(TName "base_tone"); (TName "base_duration"); (TName "base_velocity")]) (EOp (OCall [APos; APos; APos]) [(EName "chord._get_parameters"); (EName "base"); (EName "duration"); (EName "velocity")]);
     SReturn (EOp OTuple [(EOp (OCall [APos; APos; APos]) [(EName "Note"); (EName "base_tone"); (EName "base_duration"); (EName "base_velocity")]); (EOp (OCall [APos; APos; APos]) [(EName "Note"); (EOp (OCall [APos]) [(EOp (OAttr "transposed") [(EName "base_tone")]); (EOp OPos [(EConst (VInt 4))])]); (EName "base_duration"); (EName "base_velocity")]); (EOp (OCall [APos; APos; APos]) [(EName "Note"); (EOp (OCall [APos]) [(EOp (OAttr "transposed") [(EName "base_tone")]); (EOp OPos [(EConst (VInt 7))])]); (EName "base_duration"); (EName "base_velocity")]); (EOp (OCall [APos; APos; APos]) [(EName "Note"); (EOp (OCall [APos]) [(EOp (OAttr "transposed") [(EName "base_tone")]); (EOp OPos [(EConst (VInt 10))])]); (EName "base_duration"); (EName "base_velocity")]); (EOp (OCall [APos; APos; APos]) [(EName "Note"); (EOp (OCall [APos]) [(EOp (OAttr "transposed") [(EName "base_tone")]); (EOp OPos [(EConst (VInt 13))])]); (EName "base_duration"); (EName "base_velocity")])])].

(** chord.minor69 (music/chord.py 1078-1102). *)
Definition src_chord_minor69 : fundef :=
  mkFun "chord.minor69"
    [("base", None); ("duration", Some (EConst VNone)); ("velocity", Some (EConst VNone))]
    [] false
    [SAssign (TTuple [(TName "base_tone"); (TName "base_duration"); (TName "base_velocity")]) (EOp (OCall [APos; APos; APos]) [(EName "chord._get_parameters"); (EName "base"); (EName "duration"); (EName "velocity")]);
     SReturn (EOp OTuple [(EOp (OCall [APos; APos; APos]) [(EName "Note"); (EName "base_tone"); (EName "base_duration"); (EName "base_velocity")]); (EOp (OCall [APos; APos; APos]) [(EName "Note"); (EOp (OCall [APos]) [(EOp (OAttr "transposed") [(EName "base_tone")]); (EOp OPos [(EConst (VInt 4))])]); (EName "base_duration"); (EName "base_velocity")]); (EOp (OCall [APos; APos; APos]) [(EName "Note"); (EOp (OCall [APos]) [(EOp (OAttr "transposed") [(EName "base_tone")]); (EOp OPos [(EConst (VInt 7))])]); (EName "base_duration"); (EName "base_velocity")]); (EOp (OCall [APos; APos; APos]) [(EName "Note"); (EOp (OCall [APos]) [(EOp (OAttr "transposed") [(EName "base_tone")]); (EOp OPos [(EConst (VInt 9))])]); (EName "base_duration"); (EName "base_velocity")]); (EOp (OCall [APos; APos; APos]) [(EName "Note"); (EOp (OCall [APos]) [(EOp (OAttr "transposed") [(EName "base_tone")]); (EOp OPos [(EConst (VInt 14))])]); (EName "base_duration"); (EName "base_velocity")])])].

(** chord.min69 (music/chord.py 1105-1129). *)
Definition src_chord_min69 : fundef :=
  mkFun "chord.min69"
    [("base", None); ("duration", Some (EConst VNone)); ("velocity", Some (EConst VNone))]
    [] false
    [SAssign (TTuple [(TName "base_tone"); (TName "base_duration"); (TName "base_velocity")]) (EOp (OCall [APos; APos; APos]) [(EName "chord._get_parameters"); (EName "base"); (EName "duration"); (EName "velocity")]);
     SReturn (EOp OTuple [(EOp (OCall [APos; APos; APos]) [(EName "Note"); (EName "base_tone"); (EName "base_duration"); (EName "base_velocity")]); (EOp (OCall [APos; APos; APos]) [(EName "Note"); (EOp (OCall [APos]) [(EOp (OAttr "transposed") [(EName "base_tone")]); (EOp OPos [(EConst (VInt 4))])]); (EName "base_duration"); (EName "base_velocity")]); (EOp (OCall [APos; APos; APos]) [(EName "Note"); (EOp (OCall [APos]) [(EOp (OAttr "transposed") [(EName "base_tone")]); (EOp OPos [(EConst (VInt 7))])]); (EName "base_duration"); (EName "base_velocity")]); (EOp (OCall [APos; APos; APos]) [(EName "Note"); (EOp (OCall [APos]) [(EOp (OAttr "transposed") [(EName "base_tone")]); (EOp OPos [(EConst (VInt 9))])]); (EName "base_duration"); (EName "base_velocity")]); (EOp (OCall [APos; APos; APos]) [(EName "Note"); (EOp (OCall [APos]) [(EOp (OAttr "transposed") [(EName "base_tone")]); (EOp OPos [(EConst (VInt 14))])]); (EName "base_duration"); (EName "base_velocity")])])].

(** chord.added9 (music/chord.py 1132-1154). *)
Definition src_chord_added9 : fundef :=
  mkFun "chord.added9"
    [("base", None); ("duration", Some (EConst VNone)); ("velocity", Some (EConst VNone))]
    [] false
    [SAssign (TTuple [(TName "base_tone"); (TName "base_duration"); (TName "base_velocity")]) (EOp (OCall [APos; APos; APos]) [(EName "chord._get_parameters"); (EName "base"); (EName "duration"); (EName "velocity")]);
     SReturn (EOp OTuple [(EOp (OCall [APos; APos; APos]) [(EName "Note"); (EName "base_tone"); (EName "base_duration"); (EName "base_velocity")]); (EOp (OCall [APos; APos; APos]) [(EName "Note"); (EOp (OCall [APos]) [(EOp (OAttr "transposed") [(EName "base_tone")]); (EOp OPos [(EConst (VInt 4))])]); (EName "base_duration"); (EName "base_velocity")]); (EOp (OCall [APos; APos; APos]) [(EName "Note"); (EOp (OCall [APos]) [(EOp (OAttr "transposed") [(EName "base_tone")]); (EOp OPos [(EConst (VInt 14))])]); (EName "base_duration"); (EName "base_velocity")])])].

(** chord.add9 (music/chord.py 1157-1179). *)
Definition src_chord_add9 : fundef :=
  mkFun "chord.add9"
    [("base", None); ("duration", Some (EConst VNone)); ("velocity", Some (EConst VNone))]
    [] false
    [SAssign (TTuple [(TName "base_tone"); (TName "base_duration"); (TName "base_velocity")]) (EOp (OCall [APos; APos; APos]) [(EName "chord._get_parameters"); (EName "base"); (EName "duration"); (EName "velocity")]);
     SReturn (EOp OTuple [(EOp (OCall [APos; APos; APos]) [(EName "Note"); (EName "base_tone"); (EName "base_duration"); (EName "base_velocity")]); (EOp (OCall [APos; APos; APos]) [(EName "Note"); (EOp (OCall [APos]) [(EOp (OAttr "transposed") [(EName "base_tone")]); (EOp OPos [(EConst (VInt 4))])]); (EName "base_duration"); (EName "base_velocity")]); (EOp (OCall [APos; APos; APos]) [(EName "Note"); (EOp (OCall [APos]) [(EOp (OAttr "transposed") [(EName "base_tone")]); (EOp OPos [(EConst (VInt 14))])]); (EName "base_duration"); (EName "base_velocity")])])].

(** chord.major11 (music/chord.py 1182-1207). *)
Definition src_chord_major11 : fundef :=
  mkFun "chord.major11"
    [("base", None); ("duration", Some (EConst VNone)); ("velocity", Some (EConst VNone))]
    [] false
    [SAssign (TTuple [(TName "base_tone"); (TName "base_duration"); (TName "base_velocity")]) (EOp (OCall [APos; APos; APos]) [(EName "chord._get_parameters"); (EName "base"); (EName "duration"); (EName "velocity")]);
     SReturn (EOp OTuple [(EOp (OCall [APos; APos; APos]) [(EName "Note"); (EName "base_tone"); (EName "base_duration"); (EName "base_velocity")]); (EOp (OCall [APos; APos; APos]) [(EName "Note"); (EOp (OCall [APos]) [(EOp (OAttr "transposed") [(EName "base_tone")]); (EOp OPos [(EConst (VInt 4))])]); (EName "base_duration"); (EName "base_velocity")]); (EOp (OCall [APos; APos; APos]) [(EName "Note"); (EOp (OCall [APos]) [(EOp (OAttr "transposed") [(EName "base_tone")]); (EOp OPos [(EConst (VInt 7))])]); (EName "base_duration"); (EName "base_velocity")]); (EOp (OCall [APos; APos; APos]) [(EName "Note"); (EOp (OCall [APos]) [(EOp (OAttr "transposed") [(EName "base_tone")]); (EOp OPos [(EConst (VInt 11))])]); (EName "base_duration"); (EName "base_velocity")]); (EOp (OCall [APos; APos; APos]) [(EName "Note"); (EOp (OCall [APos]) [(EOp (OAttr "transposed") [(EName "base_tone")]); (EOp OPos [(EConst (VInt 14))])]); (EName "base_duration"); (EName "base_velocity")]); (EOp (OCall [APos; APos; APos]) [(EName "Note"); (EOp (OCall [APos]) [(EOp (OAttr "transposed") [(EName "base_tone")]); (EOp OPos [(EConst (VInt 17))])]); (EName "base_duration"); (EName "base_velocity")])])].

(** chord.maj11 (music/chord.py 1210-1235). *)
Definition src_chord_maj11 : fundef :=
  mkFun "chord.maj11"
    [("base", None); ("duration", Some (EConst VNone)); ("velocity", Some (EConst VNone))]
    [] false
    [SAssign (TTuple [(TName "base_tone"); (TName "base_duration"); (TName "base_velocity")]) (EOp (OCall [APos; APos; APos]) [(EName "chord._get_parameters"); (EName "base"); (EName "duration"); (EName "velocity")]);
     SReturn (EOp OTuple [(EOp (OCall [APos; APos; APos]) [(EName "Note"); (EName "base_tone"); (EName "base_duration"); (EName "base_velocity")]); (EOp (OCall [APos; APos; APos]) [(EName "Note"); (EOp (OCall [APos]) [(EOp (OAttr "transposed") [(EName "base_tone")]); (EOp OPos [(EConst (VInt 4))])]); (EName "base_duration"); (EName "base_velocity")]); (EOp (OCall [APos; APos; APos]) [(EName "Note"); (EOp (OCall [APos]) [(EOp (OAttr "transposed") [(EName "base_tone")]); (EOp OPos [(EConst (VInt 7))])]); (EName "base_duration"); (EName "base_velocity")]); (EOp (OCall [APos; APos; APos]) [(EName "Note"); (EOp (OCall [APos]) [(EOp (OAttr "transposed") [(EName "base_tone")]); (EOp OPos [(EConst (VInt 11))])]); (EName "base_duration"); (EName "base_velocity")]); (EOp (OCall [APos; APos; APos]) [(EName "Note"); (EOp (OCall [APos]) [(EOp (OAttr "transposed") [(EName "base_tone")]); (EOp OPos [(EConst (VInt 14))])]); (EName "base_duration"); (EName "base_velocity")]); (EOp (OCall [APos; APos; APos]) [(EName "Note"); (EOp (OCall [APos]) [(EOp (OAttr "transposed") [(EName "base_tone")]); (EOp OPos [(EConst (VInt 17))])]); (EName "base_duration"); (EName "base_velocity")])])].

(** chord.minor11 (music/chord.py 1238-1263). *)
Definition src_chord_minor11 : fundef :=
  mkFun "chord.minor11"
    [("base", None); ("duration", Some (EConst VNone)); ("velocity", Some (EConst VNone))]
    [] false
    [SAssign (TTuple [(TName "base_tone"); (TName "base_duration"); (TName "base_velocity")]) (EOp (OCall [APos; APos; APos]) [(EName "chord._get_parameters"); (EName "base"); (EName "duration"); (EName "velocity")]);
     SReturn (EOp OTuple [(EOp (OCall [APos; APos; APos]) [(EName "Note"); (EName "base_tone"); (EName "base_duration"); (EName "base_velocity")]); (EOp (OCall [APos; APos; APos]) [(EName "Note"); (EOp (OCall [APos]) [(EOp (OAttr "transposed") [(EName "base_tone")]); (EOp OPos [(EConst (VInt 3))])]); (EName "base_duration"); (EName "base_velocity")]); (EOp (OCall [APos; APos; APos]) [(EName "Note"); (EOp (OCall [APos]) [(EOp (OAttr "transposed") [(EName "base_tone")]); (EOp OPos [(EConst (VInt 7))])]); (EName "base_duration"); (EName "base_velocity")]); (EOp (OCall [APos; APos; APos]) [(EName "Note"); (EOp (OCall [APos]) [(EOp (OAttr "transposed") [(EName "base_tone")]); (EOp OPos [(EConst (VInt 10))])]); (EName "base_duration"); (EName "base_velocity")]); (EOp (OCall [APos; APos; APos]) [(EName "Note"); (EOp (OCall [APos]) [(EOp (OAttr "transposed") [(EName "base_tone")]); (EOp OPos [(EConst (VInt 14))])]); (EName "base_duration"); (EName "base_velocity")]); (EOp (OCall [APos; APos; APos]) [(EName "Note"); (EOp (OCall [APos]) [(EOp (OAttr "transposed") [(EName "base_tone")]); (EOp OPos [(EConst (VInt 17))])]); (EName "base_duration"); (EName "base_velocity")])])].

(** chord.min11 (music/chord.py 1266-1291). *)
Definition src_chord_min11 : fundef :=
  mkFun "chord.min11"
    [("base", None); ("duration", Some (EConst VNone)); ("velocity", Some (EConst VNone))]
    [] false
    [SAssign (TTuple [(TName "base_tone"); (TName "base_duration"); (TName "base_velocity")]) (EOp (OCall [APos; APos; APos]) [(EName "chord._get_parameters"); (EName "base"); (EName "duration"); (EName "velocity")]);
     SReturn (EOp OTuple [(EOp (OCall [APos; APos; APos]) [(EName "Note"); (EName "base_tone"); (EName "base_duration"); (EName "base_velocity")]); (EOp (OCall [APos; APos; APos]) [(EName "Note"); (EOp (OCall [APos]) [(EOp (OAttr "transposed") [(EName "base_tone")]); (EOp OPos [(EConst (VInt 3))])]); (EName "base_duration"); (EName "base_velocity")]); (EOp (OCall [APos; APos; APos]) [(EName "Note"); (EOp (OCall [APos]) [(EOp (OAttr "transposed") [(EName "base_tone")]); (EOp OPos [(EConst (VInt 7))])]); (EName "base_duration"); (EName "base_velocity")]); (EOp (OCall [APos; APos; APos]) [(EName "Note"); (EOp (OCall [APos]) [(EOp (OAttr "transposed") [(EName "base_tone")]); (EOp OPos [(EConst (VInt 10))])]); (EName "base_duration"); (EName "base_velocity")]); (EOp (OCall [APos; APos; APos]) [(EName "Note"); (EOp (OCall [APos]) [(EOp (OAttr "transposed") [(EName "base_tone")]); (EOp OPos [(EConst (VInt 14))])]); (EName "base_duration"); (EName "base_velocity")]); (EOp (OCall [APos; APos; APos]) [(EName "Note"); (EOp (OCall [APos]) [(EOp (OAttr "transposed") [(EName "base_tone")]); (EOp OPos [(EConst (VInt 17))])]); (EName "base_duration"); (EName "base_velocity")])])].

(** chord.dominant11 (music/chord.py 1294-1319). *)
Definition src_chord_dominant11 : fundef :=
  mkFun "chord.dominant11"
    [("base", None); ("duration", Some (EConst VNone)); ("velocity", Some (EConst VNone))]
    [] false
    [SAssign (TTuple [(TName "base_tone"); (TName "base_duration"); (TName "base_velocity")]) (EOp (OCall [APos; APos; APos]) [(EName "chord._get_parameters"); (EName "base"); (EName "duration"); (EName "velocity")]);
     SReturn (EOp OTuple [(EOp (OCall [APos; APos; APos]) [(EName "Note"); (EName "base_tone"); (EName "base_duration"); (EName "base_velocity")]); (EOp (OCall [APos; APos; APos]) [(EName "Note"); (EOp (OCall [APos]) [(EOp (OAttr "transposed") [(EName "base_tone")]); (EOp OPos [(EConst (VInt 4))])]); (EName "base_duration"); (EName "base_velocity")]); (EOp (OCall [APos; APos; APos]) [(EName "Note"); (EOp (OCall [APos]) [(EOp (OAttr "transposed") [(EName "base_tone")]); (EOp OPos [(EConst (VInt 7))])]); (EName "base_duration"); (EName "base_velocity")]); (EOp (OCall [APos; APos; APos]) [(EName "Note"); (EOp (OCall [APos]) [(EOp (OAttr "transposed") [(EName "base_tone")]); (EOp OPos [(EConst (VInt 10))])]); (EName "base_duration"); (EName "base_velocity")]); (EOp (OCall [APos; APos; APos]) [(EName "Note"); (EOp (OCall [APos]) [(EOp (OAttr "transposed") [(EName "base_tone")]); (EOp OPos [(EConst (VInt 14))])]); (EName "base_duration"); (EName "base_velocity")]); (EOp (OCall [APos; APos; APos]) [(EName "Note"); (EOp (OCall [APos]) [(EOp (OAttr "transposed") [(EName "base_tone")]); (EOp OPos [(EConst (VInt 17))])]); (EName "base_duration"); (EName "base_velocity")])])].

(** chord.dom11 (music/chord.py 1322-1347). *)
Definition src_chord_dom11 : fundef :=
  mkFun "chord.dom11"
    [("base", None); ("duration", Some (EConst VNone)); ("velocity", Some (EConst VNone))]
    [] false
    [SAssign (TTuple [(TName "base_tone"); (TName "base_duration"); (TName "base_velocity")]) (EOp (OCall [APos; APos; APos]) [(EName "chord._get_parameters"); (EName "base"); (EName "duration"); (EName "velocity")]);
     SReturn (EOp OTuple [(EOp (OCall [APos; APos; APos]) [(EName "Note"); (EName "base_tone"); (EName "base_duration"); (EName "base_velocity")]); (EOp (OCall [APos; APos; APos]) [(EName "Note"); (EOp (OCall [APos]) [(EOp (OAttr "transposed") [(EName "base_tone")]); (EOp OPos [(EConst (VInt 4))])]); (EName "base_duration"); (EName "base_velocity")]); (EOp (OCall [APos; APos; APos]) [(EName "Note"); (EOp (OCall [APos]) [(EOp (OAttr "transposed") [(EName "base_tone")]); (EOp OPos [(EConst (VInt 7))])]); (EName "base_duration"); (EName "base_velocity")]); (EOp (OCall [APos; APos; APos]) [(EName "Note"); (EOp (OCall [APos]) [(EOp (OAttr "transposed") [(EName "base_tone")]); (EOp OPos [(EConst (VInt 10))])]); (EName "base_duration"); (EName "base_velocity")]); (EOp (OCall [APos; APos; APos]) [(EName "Note"); (EOp (OCall [APos]) [(EOp (OAttr "transposed") [(EName "base_tone")]); (EOp OPos [(EConst (VInt 14))])]); (EName "base_duration"); (EName "base_velocity")]); (EOp (OCall [APos; APos; APos]) [(EName "Note"); (EOp (OCall [APos]) [(EOp (OAttr "transposed") [(EName "base_tone")]); (EOp OPos [(EConst (VInt 17))])]); (EName "base_duration"); (EName "base_velocity")])])].

(** _Reader.__init__ (io/midi.py 24-26). *)
Definition src__Reader___init__ : fundef :=
  mkFun "_Reader.__init__"
    [("self", None); ("data", None)]
    [] false
    [SAssign (TAttr "self" "_data") (EName "data");
     SAssign (TAttr "self" "_idx") (EConst (VInt 0))].

(** _Reader.read (io/midi.py 28-34). *)
Definition src__Reader_read : fundef :=
  mkFun "_Reader.read"
    [("self", None); ("n", None)]
    [] false
    [SIf (ECmp (EOp (OBin Sub) [(EOp (OCall [APos]) [(EName "len"); (EOp (OAttr "_data") [(EName "self")])]); (EOp (OAttr "_idx") [(EName "self")])]) [(CLt, (EName "n"))])
       [SAssign (TAttr "self" "_idx") (EOp (OCall [APos]) [(EName "len"); (EOp (OAttr "_data") [(EName "self")])]);
        SRaise (EOp (OCall [APos]) [(EName "MIDIParsingError"); (EConst (VStr (lit "Invalid MIDI file: unexpected end of data")))])]
       [];
     SAssign (TName "result") (EOp OSlice [(EOp (OAttr "_data") [(EName "self")]); (EOp (OAttr "_idx") [(EName "self")]); (EOp (OBin Add) [(EOp (OAttr "_idx") [(EName "self")]); (EName "n")])]);
     SAssign (TAttr "self" "_idx") (EOp (OBin Add) [(EOp (OAttr "_idx") [EName "self"]); (EName "n")]);
     SReturn (EName "result")].

(** _Reader.shift (io/midi.py 36-37). *)
Definition src__Reader_shift : fundef :=
  mkFun "_Reader.shift"
    [("self", None); ("n", None)]
    [] false
    [SAssign (TAttr "self" "_idx") (EOp (OBin Add) [(EOp (OAttr "_idx") [EName "self"]); (EName "n")])].

(** _Reader.__len__ (io/midi.py 39-40). *)
Definition src__Reader___len__ : fundef :=
  mkFun "_Reader.__len__"
    [("self", None)]
    [] false
    [SReturn (EOp (OCall [APos]) [(EName "len"); (EOp (OAttr "_data") [(EName "self")])])].

(** MIDIWriter.__init__ (io/midi.py 57-106). *)
Definition src_MIDIWriter___init__ : fundef :=
  mkFun "MIDIWriter.__init__"
    [("self", None); ("pulses_per_quarter", Some (EConst (VInt 96))); ("middle_c", Some (EOp (OCall [APos]) [(EOp (OAttr "from_notation") [(EName "Tone")]); (EConst (VStr (lit "C3")))])); ("bpm", Some (EConst (VFloat (S754_finite false 8444249301319680 (-46))))); ("channel", Some (EConst (VInt 0)))]
    [] false
    [SIf (EOp ONot [(ECmp (EConst (VInt 1)) [(CLe, (EName "pulses_per_quarter")); (CLe, (EConst (VInt 32767)))])])
       [SRaise (EOp (OCall [APos]) [(EName "ValueError"); (EConst (VStr (lit "pulses_per_quarter must be in range [1, 32767]")))])]
       [];
     SIf (EOp ONot [(ECmp (EConst (VInt 0)) [(CLe, (EName "channel")); (CLe, (EConst (VInt 15)))])])
       [SRaise (EOp (OCall [APos]) [(EName "ValueError"); (EConst (VStr (lit "channel must be in range [0, 15]")))])]
       [];
     SAssign (TAttr "self" "_pulses_per_quarter") (EName "pulses_per_quarter");
     SAssign (TAttr "self" "_pulses_per_whole") (EOp (OBin Mult) [(EName "pulses_per_quarter"); (EConst (VInt 4))]);
     SAssign (TAttr "self" "_middle_c") (EName "middle_c");
     SIf (EOp (OCall [APos; APos]) [(EName "isinstance"); (EName "middle_c"); (EName "Tone")])
       [SAssign (TAttr "self" "_middle_c_delta") (EOp (OBin Sub) [(EConst (VInt 60)); (EOp (OAttr "pitch") [(EName "middle_c")])])]
       [SIf (EOp (OCall [APos; APos]) [(EName "isinstance"); (EName "middle_c"); (EName "int")])
          [SAssign (TAttr "self" "_middle_c_delta") (EOp (OBin Sub) [(EConst (VInt 60)); (EOp (OAttr "pitch") [(EOp (OCall [APos]) [(EName "Tone"); (EName "middle_c")])])])]
          [SIf (EOp (OCall [APos; APos]) [(EName "isinstance"); (EName "middle_c"); (EName "str")])
             [SAssign (TAttr "self" "_middle_c_delta") (EOp (OBin Sub) [(EConst (VInt 60)); (EOp (OAttr "pitch") [(EOp (OCall [APos]) [(EOp (OAttr "from_notation") [(EName "Tone")]); (EName "middle_c")])])])]
             [SRaise (EOp (OCall [APos]) [(EName "TypeError"); (EConst (VStr (lit "middle_c must be a Tone object, an integer or a string")))])]]];
     SAssign (TAttr "self" "_bpm") (EName "bpm");
     SAssign (TAttr "self" "_channel") (EName "channel")].

(** MIDIWriter._signature_to_pulses (io/midi.py 108-111). *)
Definition src_MIDIWriter__signature_to_pulses : fundef :=
  mkFun "MIDIWriter._signature_to_pulses"
    [("self", None); ("signature", None)]
    [] false
    [SAssign (TName "normalized") (EOp (OCall []) [(EOp (OAttr "normalized") [(EName "signature")])]);
     SReturn (EOp (OBin FloorDiv) [(EOp (OBin Mult) [(EOp (OAttr "_pulses_per_whole") [(EName "self")]); (EOp (OAttr "nominator") [(EName "normalized")])]); (EOp (OAttr "denominator") [(EName "normalized")])])].

(** MIDIWriter._format_note_on (io/midi.py 113-127). *)
Definition src_MIDIWriter__format_note_on : fundef :=
  mkFun "MIDIWriter._format_note_on"
    [("self", None); ("note", None)]
    [] false
    [SAssign (TName "status") (EOp (OBin BitOr) [(EConst (VInt 144)); (EOp (OAttr "_channel") [(EName "self")])]);
     SAssign (TName "pitch") (EOp (OBin Add) [(EOp (OAttr "pitch") [(EOp (OAttr "tone") [(EName "note")])]); (EOp (OAttr "_middle_c_delta") [(EName "self")])]);
     SIf (EOp ONot [(ECmp (EConst (VInt 0)) [(CLe, (EName "pitch")); (CLe, (EConst (VInt 127)))])])
       [SRaise (EOp (OCall [APos]) [(EName "ValueError"); (EOp (OFormat [FLit "Tone "; FVal ""; FLit " can not be written to midi file with middle c equals to "; FVal ""]) [(EOp (OCall [APos]) [(EName "str"); (EOp (OAttr "tone") [(EName "note")])]); (EOp (OCall [APos]) [(EName "str"); (EOp (OAttr "_middle_c") [(EName "self")])])])])]
       [];
     SAssign (TName "velocity") (EOp (OCall [APos; APos]) [(EName "max"); (EConst (VInt 0)); (EOp (OCall [APos; APos]) [(EName "min"); (EConst (VInt 127)); (EOp (OCall [APos]) [(EName "int"); (EOp (OBin Mult) [(EOp (OAttr "velocity") [(EName "note")]); (EConst (VInt 127))])])])]);
     SReturn (EOp (OCall [APos]) [(EOp (OAttr "join") [(EConst (VBytes []))]); (EOp OList [(EOp (OCall [APos; APos]) [(EOp (OAttr "to_bytes") [(EName "status")]); (EConst (VInt 1)); (EConst (VStr (lit "big")))]); (EOp (OCall [APos; APos]) [(EOp (OAttr "to_bytes") [(EName "pitch")]); (EConst (VInt 1)); (EConst (VStr (lit "big")))]); (EOp (OCall [APos; APos]) [(EOp (OAttr "to_bytes") [(EName "velocity")]); (EConst (VInt 1)); (EConst (VStr (lit "big")))])])])].

(** MIDIWriter._format_note_off (io/midi.py 129-143). *)
Definition src_MIDIWriter__format_note_off : fundef :=
  mkFun "MIDIWriter._format_note_off"
    [("self", None); ("note", None)]
    [] false
    [SAssign (TName "status") (EOp (OBin BitOr) [(EConst (VInt 128)); (EOp (OAttr "_channel") [(EName "self")])]);
     SAssign (TName "pitch") (EOp (OBin Add) [(EOp (OAttr "pitch") [(EOp (OAttr "tone") [(EName "note")])]); (EOp (OAttr "_middle_c_delta") [(EName "self")])]);
     SIf (EOp ONot [(ECmp (EConst (VInt 0)) [(CLe, (EName "pitch")); (CLe, (EConst (VInt 127)))])])
       [SRaise (EOp (OCall [APos]) [(EName "ValueError"); (EOp (OFormat [FLit "Tone "; FVal ""; FLit " can not be written to midi file with middle c equals to "; FVal ""]) [(EOp (OCall [APos]) [(EName "str"); (EOp (OAttr "tone") [(EName "note")])]); (EOp (OCall [APos]) [(EName "str"); (EOp (OAttr "_middle_c") [(EName "self")])])])])]
       [];
     SAssign (TName "velocity") (EConst (VInt 64));
     SReturn (EOp (OCall [APos]) [(EOp (OAttr "join") [(EConst (VBytes []))]); (EOp OList [(EOp (OCall [APos; APos]) [(EOp (OAttr "to_bytes") [(EName "status")]); (EConst (VInt 1)); (EConst (VStr (lit "big")))]); (EOp (OCall [APos; APos]) [(EOp (OAttr "to_bytes") [(EName "pitch")]); (EConst (VInt 1)); (EConst (VStr (lit "big")))]); (EOp (OCall [APos; APos]) [(EOp (OAttr "to_bytes") [(EName "velocity")]); (EConst (VInt 1)); (EConst (VStr (lit "big")))])])])].

(** MIDIWriter._format_var_len (io/midi.py 146-155). *)
Definition src_MIDIWriter__format_var_len : fundef :=
  mkFun "MIDIWriter._format_var_len"
    [("x", None)]
    [] false
    [SAssign (TName "buffer") (EOp (OBin BitAnd) [(EName "x"); (EConst (VInt 127))]);
     SAssign (TName "x") (EOp (OBin RShift) [(EName "x"); (EConst (VInt 7))]);
     SWhile (ECmp (EName "x") [(CGt, (EConst (VInt 0)))])
       [SAssign (TName "buffer") (EOp (OBin LShift) [(EName "buffer"); (EConst (VInt 8))]);
        SAssign (TName "buffer") (EOp (OBin BitOr) [(EName "buffer"); (EConst (VInt 128))]);
        SAssign (TName "buffer") (EOp (OBin Add) [(EName "buffer"); (EOp (OBin BitAnd) [(EName "x"); (EConst (VInt 127))])]);
        SAssign (TName "x") (EOp (OBin RShift) [(EName "x"); (EConst (VInt 7))])];
     SReturn (EOp (OCall [APos; APos]) [(EOp (OAttr "to_bytes") [(EName "buffer")]); (EOp (OBin Add) [(EOp (OBin FloorDiv) [(EOp (OCall []) [(EOp (OAttr "bit_length") [(EName "buffer")])]); (EConst (VInt 8))]); (EConst (VInt 1))]); (EConst (VStr (lit "little")))])].

(** MIDIWriter._format_signature (io/midi.py 158-168). *)
Definition src_MIDIWriter__format_signature : fundef :=
  mkFun "MIDIWriter._format_signature"
    [("signature", None); ("cc", None); ("bb", None)]
    [] false
    [SAssign (TName "nn") (EOp (OAttr "nominator") [(EName "signature")]);
     SAssign (TName "dd") (EOp (OBin Sub) [(EOp (OCall []) [(EOp (OAttr "bit_length") [(EOp (OAttr "denominator") [(EName "signature")])])]); (EConst (VInt 1))]);
     SReturn (EOp (OCall [APos]) [(EOp (OAttr "join") [(EConst (VBytes []))]); (EOp OList [(EConst (VBytes [255; 88; 4])); (EOp (OCall [APos; APos]) [(EOp (OAttr "to_bytes") [(EName "nn")]); (EConst (VInt 1)); (EConst (VStr (lit "big")))]); (EOp (OCall [APos; APos]) [(EOp (OAttr "to_bytes") [(EName "dd")]); (EConst (VInt 1)); (EConst (VStr (lit "big")))]); (EOp (OCall [APos; APos]) [(EOp (OAttr "to_bytes") [(EName "cc")]); (EConst (VInt 1)); (EConst (VStr (lit "big")))]); (EOp (OCall [APos; APos]) [(EOp (OAttr "to_bytes") [(EName "bb")]); (EConst (VInt 1)); (EConst (VStr (lit "big")))])])])].

(** MIDIWriter._format_tempo (io/midi.py 171-175). *)
Definition src_MIDIWriter__format_tempo : fundef :=
  mkFun "MIDIWriter._format_tempo"
    [("tempo", None)]
    [] false
    [SReturn (EOp (OCall [APos]) [(EOp (OAttr "join") [(EConst (VBytes []))]); (EOp OList [(EConst (VBytes [255; 81; 3])); (EOp (OCall [APos; APos]) [(EOp (OAttr "to_bytes") [(EName "tempo")]); (EConst (VInt 3)); (EConst (VStr (lit "big")))])])])].

(** MIDIWriter._format_chunk (io/midi.py 178-180). *)
Definition src_MIDIWriter__format_chunk : fundef :=
  mkFun "MIDIWriter._format_chunk"
    [("kind", None); ("body", None)]
    [] false
    [SIf (ECmp (EOp (OCall [APos]) [(EName "len"); (EName "kind")]) [(CEq, (EConst (VInt 4)))])
       []
       [SRaise (EOp (OCall [APos]) [EName "AssertionError"; (EConst (VStr (lit "kind must be exactly 4 bytes long")))])];
     SReturn (EOp (OCall [APos]) [(EOp (OAttr "join") [(EConst (VBytes []))]); (EOp OList [(EName "kind"); (EOp (OCall [APos; APos]) [(EOp (OAttr "to_bytes") [(EOp (OCall [APos]) [(EName "len"); (EName "body")])]); (EConst (VInt 4)); (EConst (VStr (lit "big")))]); (EName "body")])])].

(** MIDIWriter._format_header_chunk (io/midi.py 182-195). *)
Definition src_MIDIWriter__format_header_chunk : fundef :=
  mkFun "MIDIWriter._format_header_chunk"
    [("self", None); ("kind", None); ("n_tracks", None)]
    [] false
    [SIf (ECmp (EName "kind") [(CIn, (EOp OTuple [(EConst (VInt 0)); (EConst (VInt 1)); (EConst (VInt 2))]))])
       []
       [SRaise (EOp (OCall [APos]) [EName "AssertionError"; (EConst (VStr (lit "kind must be 0, 1 or 2")))])];
     SAssign (TName "body") (EOp (OCall [APos]) [(EOp (OAttr "join") [(EConst (VBytes []))]); (EOp OList [(EOp (OCall [APos; APos]) [(EOp (OAttr "to_bytes") [(EName "kind")]); (EConst (VInt 2)); (EConst (VStr (lit "big")))]); (EOp (OCall [APos; APos]) [(EOp (OAttr "to_bytes") [(EName "n_tracks")]); (EConst (VInt 2)); (EConst (VStr (lit "big")))]); (EOp (OCall [APos; APos]) [(EOp (OAttr "to_bytes") [(EOp (OAttr "_pulses_per_quarter") [(EName "self")])]); (EConst (VInt 2)); (EConst (VStr (lit "big")))])])]);
     SReturn (EOp (OCall [APos; APos]) [(EOp (OAttr "_format_chunk") [(EName "MIDIWriter")]); (EConst (VBytes [77; 84; 104; 100])); (EName "body")])].

(** MIDIWriter.dump (io/midi.py 197-240). *)
Definition src_MIDIWriter_dump : fundef :=
  mkFun "MIDIWriter.dump"
    [("self", None); ("track", None); ("file", None)]
    [] false
    [SAssign (TName "absolute_note_events") (EOp OList []);
     SFor (TTuple [(TName "position"); (TName "note")]) (EName "track")
       [SAssign (TName "note_on_absolute_time") (EOp (OCall [APos]) [(EOp (OAttr "_signature_to_pulses") [(EName "self")]); (EName "position")]);
        SAssign (TName "note_on_event") (EOp (OCall [APos]) [(EOp (OAttr "_format_note_on") [(EName "self")]); (EName "note")]);
        SAssign (TName "note_off_absolute_time") (EOp (OBin Add) [(EName "note_on_absolute_time"); (EOp (OCall [APos]) [(EOp (OAttr "_signature_to_pulses") [(EName "self")]); (EOp (OAttr "duration") [(EName "note")])])]);
        SAssign (TName "note_off_event") (EOp (OCall [APos]) [(EOp (OAttr "_format_note_off") [(EName "self")]); (EName "note")]);
        SExpr (EOp (OCall [APos]) [(EOp (OAttr "append") [(EName "absolute_note_events")]); (EOp OTuple [(EName "note_on_absolute_time"); (EName "note_on_event")])]);
        SExpr (EOp (OCall [APos]) [(EOp (OAttr "append") [(EName "absolute_note_events")]); (EOp OTuple [(EName "note_off_absolute_time"); (EName "note_off_event")])])];
     SExpr (EOp (OCall [AKey "key"]) [(EOp (OAttr "sort") [(EName "absolute_note_events")]); (EOp (OCall [APos]) [(EName "itemgetter"); (EConst (VInt 0))])]);
     SAssign (TName "delta_events") (EOp OList [(EOp OTuple [(EConst (VInt 0)); (EOp (OCall [APos; AKey "cc"; AKey "bb"]) [(EOp (OAttr "_format_signature") [(EName "self")]); (EOp (OAttr "signature") [(EName "track")]); (EOp (OAttr "_pulses_per_quarter") [(EName "self")]); (EConst (VInt 8))])]); (EOp OTuple [(EConst (VInt 0)); (EOp (OCall [APos]) [(EOp (OAttr "_format_tempo") [(EName "self")]); (EOp (OCall [APos]) [(EName "int"); (EOp (OBin Div) [(EConst (VInt 60000000)); (EOp (OAttr "_bpm") [(EName "self")])])])])])]);
     SAssign (TName "last_absolute_time") (EConst (VInt 0));
     SFor (TTuple [(TName "absolute_time"); (TName "note_event")]) (EName "absolute_note_events")
       [SExpr (EOp (OCall [APos]) [(EOp (OAttr "append") [(EName "delta_events")]); (EOp OTuple [(EOp (OBin Sub) [(EName "absolute_time"); (EName "last_absolute_time")]); (EName "note_event")])]);
        SAssign (TName "last_absolute_time") (EName "absolute_time")];
     SExpr (EOp (OCall [APos]) [(EOp (OAttr "append") [(EName "delta_events")]); (EOp OTuple [(EConst (VInt 0)); (EConst (VBytes [255; 47; 0]))])]);
     SExpr (EOp (OCall [APos]) [(EOp (OAttr "write") [(EName "file")]); (EOp (OCall [AKey "kind"; AKey "n_tracks"]) [(EOp (OAttr "_format_header_chunk") [(EName "self")]); (EConst (VInt 0)); (EConst (VInt 1))])]);
     SAssign (TName "track_body") (EOp OList []);
     SFor (TTuple [(TName "delta_time"); (TName "event")]) (EName "delta_events")
       [SExpr (EOp (OCall [APos]) [(EOp (OAttr "append") [(EName "track_body")]); (EOp (OCall [APos]) [(EOp (OAttr "_format_var_len") [(EName "self")]); (EName "delta_time")])]);
        SExpr (EOp (OCall [APos]) [(EOp (OAttr "append") [(EName "track_body")]); (EName "event")])];
     SExpr (EOp (OCall [APos]) [(EOp (OAttr "write") [(EName "file")]); (EOp (OCall [APos; APos]) [(EOp (OAttr "_format_chunk") [(EName "self")]); (EConst (VBytes [77; 84; 114; 107])); (EOp (OCall [APos]) [(EOp (OAttr "join") [(EConst (VBytes []))]); (EName "track_body")])])])].

(** MIDIWriter.dumps (io/midi.py 242-251). *)
Definition src_MIDIWriter_dumps : fundef :=
  mkFun "MIDIWriter.dumps"
    [("self", None); ("track", None)]
    [] false
    [SAssign (TName "file") (EOp (OCall []) [(EOp (OAttr "BytesIO") [(EName "io")])]);
     SExpr (EOp (OCall [APos; APos]) [(EOp (OAttr "dump") [(EName "self")]); (EName "track"); (EName "file")]);
     SReturn (EOp (OCall []) [(EOp (OAttr "tobytes") [(EOp (OCall []) [(EOp (OAttr "getbuffer") [(EName "file")])])])])].

(** MIDIReader.__init__ (io/midi.py 363-386). *)
Definition src_MIDIReader___init__ : fundef :=
  mkFun "MIDIReader.__init__"
    [("self", None); ("middle_c", Some (EOp (OCall [APos]) [(EOp (OAttr "from_notation") [(EName "Tone")]); (EConst (VStr (lit "C3")))]))]
    [] false
    [SAssign (TAttr "self" "_middle_c") (EName "middle_c");
     SIf (EOp (OCall [APos; APos]) [(EName "isinstance"); (EName "middle_c"); (EName "Tone")])
       [SAssign (TAttr "self" "_middle_c_delta") (EOp (OBin Sub) [(EConst (VInt 60)); (EOp (OAttr "pitch") [(EName "middle_c")])])]
       [SIf (EOp (OCall [APos; APos]) [(EName "isinstance"); (EName "middle_c"); (EName "int")])
          [SAssign (TAttr "self" "_middle_c_delta") (EOp (OBin Sub) [(EConst (VInt 60)); (EOp (OAttr "pitch") [(EOp (OCall [APos]) [(EName "Tone"); (EName "middle_c")])])])]
          [SIf (EOp (OCall [APos; APos]) [(EName "isinstance"); (EName "middle_c"); (EName "str")])
             [SAssign (TAttr "self" "_middle_c_delta") (EOp (OBin Sub) [(EConst (VInt 60)); (EOp (OAttr "pitch") [(EOp (OCall [APos]) [(EOp (OAttr "from_notation") [(EName "Tone")]); (EName "middle_c")])])])]
             [SRaise (EOp (OCall [APos]) [(EName "TypeError"); (EConst (VStr (lit "middle_c must be a Tone object, an integer or a string")))])]]]].

(** MIDIReader._read_chunks (io/midi.py 389-401). *)
Definition src_MIDIReader__read_chunks : fundef :=
  mkFun "MIDIReader._read_chunks"
    [("file", None)]
    [] true
    [SWhile (EConst (VBool true))
       [SAssign (TName "chunk_header") (EOp (OCall [APos]) [(EOp (OAttr "read") [(EName "file")]); (EConst (VInt 8))]);
        SIf (ECmp (EOp (OCall [APos]) [(EName "len"); (EName "chunk_header")]) [(CEq, (EConst (VInt 0)))])
          [SBreak]
          [];
        SIf (ECmp (EOp (OCall [APos]) [(EName "len"); (EName "chunk_header")]) [(CLt, (EConst (VInt 8)))])
          [SRaise (EOp (OCall [APos]) [(EName "MIDIParsingError"); (EConst (VStr (lit "Invalid MIDI file: incomplete chunk header")))])]
          [];
        SAssign (TName "chunk_name") (EOp OSliceTo [(EName "chunk_header"); (EConst (VInt 4))]);
        SAssign (TName "chunk_size") (EOp (OCall [APos; APos]) [(EOp (OAttr "from_bytes") [(EName "int")]); (EOp OSliceFrom [(EName "chunk_header"); (EConst (VInt 5))]); (EConst (VStr (lit "big")))]);
        SAssign (TName "chunk_body") (EOp (OCall [APos]) [(EOp (OAttr "read") [(EName "file")]); (EName "chunk_size")]);
        SIf (ECmp (EOp (OCall [APos]) [(EName "len"); (EName "chunk_body")]) [(CLt, (EName "chunk_size"))])
          [SRaise (EOp (OCall [APos]) [(EName "MIDIParsingError"); (EConst (VStr (lit "Invalid MIDI file: incomplete chunk body")))])]
          [];
        SYield (EOp OTuple [(EName "chunk_name"); (EOp (OCall [APos]) [(EName "_Reader"); (EName "chunk_body")])])]].

(** MIDIReader._parse_header (io/midi.py 404-408). *)
Definition src_MIDIReader__parse_header : fundef :=
  mkFun "MIDIReader._parse_header"
    [("data", None)]
    [] false
    [SAssign (TName "kind") (EOp (OCall [APos; APos]) [(EOp (OAttr "from_bytes") [(EName "int")]); (EOp (OCall [APos]) [(EOp (OAttr "read") [(EName "data")]); (EConst (VInt 2))]); (EConst (VStr (lit "big")))]);
     SAssign (TName "n_tracks") (EOp (OCall [APos; APos]) [(EOp (OAttr "from_bytes") [(EName "int")]); (EOp (OCall [APos]) [(EOp (OAttr "read") [(EName "data")]); (EConst (VInt 2))]); (EConst (VStr (lit "big")))]);
     SAssign (TName "division") (EOp (OCall [APos; APos]) [(EOp (OAttr "from_bytes") [(EName "int")]); (EOp (OCall [APos]) [(EOp (OAttr "read") [(EName "data")]); (EConst (VInt 2))]); (EConst (VStr (lit "big")))]);
     SReturn (EOp OTuple [(EName "kind"); (EName "n_tracks"); (EName "division")])].

(** MIDIReader._time_to_signature (io/midi.py 411-414). *)
Definition src_MIDIReader__time_to_signature : fundef :=
  mkFun "MIDIReader._time_to_signature"
    [("time", None); ("ticks_per_quarter", None)]
    [] false
    [SIf (ECmp (EName "ticks_per_quarter") [(CGt, (EConst (VInt 0)))])
       []
       [SRaise (EOp (OCall [APos]) [EName "AssertionError"; (EConst (VStr (lit "ticks_per_quarter must be positive")))])];
     SReturn (EOp (OCall []) [(EOp (OAttr "normalized") [(EOp (OCall [APos; APos]) [(EName "Signature"); (EOp (OBin FloorDiv) [(EOp (OBin Mult) [(EName "time"); (EConst (VInt 4096))]); (EName "ticks_per_quarter")]); (EOp (OBin Mult) [(EConst (VInt 4)); (EConst (VInt 4096))])])])])].

(** MIDIReader._pitch_to_tone (io/midi.py 416-417). *)
Definition src_MIDIReader__pitch_to_tone : fundef :=
  mkFun "MIDIReader._pitch_to_tone"
    [("self", None); ("pitch", None)]
    [] false
    [SReturn (EOp (OCall [APos]) [(EName "Tone"); (EOp (OBin Sub) [(EName "pitch"); (EOp (OAttr "_middle_c_delta") [(EName "self")])])])].

(** MIDIReader._read_var_len (io/midi.py 420-434). *)
Definition src_MIDIReader__read_var_len : fundef :=
  mkFun "MIDIReader._read_var_len"
    [("data", None)]
    [] false
    [SAssign (TName "result") (EOp (OCall [APos; APos]) [(EOp (OAttr "from_bytes") [(EName "int")]); (EOp (OCall [APos]) [(EOp (OAttr "read") [(EName "data")]); (EConst (VInt 1))]); (EConst (VStr (lit "big")))]);
     SIf (ECmp (EOp (OBin BitAnd) [(EName "result"); (EConst (VInt 128))]) [(CEq, (EConst (VInt 0)))])
       [SReturn (EName "result")]
       [];
     SAssign (TName "result") (EOp (OBin BitAnd) [(EName "result"); (EConst (VInt 127))]);
     SWhile (EConst (VBool true))
       [SAssign (TName "value") (EOp (OCall [APos; APos]) [(EOp (OAttr "from_bytes") [(EName "int")]); (EOp (OCall [APos]) [(EOp (OAttr "read") [(EName "data")]); (EConst (VInt 1))]); (EConst (VStr (lit "big")))]);
        SAssign (TName "result") (EOp (OBin Add) [(EOp (OBin LShift) [(EName "result"); (EConst (VInt 7))]); (EOp (OBin BitAnd) [(EName "value"); (EConst (VInt 127))])]);
        SIf (ECmp (EOp (OBin BitAnd) [(EName "value"); (EConst (VInt 128))]) [(CEq, (EConst (VInt 0)))])
          [SBreak]
          []];
     SReturn (EName "result")].

(** MIDIReader._read_8 (io/midi.py 437-438). *)
Definition src_MIDIReader__read_8 : fundef :=
  mkFun "MIDIReader._read_8"
    [("data", None)]
    [] false
    [SReturn (EOp (OCall [APos; APos]) [(EOp (OAttr "from_bytes") [(EName "int")]); (EOp (OCall [APos]) [(EOp (OAttr "read") [(EName "data")]); (EConst (VInt 1))]); (EConst (VStr (lit "big")))])].

(** MIDIReader._read_16 (io/midi.py 441-442). *)
Definition src_MIDIReader__read_16 : fundef :=
  mkFun "MIDIReader._read_16"
    [("data", None)]
    [] false
    [SReturn (EOp (OCall [APos; APos]) [(EOp (OAttr "from_bytes") [(EName "int")]); (EOp (OCall [APos]) [(EOp (OAttr "read") [(EName "data")]); (EConst (VInt 2))]); (EConst (VStr (lit "big")))])].

(** MIDIReader._read_24 (io/midi.py 445-446). *)
Definition src_MIDIReader__read_24 : fundef :=
  mkFun "MIDIReader._read_24"
    [("data", None)]
    [] false
    [SReturn (EOp (OCall [APos; APos]) [(EOp (OAttr "from_bytes") [(EName "int")]); (EOp (OCall [APos]) [(EOp (OAttr "read") [(EName "data")]); (EConst (VInt 3))]); (EConst (VStr (lit "big")))])].

(** MIDIReader._read_32 (io/midi.py 449-450). *)
Definition src_MIDIReader__read_32 : fundef :=
  mkFun "MIDIReader._read_32"
    [("data", None)]
    [] false
    [SReturn (EOp (OCall [APos; APos]) [(EOp (OAttr "from_bytes") [(EName "int")]); (EOp (OCall [APos]) [(EOp (OAttr "read") [(EName "data")]); (EConst (VInt 4))]); (EConst (VStr (lit "big")))])].

(** MIDIReader._parse_track.read_event (io/midi.py 459-527). *)
Definition src_MIDIReader__parse_track_read_event : fundef :=
  mkFun "MIDIReader._parse_track.read_event"
    [("status", Some (EConst VNone))]
    [] false
    [SIf (ECmp (EName "status") [(CIs, (EConst VNone))])
       [SAssign (TName "status") (EOp (OCall [APos]) [(EOp (OAttr "_read_8") [(EName "MIDIReader")]); (EName "data")])]
       [];
     SIf (ECmp (EName "status") [(CEq, (EConst (VInt 255)))])
       [SAssign (TName "previous_status") (EName "status");
        SAssign (TName "kind") (EOp (OCall [APos]) [(EOp (OAttr "_read_8") [(EName "MIDIReader")]); (EName "data")]);
        SAssign (TName "length") (EOp (OCall [APos]) [(EOp (OAttr "_read_var_len") [(EName "MIDIReader")]); (EName "data")]);
        SIf (ECmp (EName "kind") [(CEq, (EConst (VInt 47)))])
          [SIf (ECmp (EName "length") [(CNe, (EConst (VInt 0)))])
             [SRaise (EOp (OCall [APos]) [(EName "MIDIParsingError"); (EOp (OFormat [FLit "Invalid MIDI file: end of track event has length "; FVal ""; FLit " != 0"]) [(EName "length")])])]
             [];
           SReturn (EOp (OCall []) [(EName "_EventEndOfTrack")])]
          [SIf (ECmp (EName "kind") [(CEq, (EConst (VInt 32)))])
             [SIf (ECmp (EName "length") [(CNe, (EConst (VInt 1)))])
                [SRaise (EOp (OCall [APos]) [(EName "MIDIParsingError"); (EOp (OFormat [FLit "Invalid MIDI file: meta channel event has length "; FVal ""; FLit " != 3"]) [(EName "length")])])]
                [];
              SAssign (TName "channel") (EOp (OCall [APos]) [(EOp (OAttr "_read_8") [(EName "MIDIReader")]); (EName "data")]);
              SReturn (EOp (OCall [AKey "channel"]) [(EName "_EventGlobalChannel"); (EName "channel")])]
             [SIf (ECmp (EName "kind") [(CEq, (EConst (VInt 88)))])
                [SIf (ECmp (EName "length") [(CNe, (EConst (VInt 4)))])
                   [SRaise (EOp (OCall [APos]) [(EName "MIDIParsingError"); (EOp (OFormat [FLit "Invalid MIDI file: time signature event has length "; FVal ""; FLit " != 3"]) [(EName "length")])])]
                   [];
                 SAssign (TName "nn") (EOp (OCall [APos]) [(EOp (OAttr "_read_8") [(EName "MIDIReader")]); (EName "data")]);
                 SAssign (TName "dd") (EOp (OCall [APos]) [(EOp (OAttr "_read_8") [(EName "MIDIReader")]); (EName "data")]);
                 SAssign (TName "cc") (EOp (OCall [APos]) [(EOp (OAttr "_read_8") [(EName "MIDIReader")]); (EName "data")]);
                 SAssign (TName "bb") (EOp (OCall [APos]) [(EOp (OAttr "_read_8") [(EName "MIDIReader")]); (EName "data")]);
                 SReturn (EOp (OCall [AKey "nn"; AKey "dd"; AKey "cc"; AKey "bb"]) [(EName "_EventTimeSignature"); (EName "nn"); (EName "dd"); (EName "cc"); (EName "bb")])]
                [SExpr (EOp (OCall [APos]) [(EOp (OAttr "read") [(EName "data")]); (EName "length")]);
                 SReturn (EOp (OCall []) [(EName "_EventUnsupported")])]]]]
       [SIf (ECmp (EName "status") [(CGe, (EConst (VInt 128)))])
          [SAssign (TName "previous_status") (EName "status");
           SAssign (TName "kind") (EOp (OBin RShift) [(EName "status"); (EConst (VInt 4))]);
           SAssign (TName "channel") (EOp (OBin BitAnd) [(EName "status"); (EConst (VInt 15))]);
           SIf (ECmp (EName "kind") [(CEq, (EConst (VInt 8)))])
             [SAssign (TName "pitch") (EOp (OCall [APos]) [(EOp (OAttr "_read_8") [(EName "MIDIReader")]); (EName "data")]);
              SAssign (TName "velocity") (EOp (OCall [APos]) [(EOp (OAttr "_read_8") [(EName "MIDIReader")]); (EName "data")]);
              SReturn (EOp (OCall [AKey "channel"; AKey "pitch"; AKey "velocity"]) [(EName "_EventNoteOFF"); (EName "channel"); (EName "pitch"); (EName "velocity")])]
             [SIf (ECmp (EName "kind") [(CEq, (EConst (VInt 9)))])
                [SAssign (TName "pitch") (EOp (OCall [APos]) [(EOp (OAttr "_read_8") [(EName "MIDIReader")]); (EName "data")]);
                 SAssign (TName "velocity") (EOp (OCall [APos]) [(EOp (OAttr "_read_8") [(EName "MIDIReader")]); (EName "data")]);
                 SIf (ECmp (EName "velocity") [(CEq, (EConst (VInt 0)))])
                   [SReturn (EOp (OCall [AKey "channel"; AKey "pitch"; AKey "velocity"]) [(EName "_EventNoteOFF"); (EName "channel"); (EName "pitch"); (EName "velocity")])]
                   [];
                 SReturn (EOp (OCall [AKey "channel"; AKey "pitch"; AKey "velocity"]) [(EName "_EventNoteON"); (EName "channel"); (EName "pitch"); (EName "velocity")])]
                [SIf (ECmp (EName "status") [(CEq, (EConst (VInt 240)))])
                   [SAssign (TName "value") (EConst (VInt 0));
                    SWhile (ECmp (EName "value") [(CNe, (EConst (VInt 247)))])
                      [SAssign (TName "value") (EOp (OCall [APos]) [(EOp (OAttr "read") [(EName "data")]); (EConst (VInt 1))])];
                    SReturn (EOp (OCall []) [(EName "_EventUnsupported")])]
                   [SAssign (TName "length") (EOp OIndex [(EName "_event_lengths"); (EName "status")]);
                    SIf (ECmp (EName "length") [(CEq, (EOp ONeg [(EConst (VInt 1))]))])
                      [SRaise (EOp (OCall [APos]) [(EName "MIDIParsingError"); (EOp (OFormat [FLit "Unknown status "; FVal ""]) [(EName "status")])])]
                      [SExpr (EOp (OCall [APos]) [(EOp (OAttr "read") [(EName "data")]); (EName "length")])];
                    SReturn (EOp (OCall []) [(EName "_EventUnsupported")])]]]]
          [SExpr (EOp (OCall [APos]) [(EOp (OAttr "shift") [(EName "data")]); (EOp ONeg [(EConst (VInt 1))])]);
           SReturn (EOp (OCall [AKey "status"]) [(EName "read_event"); (EName "previous_status")])]]].

(** MIDIReader._parse_track (io/midi.py 452-602). *)
Definition src_MIDIReader__parse_track : fundef :=
  mkFun "MIDIReader._parse_track"
    [("self", None); ("data", None); ("ticks_per_quarter", None)]
    ["data"; "previous_status"; "read_event"] false
    [SAssign (TName "previous_status") (EConst VNone);
     SDef "read_event" "MIDIReader._parse_track.read_event" ["data"; "previous_status"; "read_event"];
     SAssign (TName "channel_events") (EOp (OCall [APos]) [(EName "defaultdict"); (EName "list")]);
     SAssign (TName "channel_signatures") (EOp ODict []);
     SAssign (TName "global_channel") (EOp ONeg [(EConst (VInt 1))]);
     SAssign (TName "last_time") (EConst (VInt 0));
     SWhile (EConst (VBool true))
       [SAssign (TName "delta_time") (EOp (OCall [APos]) [(EOp (OAttr "_read_var_len") [(EName "MIDIReader")]); (EName "data")]);
        SAssign (TName "absolute_time") (EOp (OBin Add) [(EName "last_time"); (EName "delta_time")]);
        SAssign (TName "last_time") (EName "absolute_time");
        SAssign (TName "event") (EOp (OCall []) [(EName "read_event")]);
        SIf (EOp (OCall [APos; APos]) [(EName "isinstance"); (EName "event"); (EOp OTuple [(EName "_EventNoteON"); (EName "_EventNoteOFF")])])
          [SExpr (EOp (OCall [APos]) [(EOp (OAttr "append") [(EOp OIndex [(EName "channel_events"); (EOp (OAttr "channel") [(EName "event")])])]); (EOp OTuple [(EName "absolute_time"); (EName "event")])]);
           SContinue]
          [];
        SIf (EOp (OCall [APos; APos]) [(EName "isinstance"); (EName "event"); (EName "_EventEndOfTrack")])
          [SBreak]
          [];
        SIf (EOp (OCall [APos; APos]) [(EName "isinstance"); (EName "event"); (EName "_EventGlobalChannel")])
          [SAssign (TName "global_channel") (EOp (OAttr "channel") [(EName "event")]);
           SContinue]
          [];
        SIf (EOp (OCall [APos; APos]) [(EName "isinstance"); (EName "event"); (EName "_EventTimeSignature")])
          [SAssign (TIndex (EName "channel_signatures") (EName "global_channel")) (EOp (OCall [APos; APos]) [(EName "Signature"); (EOp (OAttr "nn") [(EName "event")]); (EOp (OBin LShift) [(EConst (VInt 1)); (EOp (OAttr "dd") [(EName "event")])])]);
           SContinue]
          []];
     SIf (EOp ONot [(EName "channel_events")])
       [SExpr (EOp (OCall [APos]) [(EOp (OAttr "append") [(EOp OIndex [(EName "channel_events"); (EConst (VInt 0))])]); (EOp OTuple [(EConst (VInt 0)); (EOp (OCall []) [(EName "_EventUnsupported")])])])]
       [];
     SAssign (TName "result") (EOp ODict []);
     SFor (TTuple [(TName "channel"); (TName "events")]) (EOp (OCall []) [(EOp (OAttr "items") [(EName "channel_events")])])
       [SIf (ECmp (EName "channel") [(CIn, (EName "channel_signatures"))])
          [SAssign (TName "signature") (EOp OIndex [(EName "channel_signatures"); (EName "channel")])]
          [SAssign (TName "signature") (EOp (OCall [APos; APos]) [(EOp (OAttr "get") [(EName "channel_signatures")]); (EOp ONeg [(EConst (VInt 1))]); (EOp (OCall [APos; APos]) [(EName "Signature"); (EConst (VInt 4)); (EConst (VInt 4))])])];
        SAssign (TName "track") (EOp (OCall [AKey "signature"]) [(EName "Track"); (EName "signature")]);
        SAssign (TName "running_notes") (EOp ODict []);
        SFor (TTuple [(TName "absolute_time"); (TName "event")]) (EName "events")
          [SIf (EOp (OCall [APos; APos]) [(EName "isinstance"); (EName "event"); (EName "_EventNoteON")])
             [SIf (ECmp (EOp (OAttr "pitch") [(EName "event")]) [(CIn, (EName "running_notes"))])
                [SContinue]
                [];
              SAssign (TIndex (EName "running_notes") (EOp (OAttr "pitch") [(EName "event")])) (EOp OTuple [(EName "absolute_time"); (EName "event")]);
              SContinue]
             [];
           SIf (EOp (OCall [APos; APos]) [(EName "isinstance"); (EName "event"); (EName "_EventNoteOFF")])
             [SIf (ECmp (EOp (OAttr "pitch") [(EName "event")]) [(CNotIn, (EName "running_notes"))])
                [SContinue]
                [];
              SAssign (TTuple [(TName "note_beginning"); (TName "note_on")]) (EOp OIndex [(EName "running_notes"); (EOp (OAttr "pitch") [(EName "event")])]);
              SExpr (EOp ODel [(EName "running_notes"); (EOp (OAttr "pitch") [(EName "event")])]);
              SAssign (TName "tone") (EOp (OCall [APos]) [(EOp (OAttr "_pitch_to_tone") [(EName "self")]); (EOp (OAttr "pitch") [(EName "event")])]);
              SAssign (TName "duration") (EOp (OCall [APos; AKey "ticks_per_quarter"]) [(EOp (OAttr "_time_to_signature") [(EName "self")]); (EOp (OBin Sub) [(EName "absolute_time"); (EName "note_beginning")]); (EName "ticks_per_quarter")]);
              SAssign (TName "velocity") (EOp (OCall [APos; APos]) [(EName "max"); (EConst (VFloat (S754_zero false))); (EOp (OCall [APos; APos]) [(EName "min"); (EConst (VFloat (S754_finite false 4503599627370496 (-52)))); (EOp (OBin Div) [(EOp (OAttr "velocity") [(EName "note_on")]); (EConst (VFloat (S754_finite false 8936830510563328 (-46))))])])]);
              SAssign (TName "position") (EOp (OCall [APos; AKey "ticks_per_quarter"]) [(EOp (OAttr "_time_to_signature") [(EName "self")]); (EName "note_beginning"); (EName "ticks_per_quarter")]);
              SExpr (EOp (OCall [APos; APos]) [(EOp (OAttr "add") [(EName "track")]); (EOp (OCall [APos; APos; APos]) [(EName "Note"); (EName "tone"); (EName "duration"); (EName "velocity")]); (EName "position")]);
              SContinue]
             []];
        SAssign (TIndex (EName "result") (EName "channel")) (EName "track")];
     SReturn (EName "result")].

(** MIDIReader.load (io/midi.py 604-661). *)
Definition src_MIDIReader_load : fundef :=
  mkFun "MIDIReader.load"
    [("self", None); ("file", None); ("channel", Some (EConst VNone))]
    [] false
    [SAssign (TName "kind") (EConst VNone);
     SAssign (TName "ticks_per_quarter") (EConst VNone);
     SAssign (TName "tracks") (EConst VNone);
     SFor (TTuple [(TName "chunk_kind"); (TName "chunk_data")]) (EOp (OCall [APos]) [(EOp (OAttr "_read_chunks") [(EName "self")]); (EName "file")])
       [SIf (ECmp (EName "chunk_kind") [(CEq, (EConst (VBytes [77; 84; 104; 100])))])
          [SAssign (TTuple [(TName "kind"); (TName "n_tracks"); (TName "division")]) (EOp (OCall [APos]) [(EOp (OAttr "_parse_header") [(EName "self")]); (EName "chunk_data")]);
           SIf (ECmp (EName "kind") [(CNe, (EConst (VInt 0)))])
             [SRaise (EOp (OCall [APos]) [(EName "MIDIParsingError"); (EOp (OFormat [FLit "Unsupported MIDI file: format is "; FVal ""]) [(EName "kind")])])]
             [];
           SIf (ECmp (EName "n_tracks") [(CNe, (EConst (VInt 1)))])
             [SRaise (EOp (OCall [APos]) [(EName "MIDIParsingError"); (EConst (VStr (lit "Invalid MIDI file: multiple tracks in a single track file")))])]
             [];
           SIf (ECmp (EName "division") [(CGt, (EConst (VInt 32767)))])
             [SRaise (EOp (OCall [APos]) [(EName "MIDIParsingError"); (EConst (VStr (lit "Unsupported MIDI file: unsupported division")))])]
             [];
           SAssign (TName "ticks_per_quarter") (EName "division")]
          [];
        SIf (ECmp (EName "chunk_kind") [(CEq, (EConst (VBytes [77; 84; 114; 107])))])
          [SIf (ECmp (EName "ticks_per_quarter") [(CIs, (EConst VNone))])
             [SRaise (EOp (OCall [APos]) [(EName "MIDIParsingError"); (EConst (VStr (lit "Invalid MIDI file: missing header chunk")))])]
             [];
           SAssign (TName "tracks") (EOp (OCall [APos; APos]) [(EOp (OAttr "_parse_track") [(EName "self")]); (EName "chunk_data"); (EName "ticks_per_quarter")])]
          []];
     SIf (ECmp (EName "kind") [(CIs, (EConst VNone))])
       [SRaise (EOp (OCall [APos]) [(EName "MIDIParsingError"); (EConst (VStr (lit "Invalid MIDI file: missing header chunk")))])]
       [];
     SIf (ECmp (EName "tracks") [(CIs, (EConst VNone))])
       [SRaise (EOp (OCall [APos]) [(EName "MIDIParsingError"); (EConst (VStr (lit "Invalid MIDI file: missing track chunk")))])]
       [];
     SIf (EOp ONot [(EName "tracks")])
       [SReturn (EOp (OCall [AKey "signature"]) [(EName "Track"); (EOp (OCall [APos; APos]) [(EName "Signature"); (EConst (VInt 4)); (EConst (VInt 4))])])]
       [];
     SIf (ECmp (EName "channel") [(CIs, (EConst VNone))])
       [SAssign (TName "max_signature") (EOp (OCall [APos; APos]) [(EName "Signature"); (EConst (VInt 0)); (EConst (VInt 1))]);
        SFor (TName "track") (EOp (OCall []) [(EOp (OAttr "values") [(EName "tracks")])])
          [SIf (ECmp (EOp (OAttr "signature") [(EName "track")]) [(CGt, (EName "max_signature"))])
             [SAssign (TName "max_signature") (EOp (OAttr "signature") [(EName "track")])]
             []];
        SAssign (TName "common_track") (EOp (OCall [AKey "signature"]) [(EName "Track"); (EName "max_signature")]);
        SFor (TName "track") (EOp (OCall []) [(EOp (OAttr "values") [(EName "tracks")])])
          [SFor (TTuple [(TName "position"); (TName "note")]) (EName "track")
             [SExpr (EOp (OCall [APos; APos]) [(EOp (OAttr "add") [(EName "common_track")]); (EName "note"); (EName "position")])]];
        SReturn (EName "common_track")]
       [];
     SIf (ECmp (EName "channel") [(CNotIn, (EName "tracks"))])
       [SRaise (EOp (OCall [APos]) [(EName "ValueError"); (EOp (OFormat [FLit "No channel "; FVal ""; FLit " found"]) [(EName "channel")])])]
       [];
     SReturn (EOp OIndex [(EName "tracks"); (EName "channel")])].

(** MIDIReader.loads (io/midi.py 663-674). *)
Definition src_MIDIReader_loads : fundef :=
  mkFun "MIDIReader.loads"
    [("self", None); ("data", None); ("channel", Some (EConst VNone))]
    [] false
    [SAssign (TName "f") (EOp (OCall [APos]) [(EOp (OAttr "BytesIO") [(EName "io")]); (EName "data")]);
     SReturn (EOp (OCall [APos; AKey "channel"]) [(EOp (OAttr "load") [(EName "self")]); (EName "f"); (EName "channel")])].

(** midi.dump (io/midi.py 677-687). *)
Definition src_midi_dump : fundef :=
  mkFun "midi.dump"
    [("track", None); ("file", None); ("bpm", Some (EConst (VFloat (S754_finite false 8444249301319680 (-46))))); ("channel", Some (EConst (VInt 0)))]
    [] false
    [SExpr (EOp (OCall [APos; APos]) [(EOp (OAttr "dump") [(EOp (OCall [AKey "bpm"; AKey "channel"]) [(EName "MIDIWriter"); (EName "bpm"); (EName "channel")])]); (EName "track"); (EName "file")])].

(** midi.dumps (io/midi.py 690-699). *)
Definition src_midi_dumps : fundef :=
  mkFun "midi.dumps"
    [("track", None); ("bpm", Some (EConst (VFloat (S754_finite false 8444249301319680 (-46))))); ("channel", Some (EConst (VInt 0)))]
    [] false
    [SReturn (EOp (OCall [APos]) [(EOp (OAttr "dumps") [(EOp (OCall [AKey "bpm"; AKey "channel"]) [(EName "MIDIWriter"); (EName "bpm"); (EName "channel")])]); (EName "track")])].

(** midi.load (io/midi.py 702-712). *)
Definition src_midi_load : fundef :=
  mkFun "midi.load"
    [("file", None); ("channel", Some (EConst VNone))]
    [] false
    [SReturn (EOp (OCall [APos; AKey "channel"]) [(EOp (OAttr "load") [(EOp (OCall []) [(EName "MIDIReader")])]); (EName "file"); (EName "channel")])].

(** midi.loads (io/midi.py 715-725). *)
Definition src_midi_loads : fundef :=
  mkFun "midi.loads"
    [("data", None); ("channel", Some (EConst VNone))]
    [] false
    [SReturn (EOp (OCall [APos; AKey "channel"]) [(EOp (OAttr "loads") [(EOp (OCall []) [(EName "MIDIReader")])]); (EName "data"); (EName "channel")])].

(** The module level assignments and loops of io/midi.py. *)
Definition src_module_midi : list stmt :=
    [SAssign (TName "_event_lengths") (EOp (OBin Mult) [(EOp OList [(EOp ONeg [(EConst (VInt 1))])]); (EConst (VInt 255))]);
     SFor (TName "i") (EOp (OCall [APos; APos]) [(EName "range"); (EConst (VInt 128)); (EOp (OBin Add) [(EConst (VInt 159)); (EConst (VInt 1))])])
       [SAssign (TIndex (EName "_event_lengths") (EName "i")) (EConst (VInt 2))];
     SFor (TName "i") (EOp (OCall [APos; APos]) [(EName "range"); (EConst (VInt 160)); (EOp (OBin Add) [(EConst (VInt 175)); (EConst (VInt 1))])])
       [SAssign (TIndex (EName "_event_lengths") (EName "i")) (EConst (VInt 2))];
     SFor (TName "i") (EOp (OCall [APos; APos]) [(EName "range"); (EConst (VInt 176)); (EOp (OBin Add) [(EConst (VInt 191)); (EConst (VInt 1))])])
       [SAssign (TIndex (EName "_event_lengths") (EName "i")) (EConst (VInt 2))];
     SFor (TName "i") (EOp (OCall [APos; APos]) [(EName "range"); (EConst (VInt 192)); (EOp (OBin Add) [(EConst (VInt 207)); (EConst (VInt 1))])])
       [SAssign (TIndex (EName "_event_lengths") (EName "i")) (EConst (VInt 1))];
     SFor (TName "i") (EOp (OCall [APos; APos]) [(EName "range"); (EConst (VInt 208)); (EOp (OBin Add) [(EConst (VInt 223)); (EConst (VInt 1))])])
       [SAssign (TIndex (EName "_event_lengths") (EName "i")) (EConst (VInt 1))];
     SFor (TName "i") (EOp (OCall [APos; APos]) [(EName "range"); (EConst (VInt 224)); (EOp (OBin Add) [(EConst (VInt 239)); (EConst (VInt 1))])])
       [SAssign (TIndex (EName "_event_lengths") (EName "i")) (EConst (VInt 2))];
     SAssign (TIndex (EName "_event_lengths") (EConst (VInt 241))) (EConst (VInt 1));
     SAssign (TIndex (EName "_event_lengths") (EConst (VInt 242))) (EConst (VInt 2));
     SAssign (TIndex (EName "_event_lengths") (EConst (VInt 243))) (EConst (VInt 1));
     SAssign (TIndex (EName "_event_lengths") (EConst (VInt 246))) (EConst (VInt 0));
     SAssign (TIndex (EName "_event_lengths") (EConst (VInt 248))) (EConst (VInt 0));
     SAssign (TIndex (EName "_event_lengths") (EConst (VInt 248))) (EConst (VInt 0));
     SAssign (TIndex (EName "_event_lengths") (EConst (VInt 250))) (EConst (VInt 0));
     SAssign (TIndex (EName "_event_lengths") (EConst (VInt 252))) (EConst (VInt 0));
     SAssign (TIndex (EName "_event_lengths") (EConst (VInt 251))) (EConst (VInt 0));
     SAssign (TIndex (EName "_event_lengths") (EConst (VInt 254))) (EConst (VInt 0))].

(** processing.randomize_velocities (processing/track.py 7-45). *)
Definition src_processing_randomize_velocities : fundef :=
  mkFun "processing.randomize_velocities"
    [("track", None); ("minimum", Some (EConst (VFloat (S754_finite false 4503599627370496 (-53))))); ("maximum", Some (EConst (VFloat (S754_finite false 4503599627370496 (-52))))); ("mean", Some (EConst (VFloat (S754_finite false 6755399441055744 (-53))))); ("variance", Some (EConst (VFloat (S754_finite false 5764607523034235 (-59)))))]
    [] false
    [SIf (EOp ONot [(ECmp (EConst (VInt 0)) [(CLe, (EName "minimum")); (CLe, (EConst (VFloat (S754_finite false 4503599627370496 (-52)))))])])
       [SRaise (EOp (OCall [APos]) [(EName "ValueError"); (EConst (VStr (lit "minimum velocity must be in range [0.0, 1.0]")))])]
       [];
     SIf (EOp ONot [(ECmp (EConst (VInt 0)) [(CLe, (EName "maximum")); (CLe, (EConst (VFloat (S754_finite false 4503599627370496 (-52)))))])])
       [SRaise (EOp (OCall [APos]) [(EName "ValueError"); (EConst (VStr (lit "maximum velocity must be in range [0.0, 1.0]")))])]
       [];
     SIf (EOp ONot [(ECmp (EConst (VInt 0)) [(CLe, (EName "mean")); (CLe, (EConst (VFloat (S754_finite false 4503599627370496 (-52)))))])])
       [SRaise (EOp (OCall [APos]) [(EName "ValueError"); (EConst (VStr (lit "mean velocity must be in range [0.0, 1.0]")))])]
       [];
     SIf (EOp ONot [(ECmp (EName "variance") [(CGe, (EConst (VInt 0)))])])
       [SRaise (EOp (OCall [APos]) [(EName "ValueError"); (EConst (VStr (lit "variance must be positive")))])]
       [];
     SAssign (TName "result") (EOp (OCall [AKey "signature"]) [(EName "Track"); (EOp (OAttr "signature") [(EName "track")])]);
     SAssign (TName "std") (EOp (OCall [APos]) [(EOp (OAttr "sqrt") [(EName "math")]); (EName "variance")]);
     SFor (TTuple [(TName "position"); (TName "note")]) (EName "track")
       [SAssign (TName "new_velocity") (EOp (OCall [APos; APos]) [(EName "max"); (EName "minimum"); (EOp (OCall [APos; APos]) [(EName "min"); (EName "maximum"); (EOp (OCall [APos; APos]) [(EOp (OAttr "gauss") [(EName "random")]); (EName "mean"); (EName "std")])])]);
        SExpr (EOp (OCall [APos; APos]) [(EOp (OAttr "add") [(EName "result")]); (EOp (OCall [APos]) [(EOp (OAttr "with_velocity") [(EName "note")]); (EName "new_velocity")]); (EName "position")])];
     SReturn (EName "result")].

(** test_track.random_track (tests/melodia/core/test_track.py 8-16). *)
Definition src_test_track_random_track : fundef :=
  mkFun "test_track.random_track"
    []
    [] false
    [SAssign (TName "track") (EOp (OCall [AKey "signature"]) [(EName "Track"); (EOp OTuple [(EOp (OCall [APos; APos]) [(EOp (OAttr "randint") [(EName "random")]); (EConst (VInt 0)); (EConst (VInt 100))]); (EConst (VInt 16))])]);
     SFor (TName "_") (EOp (OCall [APos]) [(EName "range"); (EOp (OCall [APos; APos]) [(EOp (OAttr "randint") [(EName "random")]); (EConst (VInt 100)); (EConst (VInt 300))])])
       [SAssign (TName "note") (EOp (OCall [APos; APos]) [(EName "Note"); (EOp (OCall [APos; APos]) [(EOp (OAttr "randint") [(EName "random")]); (EOp ONeg [(EConst (VInt 100))]); (EConst (VInt 100))]); (EOp OTuple [(EOp (OCall [APos; APos]) [(EOp (OAttr "randint") [(EName "random")]); (EConst (VInt 0)); (EConst (VInt 100))]); (EConst (VInt 16))])]);
        SAssign (TName "position") (EOp OTuple [(EOp (OCall [APos; APos]) [(EOp (OAttr "randint") [(EName "random")]); (EConst (VInt 0)); (EConst (VInt 10000))]); (EOp (OCall [APos]) [(EOp (OAttr "choice") [(EName "random")]); (EOp OList [(EConst (VInt 1)); (EConst (VInt 2)); (EConst (VInt 4)); (EConst (VInt 8)); (EConst (VInt 16)); (EConst (VInt 32)); (EConst (VInt 64)); (EConst (VInt 128)); (EConst (VInt 256)); (EConst (VInt 512))])])]);
        SExpr (EOp (OCall [APos; APos]) [(EOp (OAttr "add") [(EName "track")]); (EName "note"); (EName "position")])];
     SReturn (EName "track")].

(** test_track.test_track_eq (tests/melodia/core/test_track.py 87-93). *)
Definition src_test_track_test_track_eq : fundef :=
  mkFun "test_track.test_track_eq"
    []
    [] false
    [SIf (ECmp (EOp (OCall [AKey "signature"; AKey "content"]) [(EName "Track"); (EOp OTuple [(EConst (VInt 17)); (EConst (VInt 16))]); (EOp OList [])]) [(CEq, (EOp (OCall [AKey "signature"; AKey "content"]) [(EName "Track"); (EOp OTuple [(EConst (VInt 17)); (EConst (VInt 16))]); (EOp OList [])]))])
       []
       [SRaise (EOp (OCall []) [EName "AssertionError"])];
     SIf (ECmp (EOp (OCall [AKey "signature"; AKey "content"]) [(EName "Track"); (EOp OTuple [(EConst (VInt 15)); (EConst (VInt 16))]); (EOp OList [])]) [(CNe, (EOp (OCall [AKey "signature"; AKey "content"]) [(EName "Track"); (EOp OTuple [(EConst (VInt 17)); (EConst (VInt 16))]); (EOp OList [])]))])
       []
       [SRaise (EOp (OCall []) [EName "AssertionError"])];
     SFor (TName "_") (EOp (OCall [APos]) [(EName "range"); (EConst (VInt 10))])
       [SAssign (TName "track") (EOp (OCall []) [(EName "test_track.random_track")]);
        SIf (ECmp (EName "track") [(CEq, (EName "track"))])
          []
          [SRaise (EOp (OCall []) [EName "AssertionError"])]]].

(** test_midi_serialize.random_track_without_overlaps (tests/melodia/io/test_midi_serialize.py 7-16). *)
Definition src_test_midi_serialize_random_track_without_overlaps : fundef :=
  mkFun "test_midi_serialize.random_track_without_overlaps"
    []
    [] false
    [SAssign (TName "track") (EOp (OCall [AKey "signature"]) [(EName "Track"); (EOp OTuple [(EOp (OCall [APos; APos]) [(EOp (OAttr "randint") [(EName "random")]); (EConst (VInt 0)); (EConst (VInt 100))]); (EConst (VInt 16))])]);
     SAssign (TName "p") (EConst (VInt 0));
     SFor (TName "_") (EOp (OCall [APos]) [(EName "range"); (EOp (OCall [APos; APos]) [(EOp (OAttr "randint") [(EName "random")]); (EConst (VInt 100)); (EConst (VInt 300))])])
       [SAssign (TName "note") (EOp (OCall [APos; APos; AKey "velocity"]) [(EName "Note"); (EOp (OCall [APos; APos]) [(EOp (OAttr "randint") [(EName "random")]); (EConst (VInt 30)); (EConst (VInt 90))]); (EOp OTuple [(EOp (OCall [APos; APos]) [(EOp (OAttr "randint") [(EName "random")]); (EConst (VInt 0)); (EConst (VInt 100))]); (EConst (VInt 16))]); (EConst (VFloat (S754_finite false 4503599627370496 (-52))))]);
        SAssign (TName "p") (EOp (OBin Add) [(EName "p"); (EConst (VInt 200))]);
        SExpr (EOp (OCall [APos; APos]) [(EOp (OAttr "add") [(EName "track")]); (EName "note"); (EOp OTuple [(EName "p"); (EConst (VInt 16))])])];
     SReturn (EName "track")].

(** test_midi_serialize.test_midi_serialize (tests/melodia/io/test_midi_serialize.py 19-28). *)
Definition src_test_midi_serialize_test_midi_serialize : fundef :=
  mkFun "test_midi_serialize.test_midi_serialize"
    []
    [] false
    [SAssign (TName "empty_track") (EOp (OCall [AKey "signature"]) [(EName "Track"); (EOp OTuple [(EConst (VInt 17)); (EConst (VInt 16))])]);
     SIf (ECmp (EName "empty_track") [(CEq, (EOp (OCall [APos]) [(EName "midi.loads"); (EOp (OCall [APos]) [(EName "midi.dumps"); (EName "empty_track")])]))])
       []
       [SRaise (EOp (OCall []) [EName "AssertionError"])];
     SAssign (TName "one_note_track") (EOp (OCall [AKey "signature"; AKey "content"]) [(EName "Track"); (EOp OTuple [(EConst (VInt 17)); (EConst (VInt 16))]); (EOp OList [(EOp OTuple [(EOp (OCall [APos; APos; APos]) [(EName "Note"); (EConst (VInt 0)); (EOp OTuple [(EConst (VInt 3)); (EConst (VInt 8))]); (EConst (VFloat (S754_finite false 4503599627370496 (-52))))]); (EOp OTuple [(EConst (VInt 7)); (EConst (VInt 16))])])])]);
     SIf (ECmp (EName "one_note_track") [(CEq, (EOp (OCall [APos]) [(EName "midi.loads"); (EOp (OCall [APos]) [(EName "midi.dumps"); (EName "one_note_track")])]))])
       []
       [SRaise (EOp (OCall []) [EName "AssertionError"])];
     SFor (TName "_") (EOp (OCall [APos]) [(EName "range"); (EConst (VInt 10))])
       [SAssign (TName "track") (EOp (OCall []) [(EName "test_midi_serialize.random_track_without_overlaps")]);
        SIf (ECmp (EName "track") [(CEq, (EOp (OCall [APos]) [(EName "midi.loads"); (EOp (OCall [APos]) [(EName "midi.dumps"); (EName "track")])]))])
          []
          [SRaise (EOp (OCall []) [EName "AssertionError"])]]].

(** All functions, by qualified name. *)
Definition functions : list (string * fundef) :=
  [("Signature.__init__", src_Signature___init__);
   ("Signature.nominator", src_Signature_nominator);
   ("Signature.denominator", src_Signature_denominator);
   ("Signature.to", src_Signature_to);
   ("Signature.normalized", src_Signature_normalized);
   ("Signature._to_common_denominator", src_Signature__to_common_denominator);
   ("Signature.__str__", src_Signature___str__);
   ("Signature.__repr__", src_Signature___repr__);
   ("Signature.__eq__", src_Signature___eq__);
   ("Signature.__le__", src_Signature___le__);
   ("Signature.__lt__", src_Signature___lt__);
   ("Signature.__ge__", src_Signature___ge__);
   ("Signature.__gt__", src_Signature___gt__);
   ("Signature.__add__", src_Signature___add__);
   ("Signature.__mul__", src_Signature___mul__);
   ("Signature.__abs__", src_Signature___abs__);
   ("Tone.__init__", src_Tone___init__);
   ("Tone.pitch", src_Tone_pitch);
   ("Tone.octave", src_Tone_octave);
   ("Tone.from_notation", src_Tone_from_notation);
   ("Tone.to_notation", src_Tone_to_notation);
   ("Tone.to_frequency", src_Tone_to_frequency);
   ("Tone.transposed", src_Tone_transposed);
   ("Tone.__str__", src_Tone___str__);
   ("Tone.__repr__", src_Tone___repr__);
   ("Tone.__eq__", src_Tone___eq__);
   ("Tone.__le__", src_Tone___le__);
   ("Tone.__lt__", src_Tone___lt__);
   ("Tone.__ge__", src_Tone___ge__);
   ("Tone.__gt__", src_Tone___gt__);
   ("Note.__init__", src_Note___init__);
   ("Note.tone", src_Note_tone);
   ("Note.velocity", src_Note_velocity);
   ("Note.duration", src_Note_duration);
   ("Note.transposed", src_Note_transposed);
   ("Note.with_duration", src_Note_with_duration);
   ("Note.with_velocity", src_Note_with_velocity);
   ("Note._as_triplet", src_Note__as_triplet);
   ("Note.__str__", src_Note___str__);
   ("Note.__repr__", src_Note___repr__);
   ("Note.__eq__", src_Note___eq__);
   ("Note.__le__", src_Note___le__);
   ("Note.__lt__", src_Note___lt__);
   ("Note.__ge__", src_Note___ge__);
   ("Note.__gt__", src_Note___gt__);
   ("Track.__init__", src_Track___init__);
   ("Track.signature", src_Track_signature);
   ("Track.length", src_Track_length);
   ("Track.add", src_Track_add);
   ("Track.__eq__", src_Track___eq__);
   ("Track.__iter__", src_Track___iter__);
   ("Track.__len__", src_Track___len__);
   ("Track.__str__", src_Track___str__);
   ("Track.__repr__", src_Track___repr__);
   ("chord._get_parameters", src_chord__get_parameters);
   ("chord.major", src_chord_major);
   ("chord.maj", src_chord_maj);
   ("chord.minor", src_chord_minor);
   ("chord.min", src_chord_min);
   ("chord.augmented", src_chord_augmented);
   ("chord.aug", src_chord_aug);
   ("chord.diminished", src_chord_diminished);
   ("chord.dim", src_chord_dim);
   ("chord.suspended4", src_chord_suspended4);
   ("chord.sus4", src_chord_sus4);
   ("chord.suspended2", src_chord_suspended2);
   ("chord.sus2", src_chord_sus2);
   ("chord.major7", src_chord_major7);
   ("chord.maj7", src_chord_maj7);
   ("chord.minor7", src_chord_minor7);
   ("chord.min7", src_chord_min7);
   ("chord.dominant7", src_chord_dominant7);
   ("chord.dom7", src_chord_dom7);
   ("chord.dominant7b5", src_chord_dominant7b5);
   ("chord.dom7b5", src_chord_dom7b5);
   ("chord.diminished7", src_chord_diminished7);
   ("chord.dim7", src_chord_dim7);
   ("chord.minor7b5", src_chord_minor7b5);
   ("chord.min7b5", src_chord_min7b5);
   ("chord.diminished_major7", src_chord_diminished_major7);
   ("chord.minor_major7", src_chord_minor_major7);
   ("chord.augmented_major7", src_chord_augmented_major7);
   ("chord.major7s5", src_chord_major7s5);
   ("chord.maj7s5", src_chord_maj7s5);
   ("chord.augmented_minor7", src_chord_augmented_minor7);
   ("chord.augmented7", src_chord_augmented7);
   ("chord.aug7", src_chord_aug7);
   ("chord.major9", src_chord_major9);
   ("chord.maj9", src_chord_maj9);
   ("chord.minor9", src_chord_minor9);
   ("chord.min9", src_chord_min9);
   ("chord.dominant9", src_chord_dominant9);
   ("chord.dom9", src_chord_dom9);
   ("chord.dominant_minor9", src_chord_dominant_minor9);
   ("chord.min7b9", src_chord_min7b9);
   ("chord.minor69", src_chord_minor69);
   ("chord.min69", src_chord_min69);
   ("chord.added9", src_chord_added9);
   ("chord.add9", src_chord_add9);
   ("chord.major11", src_chord_major11);
   ("chord.maj11", src_chord_maj11);
   ("chord.minor11", src_chord_minor11);
   ("chord.min11", src_chord_min11);
   ("chord.dominant11", src_chord_dominant11);
   ("chord.dom11", src_chord_dom11);
   ("_Reader.__init__", src__Reader___init__);
   ("_Reader.read", src__Reader_read);
   ("_Reader.shift", src__Reader_shift);
   ("_Reader.__len__", src__Reader___len__);
   ("MIDIWriter.__init__", src_MIDIWriter___init__);
   ("MIDIWriter._signature_to_pulses", src_MIDIWriter__signature_to_pulses);
   ("MIDIWriter._format_note_on", src_MIDIWriter__format_note_on);
   ("MIDIWriter._format_note_off", src_MIDIWriter__format_note_off);
   ("MIDIWriter._format_var_len", src_MIDIWriter__format_var_len);
   ("MIDIWriter._format_signature", src_MIDIWriter__format_signature);
   ("MIDIWriter._format_tempo", src_MIDIWriter__format_tempo);
   ("MIDIWriter._format_chunk", src_MIDIWriter__format_chunk);
   ("MIDIWriter._format_header_chunk", src_MIDIWriter__format_header_chunk);
   ("MIDIWriter.dump", src_MIDIWriter_dump);
   ("MIDIWriter.dumps", src_MIDIWriter_dumps);
   ("MIDIReader.__init__", src_MIDIReader___init__);
   ("MIDIReader._read_chunks", src_MIDIReader__read_chunks);
   ("MIDIReader._parse_header", src_MIDIReader__parse_header);
   ("MIDIReader._time_to_signature", src_MIDIReader__time_to_signature);
   ("MIDIReader._pitch_to_tone", src_MIDIReader__pitch_to_tone);
   ("MIDIReader._read_var_len", src_MIDIReader__read_var_len);
   ("MIDIReader._read_8", src_MIDIReader__read_8);
   ("MIDIReader._read_16", src_MIDIReader__read_16);
   ("MIDIReader._read_24", src_MIDIReader__read_24);
   ("MIDIReader._read_32", src_MIDIReader__read_32);
   ("MIDIReader._parse_track.read_event", src_MIDIReader__parse_track_read_event);
   ("MIDIReader._parse_track", src_MIDIReader__parse_track);
   ("MIDIReader.load", src_MIDIReader_load);
   ("MIDIReader.loads", src_MIDIReader_loads);
   ("midi.dump", src_midi_dump);
   ("midi.dumps", src_midi_dumps);
   ("midi.load", src_midi_load);
   ("midi.loads", src_midi_loads);
   ("processing.randomize_velocities", src_processing_randomize_velocities);
   ("test_track.random_track", src_test_track_random_track);
   ("test_track.test_track_eq", src_test_track_test_track_eq);
   ("test_midi_serialize.random_track_without_overlaps", src_test_midi_serialize_random_track_without_overlaps);
   ("test_midi_serialize.test_midi_serialize", src_test_midi_serialize_test_midi_serialize)].

(** All classes. *)
Definition classes : list (string * classdef) :=
  [("Signature", mkClass [] [("__init__", KMethod); ("nominator", KProperty); ("denominator", KProperty); ("to", KMethod); ("normalized", KMethod); ("_to_common_denominator", KMethod); ("__str__", KMethod); ("__repr__", KMethod); ("__eq__", KMethod); ("__le__", KMethod); ("__lt__", KMethod); ("__ge__", KMethod); ("__gt__", KMethod); ("__add__", KMethod); ("__mul__", KMethod); ("__abs__", KMethod)] true None);
   ("Tone", mkClass [] [("__init__", KMethod); ("pitch", KProperty); ("octave", KProperty); ("from_notation", KClassMethod); ("to_notation", KMethod); ("to_frequency", KMethod); ("transposed", KMethod); ("__str__", KMethod); ("__repr__", KMethod); ("__eq__", KMethod); ("__le__", KMethod); ("__lt__", KMethod); ("__ge__", KMethod); ("__gt__", KMethod)] true None);
   ("Note", mkClass [] [("__init__", KMethod); ("tone", KProperty); ("velocity", KProperty); ("duration", KProperty); ("transposed", KMethod); ("with_duration", KMethod); ("with_velocity", KMethod); ("_as_triplet", KMethod); ("__str__", KMethod); ("__repr__", KMethod); ("__eq__", KMethod); ("__le__", KMethod); ("__lt__", KMethod); ("__ge__", KMethod); ("__gt__", KMethod)] true None);
   ("Track", mkClass [] [("__init__", KMethod); ("signature", KProperty); ("length", KProperty); ("add", KMethod); ("__eq__", KMethod); ("__iter__", KMethod); ("__len__", KMethod); ("__str__", KMethod); ("__repr__", KMethod)] false None);
   ("MIDIError", mkClass ["Exception"] [] true None);
   ("MIDIParsingError", mkClass ["MIDIError"] [] true None);
   ("_Reader", mkClass [] [("__init__", KMethod); ("read", KMethod); ("shift", KMethod); ("__len__", KMethod)] false None);
   ("MIDIWriter", mkClass [] [("__init__", KMethod); ("_signature_to_pulses", KMethod); ("_format_note_on", KMethod); ("_format_note_off", KMethod); ("_format_var_len", KStatic); ("_format_signature", KStatic); ("_format_tempo", KStatic); ("_format_chunk", KStatic); ("_format_header_chunk", KMethod); ("dump", KMethod); ("dumps", KMethod)] true None);
   ("_Event", mkClass [] [] true (Some []));
   ("_EventUnsupported", mkClass ["_Event"] [] true (Some []));
   ("_EventNoteOFF", mkClass ["_Event"] [] true (Some ["channel"; "pitch"; "velocity"]));
   ("_EventNoteON", mkClass ["_Event"] [] true (Some ["channel"; "pitch"; "velocity"]));
   ("_EventEndOfTrack", mkClass ["_Event"] [] true (Some []));
   ("_EventTimeSignature", mkClass ["_Event"] [] true (Some ["nn"; "dd"; "cc"; "bb"]));
   ("_EventGlobalChannel", mkClass ["_Event"] [] true (Some ["channel"]));
   ("MIDIReader", mkClass [] [("__init__", KMethod); ("_read_chunks", KStatic); ("_parse_header", KStatic); ("_time_to_signature", KStatic); ("_pitch_to_tone", KMethod); ("_read_var_len", KStatic); ("_read_8", KStatic); ("_read_16", KStatic); ("_read_24", KStatic); ("_read_32", KStatic); ("_parse_track", KMethod); ("load", KMethod); ("loads", KMethod)] true None)].

