(** The programs of tools/counterexamples.py as syntax trees of PyAst.v, written out by tools/source_trees.py.
    No proofs in this file. *)
From Coq Require Import ZArith List String.
From Verif Require Import Py PyFloat PyAst.
Import ListNotations.
Open Scope Z_scope.
Open Scope string_scope.

(** counterexamples.c03 (tools/counterexamples.py 9-12). *)
Definition src_counterexamples_c03 : fundef :=
  mkFun "counterexamples.c03"
    []
    [] false
    [SAssign (TName "a") (EOp (OCall [APos; APos]) [(EName "Signature"); (EConst (VInt 1)); (EConst (VInt 2))]);
     SAssign (TName "b") (EOp (OCall [APos; APos]) [(EName "Signature"); (EConst (VInt 1)); (EConst (VInt 4))]);
     SReturn (EAnd (ECmp (EName "a") [(CLt, (EName "b"))]) (EAnd (ECmp (EName "b") [(CLt, (EName "a"))]) (EAnd (ECmp (EName "a") [(CLe, (EName "b"))]) (EAnd (ECmp (EName "b") [(CLe, (EName "a"))]) (ECmp (EName "a") [(CNe, (EName "b"))])))))].

(** counterexamples.c10 (tools/counterexamples.py 15-16). *)
Definition src_counterexamples_c10 : fundef :=
  mkFun "counterexamples.c10"
    []
    [] false
    [SReturn (ECmp (EOp (OCall [APos]) [(EOp (OAttr "from_notation") [(EName "Tone")]); (EConst (VStr (lit "C4x")))]) [(CEq, (EOp (OCall [APos]) [(EOp (OAttr "from_notation") [(EName "Tone")]); (EConst (VStr (lit "C4")))]))])].

(** counterexamples.c16 (tools/counterexamples.py 19-22). *)
Definition src_counterexamples_c16 : fundef :=
  mkFun "counterexamples.c16"
    []
    [] false
    [SAssign (TName "a") (EOp (OCall [APos; APos]) [(EName "Note"); (EConst (VInt 0)); (EOp OTuple [(EConst (VInt 1)); (EConst (VInt 2))])]);
     SAssign (TName "b") (EOp (OCall [APos; APos]) [(EName "Note"); (EConst (VInt 0)); (EOp OTuple [(EConst (VInt 1)); (EConst (VInt 4))])]);
     SReturn (EAnd (ECmp (EName "a") [(CLt, (EName "b"))]) (EAnd (ECmp (EName "b") [(CLt, (EName "a"))]) (ECmp (EName "a") [(CNe, (EName "b"))])))].

(** counterexamples.c19 (tools/counterexamples.py 25-36). *)
Definition src_counterexamples_c19 : fundef :=
  mkFun "counterexamples.c19"
    []
    [] false
    [SAssign (TName "t") (EOp (OCall []) [(EName "Track")]);
     SAssign (TName "u") (EOp (OCall []) [(EName "Track")]);
     SExpr (EOp (OCall [APos; APos]) [(EOp (OAttr "add") [(EName "t")]); (EOp (OCall [APos; APos]) [(EName "Note"); (EConst (VInt 0)); (EOp OTuple [(EConst (VInt 1)); (EConst (VInt 2))])]); (EOp OTuple [(EConst (VInt 0)); (EConst (VInt 1))])]);
     SExpr (EOp (OCall [APos; APos]) [(EOp (OAttr "add") [(EName "u")]); (EOp (OCall [APos; APos]) [(EName "Note"); (EConst (VInt 0)); (EOp OTuple [(EConst (VInt 1)); (EConst (VInt 2))])]); (EOp OTuple [(EConst (VInt 0)); (EConst (VInt 1))])]);
     SExpr (EOp (OCall [APos; APos]) [(EOp (OAttr "add") [(EName "t")]); (EOp (OCall [APos; APos]) [(EName "Note"); (EConst (VInt 0)); (EOp OTuple [(EConst (VInt 1)); (EConst (VInt 4))])]); (EOp OTuple [(EConst (VInt 0)); (EConst (VInt 1))])]);
     SExpr (EOp (OCall [APos; APos]) [(EOp (OAttr "add") [(EName "u")]); (EOp (OCall [APos; APos]) [(EName "Note"); (EConst (VInt 0)); (EOp OTuple [(EConst (VInt 1)); (EConst (VInt 4))])]); (EOp OTuple [(EConst (VInt 0)); (EConst (VInt 1))])]);
     SFor (TTuple [(TName "position"); (TName "note")]) (EName "t")
       [];
     SExpr (EOp (OCall [APos; APos]) [(EOp (OAttr "add") [(EName "t")]); (EOp (OCall [APos; APos]) [(EName "Note"); (EConst (VInt 0)); (EOp OTuple [(EConst (VInt 1)); (EConst (VInt 2))])]); (EOp OTuple [(EConst (VInt 0)); (EConst (VInt 1))])]);
     SExpr (EOp (OCall [APos; APos]) [(EOp (OAttr "add") [(EName "u")]); (EOp (OCall [APos; APos]) [(EName "Note"); (EConst (VInt 0)); (EOp OTuple [(EConst (VInt 1)); (EConst (VInt 2))])]); (EOp OTuple [(EConst (VInt 0)); (EConst (VInt 1))])]);
     SReturn (ECmp (EName "t") [(CNe, (EName "u"))])].

(** counterexamples.c21 (tools/counterexamples.py 39-43). *)
Definition src_counterexamples_c21 : fundef :=
  mkFun "counterexamples.c21"
    []
    [] false
    [SAssign (TName "t") (EOp (OCall []) [(EName "Track")]);
     SExpr (EOp (OCall [APos; APos]) [(EOp (OAttr "add") [(EName "t")]); (EOp (OCall [APos; APos]) [(EName "Note"); (EConst (VInt 0)); (EOp OTuple [(EConst (VInt 1)); (EConst (VInt 8))])]); (EOp OTuple [(EConst (VInt 0)); (EConst (VInt 1))])]);
     SExpr (EOp (OCall [APos; APos]) [(EOp (OAttr "add") [(EName "t")]); (EOp (OCall [APos; APos]) [(EName "Note"); (EConst (VInt 0)); (EOp OTuple [(EConst (VInt 1)); (EConst (VInt 1))])]); (EOp OTuple [(EConst (VInt 0)); (EConst (VInt 1))])]);
     SReturn (ECmp (EOp (OAttr "length") [(EName "t")]) [(CEq, (EOp (OCall [APos; APos]) [(EName "Signature"); (EConst (VInt 1)); (EConst (VInt 8))]))])].

(** counterexamples.c21_shrinks (tools/counterexamples.py 46-51). *)
Definition src_counterexamples_c21_shrinks : fundef :=
  mkFun "counterexamples.c21_shrinks"
    []
    [] false
    [SAssign (TName "t") (EOp (OCall []) [(EName "Track")]);
     SExpr (EOp (OCall [APos; APos]) [(EOp (OAttr "add") [(EName "t")]); (EOp (OCall [APos; APos]) [(EName "Note"); (EConst (VInt 0)); (EOp OTuple [(EConst (VInt 9)); (EConst (VInt 8))])]); (EOp OTuple [(EConst (VInt 0)); (EConst (VInt 1))])]);
     SAssign (TName "before") (EOp (OAttr "length") [(EName "t")]);
     SExpr (EOp (OCall [APos; APos]) [(EOp (OAttr "add") [(EName "t")]); (EOp (OCall [APos; APos]) [(EName "Note"); (EConst (VInt 0)); (EOp OTuple [(EConst (VInt 1)); (EConst (VInt 1))])]); (EOp OTuple [(EConst (VInt 0)); (EConst (VInt 1))])]);
     SReturn (EAnd (ECmp (EName "before") [(CEq, (EOp (OCall [APos; APos]) [(EName "Signature"); (EConst (VInt 9)); (EConst (VInt 8))]))]) (ECmp (EOp (OAttr "length") [(EName "t")]) [(CEq, (EOp (OCall [APos; APos]) [(EName "Signature"); (EConst (VInt 1)); (EConst (VInt 1))]))]))].

(** counterexamples.c22 (tools/counterexamples.py 54-57). *)
Definition src_counterexamples_c22 : fundef :=
  mkFun "counterexamples.c22"
    []
    [] false
    [SAssign (TName "t") (EOp (OCall []) [(EName "Track")]);
     SExpr (EOp (OCall [APos]) [(EOp (OAttr "add") [(EName "t")]); (EOp OList [(EOp (OCall [APos; APos]) [(EName "Note"); (EConst (VInt 0)); (EOp OTuple [(EConst (VInt 1)); (EConst (VInt 8))])]); (EOp (OCall [APos; APos]) [(EName "Note"); (EConst (VInt 0)); (EOp OTuple [(EConst (VInt 1)); (EConst (VInt 1))])])])]);
     SReturn (ECmp (EOp (OAttr "length") [(EName "t")]) [(CEq, (EOp (OCall [APos; APos]) [(EName "Signature"); (EConst (VInt 1)); (EConst (VInt 8))]))])].

(** counterexamples.c25 (tools/counterexamples.py 60-64). *)
Definition src_counterexamples_c25 : fundef :=
  mkFun "counterexamples.c25"
    []
    [] false
    [SAssign (TName "t") (EOp (OCall [AKey "content"]) [(EName "Track"); (EOp OList [(EOp OTuple [(EOp (OCall [APos]) [(EName "Note"); (EConst (VInt 1))]); (EOp OTuple [(EConst (VInt 0)); (EConst (VInt 1))])])])]);
     SAssign (TName "u") (EOp (OCall []) [(EName "Track")]);
     SAssign (TName "v") (EOp (OCall [AKey "content"]) [(EName "Track"); (EOp OList [(EOp OTuple [(EOp (OCall [APos]) [(EName "Note"); (EConst (VInt 2))]); (EOp OTuple [(EConst (VInt 0)); (EConst (VInt 1))])])])]);
     SReturn (EAnd (ECmp (EName "t") [(CEq, (EName "u"))]) (EAnd (ECmp (EName "u") [(CEq, (EName "v"))]) (ECmp (EName "t") [(CNe, (EName "v"))])))].

(** counterexamples.c26 (tools/counterexamples.py 67-74). *)
Definition src_counterexamples_c26 : fundef :=
  mkFun "counterexamples.c26"
    []
    [] false
    [SAssign (TName "t") (EOp (OCall []) [(EName "Track")]);
     SExpr (EOp (OCall [APos; APos]) [(EOp (OAttr "add") [(EName "t")]); (EOp (OCall [APos; APos]) [(EName "Note"); (EConst (VInt 0)); (EOp OTuple [(EConst (VInt 1)); (EConst (VInt 2))])]); (EOp OTuple [(EConst (VInt 0)); (EConst (VInt 1))])]);
     SExpr (EOp (OCall [APos; APos]) [(EOp (OAttr "add") [(EName "t")]); (EOp (OCall [APos; APos]) [(EName "Note"); (EConst (VInt 0)); (EOp OTuple [(EConst (VInt 1)); (EConst (VInt 4))])]); (EOp OTuple [(EConst (VInt 0)); (EConst (VInt 1))])]);
     SAssign (TName "u") (EOp (OCall []) [(EName "Track")]);
     SExpr (EOp (OCall [APos; APos]) [(EOp (OAttr "add") [(EName "u")]); (EOp (OCall [APos; APos]) [(EName "Note"); (EConst (VInt 0)); (EOp OTuple [(EConst (VInt 1)); (EConst (VInt 4))])]); (EOp OTuple [(EConst (VInt 0)); (EConst (VInt 1))])]);
     SExpr (EOp (OCall [APos; APos]) [(EOp (OAttr "add") [(EName "u")]); (EOp (OCall [APos; APos]) [(EName "Note"); (EConst (VInt 0)); (EOp OTuple [(EConst (VInt 1)); (EConst (VInt 2))])]); (EOp OTuple [(EConst (VInt 0)); (EConst (VInt 1))])]);
     SReturn (ECmp (EName "t") [(CNe, (EName "u"))])].

(** counterexamples.c33 (tools/counterexamples.py 77-78). *)
Definition src_counterexamples_c33 : fundef :=
  mkFun "counterexamples.c33"
    []
    [] false
    [SReturn (EOp (OCall [APos]) [(EOp (OAttr "dumps") [(EOp (OCall [APos]) [(EName "MIDIWriter"); (EConst (VInt 480))])]); (EOp (OCall []) [(EName "Track")])])].

(** counterexamples.c40 (tools/counterexamples.py 81-85). *)
Definition src_counterexamples_c40 : fundef :=
  mkFun "counterexamples.c40"
    []
    [] false
    [SAssign (TName "t") (EOp (OCall []) [(EName "Track")]);
     SExpr (EOp (OCall [APos; APos]) [(EOp (OAttr "add") [(EName "t")]); (EOp (OCall [APos; APos; APos]) [(EName "Note"); (EConst (VInt 36)); (EOp OTuple [(EConst (VInt 1)); (EConst (VInt 4))]); (EConst (VFloat (S754_finite false 4503599627370496 (-52))))]); (EOp OTuple [(EConst (VInt 0)); (EConst (VInt 1))])]);
     SExpr (EOp (OCall [APos; APos]) [(EOp (OAttr "add") [(EName "t")]); (EOp (OCall [APos; APos; APos]) [(EName "Note"); (EConst (VInt 36)); (EOp OTuple [(EConst (VInt 0)); (EConst (VInt 1))]); (EConst (VFloat (S754_finite false 4503599627370496 (-52))))]); (EOp OTuple [(EConst (VInt 0)); (EConst (VInt 1))])]);
     SReturn (EAnd (ECmp (EOp (OCall [APos]) [(EName "len"); (EName "t")]) [(CEq, (EConst (VInt 2)))]) (ECmp (EOp (OCall [APos]) [(EName "len"); (EOp (OCall [APos]) [(EName "midi.loads"); (EOp (OCall [APos]) [(EName "midi.dumps"); (EName "t")])])]) [(CEq, (EConst (VInt 1)))]))].

(** counterexamples.c41 (tools/counterexamples.py 88-92). *)
Definition src_counterexamples_c41 : fundef :=
  mkFun "counterexamples.c41"
    []
    [] false
    [SAssign (TName "t") (EOp (OCall []) [(EName "Track")]);
     SExpr (EOp (OCall [APos; APos]) [(EOp (OAttr "add") [(EName "t")]); (EOp (OCall [APos; APos; APos]) [(EName "Note"); (EConst (VInt 36)); (EOp OTuple [(EConst (VInt 1)); (EConst (VInt 2))]); (EConst (VFloat (S754_finite false 4503599627370496 (-53))))]); (EOp OTuple [(EConst (VInt 0)); (EConst (VInt 1))])]);
     SExpr (EOp (OCall [APos; APos]) [(EOp (OAttr "add") [(EName "t")]); (EOp (OCall [APos; APos; APos]) [(EName "Note"); (EConst (VInt 36)); (EOp OTuple [(EConst (VInt 1)); (EConst (VInt 2))]); (EConst (VFloat (S754_finite false 4503599627370496 (-53))))]); (EOp OTuple [(EConst (VInt 1)); (EConst (VInt 4))])]);
     SReturn (EAnd (ECmp (EOp (OCall [APos]) [(EName "len"); (EName "t")]) [(CEq, (EConst (VInt 2)))]) (ECmp (EOp (OCall [APos]) [(EName "len"); (EOp (OCall [APos]) [(EName "midi.loads"); (EOp (OCall [APos]) [(EName "midi.dumps"); (EName "t")])])]) [(CEq, (EConst (VInt 1)))]))].

(** counterexamples.c42 (tools/counterexamples.py 95-97). *)
Definition src_counterexamples_c42 : fundef :=
  mkFun "counterexamples.c42"
    []
    [] false
    [SReturn (EOp (OCall [APos]) [(EName "midi.loads"); (EConst (VBytes [77; 84; 104; 100; 0; 0; 0; 6; 0; 0; 0; 1; 0; 0; 77; 84; 114; 107; 0; 0; 0; 12; 0; 144; 60; 64; 96; 128; 60; 64; 0; 255; 47; 0]))])].

(** counterexamples.c44 (tools/counterexamples.py 100-103). *)
Definition src_counterexamples_c44 : fundef :=
  mkFun "counterexamples.c44"
    []
    [] false
    [SAssign (TName "t") (EOp (OCall [APos]) [(EName "midi.loads"); (EConst (VBytes [77; 84; 104; 100; 0; 0; 0; 6; 0; 0; 0; 1; 0; 96; 77; 84; 114; 107; 1; 0; 0; 4; 0; 255; 47; 0]))]);
     SReturn (ECmp (EOp (OCall [APos]) [(EName "len"); (EName "t")]) [(CEq, (EConst (VInt 0)))])].

(** counterexamples.c45 (tools/counterexamples.py 106-108). *)
Definition src_counterexamples_c45 : fundef :=
  mkFun "counterexamples.c45"
    []
    [] false
    [SReturn (EOp (OCall [APos]) [(EName "midi.loads"); (EConst (VBytes [77; 84; 104; 100; 0; 0; 0; 6; 0; 0; 0; 1; 0; 96; 77; 84; 114; 107; 0; 0; 0; 8; 0; 240; 1; 247; 0; 255; 47; 0]))])].

(** counterexamples.c47 (tools/counterexamples.py 111-112). *)
Definition src_counterexamples_c47 : fundef :=
  mkFun "counterexamples.c47"
    []
    [] false
    [SReturn (EOp (OCall [APos; APos]) [(EName "midi.loads"); (EOp (OCall [APos]) [(EOp (OAttr "dumps") [(EOp (OCall [AKey "channel"]) [(EName "MIDIWriter"); (EConst (VInt 3))])]); (EOp (OCall []) [(EName "Track")])]); (EConst (VInt 3))])].

(** counterexamples.c48 (tools/counterexamples.py 115-120). *)
Definition src_counterexamples_c48 : fundef :=
  mkFun "counterexamples.c48"
    []
    [] false
    [SAssign (TName "data") (EConst (VBytes [77; 84; 104; 100; 0; 0; 0; 6; 0; 0; 0; 1; 0; 96; 77; 84; 114; 107; 0; 0; 0; 46; 0; 255; 32; 1; 0; 0; 255; 88; 4; 7; 3; 24; 8; 0; 255; 32; 1; 1; 0; 255; 88; 4; 3; 2; 24; 8; 0; 144; 60; 64; 96; 128; 60; 0; 0; 145; 60; 64; 96; 129; 60; 0; 0; 255; 47; 0]));
     SReturn (EAnd (ECmp (EOp (OAttr "signature") [(EOp (OCall [APos]) [(EName "midi.loads"); (EName "data")])]) [(CEq, (EOp (OCall [APos; APos]) [(EName "Signature"); (EConst (VInt 3)); (EConst (VInt 4))]))]) (ECmp (EOp (OAttr "signature") [(EOp (OCall [APos; APos]) [(EName "midi.loads"); (EName "data"); (EConst (VInt 0))])]) [(CEq, (EOp (OCall [APos; APos]) [(EName "Signature"); (EConst (VInt 7)); (EConst (VInt 8))]))]))].

(** counterexamples.c52 (tools/counterexamples.py 123-130). *)
Definition src_counterexamples_c52 : fundef :=
  mkFun "counterexamples.c52"
    []
    [] false
    [SAssign (TName "t") (EOp (OCall []) [(EName "Track")]);
     SExpr (EOp (OCall [APos; APos]) [(EOp (OAttr "add") [(EName "t")]); (EOp (OCall [APos; APos; APos]) [(EName "Note"); (EConst (VInt 36)); (EOp OTuple [(EConst (VInt 1)); (EConst (VInt 2))]); (EConst (VFloat (S754_finite false 4503599627370496 (-53))))]); (EOp OTuple [(EConst (VInt 0)); (EConst (VInt 1))])]);
     SExpr (EOp (OCall [APos; APos]) [(EOp (OAttr "add") [(EName "t")]); (EOp (OCall [APos; APos; APos]) [(EName "Note"); (EConst (VInt 36)); (EOp OTuple [(EConst (VInt 1)); (EConst (VInt 4))]); (EConst (VFloat (S754_finite false 4503599627370496 (-52))))]); (EOp OTuple [(EConst (VInt 0)); (EConst (VInt 1))])]);
     SAssign (TName "u") (EOp (OCall []) [(EName "Track")]);
     SExpr (EOp (OCall [APos; APos]) [(EOp (OAttr "add") [(EName "u")]); (EOp (OCall [APos; APos; APos]) [(EName "Note"); (EConst (VInt 36)); (EOp OTuple [(EConst (VInt 1)); (EConst (VInt 4))]); (EConst (VFloat (S754_finite false 4503599627370496 (-52))))]); (EOp OTuple [(EConst (VInt 0)); (EConst (VInt 1))])]);
     SExpr (EOp (OCall [APos; APos]) [(EOp (OAttr "add") [(EName "u")]); (EOp (OCall [APos; APos; APos]) [(EName "Note"); (EConst (VInt 36)); (EOp OTuple [(EConst (VInt 1)); (EConst (VInt 2))]); (EConst (VFloat (S754_finite false 4503599627370496 (-53))))]); (EOp OTuple [(EConst (VInt 0)); (EConst (VInt 1))])]);
     SReturn (ECmp (EOp (OCall [APos]) [(EName "midi.dumps"); (EName "t")]) [(CNe, (EOp (OCall [APos]) [(EName "midi.dumps"); (EName "u")]))])].

(** counterexamples.c53 (tools/counterexamples.py 133-138). *)
Definition src_counterexamples_c53 : fundef :=
  mkFun "counterexamples.c53"
    []
    [] false
    [SAssign (TName "t") (EOp (OCall []) [(EName "Track")]);
     SExpr (EOp (OCall [APos; APos]) [(EOp (OAttr "add") [(EName "t")]); (EOp (OCall [APos; APos; APos]) [(EName "Note"); (EConst (VInt 36)); (EOp OTuple [(EConst (VInt 1)); (EConst (VInt 4))]); (EConst (VFloat (S754_finite false 4503599627370496 (-52))))]); (EOp OTuple [(EConst (VInt 43)); (EConst (VInt 512))])]);
     SAssign (TName "once") (EOp (OCall [APos]) [(EName "midi.loads"); (EOp (OCall [APos]) [(EName "midi.dumps"); (EName "t")])]);
     SAssign (TName "twice") (EOp (OCall [APos]) [(EName "midi.loads"); (EOp (OCall [APos]) [(EName "midi.dumps"); (EName "once")])]);
     SReturn (ECmp (EName "once") [(CNe, (EName "twice"))])].

