(** What it means that the source of a function computes what a model says.

    [PySource.functions] and [PySource.classes] are the syntax trees of the modules, [PyProgram.melodia] the
    program made of them, [PySem.steps] the machine that runs it. *)
From Coq Require Import ZArith List Bool String.
From Verif Require Import Py PyFloat Signature Tone Note Chord Track PyAst PySem PySource PyProgram
  RefineBase RefineSignature RefineTone RefineNote RefineChord RefineTrack RefineAdd.
Import ListNotations.
Open Scope string_scope.
Open Scope list_scope.
Open Scope Z_scope.

(** An expression, with the variables of the environment, evaluates to a value or raises; nothing
    on the heap changes.  [K] is what the program does with the result. *)
Definition evaluates (Y : python) (h : heap) (vars : env) (e : expr) (r : res value) : Prop :=
  forall K, steps melodia Y (Ev e vars h K) (ends r h K).

(** An expression evaluates or raises, and the result and the heap after it are in [Q]. *)
Definition brings (Y : python) (h : heap) (vars : env) (e : expr) (Q : res value -> heap -> Prop) : Prop :=
  forall K, reaches melodia Y (Ev e vars h K) (fun s => exists r h', s = ends r h' K /\ Q r h').

(** Expressions: names, [e.x], [f(a, b)], [e.m(a, b)], operators and comparisons. *)
Definition attr (e : expr) (x : string) : expr := EOp (OAttr x) [e].
Definition call (f : expr) (args : list expr) : expr := EOp (OCall (List.map (fun _ => APos) args)) (f :: args).
Definition meth (e : expr) (m : string) (args : list expr) : expr := call (attr e m) args.
Definition binary (o : binop) (a b : expr) : expr := EOp (OBin o) [a; b].
Definition compare (o : cmpop) (a b : expr) : expr := ECmp a [(o, b)].
Definition name (x : string) : expr := EName x.
(** [e.m(a, k=b)] and [[x for x in e]] *)
Definition meth_key (e : expr) (m : string) (a : expr) (k : string) (b : expr) : expr :=
  EOp (OCall [APos; AKey k]) [attr e m; a; b].
Definition elements_of (e : expr) : expr := EComp CompList (EName "x") (TName "x") e.

(** Results: a signature, a tone, a note, a tuple of notes, or what is built in. *)
Definition a_sig : res sig -> res value := outcome_of enc_sig.
Definition a_tone : res tone -> res value := outcome_of enc_tone.
Definition a_note : res note -> res value := outcome_of enc_note.
Definition a_chord : res (list note) -> res value := outcome_of enc_notes.
Definition a_text : res pystr -> res value := outcome_of VStr.
Definition an_int (z : Z) : res value := Ok (VInt z).
Definition a_bool (b : bool) : res value := Ok (VBool b).

(** A new track, or an exception; nothing that was on the heap has changed. *)
Definition new_track (h : heap) (r : res track) (v : res value) (h' : heap) : Prop :=
  keeps [] h h' /\
  match r with
  | Ok t => exists a b, v = Ok (VRef a) /\ track_at h' a b t /\ get h a = None /\ get h b = None
  | Err e => v = Err e
  end.
(** A new list. *)
Definition new_list (h : heap) (vs : list value) (v : res value) (h' : heap) : Prop :=
  exists a, v = Ok (VRef a) /\ get h' a = Some (HList vs) /\ get h a = None.
