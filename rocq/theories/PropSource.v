(** The generator of the chord functions and the text of chord.py (C67).

    [generate] is scripts/generate_chords.py (ChordGen.v), [chord_py] the text of
    src/melodia/music/chord.py (ChordText.v).  [functions_in] reads a text: the functions it defines,
    with the semitones of the notes they return; [chord_of] is the function with given semitones;
    [row_says c names] says that a row lists [names], has a title without quotes and backslashes and
    at least two notes (SourceSpec.v). *)
From Coq Require Import ZArith List Bool String.
From Verif Require Import Py PyFloat Signature Tone Note Chord ChordGen ChordText SourceSpec SourceProps.
Import ListNotations.
Open Scope Z_scope.

(** C67: the generator never raises. *)
Theorem C67_total :
  forall table, exists text, generate table = Ok text.
Proof. exact c67_total. Qed.
Print Assumptions C67_total.
(** C67: what it writes defines the functions of the table, in order, each with the notes of its row. *)
Theorem C67_generated :
  forall table namess, Forall2 row_says table namess ->
  exists text, generate table = Ok text /\
    functions_in text = Some (flat_map (fun p => map (fun n => (n, c_notation (fst p))) (snd p)) (combine table namess)).
Proof. exact c67_generated. Qed.
Print Assumptions C67_generated.
(** C67: chord.py is what it writes for its own table. *)
Theorem C67_source :
  generate chords = Ok chord_py.
Proof. exact c67_source. Qed.
Print Assumptions C67_source.
(** C67: and the functions read from that text are those of the model. *)
Theorem C67_model :
  forall nd, exists l, functions_in chord_py = Some l /\
  Forall2 (fun p q => fst p = lit (fst q) /\ forall base duration velocity, snd q base duration velocity = chord_of nd (snd p) base duration velocity)
    l (chord_functions nd).
Proof. exact c67_model. Qed.
Print Assumptions C67_model.

(** Another table: spaces around names, negative and large intervals. *)
Definition ex_table : list chord_row :=
  [mkChord (lit " drop2 ,d_2") (lit "Drop {2}") [0; -5; 112]; mkChord (lit "fifth") (lit "Fifth") [0; 7]].
Example C67_ex_table : Forall2 row_says ex_table [[lit "drop2"; lit "d_2"]; [lit "fifth"]].
Proof.
  assert (S : forall c r, is_letter c = true -> forallb (fun c => is_letter c || is_digit c) r = true -> reserved (c :: r) = false -> good_name (c :: r)).
  { intros c r H1 H2 H3. split; [|exact H3]. exists c, r. repeat split; [exact H1|]. apply Forall_forall, forallb_forall, H2. }
  assert (D : forall l, forallb (fun c => negb ((c =? 34) || (c =? 92))) l = true -> Forall (fun c => c <> 34 /\ c <> 92) l).
  { intros l H. apply Forall_forall. intros c Hc. pose proof (proj1 (forallb_forall _ _) H c Hc) as E. split; intros ->; discriminate. }
  repeat constructor; try (apply S; reflexivity); try (apply D; reflexivity); try discriminate.
  - apply (ln_more [32] (lit "drop2") [32] (lit "d_2")); [repeat constructor|repeat constructor|].
    apply (ln_one [] (lit "d_2") []); constructor.
  - apply (ln_one [] (lit "fifth") []); constructor.
Qed.
Example C67_ex_generated :
  match generate ex_table with
  | Ok text => functions_in text = Some [(lit "drop2", [0; -5; 112]); (lit "d_2", [0; -5; 112]); (lit "fifth", [0; 7])]
  | Err _ => False
  end.
Proof. vm_compute. reflexivity. Qed.
(** One note gives a note in brackets, which is no tuple, and no note is not Python; a name that is a
    keyword, or a title with three quotes, is not Python either. *)
Example C67_ex_rows :
  map (fun c => match generate [c] with Ok text => functions_in text | Err _ => None end)
    [mkChord (lit "unison") (lit "Unison") [0]; mkChord (lit "silence") (lit "Silence") [];
     mkChord (lit "in") (lit "In") [0; 7]; mkChord (lit "a") (lit """""""") [0; 7]; mkChord (lit "a") (lit "A") [0; 7]] =
  [None; None; None; None; Some [(lit "a", [0; 7])]].
Proof. vm_compute. reflexivity. Qed.
(** The text and its functions: 1347 lines, of which the last defines dom11. *)
Example C67_ex_text :
  List.length (filter (Z.eqb 10) chord_py) = 1347%nat /\
  match functions_in chord_py with
  | Some l => (List.length l, nth 49 l ([], [])) = (50%nat, (lit "dom11", [0; 4; 7; 10; 14; 17]))
  | None => False
  end /\
  chord_of ascii_digit [0; 4; 7; 10; 14; 17] (BA_str (lit "C4")) None None =
  chord_dom11 ascii_digit (BA_str (lit "C4")) None None.
Proof. split; [vm_compute; reflexivity|]. split; [vm_compute; reflexivity|]. vm_compute. reflexivity. Qed.
