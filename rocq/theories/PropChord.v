(** Properties of the chord functions (C27-C29). *)
From Coq Require Import ZArith QArith List Bool String Sorted.
From Verif Require Import Py PyFloat Signature Tone Note Chord SpecBase ChordSpec
  DecFacts SigProps FloatFacts NoteProps ChordProps.
Import ListNotations.
Open Scope Z_scope.

(** C27: the functions are those of the generator's table and their notes have its intervals. *)
Theorem C27_names :
  forall nd, map fst (chord_functions nd) = flat_map fst chord_rows /\
  NoDup (map fst (chord_functions nd)) /\ List.length (chord_functions nd) = 50%nat.
Proof. exact c27_names. Qed.
Print Assumptions C27_names.
Theorem C27_intervals :
  forall nd name f, digit_table nd -> In (name, f) (chord_functions nd) ->
  exists intervals, In (name, intervals) chord_table /\
    forall b d v notes, base_ok b -> velocity_ok v -> f b d v = Ok notes ->
      exists t, base_means nd b t /\
        map (fun n => pitch (n_tone n)) notes = map (fun k => pitch t + k) intervals.
Proof. exact c27_intervals. Qed.
Print Assumptions C27_intervals.
Theorem C27_aliases :
  forall nd row a b f g, In row chord_rows -> In a (fst row) -> In b (fst row) ->
  In (a, f) (chord_functions nd) -> In (b, g) (chord_functions nd) ->
  forall base d v, f base d v = g base d v.
Proof. exact c27_aliases. Qed.
Print Assumptions C27_aliases.
Example C27_ex : In ("min7"%string, [0; 3; 7; 10]) chord_table /\
  chord_min7 ascii_digit (BA_str [65; 52]) None None =
    Ok (map (fun p => mkNote (mkTone p) (mkSig 1 4) f_three_quarters) [57; 60; 64; 67]).
Proof. split; [cbn; tauto|reflexivity]. Qed.

(** C28: duration and velocity are those given, else those of the base note, else 1/4 and 0.75;
    the call raises exactly when base, duration or velocity is not acceptable. *)
Theorem C28_defaults :
  forall nd name f b d v, digit_table nd -> In (name, f) (chord_functions nd) ->
  base_ok b -> velocity_ok v ->
  (forall t s w, base_means nd b t -> chord_duration b d s -> chord_velocity b v w ->
     exists notes, f b d v = Ok notes /\
       Forall (fun n => n_duration n = s /\ n_velocity n = w) notes) /\
  (~ (exists t s w, base_means nd b t /\ chord_duration b d s /\ chord_velocity b v w) ->
     f b d v = Err ValueError \/ f b d v = Err TypeError).
Proof. exact c28_defaults. Qed.
Print Assumptions C28_defaults.
Example C28_ex :
  chord_sus2 ascii_digit (BA_note (mkNote (mkTone 7) (mkSig 3 8) f_half)) None None =
    Ok (map (fun p => mkNote (mkTone p) (mkSig 3 8) f_half) [7; 9; 14]) /\
  chord_sus2 ascii_digit (BA_note (mkNote (mkTone 7) (mkSig 3 8) f_half)) (Some (SA_iter [EInt 1; EInt 2])) (Some f_one) =
    Ok (map (fun p => mkNote (mkTone p) (mkSig 1 2) f_one) [7; 9; 14]) /\
  chord_sus2 ascii_digit BA_other None None = Err ValueError /\
  chord_sus2 ascii_digit (BA_int 0) (Some (SA_iter [EInt 1; EInt 3])) None = Err ValueError /\
  chord_sus2 ascii_digit (BA_int 0) (Some SA_other) None = Err TypeError /\
  base_ok (BA_note (mkNote (mkTone 7) (mkSig 3 8) f_half)).
Proof.
  repeat (split; [reflexivity|]). intros n E. injection E as <-.
  split; [apply (valid_pow 3 3); discriminate|apply unit_test; reflexivity].
Qed.

(** C29: chords commute with transposition, start with the base and ascend. *)
Theorem C29_transposition :
  forall nd name f b b' k d v, In (name, f) (chord_functions nd) ->
  base_ok b -> velocity_ok v -> moved k b b' ->
  (forall notes, f b d v = Ok notes ->
     exists notes', f b' d v = Ok notes' /\
       Forall2 (fun n n' => pitch (n_tone n') = pitch (n_tone n) + k /\ n_duration n' = n_duration n /\
                            n_velocity n' = n_velocity n) notes notes') /\
  (forall e, f b d v = Err e -> f b' d v = Err e).
Proof. exact c29_transposition. Qed.
Print Assumptions C29_transposition.
Theorem C29_shape :
  forall nd name f b d v notes, digit_table nd -> In (name, f) (chord_functions nd) ->
  base_ok b -> velocity_ok v -> f b d v = Ok notes ->
  (exists n r t, notes = n :: r /\ base_means nd b t /\ n_tone n = t) /\
  StronglySorted Z.lt (map (fun n => pitch (n_tone n)) notes).
Proof. exact c29_shape. Qed.
Print Assumptions C29_shape.
Example C29_ex : moved (-5) (BA_int 60) (BA_int 55) /\
  chord_major ascii_digit (BA_int 55) None None =
    Ok (map (fun p => mkNote (mkTone p) (mkSig 1 4) f_three_quarters) [55; 59; 62]).
Proof. split; [apply (mv_int (-5) 60)|reflexivity]. Qed.
