(** The test suite of the project (/repo/tests) on the model: every assertion about behaviour that is
    modelled, in the order of the test files.  These are tests of the model, not proofs about it; the
    tests with random inputs are theorems instead (C25, C65), and those of to_frequency are C13. *)
From Coq Require Import ZArith List Bool String.
From Verif Require Import Py PyFloat PySort Timsort Signature Tone Note Track MidiWriter MidiReader.
Import ListNotations.
Open Scope Z_scope.

Notation nd := ascii_digit.
Definition pair (a b : Z) : sig_arg := SA_iter [EInt a; EInt b].
Definition str (s : string) : tone_arg := TA_str (lit s).
Definition is_ok {A} (r : res A) : bool := match r with Ok _ => true | Err _ => false end.
Definition both {A B C} (f : A -> B -> C) (a : res A) (b : res B) : res C := let! x := a in let! y := b in Ok (f x y).
Definition in_range (lo hi : Z) : list Z := map (fun k => lo + Z.of_nat k) (seq 0 (Z.to_nat (hi - lo))).

(** ** tests/melodia/core/test_note.py *)
Definition quarter : sig_arg := SA_sig default_duration.
Definition note_of (s : string) (d : sig_arg) (v : float) : res note := note_new nd (str s) d v.
Definition plain_note (s : string) : res note := note_of s quarter default_velocity.

Example test_note_basics :
  both note_eq (note_new nd (TA_tone (tone_new 60)) quarter default_velocity) (note_new nd (TA_int 60) quarter default_velocity) = Ok true /\
  both note_eq (let! t := from_notation nd (lit "A4") in note_new nd (TA_tone t) quarter default_velocity) (plain_note "A4") = Ok true /\
  both note_eq (let! s := sig_new 3 4 in note_new nd (TA_tone (tone_new 60)) (SA_sig s) default_velocity)
               (note_new nd (TA_int 60) (pair 3 4) default_velocity) = Ok true /\
  is_ok (note_of "A4" quarter f_half) = true /\
  plain_note "re" = Err ValueError /\
  note_of "A4" (SA_iter [EOther; EOther; EOther]) default_velocity = Err TypeError /\
  note_of "A4" quarter (S754_finite true 4503599627370496 (-52)) = Err ValueError /\   (* -1.0 *)
  note_of "A4" quarter (S754_finite false 4953959590107546 (-52)) = Err ValueError.    (* 1.1 *)
Proof. repeat split; vm_compute; reflexivity. Qed.

Definition v_01415 : float := S754_finite false 5098074778183401 (-55).
Example test_note_properties :
  match note_of "B#6" (pair 3 8) v_01415, from_notation nd (lit "B#6") with
  | Ok n, Ok t => tone_eq (n_tone n) t = true /\ nominator (n_duration n) = 3 /\ denominator (n_duration n) = 8 /\
                  feq (n_velocity n) v_01415 = true
  | _, _ => False
  end.
Proof. repeat split; vm_compute; reflexivity. Qed.

Example test_note_transposed :
  match plain_note "A4", from_notation nd (lit "A4"), from_notation nd (lit "C5") with
  | Ok n1, Ok a4, Ok c5 =>
      match note_transposed n1 3 with
      | Ok n2 => tone_eq (n_tone n1) a4 = true /\ tone_eq (n_tone n2) c5 = true /\
                 nominator (n_duration n1) = nominator (n_duration n2) /\
                 denominator (n_duration n1) = denominator (n_duration n2) /\ feq (n_velocity n1) (n_velocity n2) = true
      | Err _ => False
      end
  | _, _, _ => False
  end.
Proof. repeat split; vm_compute; reflexivity. Qed.

Example test_note_with_duration :
  match note_of "A4" (pair 3 8) default_velocity with
  | Ok n1 =>
      match with_duration n1 (pair 7 4) with
      | Ok n2 => tone_eq (n_tone n1) (n_tone n2) = true /\ sig_eq (n_duration n1) (mkSig 3 8) = true /\
                 sig_eq (n_duration n2) (mkSig 7 4) = true /\ feq (n_velocity n1) (n_velocity n2) = true
      | Err _ => False
      end
  | Err _ => False
  end.
Proof. repeat split; vm_compute; reflexivity. Qed.

Definition v_043 : float := S754_finite false 7746191359077253 (-54).
Definition v_086 : float := S754_finite false 7746191359077253 (-53).
Example test_note_with_velocity :
  match note_of "A4" (pair 3 8) v_043 with
  | Ok n1 =>
      match with_velocity n1 v_086 with
      | Ok n2 => tone_eq (n_tone n1) (n_tone n2) = true /\ nominator (n_duration n1) = nominator (n_duration n2) /\
                 denominator (n_duration n1) = denominator (n_duration n2) /\
                 feq (n_velocity n1) v_043 = true /\ feq (n_velocity n2) v_086 = true
      | Err _ => False
      end
  | Err _ => False
  end.
Proof. repeat split; vm_compute; reflexivity. Qed.

Definition v_03 : float := S754_finite false 5404319552844595 (-54).
Definition v_04 : float := S754_finite false 7205759403792794 (-54).
Example test_note_eq :
  both note_eq (plain_note "C4") (plain_note "C4") = Ok true /\
  both note_eq (plain_note "C4") (plain_note "C5") = Ok false /\
  both note_eq (note_of "C4" (pair 1 2) v_03) (note_of "C4" (pair 2 4) v_03) = Ok true /\
  both note_eq (note_of "C4" (pair 1 2) v_03) (note_of "C4" (pair 2 4) v_04) = Ok false.
Proof. repeat split; vm_compute; reflexivity. Qed.

Example test_note_comp :
  both note_ge (plain_note "C#4") (plain_note "C4") = Ok true /\
  both note_gt (plain_note "C#4") (plain_note "C4") = Ok true /\
  both note_le (plain_note "C#4") (plain_note "D4") = Ok true /\
  both note_lt (plain_note "C#4") (plain_note "D4") = Ok true.
Proof. repeat split; vm_compute; reflexivity. Qed.

(** ** tests/melodia/core/test_signature.py *)
Example test_signature_basics :
  forallb (fun p => is_ok (sig_new (fst p) (snd p))) [(0, 1); (1, 2); (2, 4); (3, 4); (4, 4); (1000, 4)] = true /\
  forallb (fun p => match sig_new (fst p) (snd p) with Err ValueError => true | _ => false end)
    [(-1, 4); (0, 0); (0, -1); (1, 5); (1, 333)] = true /\
  sig_new 43 4 = Ok (mkSig 43 4).
Proof. repeat split; vm_compute; reflexivity. Qed.

Example test_signature_to : sig_to (mkSig 1 2) 8 = Ok (mkSig 4 8).
Proof. vm_compute. reflexivity. Qed.

Example test_signature_normalized : sig_normalized (mkSig 6 8) = Ok (mkSig 3 4).
Proof. vm_compute. reflexivity. Qed.

Example test_signature_eq :
  sig_eq (mkSig 0 1) (mkSig 0 4) = true /\ sig_eq (mkSig 1 4) (mkSig 8 32) = true /\ sig_eq (mkSig 3 2) (mkSig 6 4) = true.
Proof. repeat split; vm_compute; reflexivity. Qed.

Example test_signature_comp :
  sig_ge (mkSig 2 4) (mkSig 1 2) = true /\ sig_le (mkSig 2 4) (mkSig 1 2) = true /\
  sig_gt (mkSig 2 4) (mkSig 1 4) = true /\ sig_ge (mkSig 2 4) (mkSig 1 4) = true /\
  sig_lt (mkSig 2 4) (mkSig 3 4) = true /\ sig_le (mkSig 2 4) (mkSig 3 4) = true.
Proof. repeat split; vm_compute; reflexivity. Qed.

Definition equals (s : res sig) (t : sig) : bool := match s with Ok s => sig_eq s t | Err _ => false end.
Example test_signature_sum :
  equals (sig_add (mkSig 0 1) (mkSig 0 1)) (mkSig 0 1) = true /\
  equals (sig_add (mkSig 1 2) (mkSig 1 2)) (mkSig 1 1) = true /\
  equals (sig_add (mkSig 1 2) (mkSig 1 4)) (mkSig 3 4) = true.
Proof. repeat split; vm_compute; reflexivity. Qed.

Example test_signature_mul :
  equals (sig_mul (mkSig 1 4) (mkSig 2 2)) (mkSig 2 8) = true /\
  equals (sig_mul (mkSig 3 4) (mkSig 5 4)) (mkSig 15 16) = true /\
  equals (sig_mul (mkSig 1 1) (mkSig 2 1)) (mkSig 2 1) = true.
Proof. repeat split; vm_compute; reflexivity. Qed.

Example test_signature_abs : equals (sig_abs (mkSig 3 8)) (mkSig 3 8) = true.
Proof. vm_compute. reflexivity. Qed.

(** ** tests/melodia/core/test_tone.py *)
Example test_tone_str :
  forallb (fun i => match tone_str (tone_new i), to_notation (tone_new i) false with
                    | Ok a, Ok b => if list_eq_dec Z.eq_dec a b then true else false
                    | _, _ => false
                    end) (in_range 0 30) = true.
Proof. vm_compute. reflexivity. Qed.

Definition pitch_of (s : string) : res Z := let! t := from_notation nd (lit s) in Ok (pitch t).
Example test_tone_from_notation :
  map pitch_of ["C"; "C#"; "D"; "D#"; "E"; "F"; "F#"; "G"; "G#"; "A"; "A#"; "B"; "C1"; "C#1"; "Db"; "Eb"; "Fb"; "E#"; "Ab";
                "C2"; "C3"; "C#3"; "Db3"; "C-1"; "C#-1"; "B-1"]%string =
  map Ok [0; 1; 2; 3; 4; 5; 6; 7; 8; 9; 10; 11; 12; 13; 1; 3; 4; 5; 8; 24; 36; 37; 37; -12; -11; -1].
Proof. vm_compute. reflexivity. Qed.

Definition renotated (down : bool) (s : string) : res pystr := let! t := from_notation nd (lit s) in to_notation t down.
Example test_tone_to_notation :
  map (renotated false) ["C#"; "C#b"; "C##b"; "C#b#"; "Cb##"; "Ab##43"; "Ab##-43"]%string =
    map (fun s => Ok (lit s)) ["C#0"; "C0"; "C#0"; "C#0"; "C#0"; "A#43"; "A#-43"]%string /\
  map (renotated true) ["C#"; "C#b"; "C##b"; "C#b#"; "Cb##"; "Ab##43"; "Ab##-43"]%string =
    map (fun s => Ok (lit s)) ["Db0"; "C0"; "Db0"; "Db0"; "Db0"; "Bb43"; "Bb-43"]%string.
Proof. split; vm_compute; reflexivity. Qed.

Example test_tone_octave :
  forallb (fun letter => forallb (fun octave =>
      match from_notation nd (letter :: str_of_Z octave) with Ok t => tone_octave t =? octave | Err _ => false end)
    (in_range (-5) 5)) (lit "ABCDEFG") = true.
Proof. vm_compute. reflexivity. Qed.

Definition transposed_notation (s : string) (k : Z) : res pystr :=
  let! t := from_notation nd (lit s) in to_notation (tone_transposed t k) false.
Example test_note_with_transposed :
  transposed_notation "C4" 0 = Ok (lit "C4") /\ transposed_notation "C4" 1 = Ok (lit "C#4") /\
  transposed_notation "C4" 2 = Ok (lit "D4") /\ transposed_notation "C4" (-1) = Ok (lit "B3") /\
  transposed_notation "C4" (-2) = Ok (lit "A#3") /\
  tone_eq (tone_transposed (tone_transposed (tone_transposed (tone_new 152) 1) 5) (-3)) (tone_transposed (tone_new 152) 3) = true.
Proof. repeat split; vm_compute; reflexivity. Qed.

Example test_tone_eq_comp :
  tone_eq (tone_new 0) (tone_new 0) = true /\ tone_eq (tone_new 0) (tone_new 1) = false /\
  tone_lt (tone_new 42) (tone_new 43) = true /\ tone_le (tone_new 42) (tone_new 42) = true /\
  tone_ge (tone_new 42) (tone_new 42) = true /\ tone_gt (tone_new 42) (tone_new 41) = true.
Proof. repeat split; vm_compute; reflexivity. Qed.

(** ** tests/melodia/core/test_track.py *)
Definition whole44 : sig_arg := pair 4 4.
Definition the (r : res track) : track := match r with Ok t => t | Err _ => track_empty (mkSig 0 1) end.
Definition note_ (p : Z) (a b : Z) : note := mkNote (tone_new p) (mkSig a b) default_velocity.
Definition add (t : track) (w : what) (p : option sig_arg) : track := fst (track_add t w p).
(** [list(t) == l]. *)
Definition lists (t : track) (l : list (sig * note)) : bool :=
  let items := snd (track_iter cpython_sort t) in
  (length items =? length l)%nat &&
  forallb (fun x : (sig * note) * (sig * note) =>
             sig_eq (fst (fst x)) (fst (snd x)) && note_eq (snd (fst x)) (snd (snd x))) (combine items l).

Example test_track_basics :
  is_ok (track_new whole44 []) = true /\ is_ok (track_new (pair 1 4) []) = true /\
  is_ok (track_new (SA_sig (mkSig 1 4)) []) = true /\ track_new (pair 1 6) [] = Err ValueError.
Proof. repeat split; vm_compute; reflexivity. Qed.

Example test_track_signature : t_signature (the (track_new (pair 3 8) [])) = mkSig 3 8.
Proof. vm_compute. reflexivity. Qed.

Example test_track_length :
  let t0 := the (track_new whole44 []) in
  let t1 := add t0 (WNote (note_ 0 10 4)) None in
  let t2 := add t1 (WNote (note_ 0 30 8)) (Some (pair 40 2)) in
  let t3 := add t2 (WNote (note_ 0 1 4)) None in
  sig_eq (track_length t0) (mkSig 0 1) = true /\ sig_eq (track_length t1) (mkSig 10 4) = true /\
  sig_eq (track_length t2) (mkSig 190 8) = true /\ sig_eq (track_length t3) (mkSig 192 8) = true.
Proof. repeat split; vm_compute; reflexivity. Qed.

Example test_track_add :
  let t0 := the (track_new whole44 []) in
  let t1 := add t0 (WNote (note_ 0 1 4)) None in
  let t2 := add (fst (track_iter cpython_sort t1)) (WIter [WNote (note_ 0 1 4); WNote (note_ 1 1 4); WNote (note_ (-1) 1 4)]) None in
  let t3 := add (fst (track_iter cpython_sort t2)) (WNote (note_ 42 8 1)) (Some (pair 13 1)) in
  let expected := [(mkSig 0 1, note_ 0 1 4); (mkSig 1 4, note_ (-1) 1 4); (mkSig 1 4, note_ 0 1 4); (mkSig 1 4, note_ 1 1 4)] in
  lists t0 [] = true /\ lists t1 [(mkSig 0 1, note_ 0 1 4)] = true /\ lists t2 expected = true /\
  lists t3 (expected ++ [(mkSig 13 1, note_ 42 8 1)]) = true /\
  lists (fst (track_iter cpython_sort t3)) (expected ++ [(mkSig 13 1, note_ 42 8 1)]) = true.
Proof. repeat split; vm_compute; reflexivity. Qed.

Example test_track_eq :
  both (fun a b => fst (fst (track_eq cpython_sort a b))) (track_new (pair 17 16) []) (track_new (pair 17 16) []) = Ok true /\
  both (fun a b => fst (fst (track_eq cpython_sort a b))) (track_new (pair 15 16) []) (track_new (pair 17 16) []) = Ok false.
Proof. split; vm_compute; reflexivity. Qed.

(** ** tests/melodia/io/test_midi_read.py *)
Fixpoint calls (r : reader) (l : list (Z + Z)) : list (res bytes) :=
  match l with
  | [] => []
  | inl n :: l => let (r', o) := read n r in o :: calls r' l
  | inr k :: l => calls (fst (shift k r)) l
  end.
Example test_reader :
  calls (reader_new (lit "abcdef")) [inl 2; inl 3; inr (-2); inl 3; inl 1; inl 10; inl 1; inl 0; inr (-6); inl 6; inl 1] =
  [Ok (lit "ab"); Ok (lit "cde"); Ok (lit "def"); Err MIDIParsingError; Err MIDIParsingError; Err MIDIParsingError; Ok [];
   Ok (lit "abcdef"); Err MIDIParsingError].
Proof. vm_compute. reflexivity. Qed.

Example test_midi_parse_header : snd (parse_header (reader_new [0; 1; 0; 2; 0; 3])) = Ok (1, 2, 3).
Proof. vm_compute. reflexivity. Qed.

Example test_midi_time_to_signature :
  time_to_signature 0 0 = Err AssertionError /\ time_to_signature 0 (-10) = Err AssertionError /\
  forallb (fun x : Z * Z * (Z * Z) => equals (time_to_signature (fst (fst x)) (snd (fst x))) (mkSig (fst (snd x)) (snd (snd x))))
    [((1, 1), (1, 4)); ((2, 1), (2, 4)); ((3, 1), (3, 4)); ((4, 1), (4, 4)); ((5, 1), (5, 4)); ((6, 1), (6, 4));
     ((7, 1), (7, 4)); ((8, 1), (8, 4)); ((5, 10), (1, 8)); ((10, 10), (1, 4)); ((100, 10), (10, 4));
     ((1000, 10), (100, 4)); ((500, 10), (50, 4)); ((3, 96), (1, 128))] = true.
Proof. repeat split; vm_compute; reflexivity. Qed.

Example test_midi_pitch_to_tone :
  match midi_reader_new nd (str "C3") with
  | Ok m => map (fun p => Ok (pitch (pitch_to_tone m p))) [60; 66; 59; 83] = map pitch_of ["C3"; "F#3"; "B2"; "B4"]%string
  | Err _ => False
  end.
Proof. vm_compute. reflexivity. Qed.

Example test_midi_read_var_len :
  map (fun data => snd (read_var_len (reader_new data)))
    [[0]; [127]; [129; 0]; [192; 128; 0]; [255; 255; 127]; [129; 128; 128; 0]; [255; 255; 255; 127]] =
  map Ok [0; 127; 128; 1048576; 2097151; 2097152; 268435455].
Proof. vm_compute. reflexivity. Qed.

(** ** tests/melodia/io/test_midi_serialize.py (the random tracks are C65) *)
Definition reloaded (t : res track) : res bool :=
  let! t := t in
  let! bs := midi_dumps cpython_sort t f_120 0 in
  let! u := midi_loads cpython_sort bs None in
  Ok (fst (fst (track_eq cpython_sort t u))).
Example test_midi_serialize :
  reloaded (track_new (pair 17 16) []) = Ok true /\
  reloaded (let! n := note_new nd (TA_int 0) (pair 3 8) f_one in track_new (pair 17 16) [(WNote n, Some (pair 7 16))]) = Ok true.
Proof. split; vm_compute; reflexivity. Qed.

(** ** tests/melodia/io/test_midi_write.py *)
Definition a_writer (ppq channel : Z) (c : string) : res writer := writer_new nd ppq (str c) f_120 channel.
Example test_midi_basics :
  a_writer 0 0 "C3" = Err ValueError /\ a_writer (-10) 0 "C3" = Err ValueError /\ a_writer 32768 0 "C3" = Err ValueError /\
  a_writer 96 (-1) "C3" = Err ValueError /\ a_writer 96 16 "C3" = Err ValueError.
Proof. repeat split; vm_compute; reflexivity. Qed.

Definition pulses (ppq n d : Z) : res Z := let! w := a_writer ppq 0 "C3" in signature_to_pulses w (mkSig n d).
Example test_midi_signature_to_pulses :
  map (fun p => pulses 1 (fst p) (snd p)) [(0, 1); (1, 1); (1, 2); (1, 4); (1, 8); (1, 16)] = map Ok [0; 4; 2; 1; 0; 0] /\
  map (fun n => pulses 1 n 16) (in_range 0 17) = map Ok [0; 0; 0; 0; 1; 1; 1; 1; 2; 2; 2; 2; 3; 3; 3; 3; 4] /\
  pulses 32 1 8 = Ok 16 /\ pulses 1000 1 2 = Ok 2000.
Proof. repeat split; vm_compute; reflexivity. Qed.

Definition note_on (c s : string) (v : float) : res bytes :=
  let! w := a_writer 96 3 c in let! n := note_of s quarter v in format_note_on w n.
Definition note_off (c s : string) (v : float) : res bytes :=
  let! w := a_writer 96 3 c in let! n := note_of s quarter v in format_note_off w n.
(** [n._velocity = v] behind the back of the constructor. *)
Definition forced (format : writer -> note -> res bytes) (v : float) : res bytes :=
  let! w := a_writer 96 3 "C4" in
  let! n := plain_note "C4" in format w (mkNote (n_tone n) (n_duration n) v).
Definition v_2 : float := S754_finite false 4503599627370496 (-51).
Definition v_minus_10 : float := S754_finite true 5629499534213120 (-49).
Example test_midi_format_note_on :
  note_on "C4" "C-2" default_velocity = Err ValueError /\ note_on "C4" "C10" default_velocity = Err ValueError /\
  note_on "C4" "D11" default_velocity = Err ValueError /\ is_ok (note_on "C3" "C-2" default_velocity) = true /\
  note_on "C3" "C-3" default_velocity = Err ValueError /\
  note_on "C3" "C3" f_one = Ok [147; 60; 127] /\ note_on "C3" "C4" f_zero = Ok [147; 72; 0] /\
  note_on "C4" "C4" f_zero = Ok [147; 60; 0] /\
  forced format_note_on v_2 = Ok [147; 60; 127] /\ forced format_note_on v_minus_10 = Ok [147; 60; 0].
Proof. repeat split; vm_compute; reflexivity. Qed.
Example test_midi_format_note_off :
  note_off "C4" "C-2" default_velocity = Err ValueError /\ note_off "C4" "C10" default_velocity = Err ValueError /\
  note_off "C4" "D11" default_velocity = Err ValueError /\ is_ok (note_off "C3" "C-2" default_velocity) = true /\
  note_off "C3" "C-3" default_velocity = Err ValueError /\
  note_off "C3" "C3" f_one = Ok [131; 60; 64] /\ note_off "C3" "C4" f_zero = Ok [131; 72; 64] /\
  note_off "C4" "C4" f_zero = Ok [131; 60; 64] /\
  forced format_note_off v_2 = Ok [131; 60; 64] /\ forced format_note_off v_minus_10 = Ok [131; 60; 64].
Proof. repeat split; vm_compute; reflexivity. Qed.

Example test_midi_format_var_len :
  map format_var_len [0; 64; 127; 128; 8192; 16383; 16384; 1048576; 2097151; 2097152; 134217728; 268435455] =
  map Ok [[0]; [64]; [127]; [129; 0]; [192; 0]; [255; 127]; [129; 128; 0]; [192; 128; 0]; [255; 255; 127];
          [129; 128; 128; 0]; [192; 128; 128; 0]; [255; 255; 255; 127]].
Proof. vm_compute. reflexivity. Qed.

Example test_midi_format_signature :
  format_signature (mkSig 0 1) 16 32 = Ok [255; 88; 4; 0; 0; 16; 32] /\
  format_signature (mkSig 3 4) 16 32 = Ok [255; 88; 4; 3; 2; 16; 32] /\
  format_signature (mkSig 127 170141183460469231731687303715884105728) 16 32 = Ok [255; 88; 4; 127; 127; 16; 32] /\
  format_signature (mkSig 255 170141183460469231731687303715884105728) 16 32 = Ok [255; 88; 4; 255; 127; 16; 32] /\
  format_signature (mkSig 512 512) 16 32 = Err OverflowError /\
  format_signature (mkSig 1 4) (-16) 32 = Err OverflowError /\ format_signature (mkSig 1 4) 16 (-32) = Err OverflowError /\
  format_signature (mkSig 1 4) 300 32 = Err OverflowError /\ format_signature (mkSig 1 4) 16 300 = Err OverflowError.
Proof. repeat split; vm_compute; reflexivity. Qed.

Example test_midi_format_chunk :
  format_chunk (lit "MThd") [0; 127; 0; 128; 144; 255; 118] = Ok (lit "MThd" ++ [0; 0; 0; 7; 0; 127; 0; 128; 144; 255; 118]) /\
  format_chunk (lit "MThd") [] = Ok (lit "MThd" ++ [0; 0; 0; 0]) /\
  format_chunk (lit "MThd") [0] = Ok (lit "MThd" ++ [0; 0; 0; 1; 0]) /\
  map (fun s => format_chunk (lit s) []) [""; "a"; "ab"; "abc"; "abcd"; "abcde"]%string =
    [Err AssertionError; Err AssertionError; Err AssertionError; Err AssertionError; Ok (lit "abcd" ++ [0; 0; 0; 0]); Err AssertionError].
Proof. repeat split; vm_compute; reflexivity. Qed.

Definition header (ppq kind n : Z) : res bytes := let! w := a_writer ppq 0 "C3" in format_header_chunk w kind n.
Example test_midi_format_header_chunk :
  header 1 0 1 = Ok (lit "MThd" ++ [0; 0; 0; 6; 0; 0; 0; 1; 0; 1]) /\
  header 1 1 110 = Ok (lit "MThd" ++ [0; 0; 0; 6; 0; 1; 0; 110; 0; 1]) /\
  header 1 1 65535 = Ok (lit "MThd" ++ [0; 0; 0; 6; 0; 1; 255; 255; 0; 1]) /\
  header 8199 2 6550 = Ok (lit "MThd" ++ [0; 0; 0; 6; 0; 2; 25; 150; 32; 7]) /\
  header 8199 3 6550 = Err AssertionError /\ header 8199 4 6550 = Err AssertionError /\ header 8199 (-1) 6550 = Err AssertionError.
Proof. repeat split; vm_compute; reflexivity. Qed.
