(** What a printed note or track means when Python reads it: a parser for the expressions
    [Note(tone=.., duration=(.., ..), velocity=..)] and
    [Track(signature=(.., ..), content=[(Note( .. ), (.., ..)), ..])], and decimal floating point
    literals. *)
From Coq Require Import ZArith QArith Qabs List Bool String.
From Verif Require Import Py PyFloat PySort Signature Tone Note Track SpecBase.
Import ListNotations.
Open Scope Z_scope.

(** ** Floating point literals *)

(** v is nearer to q than every other float. *)
Definition only_nearest (q : Q) (v : float) : Prop :=
  is_float v = true /\ finite v /\
  forall g, is_float g = true -> finite g -> ~ (fval g == fval v)%Q -> (Qabs (fval v - q) < Qabs (fval g - q))%Q.

(** The literal with the value q is the float v (literals have no sign; numbers half way between two
    floats, and numbers beyond the floats, are left out). *)
Definition float_literal (q : Q) (v : float) : Prop :=
  (q == 0 /\ v = S754_zero false)%Q \/ (~ q == 0 /\ only_nearest q v /\ v <> S754_zero true)%Q.

(** The digits chosen for a velocity identify it. *)
Definition digits_contract (digits : positive -> Z -> Z * Z) : Prop :=
  forall m e, valid_velocity (S754_finite false m e) ->
  0 < fst (digits m e) /\ only_nearest (inject_Z (fst (digits m e)) * 10 ^ snd (digits m e))%Q (S754_finite false m e).

(** ** The parser *)
Definition parser A := pystr -> option (A * pystr).

Fixpoint skip (s : pystr) : pystr := match s with 32 :: r => skip r | _ => s end.
Fixpoint after (w s : pystr) : option pystr :=
  match w, s with
  | [], _ => Some s
  | c :: w', d :: s' => if c =? d then after w' s' else None
  | _, [] => None
  end.
(** A token: spaces, then the text. *)
Definition tok (w : string) : parser unit := fun s => match after (lit w) (skip s) with Some r => Some (tt, r) | None => None end.

Definition is_digit (c : Z) : bool := (48 <=? c) && (c <=? 57).
(** The longest run of digits: its value and how many there are, after [v] and [n]. *)
Fixpoint digit_run (v : Z) (n : nat) (s : pystr) : Z * nat * pystr :=
  match s with
  | c :: r => if is_digit c then digit_run (10 * v + (c - 48)) (S n) r else (v, n, s)
  | [] => (v, n, s)
  end.

Notation "'do!' x , s <- p ; q" := (match p with Some (x, s) => q | None => None end)
  (at level 200, x pattern, s pattern, p at level 100, q at level 200).

Definition sign_of (s : pystr) : bool * pystr := match s with 45 :: r => (true, r) | _ => (false, s) end.

(** An integer: no leading zeros. *)
Definition p_int : parser Z := fun s =>
  let (neg, s) := sign_of (skip s) in
  match digit_run 0 0 s with
  | (v, O, _) => None
  | (v, S n, r) => if (Nat.ltb 0 n) && (hd 0 s =? 48) then None else Some (if neg then - v else v, r)
  end.

(** A floating point literal, with its sign, as M * 10^E. *)
Definition p_float : parser (bool * Z * Z) := fun s =>
  let (neg, s) := sign_of (skip s) in
  match digit_run 0 0 s with
  | (v, O, _) => None
  | (v, S _, s) =>
      let '(point, v, n, s) := match s with 46 :: r => let '(v, n, r) := digit_run v 0 r in (true, v, n, r) | _ => (false, v, O, s) end in
      match s with
      | 101 :: c :: r =>
          if (c =? 43) || (c =? 45) then
            match digit_run 0 0 r with
            | (x, O, _) => None
            | (x, S _, r) => Some (neg, v, (if c =? 45 then - x else x) - Z.of_nat n, r)
            end
          else None
      | _ => if point then Some (neg, v, - Z.of_nat n, s) else None
      end
  end.

Definition p_pair : parser (Z * Z) := fun s =>
  do! _, s <- tok "(" s; do! a, s <- p_int s; do! _, s <- tok "," s; do! b, s <- p_int s; do! _, s <- tok ")" s;
  Some ((a, b), s).

Record note_expr := mkNE { ne_tone : Z; ne_duration : Z * Z; ne_velocity : bool * Z * Z }.
Definition p_note : parser note_expr := fun s =>
  do! _, s <- tok "Note" s; do! _, s <- tok "(" s;
  do! _, s <- tok "tone" s; do! _, s <- tok "=" s; do! a, s <- p_int s; do! _, s <- tok "," s;
  do! _, s <- tok "duration" s; do! _, s <- tok "=" s; do! d, s <- p_pair s; do! _, s <- tok "," s;
  do! _, s <- tok "velocity" s; do! _, s <- tok "=" s; do! v, s <- p_float s; do! _, s <- tok ")" s;
  Some (mkNE a d v, s).

Definition p_entry : parser (note_expr * (Z * Z)) := fun s =>
  do! _, s <- tok "(" s; do! n, s <- p_note s; do! _, s <- tok "," s; do! p, s <- p_pair s; do! _, s <- tok ")" s;
  Some ((n, p), s).

(** Entries separated by commas, up to the closing bracket. *)
Fixpoint p_entries (fuel : nat) (s : pystr) : option (list (note_expr * (Z * Z)) * pystr) :=
  match fuel with
  | O => None
  | S f =>
      do! e, s <- p_entry s;
      match tok "," s with
      | Some (_, s) => do! l, s <- p_entries f s; Some (e :: l, s)
      | None => do! _, s <- tok "]" s; Some ([e], s)
      end
  end.
Definition p_list : parser (list (note_expr * (Z * Z))) := fun s =>
  do! _, s <- tok "[" s;
  match tok "]" s with
  | Some (_, s) => Some ([], s)
  | None => p_entries (List.length s) s
  end.

Definition p_track : parser (Z * Z * list (note_expr * (Z * Z))) := fun s =>
  do! _, s <- tok "Track" s; do! _, s <- tok "(" s;
  do! _, s <- tok "signature" s; do! _, s <- tok "=" s; do! a, s <- p_pair s; do! _, s <- tok "," s;
  do! _, s <- tok "content" s; do! _, s <- tok "=" s; do! l, s <- p_list s; do! _, s <- tok ")" s;
  Some ((a, l), s).

(** ** Evaluation *)
Definition pair_arg (p : Z * Z) : sig_arg := SA_iter [EInt (fst p); EInt (snd p)].

Definition velocity_is (x : bool * Z * Z) (v : float) : Prop :=
  let '(neg, M, E) := x in exists w, float_literal (inject_Z M * 10 ^ E)%Q w /\ v = if neg then SFopp w else w.

Definition note_is (nd : Z -> option Z) (x : note_expr) (n : note) : Prop :=
  exists v, velocity_is (ne_velocity x) v /\ note_new nd (TA_int (ne_tone x)) (pair_arg (ne_duration x)) v = Ok n.

Definition evaluates_note (nd : Z -> option Z) (s : pystr) (n : note) : Prop :=
  exists x r, p_note s = Some (x, r) /\ skip r = [] /\ note_is nd x n.

Definition evaluates_track (nd : Z -> option Z) (s : pystr) (t : track) : Prop :=
  exists a l r content, p_track s = Some ((a, l), r) /\ skip r = [] /\
    Forall2 (fun x c => exists n, note_is nd (fst x) n /\ c = (WNote n, Some (pair_arg (snd x)))) l content /\
    track_new (pair_arg a) content = Ok t.

(** ** Three decimals *)

(** The text of k / 1000 for k from 0 to 9999. *)
Definition thousandths (k : Z) : pystr :=
  [48 + k / 1000; 46; 48 + k / 100 mod 10; 48 + k / 10 mod 10; 48 + k mod 10].

(** k / 1000 is v rounded to three decimals: the nearest one, of two nearest ones the even one. *)
Definition rounds_to (v : Q) (k : Z) : Prop :=
  (2 * Qabs (1000 * v - inject_Z k) <= 1)%Q /\ ((2 * Qabs (1000 * v - inject_Z k) == 1)%Q -> Z.even k = true).
