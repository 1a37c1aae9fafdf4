(** Regular expressions as in Python's [re], for the constructs that occur in tone.py 4: characters,
    classes of characters, \d, named groups, and the greedy operators *, + and ?.  No proofs here. *)
From Coq Require Import ZArith List Bool.
From Verif Require Import Py.
Import ListNotations.
Open Scope Z_scope.

Inductive regex :=
| RClass (l : list Z)                 (* one character of these *)
| RDigit                              (* \d *)
| RSeq (l : list regex)
| RGroup (name : pystr) (r : regex)
| RStar (r : regex)
| RPlus (r : regex)
| ROpt (r : regex).

(** ** Reading a pattern *)

(** Characters with a meaning of their own; a pattern with another use of them is not read. *)
Definition special (c : Z) : bool :=
  existsb (Z.eqb c) [36; 40; 41; 42; 43; 46; 63; 91; 92; 93; 94; 123; 124; 125].

(** The text up to the character [c], and what follows it. *)
Fixpoint until (c : Z) (s : pystr) : option (pystr * pystr) :=
  match s with
  | [] => None
  | x :: r => if x =? c then Some ([], r)
              else match until c r with Some (a, b) => Some (x :: a, b) | None => None end
  end.

(** A postfix operator, if there is one. *)
Definition postfix (r : regex) (s : pystr) : regex * pystr :=
  match s with
  | 42 :: s' => (RStar r, s')
  | 43 :: s' => (RPlus r, s')
  | 63 :: s' => (ROpt r, s')
  | _ => (r, s)
  end.

(** A sequence of items, up to the end or a closing parenthesis (which is left unread). *)
Fixpoint parse_seq (fuel : nat) (s : pystr) : option (list regex * pystr) :=
  match fuel with
  | O => None
  | S k =>
      let item :=
        match s with
        | 40 :: 63 :: 80 :: 60 :: s1 =>                       (* (?P< name > ... ) *)
            match until 62 s1 with
            | Some (name, s2) =>
                match parse_seq k s2 with
                | Some (l, 41 :: s3) => Some (RGroup name (RSeq l), s3)
                | _ => None
                end
            | None => None
            end
        | 91 :: s1 =>                                         (* [ ... ] *)
            match until 93 s1 with
            | Some (l, s2) =>
                if existsb (fun c => (c =? 45) || (c =? 92) || (c =? 94)) l then None
                else Some (RClass l, s2)
            | None => None
            end
        | 92 :: 100 :: s1 => Some (RDigit, s1)                (* \d *)
        | c :: s1 => if special c then None else Some (RClass [c], s1)
        | [] => None
        end in
      match s with
      | [] | 41 :: _ => Some ([], s)
      | _ =>
          match item with
          | None => None
          | Some (r, s1) =>
              let (r, s2) := postfix r s1 in
              match parse_seq k s2 with
              | Some (l, s3) => Some (r :: l, s3)
              | None => None
              end
          end
      end
  end.

Definition parse_regex (s : pystr) : option regex :=
  match parse_seq (S (List.length s)) s with
  | Some (l, []) => Some (RSeq l)
  | _ => None
  end.

(** ** Matching *)

Section Matching.
(** The decimal digits (see Tone.v). *)
Variable nd : Z -> option Z.

(** What the groups have matched. *)
Definition groups := list (pystr * pystr).

Definition one (f : Z -> bool) (s : pystr) (k : pystr -> option groups) : option groups :=
  match s with
  | c :: r => if f c then k r else None
  | [] => None
  end.

(** A greedy loop over a pattern that takes one character at least: as often as possible first. *)
Fixpoint loop (fuel : nat) (m : pystr -> (pystr -> option groups) -> option groups)
         (s : pystr) (k : pystr -> option groups) : option groups :=
  match fuel with
  | O => k s
  | S f =>
      match m s (fun s' => loop f m s' k) with
      | Some g => Some g
      | None => k s
      end
  end.

(** Backtracking search for the first match at the start of [s] in Python's order of preference;
    [k] is how the search goes on after the pattern.  The group is set when it is left. *)
Fixpoint matches (r : regex) (s : pystr) (k : pystr -> option groups) {struct r} : option groups :=
  match r with
  | RClass l => one (fun c => existsb (Z.eqb c) l) s k
  | RDigit => one (fun c => match nd c with Some _ => true | None => false end) s k
  | RSeq l =>
      (fix go (l : list regex) (s : pystr) {struct l} : option groups :=
         match l with
         | [] => k s
         | r :: l' => matches r s (fun s' => go l' s')
         end) l s
  | RGroup name r =>
      matches r s (fun s' =>
        match k s' with
        | Some g => Some ((name, firstn (List.length s - List.length s') s) :: g)
        | None => None
        end)
  | RStar r => loop (List.length s) (matches r) s k
  | RPlus r => matches r s (fun s' => loop (List.length s') (matches r) s' k)
  | ROpt r => match matches r s k with Some g => Some g | None => k s end
  end.

(** [re.compile(pattern).match(s)]: None if the pattern is not one of these. *)
Definition re_match (pattern s : pystr) : option (option groups) :=
  match parse_regex pattern with
  | None => None
  | Some r => Some (matches r s (fun _ => Some []))
  end.

(** The names of the groups. *)
Fixpoint group_names (r : regex) : list pystr :=
  match r with
  | RClass _ | RDigit => []
  | RSeq l => flat_map group_names l
  | RGroup name r => name :: group_names r
  | RStar r | RPlus r | ROpt r => group_names r
  end.
End Matching.
