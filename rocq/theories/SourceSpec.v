(** What the text of a module of chord functions means: a lexer for the part of Python's lexical
    structure that occurs in such files, a parser for modules of imports and functions that return
    tuples of notes, and the conditions on a table of chords under which its text can be read. *)
From Coq Require Import ZArith List Bool String.
From Verif Require Import Py PyFloat Signature Tone Note Chord ChordGen.
Import ListNotations.
Open Scope Z_scope.

(** ** Lexer *)

(** [TLine k] starts a logical line indented by [k] spaces.  Line ends inside brackets, empty lines and
    comments give no token. *)
Inductive tok := TName (s : pystr) | TInt (z : Z) | TStr (s : pystr) | TOp (c : Z) | TLine (k : nat).

Definition is_letter (c : Z) : bool := ((65 <=? c) && (c <=? 90)) || ((97 <=? c) && (c <=? 122)) || (c =? 95).
Definition is_digit (c : Z) : bool := (48 <=? c) && (c <=? 57).
(** : , . = - > + *)
Definition is_op (c : Z) : bool := existsb (Z.eqb c) [58; 44; 46; 61; 45; 62; 43].
(** ( [ and ) ] *)
Definition is_open (c : Z) : bool := (c =? 40) || (c =? 91).
Definition is_close (c : Z) : bool := (c =? 41) || (c =? 93).

(** Where the lexer is: at the start of a line after some spaces; between tokens; in a name, a number,
    a comment; after one or two double quotes; in a text between three double quotes, after one or two
    closing quotes of it; in a text between single quotes.  Characters are collected backwards. *)
Inductive mode :=
| MStart (k : nat) | MCode | MName (s : pystr) | MNum (z : Z) | MComment
| MQ1 | MQ2 | MDoc (s : pystr) | MDoc1 (s : pystr) | MDoc2 (s : pystr) | MText (s : pystr).
(** The second component is the number of open brackets. *)
Definition state := (mode * nat)%type.

Definition line_end (depth : nat) : state := (match depth with O => MStart 0 | S _ => MCode end, depth).

(** A character between tokens. *)
Definition code_char (depth : nat) (c : Z) : option (list tok * state) :=
  if is_letter c then Some ([], (MName [c], depth))
  else if is_digit c then Some ([], (MNum (c - 48), depth))
  else if c =? 32 then Some ([], (MCode, depth))
  else if c =? 10 then Some ([], line_end depth)
  else if c =? 35 then Some ([], (MComment, depth))
  else if c =? 34 then Some ([], (MQ1, depth))
  else if c =? 39 then Some ([], (MText [], depth))
  else if is_open c then Some ([TOp c], (MCode, S depth))
  else if is_close c then match depth with O => None | S d => Some ([TOp c], (MCode, d)) end
  else if is_op c then Some ([TOp c], (MCode, depth))
  else None.

Definition emit (t : tok) (x : option (list tok * state)) : option (list tok * state) :=
  match x with Some (l, s) => Some (t :: l, s) | None => None end.

Definition step (s : state) (c : Z) : option (list tok * state) :=
  let (m, d) := s in
  match m with
  | MStart k =>
      if c =? 32 then Some ([], (MStart (S k), d))
      else if c =? 10 then Some ([], (MStart 0, d))
      else if c =? 35 then Some ([], (MComment, d))
      else emit (TLine k) (code_char d c)
  | MCode => code_char d c
  | MName a => if is_letter c || is_digit c then Some ([], (MName (c :: a), d)) else emit (TName (rev a)) (code_char d c)
  | MNum z => if is_digit c then Some ([], (MNum (10 * z + (c - 48)), d)) else if is_letter c then None else emit (TInt z) (code_char d c)
  | MComment => if c =? 10 then Some ([], line_end d) else Some ([], (MComment, d))
  | MQ1 => if c =? 34 then Some ([], (MQ2, d)) else None
  | MQ2 => if c =? 34 then Some ([], (MDoc [], d)) else None
  | MDoc a => if c =? 34 then Some ([], (MDoc1 a, d)) else if c =? 92 then None else Some ([], (MDoc (c :: a), d))
  | MDoc1 a => if c =? 34 then Some ([], (MDoc2 a, d)) else if c =? 92 then None else Some ([], (MDoc (c :: 34 :: a), d))
  | MDoc2 a => if c =? 34 then Some ([TStr (rev a)], (MCode, d)) else if c =? 92 then None else Some ([], (MDoc (c :: 34 :: 34 :: a), d))
  | MText a => if c =? 39 then Some ([TStr (rev a)], (MCode, d)) else if (c =? 92) || (c =? 10) then None else Some ([], (MText (c :: a), d))
  end.

Fixpoint scan (s : state) (text : pystr) : option (list tok * state) :=
  match text with
  | [] => Some ([], s)
  | c :: r =>
      match step s c with
      | Some (l, s') => match scan s' r with Some (l', s'') => Some (l ++ l', s'') | None => None end
      | None => None
      end
  end.

(** A file ends with a line end. *)
Definition tokens (text : pystr) : option (list tok) :=
  match scan (MStart 0, O) text with
  | Some (l, (MStart 0, O)) => Some l
  | _ => None
  end.

(** ** Parser *)

Definition name_eqb (a b : pystr) : bool := if list_eq_dec Z.eq_dec a b then true else false.
Definition tok_eqb (a b : tok) : bool :=
  match a, b with
  | TName s, TName t => name_eqb s t
  | TInt x, TInt y => x =? y
  | TStr s, TStr t => name_eqb s t
  | TOp c, TOp d => c =? d
  | TLine i, TLine j => Nat.eqb i j
  | _, _ => false
  end.

Fixpoint expect (p l : list tok) : option (list tok) :=
  match p, l with
  | [], _ => Some l
  | a :: p', b :: l' => if tok_eqb a b then expect p' l' else None
  | _ :: _, [] => None
  end.

Definition nm (s : string) : tok := TName (lit s).
Definition op (s : string) : tok := TOp (hd 0 (lit s)).

Notation "'do!' x <- p ; q" := (match p with Some x => q | None => None end)
  (at level 200, x pattern, p at level 100, q at level 200).

(** (base: Union[int, str, Tone, Note], duration: Union[Tuple[int, int], Signature, None] = None,
     velocity: Optional[float] = None) *)
Definition parameters : list tok :=
  [op "("; nm "base"; op ":"; nm "Union"; op "["; nm "int"; op ","; nm "str"; op ","; nm "Tone"; op ","; nm "Note"; op "]"; op ",";
   nm "duration"; op ":"; nm "Union"; op "["; nm "Tuple"; op "["; nm "int"; op ","; nm "int"; op "]"; op ","; nm "Signature"; op ","; nm "None"; op "]";
     op "="; nm "None"; op ",";
   nm "velocity"; op ":"; nm "Optional"; op "["; nm "float"; op "]"; op "="; nm "None"; op ")"].

(** base_tone, base_duration, base_velocity = _get_parameters(base, duration, velocity) *)
Definition assignment : list tok :=
  [nm "base_tone"; op ","; nm "base_duration"; op ","; nm "base_velocity"; op "="; nm "_get_parameters"; op "(";
   nm "base"; op ","; nm "duration"; op ","; nm "velocity"; op ")"].

(** Note, Note, ..] with the number of times. *)
Fixpoint p_types (fuel : nat) (l : list tok) : option (nat * list tok) :=
  match fuel with
  | O => None
  | S f =>
      do! l <- expect [nm "Note"] l;
      match l with
      | TOp c :: r =>
          if c =? 93 then Some (1%nat, r)
          else if c =? 44 then do! (n, r) <- p_types f r; Some (S n, r)
          else None
      | _ => None
      end
  end.

(** base_tone or base_tone.transposed(k): the number of semitones. *)
Definition p_tone (l : list tok) : option (Z * list tok) :=
  do! l <- expect [nm "base_tone"] l;
  match expect [op "."; nm "transposed"; op "("] l with
  | None => Some (0, l)
  | Some l =>
      do! (k, l) <-
        match l with
        | TOp 43 :: TInt k :: r => Some (k, r)
        | TOp 45 :: TInt k :: r => Some (- k, r)
        | TInt k :: r => Some (k, r)
        | _ => None
        end;
      do! l <- expect [op ")"] l;
      Some (k, l)
  end.

(** Note(tone, base_duration, base_velocity) *)
Definition p_note (l : list tok) : option (Z * list tok) :=
  do! l <- expect [nm "Note"; op "("] l;
  do! (k, l) <- p_tone l;
  do! l <- expect [op ","; nm "base_duration"; op ","; nm "base_velocity"; op ")"] l;
  Some (k, l).

(** The rest of a tuple after its opening bracket, [n] notes having been read.  One note without a comma
    after it is no tuple. *)
Fixpoint p_tuple (fuel n : nat) (l : list tok) : option (list Z * list tok) :=
  match fuel with
  | O => None
  | S f =>
      do! (k, l) <- p_note l;
      match l with
      | TOp c :: r =>
          if c =? 41 then match n with O => None | S _ => Some ([k], r) end
          else if c =? 44 then
            match r with
            | TOp 41 :: r' => Some ([k], r')
            | _ => do! (ks, r) <- p_tuple f (S n) r; Some (k :: ks, r)
            end
          else None
      | _ => None
      end
  end.

(** Names that cannot be function names, and names that the functions need. *)
Definition keywords : list string :=
  ["False"; "None"; "True"; "and"; "as"; "assert"; "async"; "await"; "break"; "class"; "continue"; "def"; "del"; "elif"; "else"; "except";
   "finally"; "for"; "from"; "global"; "if"; "import"; "in"; "is"; "lambda"; "nonlocal"; "not"; "or"; "pass"; "raise"; "return"; "try";
   "while"; "with"; "yield"]%string.
Definition needed : list string :=
  ["Union"; "Tuple"; "Optional"; "Tone"; "Note"; "Signature"; "_get_parameters"; "int"; "str"; "float"; "isinstance"; "ValueError"]%string.
Definition reserved (s : pystr) : bool := existsb (fun k => name_eqb s (lit k)) (keywords ++ needed).

(** What follows the name of a function: the semitones of the returned notes. *)
Definition p_function (l : list tok) : option (list Z) :=
  do! l <- expect parameters l;
  do! l <- expect [op "-"; op ">"; nm "Tuple"; op "["] l;
  do! (n, l) <- p_types (List.length l) l;
  do! l <- expect [op ":"; TLine 4] l;
  match l with
  | TStr _ :: l =>
      do! l <- expect (TLine 4 :: assignment ++ [TLine 4; nm "return"; op "("]) l;
      do! (ks, l) <- p_tuple (List.length l) 0 l;
      match l with
      | [] => if Nat.eqb (List.length ks) n then Some ks else None
      | _ => None
      end
  | _ => None
  end.

(** A top-level statement: an import, the function _get_parameters, or a chord function. *)
Definition p_statement (l : list tok) : option (list (pystr * list Z)) :=
  match l with
  | TName w :: r =>
      if name_eqb w (lit "from") then Some []
      else if name_eqb w (lit "def") then
        match r with
        | TName f :: r =>
            if name_eqb f (lit "_get_parameters") then Some []
            else if reserved f then None
            else do! ks <- p_function r; Some [(f, ks)]
        | _ => None
        end
      else None
  | _ => None
  end.

(** The top-level statements: what is between two starts of lines without indentation. *)
Fixpoint statements_from (cur : list tok) (l : list tok) : list (list tok) :=
  match l with
  | [] => [rev cur]
  | TLine O :: r => rev cur :: statements_from [] r
  | t :: r => statements_from (t :: cur) r
  end.
Definition statements (l : list tok) : list (list tok) := statements_from [] l.

Fixpoint p_module (l : list (list tok)) : option (list (pystr * list Z)) :=
  match l with
  | [] => Some []
  | s :: r => do! a <- p_statement s; do! b <- p_module r; Some (a ++ b)
  end.

(** The chord functions that a text defines, in order, with the semitones above the base tone of the
    notes they return. *)
Definition functions_in (text : pystr) : option (list (pystr * list Z)) :=
  do! l <- tokens text;
  match statements l with
  | [] :: r => p_module r
  | _ => None
  end.

(** The function with given semitones: the arguments as in _get_parameters, the notes from left to right. *)
Definition chord_of (nd : Z -> option Z) (ks : list Z) (base : base_arg) (duration : option sig_arg) (velocity : option float)
  : res (list note) :=
  let! (t, d, v) := get_parameters nd base duration velocity in
  map_res (fun k => note_new nd (TA_tone (mkTone (pitch t + k))) d v) ks.

(** ** Tables *)

(** A name of a function. *)
Definition good_name (s : pystr) : Prop :=
  (exists c r, s = c :: r /\ is_letter c = true /\ Forall (fun c => is_letter c || is_digit c = true) r) /\ reserved s = false.

(** The name of a row lists [names], separated by commas, with spaces around them. *)
Inductive lists_names : pystr -> list pystr -> Prop :=
| ln_one a s b : Forall (fun c => c = 32) a -> Forall (fun c => c = 32) b -> lists_names (a ++ s ++ b) [s]
| ln_more a s b t names : Forall (fun c => c = 32) a -> Forall (fun c => c = 32) b -> lists_names t names ->
    lists_names (a ++ s ++ b ++ 44 :: t) (s :: names).

(** A row: names, a title that fits between three quotes, and at least two notes. *)
Definition row_says (c : chord_row) (names : list pystr) : Prop :=
  lists_names (c_name c) names /\ Forall good_name names /\
  Forall (fun c => c <> 34 /\ c <> 92) (c_full_name c) /\ (2 <= List.length (c_notation c))%nat.
