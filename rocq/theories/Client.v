(** Programs that use the library: a small language with assignments, the operations on tracks, conditionals and loops,
    its meaning by the models, and its translation to statements of Python. *)
From Coq Require Import ZArith List Bool String Lia.
From Verif Require Import Py PyFloat PySort Signature Tone Note Track Show MidiWriter MidiReader Processing PyAst PySem PySource PyProgram
  RefineSpec RefineDumpProps RefineTerm.
Import ListNotations.
Open Scope string_scope.
Open Scope list_scope.
Open Scope Z_scope.

(** ** Programs *)
Inductive reading : Type := R_signature | R_length | R_len | R_str | R_repr.
Inductive cmd : Type :=
| Skip
| Seq (c d : cmd)
| Let (x : string) (t : term)                            (* x = t *)
| Alias (x y : string)                                   (* x = y *)
| New (x : string) (t : option term)                     (* x = Track() or x = Track(t) *)
| Add (x : string) (t : term) (w : option term)          (* x.add(t) or x.add(t, where=w) *)
| Get (y : string) (g : reading) (x : string)            (* y = x.signature, y = x.length, y = len(x), y = str(x), y = repr(x) *)
| Same (y : string) (o : bool) (x1 x2 : string)          (* y = x1 == x2, or != *)
| Dumps (y x : string) (o : option (term * term))        (* y = midi.dumps(x) or y = midi.dumps(x, bpm, channel) *)
| Loads (x : string) (t : term) (k : option term)        (* x = midi.loads(t) or x = midi.loads(t, channel) *)
| Randomize (y x : string) (o : option (term * term * term * term))
                                                         (* y = randomize_velocities(x) or with minimum, maximum, mean and variance *)
| If (t : term) (c d : cmd)
| While (t : term) (c : cmd)
| Each (p q x : string) (c : cmd).                       (* for p, q in x: c *)

Definition set_to (x : string) (e : expr) : list stmt := [SAssign (TName x) e].
Definition read_code (g : reading) (e : expr) : expr :=
  match g with
  | R_signature => attr e "signature" | R_length => attr e "length"
  | R_len => call (name "len") [e] | R_str => call (name "str") [e] | R_repr => call (name "repr") [e]
  end.
Fixpoint compile (c : cmd) : list stmt :=
  match c with
  | Skip => []
  | Seq c d => compile c ++ compile d
  | Let x t => set_to x (code t)
  | Alias x y => set_to x (name y)
  | New x None => set_to x (call (name "Track") [])
  | New x (Some t) => set_to x (call (name "Track") [code t])
  | Add x t None => [SExpr (meth (name x) "add" [code t])]
  | Add x t (Some w) => [SExpr (meth_key (name x) "add" (code t) "where" (code w))]
  | Get y g x => set_to y (read_code g (name x))
  | Same y o x1 x2 => set_to y (compare (if o then CEq else CNe) (name x1) (name x2))
  | Dumps y x None => set_to y (call (name "midi.dumps") [name x])
  | Dumps y x (Some (b, k)) => set_to y (call (name "midi.dumps") [name x; code b; code k])
  | Loads x t None => set_to x (call (name "midi.loads") [code t])
  | Loads x t (Some k) => set_to x (call (name "midi.loads") [code t; code k])
  | Randomize y x None => set_to y (call (name "processing.randomize_velocities") [name x])
  | Randomize y x (Some (a, b, m, v)) => set_to y (call (name "processing.randomize_velocities") [name x; code a; code b; code m; code v])
  | If t c d => [SIf (code t) (compile c) (compile d)]
  | While t c => [SWhile (code t) (compile c)]
  | Each p q x c => [SFor (TTuple [TName p; TName q]) (name x) (compile c)]
  end.

(** ** Meaning *)
(** A variable holds a value or a track; two variables can hold the same track.  [s_draws]: how many random numbers were drawn. *)
Inductive item : Type := Val (o : obj) | Trk (i : nat).
Record store : Type := mkStore { s_vars : list (string * item); s_tracks : list track; s_draws : nat }.
(** The program goes on ([T]: the tracks something was added to), or an exception ends it with these tracks. *)
Inductive result : Type := Next (st : store) (T : list nat) | Stop (e : err) (ts : list track).

Fixpoint values (vars : list (string * item)) : list (string * obj) :=
  match vars with
  | [] => []
  | (x, Val o) :: r => (x, o) :: values r
  | (_, Trk _) :: r => values r
  end.
Definition free (x : string) : bool := match global melodia x with None => true | Some _ => false end.
Definition assign (x : string) (v : item) (st : store) : store := mkStore (set_var x v (s_vars st)) (s_tracks st) (s_draws st).
Definition set_track (i : nat) (t : track) (st : store) : store := mkStore (s_vars st) (set_nth (s_tracks st) i t) (s_draws st).
Definition track_of (st : store) (x : string) : option (nat * track) :=
  match assoc x (s_vars st) with
  | Some (Trk i) => match nth_error (s_tracks st) i with Some t => Some (i, t) | None => None end
  | _ => None
  end.
Definition what_of (o : obj) : option what :=
  match o with ONote n => Some (WNote n) | ONotes l => Some (WIter (map WNote l)) | _ => None end.
Definition all_bytes (b : list Z) : bool := forallb (fun x => (0 <=? x) && (x <? 256)) b.

Section Meaning.
Variable Y : python.
Notation sort := (py_sort Y).
Definition given (st : store) (t : term) (k : obj -> option result) : option result :=
  match mean Y (values (s_vars st)) t with
  | Some (Ok o) => k o
  | Some (Err e) => Some (Stop e (s_tracks st))
  | None => None
  end.
(** x = a new track *)
Definition bring (x : string) (r : res track) (st : store) : option result :=
  match r with
  | Ok t => Some (Next (assign x (Trk (List.length (s_tracks st))) (mkStore (s_vars st) (s_tracks st ++ [t]) (s_draws st))) [])
  | Err e => Some (Stop e (s_tracks st))
  end.
Definition added (i : nat) (r : track * res unit) (st : store) : option result :=
  match snd r with
  | Ok _ => Some (Next (set_track i (fst r) st) [i])
  | Err e => Some (Stop e (set_nth (s_tracks st) i (fst r)))
  end.
Definition read (y : string) (g : reading) (i : nat) (t : track) (st : store) : store :=
  match g with
  | R_signature => assign y (Val (OSig (t_signature t))) st
  | R_length => assign y (Val (OSig (track_length t))) st
  | R_len => assign y (Val (OInt (track_len t))) st
  | R_str => assign y (Val (OText (track_str t))) st
  | R_repr => assign y (Val (OText (snd (track_repr (py_digits Y) sort t)))) (set_track i (fst (track_repr (py_digits Y) sort t)) st)
  end.
Definition same (y : string) (o : bool) (i j : nat) (t u : track) (st : store) : store :=
  let '(r, t', u') := track_eq sort t u in
  let st := if Nat.eqb i j then set_track i t' st else set_track j u' (set_track i t' st) in
  assign y (Val (OBool (if o then r else negb r))) st.
Definition written (y : string) (i : nat) (t : track) (bpm : float) (k : Z) (st : store) : option result :=
  let st := set_track i (d_track (module_dump Y t bpm k)) st in
  match midi_dumps sort t bpm k with
  | Ok b => Some (Next (assign y (Val (OBytes b)) st) [])
  | Err e => Some (Stop e (s_tracks st))
  end.
Definition draws (n : nat) (me va : float) (i : nat) : float := py_gauss Y (n + i) me (py_sqrt Y va).
Definition randomized (y : string) (i : nat) (t : track) (mn mx me va : float) (st : store) : option result :=
  if is_float mn && is_float mx && is_float me && is_float va then
    let o := randomize_velocities sort t mn mx me va (draws (s_draws st) me va) in
    let ts := set_nth (s_tracks st) i (fst o) in
    match snd o with
    | Ok t' => Some (Next (assign y (Trk (List.length ts)) (mkStore (s_vars st) (ts ++ [t']) (s_draws st + List.length (t_heap t)))) [])
    | Err e => Some (Stop e ts)
    end
  else None.
(** First this, then that. *)
Definition follow (r : option result) (k : store -> option result) : option result :=
  match r with
  | Some (Next st T) => match k st with Some (Next st' T') => Some (Next st' (T ++ T')) | other => other end
  | other => other
  end.
(** The loop over the entries [l] of the track [i]; [None] if the body adds something to that track. *)
Fixpoint each (run : store -> option result) (p q : string) (i : nat) (l : list entry) (st : store) : option result :=
  match l with
  | [] => Some (Next st [])
  | e :: l =>
      match run (assign q (Val (ONote (snd e))) (assign p (Val (OSig (fst e))) st)) with
      | Some (Next st' T) => if existsb (Nat.eqb i) T then None else follow (Some (Next st' T)) (each run p q i l)
      | other => other
      end
  end.

(** [n] bounds the depth of the program and the number of turns of while loops; [None] if it is not enough, or if the program does something
    that this language has no meaning for (such as operands of wrong types). *)
Fixpoint exec (n : nat) (c : cmd) (st : store) {struct n} : option result :=
  match n with
  | O => None
  | S n =>
      match c with
      | Skip => Some (Next st [])
      | Seq c d => follow (exec n c st) (exec n d)
      | Let x t => if free x then given st t (fun o => Some (Next (assign x (Val o) st) [])) else None
      | Alias x y => if free x then match assoc y (s_vars st) with Some v => Some (Next (assign x v st) []) | None => None end else None
      | New x None => if free x then bring x (track_new (SA_sig (mkSig 4 4)) []) st else None
      | New x (Some t) =>
          if free x then given st t (fun o => match sig_arg_of o with Some a => bring x (track_new a []) st | None => None end) else None
      | Add x t w =>
          match track_of st x with
          | Some (i, u) =>
              given st t (fun o =>
                match what_of o, w with
                | Some v, None => added i (track_add u v None) st
                | Some v, Some w =>
                    given st w (fun p => match sig_arg_of p with Some a => added i (track_add u v (Some a)) st | None => None end)
                | None, _ => None
                end)
          | None => None
          end
      | Get y g x => if free y then match track_of st x with Some (i, t) => Some (Next (read y g i t st) []) | None => None end else None
      | Same y o x1 x2 =>
          if free y then
            match track_of st x1, track_of st x2 with
            | Some (i, t), Some (j, u) => Some (Next (same y o i j t u st) [])
            | _, _ => None
            end
          else None
      | Dumps y x o =>
          if free y then
            match track_of st x, o with
            | Some (i, t), None => written y i t f_120 0 st
            | Some (i, t), Some (b, k) =>
                given st b (fun b => given st k (fun k => match b, k with OFloat b, OInt k => written y i t b k st | _, _ => None end))
            | None, _ => None
            end
          else None
      | Loads x t k =>
          if free x then
            given st t (fun o =>
              match o, k with
              | OBytes b, None => if all_bytes b then bring x (midi_loads sort b None) st else None
              | OBytes b, Some k =>
                  given st k (fun k => match k with OInt k => if all_bytes b then bring x (midi_loads sort b (Some k)) st else None | _ => None end)
              | _, _ => None
              end)
          else None
      | Randomize y x o =>
          if free y then
            match track_of st x, o with
            | Some (i, t), None => randomized y i t f_half f_one f_three_quarters (fdiv f_one (float_of_Z 100)) st
            | Some (i, t), Some (a, b, m, v) =>
                given st a (fun a => given st b (fun b => given st m (fun m => given st v (fun v =>
                  match a, b, m, v with OFloat a, OFloat b, OFloat m, OFloat v => randomized y i t a b m v st | _, _, _, _ => None end))))
            | None, _ => None
            end
          else None
      | If t c d => given st t (fun o => match o with OBool b => exec n (if b then c else d) st | _ => None end)
      | While t c =>
          given st t (fun o =>
            match o with
            | OBool true => follow (exec n c st) (exec n (While t c))
            | OBool false => Some (Next st [])
            | _ => None
            end)
      | Each p q x c =>
          if free p && free q then
            match track_of st x with
            | Some (i, t) => each (exec n c) p q i (snd (track_iter sort t)) (set_track i (fst (track_iter sort t)) st)
            | None => None
            end
          else None
      end
  end.
End Meaning.
