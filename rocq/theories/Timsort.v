(** A functional transcription of CPython's [list.sort] (Objects/listobject.c, versions 3.7-3.10:
    count_run, binarysort, gallop_left/right, merge_lo/hi, merge_at, merge_collapse,
    merge_force_collapse).  Arrays become lists, pointers become split lists.
    /repo calls it at src/melodia/core/track.py 140 and src/melodia/io/midi.py 215.
    It is used as the concrete sort of examples and refutations; theorems about tracks hold for every
    sort meeting [sort_contract], and this one is proved to meet it.  No proofs in this file. *)
From Coq Require Import List Bool Arith.
From Verif Require Import PySort.
Import ListNotations.

Section Timsort.
Variable A : Type.
Variable lt : A -> A -> bool.

(** [while (lastofs < ofs)] binary search (end of gallop_left/right; body of binarysort): the
    boundary between indices with [p i = true] and those with [p i = false]. *)
Fixpoint bsearch (fuel : nat) (p : nat -> bool) (l r : nat) : nat :=
  match fuel with
  | O => r
  | S k =>
      if Nat.ltb l r then
        let m := l + Nat.div2 (r - l) in
        if p m then bsearch k p (S m) r else bsearch k p l m
      else r
  end.

(** Exponential search to the right from the hint: while p (hint + ofs), double ofs. *)
Fixpoint gallop_up (fuel : nat) (p : nat -> bool) (hint maxofs lastofs ofs : nat) : nat * nat :=
  match fuel with
  | O => (lastofs, ofs)
  | S k =>
      if Nat.ltb ofs maxofs then
        if p (hint + ofs) then gallop_up k p hint maxofs ofs (2 * ofs + 1) else (lastofs, ofs)
      else (lastofs, ofs)
  end.

(** Exponential search to the left from the hint: while not (p (hint - ofs)), double ofs. *)
Fixpoint gallop_down (fuel : nat) (p : nat -> bool) (hint maxofs lastofs ofs : nat) : nat * nat :=
  match fuel with
  | O => (lastofs, ofs)
  | S k =>
      if Nat.ltb ofs maxofs then
        if p (hint - ofs) then (lastofs, ofs)
        else gallop_down k p hint maxofs ofs (2 * ofs + 1)
      else (lastofs, ofs)
  end.

(** gallop_left and gallop_right share this shape, with [p i] being "a[i] < key" and
    "not (key < a[i])" respectively.  In the second case C's lastofs may be -1; here the lower end
    of the binary search is lastofs + 1, which is a natural number. *)
Definition gallop (p : nat -> bool) (n hint : nat) : nat :=
  if p hint then
    let maxofs := n - hint in
    let '(lastofs, ofs) := gallop_up n p hint maxofs 0 1 in
    let ofs := Nat.min ofs maxofs in
    bsearch (S n) p (S (hint + lastofs)) (hint + ofs)
  else
    let maxofs := hint + 1 in
    let '(lastofs, ofs) := gallop_down n p hint maxofs 0 1 in
    let ofs := Nat.min ofs maxofs in
    bsearch (S n) p (hint + 1 - ofs) (hint - lastofs).

Definition gallop_left (key : A) (a : list A) (hint : nat) : nat :=
  gallop (fun i => lt (nth i a key) key) (length a) hint.
Definition gallop_right (key : A) (a : list A) (hint : nat) : nat :=
  gallop (fun i => negb (lt key (nth i a key))) (length a) hint.

(** binarysort: insert each of [todo] into the sorted prefix [done]. *)
Definition binary_insert (done : list A) (pivot : A) : list A :=
  let l := bsearch (S (length done)) (fun i => negb (lt pivot (nth i done pivot))) 0 (length done) in
  firstn l done ++ pivot :: skipn l done.
Definition binarysort (done todo : list A) : list A := fold_left binary_insert todo done.

(** count_run, split into the run and the rest; a strictly descending run is returned reversed
    (reverse_slice in the main loop). [prev] is the last element taken. *)
Fixpoint run_up (prev : A) (l : list A) : list A * list A :=
  match l with
  | [] => ([], [])
  | x :: r => if lt x prev then ([], l) else let (a, b) := run_up x r in (x :: a, b)
  end.
Fixpoint run_down (prev : A) (l acc : list A) : list A * list A :=
  match l with
  | [] => (acc, [])
  | x :: r => if lt x prev then run_down x r (x :: acc) else (acc, l)
  end.
Definition count_run (l : list A) : list A * list A :=
  match l with
  | x :: y :: r =>
      if lt y x then run_down y r [y; x]
      else let (a, b) := run_up y r in (x :: y :: a, b)
  | _ => (l, [])
  end.

(** The two modes of the merge loops: one pair at a time (with the counts of consecutive wins of a
    and b), or galloping. *)
Inductive mode := OnePair (acount bcount : nat) | Gallop.

Definition MIN_GALLOP : nat := 7.

(** [min_gallop -= min_gallop > 1]. *)
Definition dec_gallop (mg : nat) : nat := if Nat.ltb 1 mg then mg - 1 else mg.

(** The loop of merge_lo.  [out] is the part of dest written so far, last element first.  The result
    is the merged list and the new min_gallop. *)
Fixpoint merge_lo_loop (fuel : nat) (md : mode) (a b out : list A) (mg : nat) : list A * nat :=
  match fuel with
  | O => (rev out ++ a ++ b, mg)
  | S k =>
      match a, b with
      | [], _ | _, [] => (rev out ++ a ++ b, mg)                  (* Succeed *)
      | [x], _ => (rev out ++ b ++ [x], mg)                       (* CopyB *)
      | x :: a', y :: b' =>
          match md with
          | OnePair ac bc =>
              if lt y x then
                if Nat.leb mg (S bc) then merge_lo_loop k Gallop a b' (y :: out) (S mg)
                else merge_lo_loop k (OnePair 0 (S bc)) a b' (y :: out) mg
              else
                if Nat.leb mg (S ac) then merge_lo_loop k Gallop a' b (x :: out) (S mg)
                else merge_lo_loop k (OnePair (S ac) 0) a' b (x :: out) mg
          | Gallop =>
              let mg := dec_gallop mg in
              let ka := gallop_right y a 0 in
              let out := rev (firstn ka a) ++ out in
              let a := skipn ka a in
              match a with
              | [] => (rev out ++ b, mg)                          (* na == 0: Succeed *)
              | [x] => (rev out ++ b ++ [x], mg)                  (* na == 1: CopyB *)
              | x :: a' =>
                  let out := y :: out in
                  match b' with
                  | [] => (rev out ++ a, mg)                      (* nb == 0: Succeed *)
                  | _ :: _ =>
                      let kb := gallop_left x b' 0 in
                      let out := rev (firstn kb b') ++ out in
                      match skipn kb b' with
                      | [] => (rev out ++ a, mg)                  (* nb == 0: Succeed *)
                      | b'' =>
                          if Nat.leb MIN_GALLOP ka || Nat.leb MIN_GALLOP kb
                          then merge_lo_loop k Gallop a' b'' (x :: out) mg
                          else merge_lo_loop k (OnePair 0 0) a' b'' (x :: out) (S mg)
                      end
                  end
              end
          end
      end
  end.

(** merge_lo: the first element of b is known to go first. *)
Definition merge_lo (a b : list A) (mg : nat) : list A * nat :=
  match b with
  | [] => (a, mg)
  | y :: b' => merge_lo_loop (S (length a + length b)) (OnePair 0 0) a b' [y] mg
  end.

(** The loop of merge_hi, working from the right: [ra] and [rb] are a and b reversed, [out] is the
    part of dest written so far, in order. *)
Fixpoint merge_hi_loop (fuel : nat) (md : mode) (ra rb out : list A) (mg : nat) : list A * nat :=
  match fuel with
  | O => (rev ra ++ rev rb ++ out, mg)
  | S k =>
      match ra, rb with
      | [], _ | _, [] => (rev ra ++ rev rb ++ out, mg)            (* Succeed *)
      | _, [y] => (y :: rev ra ++ out, mg)                        (* CopyA *)
      | x :: ra', y :: rb' =>
          match md with
          | OnePair ac bc =>
              if lt y x then
                if Nat.leb mg (S ac) then merge_hi_loop k Gallop ra' rb (x :: out) (S mg)
                else merge_hi_loop k (OnePair (S ac) 0) ra' rb (x :: out) mg
              else
                if Nat.leb mg (S bc) then merge_hi_loop k Gallop ra rb' (y :: out) (S mg)
                else merge_hi_loop k (OnePair 0 (S bc)) ra rb' (y :: out) mg
          | Gallop =>
              let mg := dec_gallop mg in
              let na := length ra in
              let ka := na - gallop_right y (rev ra) (na - 1) in
              let out := rev (firstn ka ra) ++ out in
              match skipn ka ra with
              | [] => (rev rb ++ out, mg)                         (* na == 0: Succeed *)
              | (x :: ra'') as ra =>
                  let out := y :: out in
                  match rb' with
                  | [] => (rev ra ++ out, mg)
                  | [y'] => (y' :: rev ra ++ out, mg)             (* nb == 1: CopyA *)
                  | _ =>
                      let nb := length rb' in
                      let kb := nb - gallop_left x (rev rb') (nb - 1) in
                      let out := rev (firstn kb rb') ++ out in
                      match skipn kb rb' with
                      | [] => (rev ra ++ out, mg)                 (* nb == 0: Succeed *)
                      | [y'] => (y' :: rev ra ++ out, mg)         (* nb == 1: CopyA *)
                      | rb'' =>
                          if Nat.leb MIN_GALLOP ka || Nat.leb MIN_GALLOP kb
                          then merge_hi_loop k Gallop ra'' rb'' (x :: out) mg
                          else merge_hi_loop k (OnePair 0 0) ra'' rb'' (x :: out) (S mg)
                      end
                  end
              end
          end
      end
  end.

(** merge_hi: the last element of a is known to go last. *)
Definition merge_hi (a b : list A) (mg : nat) : list A * nat :=
  match rev a with
  | [] => (b, mg)
  | x :: ra' => merge_hi_loop (S (length a + length b)) (OnePair 0 0) ra' (rev b) [x] mg
  end.

(** merge_at on two neighbouring runs. *)
Definition merge_at (a b : list A) (mg : nat) : list A * nat :=
  match b with
  | [] => (a, mg)
  | y :: _ =>
      let k := gallop_right y a 0 in
      let pre := firstn k a in
      match skipn k a with
      | [] => (pre ++ b, mg)
      | (_ :: _) as a1 =>
          let nb := gallop_left (last a1 y) b (length b - 1) in
          let post := skipn nb b in
          match firstn nb b with
          | [] => (pre ++ a1 ++ post, mg)
          | (_ :: _) as b1 =>
              let '(m, mg) := if Nat.leb (length a1) (length b1) then merge_lo a1 b1 mg
                              else merge_hi a1 b1 mg in
              (pre ++ m ++ post, mg)
          end
      end
  end.

(** merge_collapse; the stack of pending runs has its top first. *)
Fixpoint merge_collapse (fuel : nat) (st : list (list A)) (mg : nat) : list (list A) * nat :=
  match fuel with
  | O => (st, mg)
  | S k =>
      match st with
      | z :: y :: rest =>
          let lz := length z in
          let ly := length y in
          let cond := match rest with
                      | [] => false
                      | x :: rest' =>
                          Nat.leb (length x) (ly + lz) ||
                          match rest' with
                          | [] => false
                          | w :: _ => Nat.leb (length w) (length x + ly)
                          end
                      end in
          if cond then
            match rest with
            | x :: rest' =>
                if Nat.ltb (length x) lz then
                  let (m, mg) := merge_at x y mg in merge_collapse k (z :: m :: rest') mg
                else
                  let (m, mg) := merge_at y z mg in merge_collapse k (m :: rest) mg
            | [] => (st, mg)
            end
          else if Nat.leb ly lz then
            let (m, mg) := merge_at y z mg in merge_collapse k (m :: rest) mg
          else (st, mg)
      | _ => (st, mg)
      end
  end.

(** merge_force_collapse. *)
Fixpoint merge_force (fuel : nat) (st : list (list A)) (mg : nat) : list (list A) :=
  match fuel with
  | O => st
  | S k =>
      match st with
      | z :: y :: rest =>
          match rest with
          | x :: rest' =>
              if Nat.ltb (length x) (length z) then
                let (m, mg) := merge_at x y mg in merge_force k (z :: m :: rest') mg
              else
                let (m, mg) := merge_at y z mg in merge_force k (m :: rest) mg
          | [] => let (m, mg) := merge_at y z mg in merge_force k [m] mg
          end
      | _ => st
      end
  end.

(** merge_compute_minrun. *)
Fixpoint minrun_loop (fuel : nat) (n r : nat) : nat :=
  match fuel with
  | O => n + r
  | S k => if Nat.leb 64 n then minrun_loop k (Nat.div2 n) (if Nat.odd n then 1 else r) else n + r
  end.

(** The main loop of list_sort_impl: find a run, extend it to minrun, push it, collapse. *)
Fixpoint sort_loop (fuel : nat) (minrun : nat) (l : list A) (st : list (list A)) (mg : nat)
  : list (list A) * nat :=
  match fuel with
  | O => (st, mg)
  | S k =>
      match l with
      | [] => (st, mg)
      | _ =>
          let (run, rest) := count_run l in
          let extra := Nat.min (length l) minrun - length run in
          let run := binarysort run (firstn extra rest) in
          let rest := skipn extra rest in
          let (st, mg) := merge_collapse (S (length st)) (run :: st) mg in
          sort_loop k minrun rest st mg
      end
  end.

(** list_sort_impl. *)
Definition timsort (l : list A) : list A :=
  if Nat.ltb (length l) 2 then l
  else
    let '(st, mg) := sort_loop (length l) (minrun_loop (length l) (length l) 0) l [] MIN_GALLOP in
    match merge_force (length st) st mg with
    | [r] => r
    | st => concat (rev st)
    end.
End Timsort.

(** [list.sort] as a [sort_fn].  The elements carry their original index along; the algorithm only
    sees them through the comparison, so the indices have no influence. *)
Definition cpython_sort : sort_fn := fun A lt l =>
  map snd (timsort (nat * A) (fun x y => lt (snd x) (snd y)) (enumerate l)).
