(** Tools for running the machine of PySem.v on symbolic values. *)
From Coq Require Import ZArith List Bool String Lia.
From Verif Require Import Py PyFloat PySort Signature Tone Note Track Show FrequencyFloat MidiReader PyRegex PyAst PySem PySource PyProgram.
Import ListNotations.
Open Scope Z_scope.

Section Steps.
Variable Y : python.
Notation step := (step melodia Y).
Notation steps := (steps melodia Y).
Notation runs := (runs melodia Y).

Lemma steps_trans s t u : steps s t -> steps t u -> steps s u.
Proof. induction 1; auto. intros; econstructor; eauto. Qed.

Lemma steps_runs s t : steps s t -> runs s t.
Proof. induction 1; econstructor; eauto. constructor; auto. Qed.

Lemma runs_trans s t u : runs s t -> runs t u -> runs s u.
Proof. induction 1; auto. intros; econstructor; eauto. Qed.

Lemma steps_runs_trans s t u : steps s t -> runs t u -> runs s u.
Proof. intros A B; eapply runs_trans; [apply steps_runs; exact A|exact B]. Qed.

Lemma runs_step s s' t : step s = Some s' -> runs s' t -> runs s t.
Proof. intros; econstructor; eauto. constructor; auto. Qed.

(** Two ways to write the same call. *)
Lemma same_call f a k g b l h K r h' K' :
  step (Ca f a k h K) = step (Ca g b l h K) ->
  steps (Ca g b l h K) (ends r h' K') -> steps (Ca f a k h K) (ends r h' K').
Proof.
  intros E S. inversion S as [|x y z A B]; subst; [destruct r; discriminate|].
  econstructor; [rewrite E; exact A|exact B].
Qed.
End Steps.

(** The machine comes to a state with the property [Q]. *)
Section Reaches.
Variable P : program.
Variable Y : python.
Definition reaches (s : state) (Q : state -> Prop) : Prop := exists t, runs P Y s t /\ Q t.

Lemma reaches_here s (Q : state -> Prop) : Q s -> reaches s Q.
Proof. exists s. split; [constructor|assumption]. Qed.
Lemma reaches_more s s' Q : step P Y s = Some s' -> reaches s' Q -> reaches s Q.
Proof. intros E (t & R & H). exists t. split; [|exact H]. econstructor; [constructor; exact E|exact R]. Qed.
Lemma reaches_steps s s' Q : steps P Y s s' -> reaches s' Q -> reaches s Q.
Proof. induction 1; [auto|]. intros. eapply reaches_more; eauto. Qed.
Lemma reaches_red s s' Q : red P Y s s' -> reaches s' Q -> reaches s Q.
Proof. intros E (t & R & H). exists t. split; [|exact H]. econstructor; [exact E|exact R]. Qed.
Lemma reaches_trans s (Q Q' : state -> Prop) : reaches s Q -> (forall t, Q t -> reaches t Q') -> reaches s Q'.
Proof.
  intros (t & R & H) F. destruct (F t H) as (u & R' & H'). exists u. split; [|exact H'].
  clear H H' F. induction R; auto. econstructor; eauto.
Qed.
End Reaches.

(** How a value or an exception of the model appears in the machine. *)
Definition outcome_of {A} (enc : A -> value) (r : res A) : res value :=
  match r with Ok a => Ok (enc a) | Err e => Err e end.

(** ** Heaps *)

Lemma get_new h o : get (new h o) (next_place h) = Some o.
Proof. unfold get, new, next_place. cbn. rewrite nth_error_app2, Nat.sub_diag; [reflexivity|apply Nat.le_refl]. Qed.
Lemma get_bound h a o : get h a = Some o -> (a < next_place h)%nat.
Proof. unfold get, next_place. intros E. apply nth_error_Some. congruence. Qed.
Lemma get_new_old h o a v : get h a = Some v -> get (new h o) a = Some v.
Proof. intros E. pose proof (get_bound _ _ _ E). unfold get, new in *. cbn. rewrite nth_error_app1; [exact E|assumption]. Qed.
Lemma set_nth_same {A} (l : list A) a v w : nth_error l a = Some w -> nth_error (set_nth l a v) a = Some v.
Proof. revert a. induction l as [|x l IH]; intros [|a] E; cbn in *; try discriminate; [reflexivity|]. exact (IH a E). Qed.
Lemma set_nth_other {A} (l : list A) a b v : b <> a -> nth_error (set_nth l a v) b = nth_error l b.
Proof. revert a b. induction l as [|x l IH]; intros [|a] [|b] E; cbn; try reflexivity; [congruence|]. apply IH. congruence. Qed.
Lemma get_put h a o v : get h a = Some v -> get (put h a o) a = Some o.
Proof. apply set_nth_same. Qed.
Lemma get_put_other h a b o v : b <> a -> get h b = Some v -> get (put h a o) b = Some v.
Proof. intros N E. unfold get, put. cbn. rewrite set_nth_other; assumption. Qed.
Lemma old_new h a o : get h a = Some o -> a <> next_place h.
Proof. intros E ->. apply get_bound in E. exact (Nat.lt_irrefl _ E). Qed.
Lemma new_old h a o : get h a = Some o -> next_place h <> a.
Proof. intros E E'. exact (old_new _ _ _ E (eq_sym E')). Qed.

(** Everything but the objects at the places [l] is as before. *)
Definition keeps (l : list nat) (h h' : heap) : Prop :=
  (forall b o, ~ In b l -> get h b = Some o -> get h' b = Some o) /\ h_calls h' = h_calls h.
Lemma keeps_get l h h' b o : keeps l h h' -> ~ In b l -> get h b = Some o -> get h' b = Some o.
Proof. intros [K _]. apply K. Qed.
Lemma keeps_calls l h h' : keeps l h h' -> h_calls h' = h_calls h.
Proof. intros [_ K]. exact K. Qed.

(** [get H a = Some ?o], from what is known of the heap before. *)
Ltac not_listed tac := let E := fresh in intros E; cbn [In] in E; repeat (destruct E as [E|E]; [revert E; tac|]); exact E.
Ltac heap_get :=
  lazymatch goal with
  | |- get ?H ?a = Some _ =>
      first [ eassumption
            | lazymatch H with
              | new ?h ?o => first [ refine (get_new h o) | refine (get_new_old h o a _ _); heap_get ]
              | put ?h a ?o => refine (get_put h a o _ _); heap_get
              | put ?h ?b ?o => refine (get_put_other h b a o _ _ _); [different|heap_get]
              | _ =>
                  match goal with
                  | K : keeps ?l ?h H |- _ => refine (keeps_get l h H a _ K _ _); [not_listed ltac:(different)|heap_get]
                  end
              end ]
  end
with different :=
  first [ assumption
        | let E := fresh in intros E; solve [congruence]
        | let E := fresh in intros E; subst; match goal with N : ~ In _ _ |- _ => apply N; cbn; tauto end
        | eapply old_new; heap_get
        | eapply new_old; heap_get ].

(** Computes with the machine, leaving arithmetic and what belongs to the model alone. *)
Declare Reduction calc :=
  lazy -[Z.add Z.sub Z.mul Z.div Z.modulo Z.land Z.lor Z.shiftl Z.shiftr Z.eqb Z.ltb Z.leb Z.gtb Z.geb
         Z.opp Z.abs Z.of_nat Z.to_nat Z.pow Z.max Z.min negb andb orb
         nominator denominator pitch n_tone n_duration n_velocity sig_eq sig_le sig_lt sig_ge sig_gt
         note_eq note_le note_lt note_ge note_gt
         feq flt fle fmul fdiv fmax fmin float_of_Z int_of_float int_truediv to_float
         f_zero f_one f_127 small imax imin
         lit text_eq str_of_Z repr_float fixed3 bit_length to_bytes_be to_bytes_le from_bytes_be
         re_match parse_regex pattern all_groups int_of_str int_of_digits is_digit sum_ints lookup insert remove
         py_nd py_digits py_pow2 py_sqrt py_gauss py_randint py_sort
         get put new next_place h_objs h_calls app map List.length firstn skipn rev
         nth_error set_nth concat repeat seq slice index_list index_of event_lengths].

(** An equation that the computation may use. *)
Definition fact (P : Prop) : Prop := P.

Ltac a_state u :=
  lazymatch u with
  | Ev _ _ _ _ => idtac | Rt _ _ _ => idtac | Ex _ _ _ _ => idtac | As _ _ _ _ _ => idtac
  | Ca _ _ _ _ _ => idtac | Cm _ _ _ _ _ => idtac | It _ _ _ => idtac | Lp _ _ _ _ _ _ => idtac
  | Un _ _ _ => idtac | Br _ _ _ => idtac | Co _ _ _ => idtac | Sort _ _ _ _ => idtac
  | Push _ _ _ _ => idtac | Thr _ _ => idtac
  end.

(** The next state is [s']. *)
Ltac to s' :=
  lazymatch goal with
  | |- steps ?P ?Y ?s ?t => refine (steps_more P Y s s' t (@eq_refl (option state) (Some s')) _)
  | |- reaches ?P ?Y ?s ?t => refine (reaches_more P Y s s' t (@eq_refl (option state) (Some s')) _)
  end.

Definition app2 {A B C} (f : A -> B -> C) (a : A) (b : B) : C := f a b.

(** The goal is about the state [F r K], for a function F that computes with what is at hand: facts that
    the computation needs are used, and it is split where it depends on a bool that is not known. *)
Ltac split_bool b :=
  lazymatch b with
  | negb ?c => split_bool c
  | ?c && ?d => split_bool c
  | ?c || ?d => split_bool c
  | _ => let E := fresh "E" in destruct b eqn:E
  end.
Ltac split_res m :=
  lazymatch m with
  | context [match ?m' with Ok _ => _ | Err _ => _ end] => split_res m'
  | _ => let x := fresh "x" in let E := fresh "E" in destruct m as [x|x] eqn:E
  end.
Ltac closed b := assert_fails (idtac; match b with context [?x] => is_var x end).
Ltac known F :=
  match goal with
  | H : get ?h ?a = _ |- _ => lazymatch F with context [get h a] => rewrite H end
  | H : fact (?x = ?y) |- _ => lazymatch F with context [x] => replace x with y by (symmetry; exact H) end
  | H : ?x = Ok _ |- _ => lazymatch F with context [match x with Ok _ => _ | Err _ => _ end] => rewrite H end
  | H : ?x = Err _ |- _ => lazymatch F with context [match x with Ok _ => _ | Err _ => _ end] => rewrite H end
  | H : ?x = Some _ |- _ => lazymatch F with context [match x with Some _ => _ | None => _ end] => rewrite H end
  | H : ?x = None |- _ => lazymatch F with context [match x with Some _ => _ | None => _ end] => rewrite H end
  | H : ?b = true |- _ => lazymatch F with context [if b then _ else _] => rewrite H end
  | H : ?b = false |- _ => lazymatch F with context [if b then _ else _] => rewrite H end
  | _ => match F with
         | context [get ?h ?a] =>
             let E := fresh in
             eassert (E : get h a = Some _) by heap_get;
             rewrite E; clear E
         end
  | _ => lazymatch F with context [negb true] => change (negb true) with false end
  | _ => lazymatch F with context [negb false] => change (negb false) with true end
  | _ => match F with
         | context [if ?b then _ else _] =>
             closed b; let r := eval vm_compute in b in
             lazymatch r with true => idtac | false => idtac end; change b with r
         | context [lookup ?x ?l] =>
             closed x; closed l; let r := eval vm_compute in (lookup x l) in
             lazymatch r with Some _ => idtac end; change (lookup x l) with r
         end
  end.
Ltac recalc :=
  lazymatch goal with
  | |- ?R ?P ?Y (app2 ?F ?r ?K) ?t => let F' := eval calc in F in change (R P Y (app2 F' r K) t)
  end.
Ltac settle :=
  lazymatch goal with
  | |- ?R ?P ?Y (app2 ?F ?r ?K) ?t =>
      let s := eval cbv beta in (F r K) in
      tryif a_state s
      then change (R P Y s t)
      else first [ known F; recalc; settle
                 | match F with context [if ?b then _ else _] => split_bool b end; recalc; settle
                 | match F with
                   | context [match ?m with Ok _ => _ | Err _ => _ end] =>
                       split_res m
                   end; recalc; settle ]
  end.
Ltac calculate F r K :=
  let F' := eval calc in F in
  to (app2 F' r K); settle.

(** [if b then s else s'] as a state. *)
Ltac test P v h s s' :=
  let b := eval calc in (truthy v h) in
  lazymatch b with
  | Some true => to s
  | Some false => to s'
  | _ => calculate (fun (x y : state) => match truthy v h with Some true => x | Some false => y | None => Stuck end) s s'
  end.

(** One step of the machine. *)
Ltac adv_value P Y v h k K :=
  lazymatch k with
  | KArgs ?o ?d (?a :: ?todo) ?r => to (Ev a r h (KArgs o (v :: d) todo r :: K))
  | KArgs ?o ?d nil ?r =>
      calculate (fun (x0 : unit) (k0 : list frame) => op_step P Y o (rev_append (v :: d) nil) h k0) tt K
  | KAnd ?b ?r => test P v h (Ev b r h K) (Rt v h K)
  | KOr ?b ?r => test P v h (Rt v h K) (Ev b r h K)
  | KIfE ?a ?b ?r => test P v h (Ev a r h K) (Ev b r h K)
  | KCmp1 nil ?r => to (Rt v h K)
  | KCmp1 ((?o, ?b) :: ?rest) ?r => to (Ev b r h (KCmp v o rest r :: K))
  | KCmpNext ?w nil ?r => to (Rt v h K)
  | KCmpNext ?w ((?o, ?b) :: ?rest) ?r => test P v h (Ev b r h (KCmp w o rest r :: K)) (Rt v h K)
  | KCmp ?u ?o nil ?r => to (Cm o u v h K)
  | KCmp ?u ?o ?rest ?r => to (Cm o u v h (KCmpNext v rest r :: K))
  | KComp0 ?c ?elt ?t ?r => to (It v h (KComp1 c elt t r :: K))
  | KExpr ?rest ?r => to (Ex rest r h K)
  | KAssign ?t ?rest ?r => to (As [(t, v)] rest r h K)
  | KTargets ?todo ?rest ?r => to (As todo rest r h K)
  | KIf ?a ?b ?rest ?r => test P v h (Ex a r h (KSeq rest :: K)) (Ex b r h (KSeq rest :: K))
  | KWhile ?c ?b ?r => test P v h (Ex b r h (KLoopW c b :: K)) (Ex nil r h K)
  | KFor0 ?t ?b ?rest ?r => to (It v h (KFor1 t b rest r :: K))
  | KFor1 ?t ?b ?rest ?r => lazymatch v with VIter ?i => to (Lp t b i r h (KSeq rest :: K)) end
  | KReturn => to (Un v h K)
  | KYield _ _ => fail
  | KComp1 ?c ?elt ?t ?r =>
      calculate (fun (x0 : expr) (k0 : list frame) => value_step P Y v h (KComp1 c x0 t r) k0) elt K
  | KComp ?c ?elt ?t ?r ?i ?acc =>
      calculate (fun (x0 : expr) (k0 : list frame) => value_step P Y v h (KComp c x0 t r i acc) k0) elt K
  | _ => calculate (fun (x0 : unit) (k0 : list frame) => value_step P Y v h k k0) tt K
  end.

Ltac adv_block P Y b r h K :=
  lazymatch b with
  | SExpr ?e :: ?rest => to (Ev e r h (KExpr rest r :: K))
  | SAssign ?t ?e :: ?rest => to (Ev e r h (KAssign t rest r :: K))
  | SIf ?c ?a ?b :: ?rest => to (Ev c r h (KIf a b rest r :: K))
  | SWhile ?c ?b :: ?rest => to (Ev c r h (KWhile c b r :: KSeq rest :: K))
  | SFor ?t ?e ?b :: ?rest => to (Ev e r h (KFor0 t b rest r :: K))
  | SReturn ?e :: _ => to (Ev e r h (KReturn :: K))
  | SRaise ?e :: _ => to (Ev e r h (KRaise :: K))
  | SYield ?e :: ?rest => to (Ev e r h (KYield rest r :: K))
  | SBreak :: _ => to (Br r h K)
  | SContinue :: _ => to (Co r h K)
  | SDef ?x ?f ?xs :: ?rest =>
      calculate (fun (x0 : list stmt) (k0 : list frame) => exec_step (SDef x f xs :: x0) r h k0) rest K
  | nil =>
      lazymatch K with
      | KSeq ?rest :: ?K => to (Ex rest r h K)
      | KLoopW ?c ?b :: ?K => to (Ev c r h (KWhile c b r :: K))
      | KLoopF ?t ?b ?i :: ?K => to (Lp t b i r h K)
      | KFun :: ?K => to (Rt VNone h K)
      | KInit :: ?K =>
          calculate (fun (x0 : unit) (k0 : list frame) => exec_step nil r h (KInit :: k0)) tt K
      | KInitRef ?a :: ?K => to (Rt (VRef a) h K)
      | KGen _ :: KGenFor _ _ _ ?r :: ?K => to (Ex nil r h K)
      end
  | _ =>
      let b' := eval red in b in
      lazymatch b' with _ :: _ => adv_block P Y b' r h K | nil => adv_block P Y b' r h K end
  end.

Ltac adv_expr P Y e r h K :=
  lazymatch e with
  | EConst ?v => to (Rt v h K)
  | EOp ?o (?a :: ?args) => to (Ev a r h (KArgs o nil args r :: K))
  | EAnd ?a ?b => to (Ev a r h (KAnd b r :: K))
  | EOr ?a ?b => to (Ev a r h (KOr b r :: K))
  | EIf ?c ?a ?b => to (Ev c r h (KIfE a b r :: K))
  | ECmp ?a ((?o, ?b) :: ?rest) => to (Ev a r h (KCmp1 ((o, b) :: rest) r :: K))
  | EComp ?k ?elt ?t ?i => to (Ev i r h (KComp0 k elt t r :: K))
  | EName ?x =>
      let v := eval calc in (variable P x r h) in
      lazymatch v with
      | Some ?v => to (Rt v h K)
      | _ => calculate (fun (x0 : unit) (k0 : list frame) => name_step P x r h k0) tt K
      end
  | _ => calculate (fun (x0 : unit) (k0 : list frame) => eval_step P Y e r h k0) tt K
  end.

Ltac adv :=
  lazymatch goal with
  | |- ?R ?P ?Y ?s _ =>
      lazymatch s with
      | Ev ?e ?r ?h ?K => adv_expr P Y e r h K
      | Rt ?v ?h (?k :: ?K) => adv_value P Y v h k K
      | Ex ?b ?r ?h ?K => adv_block P Y b r h K
      | As ?todo ?rest ?r ?h ?K =>
          calculate (fun (x0 : list stmt) (k0 : list frame) => assign_step P todo x0 r h k0) rest K
      | Ca ?f ?args ?kws ?h ?K =>
          calculate (fun (x0 : unit) (k0 : list frame) => call_step P Y f args kws h k0) tt K
      | Cm ?o ?v ?w ?h ?K =>
          calculate (fun (x0 : unit) (k0 : list frame) => compare_step P o v w h k0) tt K
      | It ?v ?h ?K => calculate (fun (x0 : unit) (k0 : list frame) => iter_step P v h k0) tt K
      | Lp ?t ?b ?i ?r ?h ?K =>
          calculate (fun (x0 : list stmt) (k0 : list frame) => loop_step t x0 i r h k0) b K
      | Un ?v ?h (?k :: ?K) =>
          lazymatch k with
          | KFun => to (Rt v h K)
          | _ => to (Un v h K)
          end
      | Br ?r ?h (?k :: ?K) =>
          lazymatch k with
          | KSeq _ => to (Br r h K)
          | _ => to (Ex nil r h K)
          end
      | Co ?r ?h (?k :: ?K) =>
          lazymatch k with
          | KSeq _ => to (Co r h K)
          | _ => to (Ex nil r h (k :: K))
          end
      end
  end.

(** The state of the machine is that of a call that is known. *)
Ltac call L := eapply steps_trans; [eapply L|].

(** The end: the model with the answers found on the way. *)
Ltac answers :=
  repeat match goal with
         | E : ?b = true |- context [?b] => rewrite E
         | E : ?b = false |- context [?b] => rewrite E
         | E : ?b = Ok _ |- context [?b] => rewrite E
         | E : ?b = Err _ |- context [?b] => rewrite E
         | E : ?b = Some _ |- context [?b] => rewrite E
         | E : ?b = None |- context [?b] => rewrite E
         | E : ?b = (_, _) |- context [?b] => rewrite E
         end.
Ltac finish_with := answers; cbn; answers; try apply steps_refl.

(** Goes on as far as possible; [tac] deals with calls that are known. *)
Ltac go_with tac := repeat first [progress tac | adv].
Ltac go := go_with fail.

(** Turns the state reached by a known call into a plain state. *)
Ltac plain :=
  match goal with
  | |- ?R _ _ ?s _ =>
      let s' := eval cbv beta iota zeta delta [ends outcome_of v_signature v_tone] in s in
      change s with s'
  end.

(** The outcome of a known call: a value, or an exception that ends the run. *)
Ltac outcome :=
  lazymatch goal with
  | |- ?R _ _ (ends (outcome_of ?enc ?m) _ _) _ =>
      first [ match goal with H : m = _ |- _ => rewrite H end
            | let x := fresh "x" in let E := fresh "E" in destruct m as [x|x] eqn:E ]; plain
  end.

(** Equality of texts put together from the same pieces. *)
Ltac texts_equal :=
  repeat match goal with |- context [lit ?s] => let l := eval vm_compute in (lit s) in change (lit s) with l end;
  repeat (first [rewrite app_nil_r | rewrite <- app_assoc]; cbn [app]); cbn [app]; reflexivity.
Ltac text_result :=
  match goal with
  | |- steps _ _ (Rt (VStr ?x) _ _) (Rt (VStr ?y) _ _) => replace y with x; [apply steps_refl|texts_equal]
  end.

(** A variable whose value is not known, but no cell. *)
Definition plain_value (v : value) : bool := match v with VCell _ | VNew _ _ => false | _ => true end.
Lemma name_known P Y x r v h K : assoc x r = Some v -> plain_value v = true -> step P Y (Ev (EName x) r h K) = Some (Rt v h K).
Proof. intros A L. cbn. unfold name_step, variable. rewrite A. destruct v; try discriminate; reflexivity. Qed.
Lemma not_none_known P Y v h K : v <> VNone -> step P Y (Cm CIs v VNone h K) = Some (Rt (VBool false) h K).
Proof. intros N. destruct v; try reflexivity. congruence. Qed.
Ltac values :=
  idtac; match goal with
  | H : plain_value ?v = true |- reaches _ _ (Ev (EName ?x) ?r ?h ?K) _ =>
      is_var v; eapply reaches_more; [refine (name_known _ _ x r v h K eq_refl H)|]
  | N : ?v <> VNone |- reaches _ _ (Cm CIs ?v VNone ?h ?K) _ =>
      eapply reaches_more; [exact (not_none_known _ _ v h K N)|]
  end.

(** ** Calls that change the heap *)

(** The end of a call, in a heap with the property [R]. *)
Definition returns (r : res value) (K : list frame) (R : heap -> Prop) (t : state) : Prop :=
  exists h', t = ends r h' K /\ R h'.

Ltac heap_calls :=
  cbn [h_calls new put];
  repeat match goal with K : keeps _ ?h ?h' |- context [h_calls ?h'] => rewrite (keeps_calls _ _ _ K); cbn [h_calls new put] end;
  reflexivity.
Ltac keep :=
  lazymatch goal with
  | |- keeps _ _ _ =>
      let b := fresh "b" in let o := fresh "o" in let N := fresh "N" in let G := fresh "G" in
      split; [intros b o N G; heap_get | heap_calls]
  end.

(** A call that is known, the heap after it being [h']. *)
Ltac invoke L :=
  eapply reaches_trans; [eapply L; try eassumption|];
  let t := fresh "t" in let h' := fresh "h" in let R := fresh "R" in
  intros t (h' & -> & R); cbn beta in R.
Ltac finish_here := apply reaches_here; eexists; split; [reflexivity|try keep].
