(** Running the source of the generator MIDIReader._read_chunks and of the loop of MIDIReader.load over it
    (io/midi.py 388-401, 614-632) gives what the model in MidiReader.v says. *)
From Coq Require Import ZArith List Bool String Lia SpecFloat.
From Verif Require Import Py PyFloat PySort Signature Tone Note Track Show MidiWriter MidiReader PyAst PySem PySource PyProgram SpecBase MidiSpec SigFacts ReadFacts
  RefineBase RefineSignature RefineTone RefineNote RefineWriter RefineTrack RefineAdd RefineReader RefineNumbers RefineEvent RefineDeep RefineParse RefineParseLoop RefineChannel RefineChannels RefineParseTrack.
Import ListNotations.
Open Scope string_scope.
Open Scope list_scope.
Open Scope Z_scope.

Lemma text_bytes : forall x y, text_eq x y = bytes_eqb x y.
Proof. induction x as [|a x IH]; destruct y as [|b y]; cbn; try rewrite IH; reflexivity. Qed.

Lemma bytes_same : forall x y, bytes_eqb x y = true -> x = y.
Proof. induction x as [|a x IH]; destruct y as [|b y]; cbn; intros E; try discriminate; [reflexivity|]. apply andb_prop in E as [A B]. rewrite (IH _ B). f_equal. lia. Qed.

Lemma bytes_skip n : forall l, Forall is_byte l -> Forall is_byte (skipn n l).
Proof. induction n as [|n IH]; intros l F; [exact F|]. destruct F; [constructor|apply IH; assumption]. Qed.
Lemma bytes_take n : forall l, Forall is_byte l -> Forall is_byte (firstn n l).
Proof. induction n as [|n IH]; intros l F; [constructor|]. destruct F; [constructor|constructor; [assumption|apply IH; assumption]]. Qed.
Lemma from_bytes_pos l : Forall is_byte l -> 0 <= from_bytes_be l.
Proof.
  intros F. unfold from_bytes_be. assert (G : forall a, 0 <= a -> 0 <= fold_left (fun acc x => acc * 256 + x) l a); [|apply G; lia].
  induction F as [|x l X F IH]; intros a A; cbn; [exact A|]. apply IH. unfold is_byte in X. lia.
Qed.
Lemma skip_skip {A} i : forall j (l : list A), skipn (i + j) l = skipn j (skipn i l).
Proof. induction i as [|i IH]; intros j l; [reflexivity|]. destruct l; cbn; [destruct j; reflexivity|apply IH]. Qed.

Section Chunks.
Variable Y : python.
Notation reaches := (reaches melodia Y).
Variable cv : value.
Variable delta : Z.
Notation m := (mkMR delta).
(** The heap when load is called, the place of the file and of the generator, the value of the argument channel. *)
Variable h0 : heap.
Variables f a : nat.
Variable chv : value.

Definition load_for : target * list stmt :=
  Eval calc in match f_body src_MIDIReader_load with
               | _ :: _ :: _ :: SFor t _ b :: _ => (t, b)
               | _ => (TName "", [])
               end.
Definition load_target := Eval cbv in fst load_for.
Definition load_body := Eval cbv in snd load_for.
Definition load_second := Eval cbv in match load_body with [_; x] => [x] | _ => [] end.
Definition enc_opt (o : option Z) : value := match o with None => VNone | Some d => VInt d end.
Definition load_env (tpq : option Z) (trv : value) (y : option (bytes * nat)) : env :=
  ("self", VObj "MIDIReader" [("_middle_c", cv); ("_middle_c_delta", VInt delta)]) :: ("file", VRef f) :: ("channel", chv) ::
  ("kind", match tpq with None => VNone | Some _ => VInt 0 end) :: ("ticks_per_quarter", enc_opt tpq) :: ("tracks", trv) ::
  match y with
  | None => []
  | Some (kd, rp) => ("chunk_kind", VBytes kd) :: ("chunk_data", VRef rp) :: match tpq with None => [] | Some d => [("n_tracks", VInt 1); ("division", VInt d)] end
  end.
Definition tracks_in (h : heap) (o : option (dict track)) (trv : value) : Prop :=
  match o with
  | None => trv = VNone
  | Some ts => exists pr rs, trv = VRef pr /\ get h0 pr = None /\ get h pr = Some (HDict false (enc_dict track_ref rs)) /\ tracks_at h ts rs /\ fresh_tracks h0 rs
  end.
Lemma tracks_in_kept h h' L o trv : tracks_in h o trv -> keeps L h h' ->
  (forall q, In q L -> (forall l, get h q <> Some (HList l)) /\ (forall l, get h q <> Some (HInst "Track" l)) /\ (forall l, get h q <> Some (HDict false l))) -> tracks_in h' o trv.
Proof.
  destruct o as [ts|]; [|intros E _ _; exact E]. intros (pr & rs & -> & A & B & C & D) KE NL. exists pr, rs. refine (conj eq_refl (conj A (conj _ (conj _ D)))).
  - apply (keeps_get _ _ _ _ _ KE); [|exact B]. intros X. destruct (NL _ X) as (_ & _ & N). exact (N _ B).
  - apply (tracks_kept h _ L); [exact C|exact KE|]. intros q I. destruct (NL q I) as (N1 & N2 & _).
    split; intros X; apply (tracks_bound _ _ _ _ C) in X; destruct X as (o & X); [exact (N2 _ X)|exact (N1 _ X)].
Qed.
Variable K : list frame.
Variable Q : state -> Prop.
Variable dp : nat.

Lemma second_runs h rp nm bd r tpq trs trv : reader_at h rp r -> good_reader (reader_new bd) -> (r = reader_new bd \/ bytes_eqb nm MTrk = false) -> get h0 rp = None ->
  keeps [f] h0 h -> get h f <> None -> tracks_in h trs trv ->
  let o := if bytes_eqb nm MTrk then match tpq with None => Err MIDIParsingError | Some q => let! ts := parse_track m bd q in Ok (mkLS tpq (Some ts)) end else Ok (mkLS tpq trs) in
  o <> Err OutOfFuel -> (o = Err RecursionError -> forall u, deep dp u -> Q u) ->
  (forall h' trs' trv', o = Ok (mkLS tpq trs') -> keeps [rp] h h' -> tracks_in h' trs' trv' ->
     reaches (Lp load_target load_body (IGen a) (load_env tpq trv' (Some (nm, rp))) h' K) Q) ->
  (forall e h', o = Err e -> e <> RecursionError -> keeps [rp] h h' -> Q (Thr e h')) ->
  reaches (Ex load_second (load_env tpq trv (Some (nm, rp))) h (KLoopF load_target load_body (IGen a) :: K)) Q.
Proof.
  intros RA GR RE F0 KE PF TI o NF NR OK ER. pose proof RA as RA'. unfold reader_at in RA'.
  pose proof (text_bytes nm MTrk) as TE. unfold MTrk in TE at 1. change (text_eq nm ?x = ?b) with (fact (text_eq nm x = b)) in TE.
  unfold load_env, load_second. destruct (bytes_eqb nm MTrk) eqn:EB.
  - destruct RE as [->|X]; [|discriminate]. destruct tpq as [q|]; cbn [enc_opt].
    + assert (PT : forall K', reaches (Ca (VFun "MIDIReader._parse_track") [VObj "MIDIReader" [("_middle_c", cv); ("_middle_c_delta", VInt delta)]; VRef rp; VInt q] [] h K') (after_parse dp h rp (parse_track m bd q) K')).
      { intros K'. apply (parse_track_runs Y cv delta dp h rp bd q K'); [exact RA|exact GR|]; intros X; apply NF; unfold o; rewrite X; reflexivity. }
      repeat (lazymatch goal with |- RefineBase.reaches _ _ (Ca (VFun "MIDIReader._parse_track") _ _ _ _) _ => fail | _ => adv end).
      eapply reaches_trans; [exact (PT _)|]. unfold o in *. destruct (parse_track m bd q) as [ts|e]; cbn [after_parse bind] in *.
      * intros ? (h' & pr & rs & -> & KP & FP & GP & TA & FT). adv.
        assert (PV : plain_value trv = true) by (destruct trs; [destruct TI as (? & ? & -> & _)|rewrite TI]; reflexivity).
        lazymatch goal with |- RefineBase.reaches _ _ (As _ _ ?r _ _) _ =>
          eapply reaches_more; [exact (assign_known melodia Y "tracks" (VRef pr) trv _ _ r _ _ eq_refl PV)|] end.
        do 3 (eapply reaches_more; [reflexivity|]). eapply (OK h' (Some ts) (VRef pr)); [reflexivity|exact KP|].
        assert (BACK : forall x, get h x = None -> get h0 x = None).
        { intros x X. destruct (get h0 x) as [v|] eqn:E; [|reflexivity]. destruct (Nat.eq_dec x f) as [->|N]; [congruence|].
          assert (NI : ~ In x [f]) by (intros [Z|[]]; congruence). rewrite (keeps_get _ _ _ _ _ KE NI E) in X. discriminate. }
        exists pr, rs. refine (conj eq_refl (conj (BACK _ FP) (conj GP (conj TA _)))).
        unfold fresh_tracks in *. rewrite Forall_forall in FT |- *. intros y I. destruct (FT y I). split; apply BACK; assumption.
      * intros u R. apply reaches_here. destruct (raised_inv _ _ _ _ _ R) as [(NE & h' & -> & KP)|[-> D]]; [apply ER; [reflexivity|exact NE|exact KP]|apply NR; [reflexivity|exact D]].
    + go. apply reaches_here. apply ER; [reflexivity|discriminate|keep].
  - destruct tpq as [q|]; cbn [enc_opt]; repeat (lazymatch goal with |- RefineBase.reaches _ _ (Lp _ _ _ _ _ _) _ => fail | _ => adv end).
    + apply (OK h trs trv); [reflexivity|keep|exact TI].
    + apply (OK h trs trv); [reflexivity|keep|exact TI].
Qed.

Lemma chunk_runs h rp nm bd tpq trs trv y : reader_at h rp (reader_new bd) -> good_reader (reader_new bd) -> get h0 rp = None ->
  keeps [f] h0 h -> get h f <> None -> f <> rp -> tracks_in h trs trv -> (y = None -> tpq = None) ->
  let o := load_chunk m (mkLS tpq trs) nm bd in
  o <> Err OutOfFuel -> (o = Err RecursionError -> forall u, deep dp u -> Q u) ->
  (forall h' tpq' trs' trv', o = Ok (mkLS tpq' trs') -> keeps [rp] h h' -> tracks_in h' trs' trv' ->
     reaches (Lp load_target load_body (IGen a) (load_env tpq' trv' (Some (nm, rp))) h' K) Q) ->
  (forall e h', o = Err e -> e <> RecursionError -> keeps [rp] h h' -> Q (Thr e h')) ->
  reaches (As [(load_target, VTuple [VBytes nm; VRef rp])] load_body (load_env tpq trv y) h (KLoopF load_target load_body (IGen a) :: K)) Q.
Proof.
  intros RA GR F0 KE PF FR TI YT o NF NR OK ER. pose proof RA as RA'. unfold reader_at in RA'.
  unfold o, load_chunk in *. clear o. cbn [ls_tpq ls_tracks] in *.
  pose proof (text_bytes nm MThd) as TE. unfold MThd in TE at 1. change (text_eq nm ?x = ?b) with (fact (text_eq nm x = b)) in TE.
  destruct (bytes_eqb nm MThd) eqn:EB.
  - assert (NT : bytes_eqb nm MTrk = false).
    { rewrite (bytes_same _ _ EB). reflexivity. }
    pose proof (fun K' => parse_header_runs Y rp (reader_new bd) GR h K' RA) as PH.
    pose proof (calm_header (reader_new bd)) as CH.
    destruct (parse_header (reader_new bd)) as [r1 [[[k n] dv]|e]]; cbn [fst snd outcome_of bind] in *.
    + assert (STOP : forall h', ((k =? 0) = false \/ (n =? 1) = false \/ (dv >? 32767) = true) -> keeps [rp] h h' -> Q (Thr MIDIParsingError h')).
      { intros h' X KH. apply ER; [|discriminate|exact KH]. destruct (k =? 0); [|reflexivity]. destruct (n =? 1); [|reflexivity]. destruct (dv >? 32767); [reflexivity|]. cbn in X. intuition discriminate. }
      assert (MORE : forall h', (k =? 0) = true -> (n =? 1) = true -> (dv >? 32767) = false -> keeps [rp] h h' -> reader_at h' rp r1 ->
         reaches (Ex load_second (load_env (Some dv) trv (Some (nm, rp))) h' (KLoopF load_target load_body (IGen a) :: K)) Q).
      { intros h' E1 E2 E3 KH RH. rewrite E1, E2, E3 in *. cbn [negb bind ls_tpq ls_tracks] in *. rewrite NT in *. 
        eapply (second_runs h' rp nm bd r1 (Some dv) trs trv); [exact RH|exact GR|right; exact NT|exact F0|keep| | |..].
        - destruct (get h f) as [v|] eqn:E; [|congruence]. assert (X : get h' f = Some v) by heap_get. rewrite X. discriminate.
        - apply (tracks_in_kept h _ [rp]); [exact TI|exact KH|]. intros x [<-|[]]. rewrite RA'. repeat split; discriminate.
        - rewrite NT. discriminate.
        - rewrite NT. discriminate.
        - rewrite NT. intros h2 trs' trv' X K2 T2. injection X as <-. eapply OK; [reflexivity|keep|exact T2].
        - rewrite NT. discriminate. }
      clear OK ER. destruct y as [[yk yr]|]; [|rewrite (YT eq_refl) in *]; [destruct tpq as [q|]|]; unfold load_env; cbn [enc_opt]; unfold load_target at 1, load_body at 1.
      all: repeat (lazymatch goal with |- RefineBase.reaches _ _ (Ca (VFun "MIDIReader._parse_header") _ _ _ _) _ => fail | _ => adv end).
      all: eapply reaches_trans; [exact (PH _)|]; intros ? (h' & -> & RH & KH); cbn [ends fst snd].
      all: repeat (lazymatch goal with |- RefineBase.reaches _ _ (Ex [SIf (ECmp (EName "chunk_kind") _) _ _] _ _ (KLoopF _ _ _ :: _)) _ => fail | _ => adv end).
      all: try (apply reaches_here; apply STOP; [tauto|exact KH]).
      all: assert (K0 : k = 0) by lia; assert (N1 : n = 1) by lia; subst k n.
      all: exact (MORE h' eq_refl eq_refl eq_refl KH RH).
    + assert (NE : e <> RecursionError) by (intros ->; apply CH; reflexivity). clear OK. destruct y as [[yk yr]|]; [|rewrite (YT eq_refl) in *]; [destruct tpq as [q|]|]; unfold load_env; cbn [enc_opt]; unfold load_target at 1, load_body at 1.
      all: repeat (lazymatch goal with |- RefineBase.reaches _ _ (Ca (VFun "MIDIReader._parse_header") _ _ _ _) _ => fail | _ => adv end).
      all: eapply reaches_trans; [exact (PH _)|]; intros ? (h' & -> & RH & KH); cbn [ends].
      all: apply reaches_here; apply ER; [reflexivity|exact NE|exact KH].
  - cbn [bind ls_tpq ls_tracks] in *.
    assert (MORE : reaches (Ex load_second (load_env tpq trv (Some (nm, rp))) h (KLoopF load_target load_body (IGen a) :: K)) Q).
    { eapply (second_runs h rp nm bd (reader_new bd) tpq trs trv); try assumption; [left; reflexivity|].
      intros h2 trs' trv' X K2 T2. eapply OK; [exact X|keep|exact T2]. }
    clear OK ER. destruct y as [[yk yr]|]; [|rewrite (YT eq_refl) in *]; [destruct tpq as [q|]|]; unfold load_env; cbn [enc_opt]; unfold load_target at 1, load_body at 1.
    all: repeat (lazymatch goal with |- RefineBase.reaches _ _ (Ex [SIf (ECmp (EName "chunk_kind") _) _ _] _ _ (KLoopF _ _ _ :: _)) _ => fail | _ => adv end).
    all: exact MORE.
Qed.

(** ** The generator *)
Lemma read_file h data pos n b pos' h' K' : get h f = Some (HFile data pos) -> (n <? 0) = false -> firstn (Z.to_nat n) (skipn pos data) = b ->
  pos' = (pos + List.length b)%nat -> put h f (HFile data pos') = h' -> step melodia Y (Ca (VMethod (VRef f) "read") [VInt n] [] h K') = Some (Rt (VBytes b) h' K').
Proof. intros G N B -> H. change (Some (method_of_object f "read" [VInt n] [] h K') = Some (Rt (VBytes b) h' K')). unfold method_of_object. rewrite G, N, B, H. reflexivity. Qed.
Ltac gen_step :=
  lazymatch goal with
  | |- RefineBase.reaches _ _ (Ca (VMethod (VRef f) "read") _ _ _ _) _ => eapply reaches_more; [eapply read_file; [eassumption|first [reflexivity|eassumption]|eassumption|eassumption|eassumption]|]
  | S : slice ?x ?y ?z = _ |- RefineBase.reaches _ _ (Rt (VBytes (slice ?x ?y ?z)) _ _) _ => rewrite S
  | S : from_bytes_be ?x = _ |- RefineBase.reaches _ _ (Rt (VInt (from_bytes_be ?x)) _ _) _ => rewrite S
  | |- RefineBase.reaches _ _ (Ca (VClass "_Reader") _ _ _ _) _ => fail
  | |- RefineBase.reaches _ _ (Ex [] _ _ K) _ => fail
  | _ => adv
  end.
Definition gen_while : expr * list stmt :=
  Eval calc in match f_body src_MIDIReader__read_chunks with
               | [SWhile c b] => (c, b)
               | _ => (EConst VNone, [])
               end.
Definition gen_test := Eval cbv in fst gen_while.
Definition gen_body := Eval cbv in snd gen_while.
Definition gen_env (x : option (bytes * bytes * Z * bytes)) : env :=
  ("file", VRef f) ::
  match x with
  | None => []
  | Some (hd, nm, sz, bd) => [("chunk_header", VBytes hd); ("chunk_name", VBytes nm); ("chunk_size", VInt sz); ("chunk_body", VBytes bd)]
  end.
Variable data : bytes.
Hypothesis GD : Forall is_byte data.
Hypothesis FA : get h0 a = None.

Lemma chunks_run : forall fuel s file h pos trv x y,
  keeps [f] h0 h -> get h f = Some (HFile data pos) -> skipn pos data = file -> get h a = Some (HGen None) -> tracks_in h (ls_tracks s) trv -> (y = None -> ls_tpq s = None) ->
  load_loop fuel m s file <> Err OutOfFuel -> (load_loop fuel m s file = Err RecursionError -> forall u, deep dp u -> Q u) ->
  (forall h' s' trv' y', load_loop fuel m s file = Ok s' -> keeps [f] h0 h' -> get h' f <> None -> tracks_in h' (ls_tracks s') trv' -> (y' = None -> ls_tpq s' = None) ->
     reaches (Ex [] (load_env (ls_tpq s') trv' y') h' K) Q) ->
  (forall e h', load_loop fuel m s file = Err e -> e <> RecursionError -> keeps [f] h0 h' -> Q (Thr e h')) ->
  reaches (Ev gen_test (gen_env x) h (KWhile gen_test gen_body (gen_env x) :: KSeq [] :: KGen a :: KGenFor load_target load_body (IGen a) (load_env (ls_tpq s) trv y) :: K)) Q.
Proof.
  induction fuel as [|k IH]; intros s file h pos trv x y KE GF EF GA TI YT NF NR OK ER; [cbn in NF; congruence|]. cbn [load_loop] in *.
  set (hd := firstn 8 file) in *. assert (HD : firstn (Z.to_nat 8) (skipn pos data) = hd) by (rewrite EF; reflexivity).
  assert (BF : Forall is_byte file) by (rewrite <- EF; apply bytes_skip; exact GD).
  assert (LH : (List.length hd <= 8)%nat) by (unfold hd; rewrite firstn_length; lia).
  assert (NFA : f <> a) by congruence.
  assert (LEN : fact (Z.of_nat (List.length hd) =? 0 = Nat.eqb (List.length hd) 0)).
  { red. destruct (Nat.eqb_spec (List.length hd) 0); lia. }
  assert (LEN8 : fact (Z.of_nat (List.length hd) <? 8 = Nat.ltb (List.length hd) 8)).
  { red. destruct (Nat.ltb_spec (List.length hd) 8); lia. }
  remember (put h f (HFile data (pos + List.length hd))) as h1 eqn:H1. symmetry in H1. assert (K1 : keeps [f] h h1) by (rewrite <- H1; keep).
  assert (G1 : get h1 f = Some (HFile data (pos + List.length hd))) by (rewrite <- H1; heap_get).
  assert (A1 : get h1 a = Some (HGen None)) by heap_get.
  remember (pos + List.length hd)%nat as pos1 eqn:P1.
  destruct (Nat.eqb (List.length hd) 0) eqn:E0.
  - clear ER IH. clearbody hd. specialize (OK h1 s trv y eq_refl). assert (TI1 : tracks_in h1 (ls_tracks s) trv).
    { apply (tracks_in_kept h _ [f]); [exact TI|exact K1|]. intros z [<-|[]]; rewrite GF; repeat split; discriminate. }
    unfold gen_env, gen_test. unfold gen_body at 1. clear LEN8.
    destruct x as [[[[xh xn] xs] xb]|]; repeat gen_step; (apply OK; [keep|rewrite G1; discriminate|exact TI1|exact YT]).
  - destruct (Nat.ltb (List.length hd) 8) eqn:E8.
    + clear OK IH. clearbody hd. unfold gen_env, gen_test. unfold gen_body at 1.
      destruct x as [[[[xh xn] xs] xb]|]; repeat gen_step; apply reaches_here; (apply ER; [reflexivity|discriminate|keep]).
    + assert (L8 : List.length hd = 8%nat) by (apply Nat.ltb_ge in E8; lia).
      set (nm := firstn 4 hd) in *. set (sz := from_bytes_be (skipn 5 hd)) in *. set (file1 := skipn 8 file) in *.
      set (bd := firstn (Z.to_nat sz) file1) in *. set (file2 := skipn (Z.to_nat sz) file1) in *.
      assert (S1 : slice hd 0 4 = nm) by (unfold slice; rewrite L8; reflexivity).
      assert (S2 : slice hd 5 (Z.of_nat (List.length hd)) = skipn 5 hd).
      { unfold slice. rewrite L8. change (Z.to_nat _) with 3%nat at 1. change (Z.to_nat _) with 5%nat. apply firstn_all2. rewrite skipn_length. lia. }
      assert (S3 : from_bytes_be (skipn 5 hd) = sz) by reflexivity.
      assert (SP : (sz <? 0) = false) by (assert (0 <= sz) by (unfold sz, hd; apply from_bytes_pos, bytes_skip, bytes_take; exact BF); lia).
      assert (F1 : skipn pos1 data = file1) by (unfold file1; rewrite P1, L8, skip_skip, EF; reflexivity).
      assert (S4 : firstn (Z.to_nat sz) (skipn pos1 data) = bd) by (rewrite F1; reflexivity).
      remember (put h1 f (HFile data (pos1 + List.length bd))) as h2 eqn:H2. symmetry in H2. assert (K2 : keeps [f] h h2) by (rewrite <- H2; keep).
      assert (G2 : get h2 f = Some (HFile data (pos1 + List.length bd))) by (rewrite <- H2; heap_get).
      assert (A2 : get h2 a = Some (HGen None)) by (rewrite <- H2; heap_get).
      remember (pos1 + List.length bd)%nat as pos2 eqn:P2.
      destruct (Z.of_nat (List.length bd) <? sz) eqn:EB.
      * clear OK IH. clearbody bd sz nm hd. unfold gen_env, gen_test. unfold gen_body at 1.
        destruct x as [[[[xh xn] xs] xb]|]; repeat gen_step; apply reaches_here; (apply ER; [reflexivity|discriminate|keep]).
      * assert (LB : List.length bd = Z.to_nat sz) by (assert (List.length bd <= Z.to_nat sz)%nat by (unfold bd; rewrite firstn_length; lia); lia).
        assert (F2 : skipn pos2 data = file2) by (rewrite P2, skip_skip, F1, LB; reflexivity).
        assert (GB : good_reader (reader_new bd)).
        { split; [|cbn; lia]. cbn. unfold bd, file1. apply bytes_take, bytes_skip. exact BF. }
        assert (GO : forall h3 x', keeps [] h2 h3 -> reader_at h3 (next_place h2) (reader_new bd) ->
          reaches (As [(load_target, VTuple [VBytes nm; VRef (next_place h2)])] load_body (load_env (ls_tpq s) trv y) (put h3 a (HGen (Some ([], gen_env x', [KLoopW gen_test gen_body; KSeq []])))) 
            (KLoopF load_target load_body (IGen a) :: K)) Q).
        { intros h3 x' K3 R3. unfold reader_at in R3. assert (NE : next_place h2 <> a) by (intros X; rewrite <- X, fresh_none in A2; discriminate).
          assert (NP : next_place h2 <> f) by (intros X; rewrite <- X, fresh_none in G2; discriminate).
          assert (A3 : get h3 a = Some (HGen None)) by heap_get. assert (G3 : get h3 f = Some (HFile data pos2)) by heap_get.
          assert (T2 : tracks_in h3 (ls_tracks s) trv).
          { apply (tracks_in_kept h2 _ []); [|exact K3|intros ? []]. apply (tracks_in_kept h _ [f]); [exact TI|exact K2|]. intros z [<-|[]]; rewrite GF; repeat split; discriminate. }
          remember (put h3 a (HGen (Some ([], gen_env x', [KLoopW gen_test gen_body; KSeq []])))) as h4 eqn:H4.
          assert (T4 : tracks_in h4 (ls_tracks s) trv).
          { apply (tracks_in_kept h3 _ [a]); [exact T2|rewrite H4; keep|]. intros z [<-|[]]; rewrite A3; repeat split; discriminate. }
          assert (A4 : get h4 a = Some (HGen (Some ([], gen_env x', [KLoopW gen_test gen_body; KSeq []])))) by (rewrite H4; heap_get).
          assert (G4 : get h4 f = Some (HFile data pos2)) by (rewrite H4; heap_get).
          assert (R4 : reader_at h4 (next_place h2) (reader_new bd)) by (unfold reader_at; rewrite H4; heap_get).
          assert (K4 : keeps [f] h0 h4) by (rewrite H4; keep).
          assert (F0 : get h0 (next_place h2) = None).
          { destruct (get h0 (next_place h2)) as [v|] eqn:E; [|reflexivity]. assert (NI : ~ In (next_place h2) [f]) by (intros [X|[]]; congruence).
            assert (K20 : keeps [f] h0 h2) by keep. pose proof (keeps_get _ _ _ _ _ K20 NI E) as X. rewrite fresh_none in X. discriminate X. }
          apply (chunk_runs h4 (next_place h2) nm bd (ls_tpq s) (ls_tracks s) trv y R4 GB F0 K4); [rewrite G4; discriminate|exact (not_eq_sym NP)|exact T4|exact YT|..].
          all: destruct s as [tpq trs]; cbn [ls_tpq ls_tracks] in *.
          - intros X. apply NF. rewrite X. reflexivity.
          - intros X. apply NR. rewrite X. reflexivity.
          - intros h' tpq' trs' trv' X KH T'. rewrite X in *. cbn [bind] in *. clear X. clear TI T2 T4 R3 R4.
            assert (A5 : get h' a = Some (HGen (Some ([], gen_env x', [KLoopW gen_test gen_body; KSeq []])))) by heap_get.
            assert (G5 : get h' f = Some (HFile data pos2)) by heap_get.
            eapply (reaches_more _ _ _ (Ex [] (gen_env x') (put h' a (HGen None)) (KLoopW gen_test gen_body :: KSeq [] :: KGen a :: KGenFor load_target load_body (IGen a) (load_env tpq' trv' (Some (nm, next_place h2))) :: K))).
            { change (Some (loop_step load_target load_body (IGen a) (load_env tpq' trv' (Some (nm, next_place h2))) h' K) = Some (Ex [] (gen_env x') (put h' a (HGen None)) (KLoopW gen_test gen_body :: KSeq [] :: KGen a :: KGenFor load_target load_body (IGen a) (load_env tpq' trv' (Some (nm, next_place h2))) :: K))).
              unfold loop_step. rewrite A5. reflexivity. }
            eapply reaches_more; [reflexivity|].
            apply (IH (mkLS tpq' trs') file2 (put h' a (HGen None)) pos2 trv' x' (Some (nm, next_place h2))); cbn [ls_tpq ls_tracks]; [keep|heap_get|exact F2|heap_get| |discriminate|exact NF|exact NR|exact OK|exact ER].
            apply (tracks_in_kept h' _ [a]); [exact T'|keep|]. intros z [<-|[]]; rewrite A5; repeat split; discriminate.
          - intros e h' X NE' KH. apply ER; [rewrite X; reflexivity|exact NE'|]. keep. }
        clear OK ER IH. clearbody bd sz nm hd. unfold gen_env, gen_test in *. unfold gen_body at 1.
        destruct x as [[[[xh xn] xs] xb]|]; repeat gen_step; (eapply reaches_trans; [apply reader_new_runs|]); intros ? (h3 & -> & R3 & K3); cbn [ends].
        all: repeat (lazymatch goal with |- RefineBase.reaches _ _ (Rt _ _ (KYield _ _ :: _)) _ => fail | _ => adv end).
        all: eapply reaches_more; [reflexivity|]; exact (GO h3 (Some (hd, nm, sz, bd)) K3 R3).
Qed.
End Chunks.
