(** The functions that write and read numbers, events and chunks, in runs of the source: what their bytes are. *)
From Coq Require Import ZArith QArith Qround List Bool String Lia.
From Verif Require Import Py PyFloat PySort Signature Tone Note Track Show MidiWriter MidiReader PyAst PySem PySource PyProgram SpecBase MidiSpec DumpSpec SigFacts SortFacts VarLenFacts ReadFacts WriterFacts FileFacts LoadFacts ReaderProps WriterProps TimeFacts
  RefineBase RefineSignature RefineTone RefineNote RefineWriter RefineTrack RefineSpec RefineProps RefineTrackProps RefineDumpProps RefineReader RefineNumbers RefineLoadProps.
Import ListNotations.
Open Scope string_scope.
Open Scope list_scope.
Open Scope Z_scope.

(** The object at [p] is a _Reader that has read [before] and has [rest] left. *)
Definition reading (h : heap) (p : nat) (before rest : bytes) : Prop :=
  get h p = Some (HInst "_Reader" [("_data", VBytes (before ++ rest)); ("_idx", VInt (Z.of_nat (List.length before)))]).

Lemma brings_weaken Y h vars e (P Q : res value -> heap -> Prop) : brings Y h vars e P -> (forall v h', P v h' -> Q v h') -> brings Y h vars e Q.
Proof. intros B I K. eapply reaches_trans; [exact (B K)|]. intros s (v & h' & -> & R). apply reaches_here. eauto. Qed.

Lemma format_var_len_negative x : x < 0 -> format_var_len x = Ok [x mod 128].
Proof.
  intros X. unfold format_var_len. change 127 with (Z.ones 7). rewrite Z.land_ones by lia. change (2 ^ 7) with 128.
  assert (S : Z.shiftr x 7 < 0) by (apply Z.shiftr_neg; exact X). cbn [var_len_loop]. replace (Z.shiftr x 7 >? 0) with false by lia. cbn [bind].
  pose proof (Z.mod_pos_bound x 128 ltac:(lia)) as B. pose proof (bit_length_small _ B) as BL.
  replace (bit_length (x mod 128) / 8) with 0 by (symmetry; apply Z.div_small; lia). unfold to_bytes_le. change (Z.to_nat (0 + 1)) with 1%nat.
  replace ((x mod 128 <? 0) || (256 ^ Z.of_nat 1 <=? x mod 128)) with false by (change (256 ^ Z.of_nat 1) with 256; lia).
  cbn [le_digits]. rewrite (Z.mod_small (x mod 128) 256) by lia. reflexivity.
Qed.

Lemma c85_writes : forall Y h c w q ca t bpm ch s n x cc bb kind body,
  writer_new (py_nd Y) q ca bpm ch = Ok w -> tone_of_arg (py_nd Y) ca = Ok t -> middle_value c -> valid_sig s -> valid_note n ->
  let vars := [("w", enc_writer c w); ("s", enc_sig s); ("n", enc_note n); ("x", VInt x); ("cc", VInt cc); ("bb", VInt bb); ("k", VBytes kind); ("b", VBytes body)] in
  let writes e r := brings Y h vars e (fun v h' => v = r /\ keeps [] h h') in
  let signature := EOp (OCall [APos; AKey "cc"; AKey "bb"]) [attr (name "w") "_format_signature"; name "s"; name "cc"; name "bb"] in
  let header := EOp (OCall [AKey "kind"; AKey "n_tracks"]) [attr (name "w") "_format_header_chunk"; name "cc"; name "bb"] in
  evaluates Y h vars (meth (name "w") "_signature_to_pulses" [name "s"]) (Ok (VInt (Qfloor (inject_Z (4 * q) * sval s)))) /\
  (0 <= x -> exists ds, evaluates Y h vars (meth (name "w") "_format_var_len" [name "x"]) (Ok (VBytes (with_bit7 ds))) /\
     Forall is_digit ds /\ value128 ds = x /\ (ds = [0] \/ exists d r, ds = d :: r /\ d <> 0)) /\
  (x < 0 -> evaluates Y h vars (meth (name "w") "_format_var_len" [name "x"]) (Ok (VBytes [x mod 128]))) /\
  (in_midi_range (pitch t) n ->
     writes (meth (name "w") "_format_note_on" [name "n"]) (Ok (VBytes [144 + ch; 60 + pitch (n_tone n) - pitch t; note_velocity n])) /\
     writes (meth (name "w") "_format_note_off" [name "n"]) (Ok (VBytes [128 + ch; 60 + pitch (n_tone n) - pitch t; 64]))) /\
  (~ in_midi_range (pitch t) n ->
     writes (meth (name "w") "_format_note_on" [name "n"]) (Err ValueError) /\ writes (meth (name "w") "_format_note_off" [name "n"]) (Err ValueError)) /\
  (sig_fits s -> is_byte cc -> is_byte bb -> writes signature (Ok (VBytes [255; 88; 4; nominator s; Z.log2 (denominator s); cc; bb]))) /\
  (~ (sig_fits s /\ is_byte cc /\ is_byte bb) -> writes signature (Err OverflowError)) /\
  (0 <= x < 2 ^ 24 -> writes (meth (name "w") "_format_tempo" [name "x"]) (Ok (VBytes ([255; 81; 3] ++ be_bytes 3 x)))) /\
  (~ 0 <= x < 2 ^ 24 -> writes (meth (name "w") "_format_tempo" [name "x"]) (Err OverflowError)) /\
  (List.length kind = 4%nat -> Z.of_nat (List.length body) < 2 ^ 32 ->
     writes (meth (name "w") "_format_chunk" [name "k"; name "b"]) (Ok (VBytes (kind ++ be_bytes 4 (Z.of_nat (List.length body)) ++ body)))) /\
  (List.length kind = 4%nat -> 2 ^ 32 <= Z.of_nat (List.length body) -> writes (meth (name "w") "_format_chunk" [name "k"; name "b"]) (Err OverflowError)) /\
  (List.length kind <> 4%nat -> writes (meth (name "w") "_format_chunk" [name "k"; name "b"]) (Err AssertionError)) /\
  (0 <= cc <= 2 -> 0 <= bb < 2 ^ 16 ->
     writes header (Ok (VBytes ([77; 84; 104; 100; 0; 0; 0; 6] ++ be_bytes 2 cc ++ be_bytes 2 bb ++ be_bytes 2 q)))) /\
  (0 <= cc <= 2 -> ~ 0 <= bb < 2 ^ 16 -> writes header (Err OverflowError)) /\
  (~ 0 <= cc <= 2 -> writes header (Err AssertionError)).
Proof.
  intros Y h c w q ca t bpm ch s n x cc bb kind body W T M V VN. cbv zeta.
  destruct (c75_helpers Y h c w s n x cc bb kind body M V) as (H1 & H2 & H3 & H4 & H5 & H6 & H7 & H8).
  destruct (c36_bytes _ _ _ _ _ _ _ n W T VN) as [IN OUT].
  assert (Q : w_ppq w = q /\ 1 <= q <= 32767).
  { unfold writer_new in W. destruct ((1 <=? q) && (q <=? 32767)) eqn:E; [|discriminate]. cbn [negb] in W. destruct (negb _) in W; [discriminate|].
    rewrite T in W. cbn [bind] in W. injection W as <-. cbn [w_ppq]. split; [reflexivity|lia]. }
  destruct Q as [QW Q].
  split; [rewrite (c38_pulses _ _ _ _ _ _ _ W V) in H1; exact H1|].
  split; [intros X; destruct (format_var_len_digits x X) as (ds & E & D); rewrite E in H2; exists ds; split; [exact H2|exact D]|].
  split; [intros X; rewrite (format_var_len_negative x X) in H2; exact H2|].
  split; [intros R; destruct (IN R) as [E1 E2]; rewrite E1 in H3; rewrite E2 in H4; split; [exact H3|exact H4]|].
  split; [intros R; destruct (OUT R) as [E1 E2]; rewrite E1 in H3; rewrite E2 in H4; split; [exact H3|exact H4]|].
  pose proof V as [Vn (k & Hk & Hd)].
  assert (BL : bit_length (denominator s) - 1 = Z.log2 (denominator s)).
  { rewrite Hd, bit_length_pow2, Z.log2_pow2 by lia. lia. }
  assert (LG : Z.log2 (denominator s) = k) by (rewrite Hd; apply Z.log2_pow2; lia).
  assert (FITS : denominator s <= 2 ^ 255 <-> k <= 255).
  { rewrite Hd. symmetry. apply Z.pow_le_mono_r_iff; lia. }
  split.
  { intros [F1 F2] BC BB. assert (E : format_signature s cc bb = Ok [255; 88; 4; nominator s; Z.log2 (denominator s); cc; bb]).
    { apply FITS in F2. unfold is_byte in *. unfold format_signature. rewrite BL, LG, !to_bytes_1 by lia. reflexivity. }
    rewrite E in H5. exact H5. }
  split.
  { intros NF. assert (E : format_signature s cc bb = Err OverflowError).
    { unfold format_signature. rewrite BL, LG. assert (NF' : ~ (nominator s <= 255 /\ k <= 255 /\ 0 <= cc <= 255 /\ 0 <= bb <= 255)).
      { intros (A & B & C & D). apply NF. unfold sig_fits, is_byte. rewrite FITS. lia. }
      clear -NF' Vn Hk.
      assert (ER : forall z, ~ 0 <= z <= 255 -> to_bytes_be z 1 = Err OverflowError) by (intros z Z; apply to_bytes_be_err; change (256 ^ Z.of_nat 1) with 256; lia).
      destruct (Z_le_dec (nominator s) 255) as [A|A]; [rewrite (to_bytes_1 (nominator s)) by lia|rewrite (ER (nominator s)) by lia; reflexivity].
      destruct (Z_le_dec k 255) as [B|B]; [rewrite (to_bytes_1 k) by lia|rewrite (ER k) by lia; reflexivity].
      destruct (Z_le_dec 0 cc) as [C|C]; [|rewrite (ER cc) by lia; reflexivity].
      destruct (Z_le_dec cc 255) as [C'|C']; [rewrite (to_bytes_1 cc) by lia|rewrite (ER cc) by lia; reflexivity].
      rewrite (ER bb) by lia. reflexivity. }
    rewrite E in H5. exact H5. }
  split; [intros X; assert (E : format_tempo x = Ok ([255; 81; 3] ++ be_bytes 3 x)); [unfold format_tempo; rewrite to_bytes_be_bytes; [reflexivity|exact X]|]; rewrite E in H6; exact H6|].
  split; [intros X; assert (E : format_tempo x = Err OverflowError); [unfold format_tempo; rewrite to_bytes_be_err; [reflexivity|exact X]|]; rewrite E in H6; exact H6|].
  split; [intros L B; rewrite (format_chunk_ok _ _ L B) in H7; exact H7|].
  split; [intros L B; rewrite (format_chunk_err _ _ L B) in H7; exact H7|].
  split; [intros L; assert (E : format_chunk kind body = Err AssertionError); [unfold format_chunk; replace (Z.of_nat (List.length kind) =? 4) with false by lia; reflexivity|]; rewrite E in H7; exact H7|].
  split.
  { intros C B. assert (E : format_header_chunk w cc bb = Ok ([77; 84; 104; 100; 0; 0; 0; 6] ++ be_bytes 2 cc ++ be_bytes 2 bb ++ be_bytes 2 q)).
    { unfold format_header_chunk. replace (negb ((cc =? 0) || (cc =? 1) || (cc =? 2))) with false by lia. rewrite QW.
      rewrite !to_bytes_be_bytes; try (change (256 ^ Z.of_nat 2) with 65536; lia). cbn [bind].
      rewrite format_chunk_ok; [reflexivity|reflexivity|]. rewrite !app_length, !be_bytes_length. reflexivity. }
    rewrite E in H8. exact H8. }
  split.
  { intros C B. assert (E : format_header_chunk w cc bb = Err OverflowError).
    { unfold format_header_chunk. replace (negb ((cc =? 0) || (cc =? 1) || (cc =? 2))) with false by lia.
      rewrite (to_bytes_be_bytes cc) by (change (256 ^ Z.of_nat 2) with 65536; lia). cbn [bind].
      rewrite to_bytes_be_err; [reflexivity|]. exact B. }
    rewrite E in H8. exact H8. }
  intros C. assert (E : format_header_chunk w cc bb = Err AssertionError).
  { unfold format_header_chunk. replace (negb ((cc =? 0) || (cc =? 1) || (cc =? 2))) with true by lia. reflexivity. }
  rewrite E in H8. exact H8.
Qed.

Lemma c85_reads : forall Y h c m p before rest, Forall is_byte (before ++ rest) -> reading h p before rest ->
  let reads f P := brings Y h [("m", enc_midi_reader c m); ("r", VRef p); ("z", VInt 0); ("q", VInt 0)] (meth (name "m") f [name "r"]) (fun v h' => P v h' /\ keeps [p] h h') in
  (forall f k, In (f, k) [("_read_8", 1%nat); ("_read_16", 2%nat); ("_read_24", 3%nat); ("_read_32", 4%nat)] ->
     (forall x later, rest = be_bytes k x ++ later -> 0 <= x < 256 ^ Z.of_nat k ->
        reads f (fun v h' => v = Ok (VInt x) /\ reading h' p (before ++ be_bytes k x) later)) /\
     ((List.length rest < k)%nat -> reads f (fun v _ => v = Err MIDIParsingError))) /\
  (forall bs x later, rest = bs ++ later -> vlq_of bs x ->
     reads "_read_var_len" (fun v h' => v = Ok (VInt x) /\ reading h' p (before ++ bs) later)) /\
  (forall bs x k, rest = firstn k bs -> vlq_of bs x -> (k < List.length bs)%nat -> reads "_read_var_len" (fun v _ => v = Err MIDIParsingError)) /\
  (forall x y z later, rest = be_bytes 2 x ++ be_bytes 2 y ++ be_bytes 2 z ++ later -> 0 <= x < 2 ^ 16 -> 0 <= y < 2 ^ 16 -> 0 <= z < 2 ^ 16 ->
     reads "_parse_header" (fun v h' => v = Ok (VTuple [VInt x; VInt y; VInt z]) /\ reading h' p (before ++ be_bytes 2 x ++ be_bytes 2 y ++ be_bytes 2 z) later)) /\
  ((List.length rest < 6)%nat -> reads "_parse_header" (fun v _ => v = Err MIDIParsingError)).
Proof.
  intros Y h c m p before rest B R. cbv zeta.
  assert (GR : good_reader (at_ before rest)) by (split; [exact B|cbn [rd_data rd_idx at_]; rewrite app_length; lia]).
  destruct (c77_helpers Y h c m p (at_ before rest) 0 0 GR R) as (H1 & H2 & H3 & H4 & H5 & H6 & _).
  assert (OK : forall k x later, rest = be_bytes k x ++ later -> 0 <= x < 256 ^ Z.of_nat k ->
    (do b <- read (Z.of_nat k); ret (from_bytes_be b)) (at_ before rest) = (at_ (before ++ be_bytes k x) later, Ok x)).
  { intros k x later -> X. unfold rbind. rewrite read_ok by (rewrite be_bytes_length; reflexivity). unfold ret. rewrite from_be_bytes by exact X. reflexivity. }
  assert (SHORT : forall k, (List.length rest < k)%nat -> snd ((do b <- read (Z.of_nat k); ret (from_bytes_be b)) (at_ before rest)) = Err MIDIParsingError).
  { intros k L. unfold rbind. pose proof (read_short before rest (Z.of_nat k) ltac:(lia)) as E. destruct (read _ _) as [r' [b|e]]; cbn [snd] in *; [discriminate|congruence]. }
  split.
  { assert (NUM : forall f k, brings Y h [("m", enc_midi_reader c m); ("r", VRef p); ("z", VInt 0); ("q", VInt 0)] (meth (name "m") f [name "r"])
        (used h p VInt ((do b <- read (Z.of_nat k); ret (from_bytes_be b)) (at_ before rest))) ->
      (forall x later, rest = be_bytes k x ++ later -> 0 <= x < 256 ^ Z.of_nat k ->
        brings Y h [("m", enc_midi_reader c m); ("r", VRef p); ("z", VInt 0); ("q", VInt 0)] (meth (name "m") f [name "r"])
          (fun v h' => (v = Ok (VInt x) /\ reading h' p (before ++ be_bytes k x) later) /\ keeps [p] h h')) /\
      ((List.length rest < k)%nat -> brings Y h [("m", enc_midi_reader c m); ("r", VRef p); ("z", VInt 0); ("q", VInt 0)] (meth (name "m") f [name "r"])
          (fun v h' => v = Err MIDIParsingError /\ keeps [p] h h'))).
    { intros f k H. split.
      - intros x later E X. eapply brings_weaken; [exact H|]. rewrite (OK _ _ _ E X). intros v h' (E1 & E2 & E3). split; [|exact E3]. split; [exact E1|exact E2].
      - intros L. eapply brings_weaken; [exact H|]. intros v h' (E1 & E2 & E3). split; [|exact E3]. rewrite (SHORT _ L) in E1. exact E1. }
    intros f k [E|[E|[E|[E|[]]]]]; injection E as <- <-; apply NUM; [exact H1|exact H2|exact H3|exact H4]. }
  split.
  { intros bs x later -> X. eapply brings_weaken; [exact H5|]. rewrite (read_var_len_ok _ _ _ _ X). intros v h' (E1 & E2 & E3). split; [|exact E3]. split; [exact E1|exact E2]. }
  split.
  { intros bs x k -> X L. eapply brings_weaken; [exact H5|]. intros v h' (E1 & E2 & E3). split; [|exact E3]. rewrite (read_var_len_cut _ _ _ _ X L) in E1. exact E1. }
  split.
  { intros x y z later -> X1 X2 X3. eapply brings_weaken; [exact H6|].
    assert (E : parse_header (at_ before (be_bytes 2 x ++ be_bytes 2 y ++ be_bytes 2 z ++ later)) = (at_ (before ++ be_bytes 2 x ++ be_bytes 2 y ++ be_bytes 2 z) later, Ok (x, y, z))).
    { unfold parse_header, rbind, ret. rewrite !read_ok by (rewrite be_bytes_length; reflexivity). rewrite !from_be_bytes by assumption. rewrite <- !app_assoc. reflexivity. }
    rewrite E. intros v h' (E1 & E2 & E3). split; [|exact E3]. split; [exact E1|exact E2]. }
  intros L. eapply brings_weaken; [exact H6|]. intros v h' (E1 & E2 & E3). split; [|exact E3].
  assert (E : snd (parse_header (at_ before rest)) = Err MIDIParsingError).
  { clear -L. destruct rest as [|a [|b [|c [|d [|e [|f r]]]]]]; cbn in L; try lia; unfold parse_header, rbind, ret.
    all: repeat (rewrite read_at by lia; change (Z.to_nat 2) with 2%nat; cbn [firstn skipn List.length];
      lazymatch goal with |- context [2 <=? ?x] => let b := eval vm_compute in (2 <=? x) in change (2 <=? x) with b end; cbv iota beta). all: reflexivity. }
  rewrite E in E1. exact E1.
Qed.

(** r._read_var_len(_Reader(w._format_var_len(x))) *)
Definition read_written : expr := meth (name "m") "_read_var_len" [call (name "_Reader") [meth (name "w") "_format_var_len" [name "x"]]].
Lemma c85_inverse : forall Y h c m c' w x, 0 <= x ->
  brings Y h [("m", enc_midi_reader c m); ("w", enc_writer c' w); ("x", VInt x)] read_written (fun v h' => v = Ok (VInt x) /\ keeps [] h h').
Proof.
  intros Y h c m c' w x X. destruct (format_var_len_vlq x X) as (bs & E & VL). unfold read_written, enc_midi_reader, enc_writer. destruct m as [delta]. cbn [mr_delta].
  assert (BS : Forall is_byte bs).
  { destruct VL as (ds & _ & D & -> & _). clear -D. induction ds as [|d [|e r] IH]; [constructor|repeat constructor; inversion D; unfold is_digit, is_byte in *; lia|].
    rewrite with_bit7_cons. inversion D; subst. constructor; [unfold is_digit, is_byte in *; lia|apply IH; assumption]. }
  assert (GR : good_reader (reader_new bs)) by (split; [exact BS|cbn; lia]).
  pose proof (read_var_len_runs Y (next_place h) (reader_new bs) GR (read_var_len_fuel _ GR)) as RV.
  assert (RO : read_var_len (reader_new bs) = (at_ bs [], Ok x)).
  { rewrite reader_new_at. rewrite <- (app_nil_r bs) at 1. rewrite (read_var_len_ok _ _ _ _ VL). reflexivity. }
  unfold RefineReader.reads in RV. rewrite RO in RV. cbn [fst snd outcome_of] in RV.
  opening. repeat (lazymatch goal with |- reaches _ _ (Ca (VFun _) _ _ _ _) _ => fail | _ => adv end).
  eapply reaches_steps; [apply format_var_len_runs|]. rewrite E. cbn [outcome_of PySem.ends].
  repeat (lazymatch goal with |- reaches _ _ (Ca (VClass _) _ _ _ _) _ => fail | _ => adv end).
  eapply reaches_trans; [apply reader_new_runs|]. intros ? (h1 & -> & G1 & K1). cbn [PySem.ends].
  repeat (lazymatch goal with |- reaches _ _ (Ca (VFun _) _ _ _ _) _ => fail | _ => adv end).
  eapply reaches_trans; [exact (RV h1 _ G1)|]. intros ? (h2 & -> & G2 & K2). done_here. split; [reflexivity|].
  destruct K1 as [K1 C1]. destruct K2 as [K2 C2]. split; [|congruence]. intros b o _ Gb. apply K2; [|apply K1; [intros []|exact Gb]].
  intros [<-|[]]. exact (old_new _ _ _ Gb eq_refl).
Qed.

(** m._time_to_signature(z, ticks_per_quarter=q) and w._signature_to_pulses(m._time_to_signature(z, ticks_per_quarter=q)) *)
Definition read_time : expr := EOp (OCall [APos; AKey "ticks_per_quarter"]) [attr (name "m") "_time_to_signature"; name "z"; name "q"].
Definition rewritten_time : expr := meth (name "w") "_signature_to_pulses" [read_time].
Lemma c85_times : forall Y h c m c' w q ca bpm ch z, writer_new (py_nd Y) q ca bpm ch = Ok w ->
  let vars := [("m", enc_midi_reader c m); ("w", enc_writer c' w); ("z", VInt z); ("q", VInt q)] in
  (0 <= z -> exists s, evaluates Y h vars read_time (Ok (enc_sig s)) /\ valid_sig s /\ Z.gcd (nominator s) (denominator s) = 1 /\
     (sval s <= z # Z.to_pos (4 * q))%Q /\ ((z # Z.to_pos (4 * q)) < sval s + (1 # 16384))%Q /\ ((q | 4096 * z) -> (sval s == z # Z.to_pos (4 * q))%Q)) /\
  (z < 0 -> evaluates Y h vars read_time (Err ValueError)) /\
  (0 <= z -> q <= 4096 -> exists z', evaluates Y h vars rewritten_time (Ok (VInt z')) /\ (z' = z \/ z' = z - 1) /\ ((q | 4096 * z) -> z' = z)).
Proof.
  intros Y h c m c' w q ca bpm ch z W. cbv zeta.
  assert (Q : 1 <= q <= 32767).
  { unfold writer_new in W. destruct ((1 <=? q) && (q <=? 32767)) eqn:E; [lia|discriminate]. }
  assert (RT : forall K, steps melodia Y (Ev read_time [("m", enc_midi_reader c m); ("w", enc_writer c' w); ("z", VInt z); ("q", VInt q)] h K) (PySem.ends (outcome_of enc_sig (time_to_signature z q)) h K)).
  { intros K. unfold enc_midi_reader, enc_writer, read_time, attr, name. repeat (lazymatch goal with |- steps _ _ (Ca (VFun _) _ _ _ _) _ => fail | _ => adv end). apply time_to_signature_runs. }
  split.
  { intros Z. destruct (c39_value z q Z ltac:(lia)) as (s & E & P). exists s. rewrite E in RT. split; [exact RT|exact P]. }
  split.
  { intros Z. assert (E : time_to_signature z q = Err ValueError).
    { unfold time_to_signature. replace (q >? 0) with true by lia. cbn [negb]. assert (N : z * 4096 / q < 0) by (apply Z.div_lt_upper_bound; lia).
      unfold sig_new. replace (z * 4096 / q >=? 0) with false by lia. reflexivity. }
    rewrite E in RT. exact RT. }
  intros Z Q'. destruct (c39_value z q Z ltac:(lia)) as (s & E & V & _). destruct (c39_rewritten _ _ _ _ _ _ _ _ W Q' Z E) as [D X].
  assert (G : exists z', signature_to_pulses w s = Ok z' /\ (z' = z \/ z' = z - 1) /\ ((q | 4096 * z) -> z' = z)).
  { destruct D as [D|D]; rewrite D in *; eexists; (split; [reflexivity|]); (split; [lia|]); intros H; specialize (X H); congruence. }
  destruct G as (z' & S & A). exists z'. split; [|exact A]. rewrite E in RT. cbn [outcome_of PySem.ends] in RT.
  intros K. unfold rewritten_time, meth, call, attr. cbn [List.map].
  eapply steps_trans; [|eapply signature_to_pulses_runs; [exact S|exact V]].
  unfold enc_writer at 1. unfold name at 1.
  repeat (lazymatch goal with |- steps _ _ (Ev read_time _ _ _) _ => fail | _ => adv end).
  eapply steps_trans; [apply RT|]. unfold enc_writer. do 2 adv. apply steps_refl.
Qed.
