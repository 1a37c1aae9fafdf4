(** The methods of MIDIWriter and MIDIReader that write and read headers, fixed events and integers, for
    all their arguments (C68). *)
From Coq Require Import ZArith List Bool Lia.
From Verif Require Import Py PyFloat PySort Signature Tone Note Track MidiWriter MidiReader
  SpecBase TrackSpec MidiSpec DumpSpec VarLenFacts TimeFacts VelocityFacts WriterFacts WriterProps.
Import ListNotations.
Open Scope Z_scope.

Lemma c68_integers : forall pre rest a b c d,
  let at_start l := mkReader (pre ++ l) (Z.of_nat (length pre)) in
  let after k l := mkReader (pre ++ l) (Z.of_nat (length pre) + k) in
  read_8 (at_start (a :: rest)) = (after 1 (a :: rest), Ok a) /\
  read_16 (at_start (a :: b :: rest)) = (after 2 (a :: b :: rest), Ok (256 * a + b)) /\
  read_24 (at_start (a :: b :: c :: rest)) = (after 3 (a :: b :: c :: rest), Ok (65536 * a + 256 * b + c)) /\
  read_32 (at_start (a :: b :: c :: d :: rest)) = (after 4 (a :: b :: c :: d :: rest), Ok (16777216 * a + 65536 * b + 256 * c + d)).
Proof.
  intros pre rest a b c d at_start after.
  assert (G : forall k l, Z.of_nat (length l) = k -> forall r,
    (do x <- read k; ret (from_bytes_be x)) (at_start (l ++ r)) = (after k (l ++ r), Ok (from_bytes_be l))).
  { intros k l <- r. change (at_start (l ++ r)) with (at_ pre (l ++ r)). unfold rbind. rewrite (read_ok pre l r _ eq_refl).
    unfold ret, at_, after. rewrite app_length, Nat2Z.inj_add, <- app_assoc. reflexivity. }
  repeat split.
  - exact (G 1 [a] eq_refl rest).
  - etransitivity; [exact (G 2 [a; b] eq_refl rest)|]. f_equal. f_equal. unfold from_bytes_be. cbn [fold_left]. lia.
  - etransitivity; [exact (G 3 [a; b; c] eq_refl rest)|]. f_equal. f_equal. unfold from_bytes_be. cbn [fold_left]. lia.
  - etransitivity; [exact (G 4 [a; b; c; d] eq_refl rest)|]. f_equal. f_equal. unfold from_bytes_be. cbn [fold_left]. lia.
Qed.

Lemma c68_short : forall pre rest k f,
  In (k, f) [(1%nat, read_8); (2%nat, read_16); (3%nat, read_24); (4%nat, read_32)] -> (length rest < k)%nat ->
  f (mkReader (pre ++ rest) (Z.of_nat (length pre))) =
    (mkReader (pre ++ rest) (reader_len (mkReader (pre ++ rest) 0)), Err MIDIParsingError) /\
  reader_len (mkReader (pre ++ rest) 0) = Z.of_nat (length pre) + Z.of_nat (length rest).
Proof.
  intros pre rest k f HI HL. split; [|unfold reader_len; cbn [rd_data]; rewrite app_length; lia].
  assert (G : forall n, Z.of_nat (length rest) < n -> (do x <- read n; ret (from_bytes_be x)) (mkReader (pre ++ rest) (Z.of_nat (length pre))) =
    (mkReader (pre ++ rest) (reader_len (mkReader (pre ++ rest) 0)), Err MIDIParsingError)).
  { intros n Hn. unfold rbind, read. cbn [rd_data rd_idx]. rewrite app_length.
    replace (Z.of_nat (length pre + length rest) - Z.of_nat (length pre) <? n) with true by lia.
    unfold reader_len. cbn [rd_data]. rewrite app_length. reflexivity. }
  cbn in HI. repeat (destruct HI as [E|HI]; [injection E as <- <-; apply G; lia|]). contradiction.
Qed.

Lemma c68_chunk : forall kind body,
  format_chunk kind body =
  if negb (Nat.eqb (length kind) 4) then Err AssertionError
  else if Z.of_nat (length body) <? 2 ^ 32 then Ok (kind ++ be_bytes 4 (Z.of_nat (length body)) ++ body)
  else Err OverflowError.
Proof.
  intros kind body. destruct (Nat.eqb_spec (length kind) 4) as [H|H]; cbn [negb].
  - destruct (Z.ltb_spec (Z.of_nat (length body)) (2 ^ 32)) as [L|L]; [exact (format_chunk_ok _ _ H L)|exact (format_chunk_err _ _ H L)].
  - unfold format_chunk. replace (Z.of_nat (length kind) =? 4) with false by lia. reflexivity.
Qed.

Lemma c68_header : forall nd ppq middle_c bpm channel w kind n_tracks,
  writer_new nd ppq middle_c bpm channel = Ok w ->
  let body := be_bytes 2 kind ++ be_bytes 2 n_tracks ++ be_bytes 2 ppq in
  format_header_chunk w kind n_tracks =
    (if negb ((0 <=? kind) && (kind <=? 2)) then Err AssertionError
     else if (0 <=? n_tracks) && (n_tracks <? 2 ^ 16) then Ok (chunk [77; 84; 104; 100] body)
     else Err OverflowError) /\
  (0 <= kind <= 2 -> 0 <= n_tracks < 2 ^ 16 -> length body = 6%nat /\
   snd (parse_header (reader_new body)) = Ok (kind, n_tracks, ppq)).
Proof.
  intros nd ppq middle_c bpm channel w kind n_tracks Hw body.
  pose proof (writer_new_ok _ _ _ _ _ _ Hw) as (Hok & Hppq & _). destruct Hok as (Hp & _). rewrite Hppq in Hp.
  assert (P : 256 ^ Z.of_nat 2 = 2 ^ 16) by reflexivity.
  split.
  - unfold format_header_chunk. replace ((kind =? 0) || (kind =? 1) || (kind =? 2)) with ((0 <=? kind) && (kind <=? 2)) by lia.
    destruct ((0 <=? kind) && (kind <=? 2)) eqn:Ek; [|reflexivity]. cbn [negb].
    rewrite (to_bytes_be_bytes kind 2) by (rewrite P; lia). cbn [bind].
    destruct ((0 <=? n_tracks) && (n_tracks <? 2 ^ 16)) eqn:En.
    + rewrite (to_bytes_be_bytes n_tracks 2) by (rewrite P; lia). cbn [bind]. rewrite Hppq.
      rewrite (to_bytes_be_bytes ppq 2) by (rewrite P; lia). cbn [bind]. apply format_chunk_ok; [reflexivity|].
      unfold body. rewrite !app_length, !be_bytes_length. reflexivity.
    + rewrite to_bytes_be_err by (rewrite P; lia). reflexivity.
  - intros Hk Hn. split; [unfold body; rewrite !app_length, !be_bytes_length; reflexivity|].
    unfold parse_header, body. rewrite reader_new_at. unfold rbind.
    rewrite (read_ok [] (be_bytes 2 kind)) by (rewrite be_bytes_length; reflexivity).
    rewrite (read_ok _ (be_bytes 2 n_tracks)) by (rewrite be_bytes_length; reflexivity).
    rewrite <- (app_nil_r (be_bytes 2 ppq)). rewrite (read_ok _ (be_bytes 2 ppq)) by (rewrite be_bytes_length; reflexivity).
    unfold ret. cbn [snd]. rewrite !from_be_bytes by (rewrite P; lia). reflexivity.
Qed.

Lemma c68_signature : forall s cc bb, valid_sig s ->
  format_signature s cc bb =
    (if (nominator s <? 256) && (Z.log2 (denominator s) <? 256) && (0 <=? cc) && (cc <? 256) && (0 <=? bb) && (bb <? 256)
     then Ok [255; 88; 4; nominator s; Z.log2 (denominator s); cc; bb] else Err OverflowError) /\
  forall depth previous pre rest nn dd,
    let l := [255; 88; 4; nn; dd; cc; bb] in
    read_event (S depth) None previous (mkReader (pre ++ l ++ rest) (Z.of_nat (length pre))) =
    (mkReader (pre ++ l ++ rest) (Z.of_nat (length pre) + 7), Ok (EvTimeSignature nn dd cc bb, Some 255)).
Proof.
  intros s cc bb [Hn (k & Hk & Hd)]. split.
  - unfold format_signature. rewrite Hd. rewrite bit_length_pow2 by lia. rewrite Z.log2_pow2 by lia.
    assert (E : forall n, to_bytes_be n 1 = if (0 <=? n) && (n <? 256) then Ok [n] else Err OverflowError).
    { intros n. destruct ((0 <=? n) && (n <? 256)) eqn:E; [apply to_bytes_1; lia|apply to_bytes_be_err; change (256 ^ Z.of_nat 1) with 256; lia]. }
    rewrite !E. replace (0 <=? nominator s) with true by lia. replace (0 <=? k) with true by lia. cbn [andb].
    destruct (nominator s <? 256); [|reflexivity]. destruct (k <? 256); [|reflexivity]. cbn [bind andb].
    destruct (0 <=? cc); [|reflexivity]. destruct (cc <? 256); [|reflexivity]. cbn [bind andb].
    destruct (0 <=? bb); [|reflexivity]. destruct (bb <? 256); reflexivity.
  - intros depth previous pre rest nn dd l. unfold l. change (mkReader (pre ++ [255; 88; 4; nn; dd; cc; bb] ++ rest) (Z.of_nat (length pre))) with
      (at_ pre (255 :: 88 :: 4 :: nn :: dd :: cc :: bb :: rest)).
    cbn [read_event]. unfold rbind at 1. rewrite read_8_ok. cbv iota beta. change (255 =? 255) with true. cbv iota.
    unfold rbind at 1. rewrite read_8_ok. unfold rbind at 1. unfold read_var_len at 1. unfold rbind at 1. rewrite read_8_ok.
    change (Z.land 4 128 =? 0) with true. cbv iota. unfold ret at 1. change (88 =? 47) with false. change (88 =? 32) with false.
    change (88 =? 88) with true. change (negb (4 =? 4)) with false. cbv iota.
    unfold rbind. rewrite !read_8_ok. unfold ret, at_. f_equal. f_equal.
    + rewrite <- !app_assoc. reflexivity.
    + rewrite !app_length. cbn [length]. lia.
Qed.

Lemma c68_tempo : forall tempo,
  format_tempo tempo = if (0 <=? tempo) && (tempo <? 2 ^ 24)
    then Ok [255; 81; 3; tempo / 65536; tempo / 256 mod 256; tempo mod 256] else Err OverflowError.
Proof.
  intros k. unfold format_tempo. destruct ((0 <=? k) && (k <? 2 ^ 24)) eqn:E.
  - rewrite to_bytes_be_ok by (change (256 ^ Z.of_nat 3) with (2 ^ 24); lia). cbn [bind le_digits rev app].
    rewrite Z.div_div by lia. rewrite (Z.mod_small (k / (256 * 256))); [reflexivity|].
    split; [apply Z.div_pos; lia|apply Z.div_lt_upper_bound; lia].
  - rewrite to_bytes_be_err by (change (256 ^ Z.of_nat 3) with (2 ^ 24); lia). reflexivity.
Qed.

(** The event a reader sees. *)
Definition note_read (status p v : Z) : event :=
  if status <? 144 then EvNoteOff (status mod 16) p v
  else if v =? 0 then EvNoteOff (status mod 16) p v else EvNoteOn (status mod 16) p v.

Lemma read_note depth given previous status p v pre rest : 128 <= status < 160 ->
  read_event (S depth) (if given : bool then None else Some status) previous (at_ pre ((if given then [status] else []) ++ [p; v] ++ rest)) =
  (at_ (pre ++ (if given then [status] else []) ++ [p; v]) rest, Ok (note_read status p v, Some status)).
Proof.
  intros Hs. cbn [read_event].
  assert (E : (do s <- match (if given then None else Some status) with None => read_8 | Some s => ret s end; ret s)
                (at_ pre ((if given then [status] else []) ++ [p; v] ++ rest)) =
              (at_ (pre ++ (if given then [status] else [])) ([p; v] ++ rest), Ok status)).
  { destruct given; cbn [app]; unfold rbind.
    - rewrite read_8_ok. reflexivity.
    - rewrite app_nil_r. reflexivity. }
  unfold rbind at 1. unfold rbind at 1 in E.
  destruct (match (if given then None else Some status) with None => read_8 | Some s => ret s end _) as [r [x|e]]; [|discriminate].
  unfold ret in E at 1. assert (r = at_ (pre ++ (if given then [status] else [])) ([p; v] ++ rest)) by congruence.
  assert (x = status) by congruence. subst r x. clear E. cbn [app].
  replace (status =? 255) with false by lia. replace (status >=? 128) with true by lia.
  assert (K : Z.shiftr status 4 = status / 16) by (rewrite Z.shiftr_div_pow2 by lia; reflexivity).
  assert (C : Z.land status 15 = status mod 16) by (change 15 with (Z.ones 4); rewrite Z.land_ones by lia; reflexivity).
  rewrite K, C. unfold note_read. replace (pre ++ (if given then [status] else []) ++ [p; v]) with (((pre ++ (if given then [status] else [])) ++ [p]) ++ [v])
    by (rewrite <- !app_assoc; reflexivity).
  destruct (Z.ltb_spec status 144) as [L|L].
  - replace (status / 16 =? 8) with true by (pose proof (Z.div_mod status 16); pose proof (Z.mod_pos_bound status 16); lia).
    unfold rbind. rewrite !read_8_ok. reflexivity.
  - assert (D : status / 16 = 9) by (pose proof (Z.div_mod status 16); pose proof (Z.mod_pos_bound status 16); lia). rewrite D.
    change (9 =? 8) with false. change (9 =? 9) with true. cbv iota. unfold rbind. rewrite !read_8_ok. destruct (v =? 0); reflexivity.
Qed.

Lemma read_note_running depth status p v pre rest : 128 <= status < 160 -> p < 128 ->
  read_event (S (S depth)) None (Some status) (at_ pre ([p; v] ++ rest)) =
  (at_ (pre ++ [p; v]) rest, Ok (note_read status p v, Some status)).
Proof.
  intros Hs Hp. remember (S depth) as d eqn:Ed. cbn [read_event].
  unfold rbind at 1. cbn [app]. rewrite read_8_ok. replace (p =? 255) with false by lia. replace (p >=? 128) with false by lia.
  unfold rbind at 1. rewrite shift_back, Ed. exact (read_note depth false (Some status) status p v pre rest Hs).
Qed.

Lemma c68_notes : forall nd ppq middle_c bpm channel w m n,
  writer_new nd ppq middle_c bpm channel = Ok w -> midi_reader_new nd middle_c = Ok m -> valid_note n ->
  let reads b k status e := forall depth previous pre rest,
    read_event (S (S depth)) None previous (mkReader (pre ++ b ++ rest) (Z.of_nat (length pre))) =
      (mkReader (pre ++ b ++ rest) (Z.of_nat (length pre) + k), Ok (e, Some status)) in
  let reads_after b k status e := forall depth pre rest,
    read_event (S (S depth)) None (Some status) (mkReader (pre ++ b ++ rest) (Z.of_nat (length pre))) =
      (mkReader (pre ++ b ++ rest) (Z.of_nat (length pre) + k), Ok (e, Some status)) in
  (forall b, format_note_on w n = Ok b -> exists p v, 0 <= p < 128 /\ 0 <= v < 128 /\
     b = [144 + channel; p; v] /\ velocity_byte (n_velocity n) = Ok v /\ pitch_to_tone m p = n_tone n /\
     let e := if v =? 0 then EvNoteOff channel p 0 else EvNoteOn channel p v in
     reads b 3 (144 + channel) e /\ reads_after [p; v] 2 (144 + channel) e) /\
  (forall b, format_note_off w n = Ok b -> exists p, 0 <= p < 128 /\
     b = [128 + channel; p; 64] /\ pitch_to_tone m p = n_tone n /\
     reads b 3 (128 + channel) (EvNoteOff channel p 64) /\ reads_after [p; 64] 2 (128 + channel) (EvNoteOff channel p 64)).
Proof.
  intros nd ppq mc bpm ch w m n Hw Hm Hn reads reads_after.
  destruct (writer_new_ok _ _ _ _ _ _ Hw) as (Hok & Hq & Hbpm & Hch & c & Hc & Hd).
  assert (Hch' : 0 <= ch < 16) by (destruct Hok as (_ & _ & H); lia).
  destruct (c36_bytes _ _ _ _ _ _ _ n Hw Hc Hn) as [Hin Hout].
  assert (Hpt : pitch_to_tone m (60 + pitch (n_tone n) - pitch c) = n_tone n).
  { rewrite (c36_reading _ _ _ (pitch c) n c Hm Hc). rewrite Z.sub_diag, Z.add_0_r. destruct (n_tone n); reflexivity. }
  assert (Hr : forall status p v e, 128 <= status < 160 -> 0 <= p < 128 -> note_read status p v = e ->
    reads [status; p; v] 3 status e /\ reads_after [p; v] 2 status e).
  { intros status p v e Hs Hp <-. split.
    - intros depth previous pre rest. etransitivity; [exact (read_note (S depth) true previous status p v pre rest Hs)|].
      unfold at_. cbn [app]. rewrite <- app_assoc. cbn [app]. rewrite app_length. cbn [length]. f_equal. f_equal. lia.
    - intros depth pre rest. etransitivity; [exact (read_note_running depth status p v pre rest Hs ltac:(lia))|].
      unfold at_. cbn [app]. rewrite <- app_assoc. cbn [app]. rewrite app_length. cbn [length]. f_equal. f_equal. lia. }
  assert (Hmod : forall k, (16 | k) -> (k + ch) mod 16 = ch).
  { intros k [q ->]. rewrite Z.add_comm, Z.mod_add, Z.mod_small by lia. reflexivity. }
  destruct (Z_le_dec 0 (60 + pitch (n_tone n) - pitch c)) as [P1|P1];
    [destruct (Z_le_dec (60 + pitch (n_tone n) - pitch c) 127) as [P2|P2]|].
  2, 3: assert (Hno : ~ in_midi_range (pitch c) n) by (unfold in_midi_range, note_pitch; lia);
    destruct (Hout Hno) as [E1 E2]; split; intros b Hb; congruence.
  assert (Hi : in_midi_range (pitch c) n) by (unfold in_midi_range, note_pitch; lia).
  destruct (Hin Hi) as [E1 E2]. rewrite E1, E2. destruct Hn as [_ Hv].
  destruct (velocity_byte_eq _ Hv) as [Ev Bv]. split; intros b Hb.
  - assert (b = [144 + ch; 60 + pitch (n_tone n) - pitch c; note_velocity n]) by congruence. subst b.
    exists (60 + pitch (n_tone n) - pitch c), (note_velocity n). unfold note_velocity. rewrite Ev.
    split; [lia|]. split; [lia|]. split; [reflexivity|]. split; [reflexivity|]. split; [exact Hpt|]. apply Hr; [lia|lia|].
    unfold note_read. replace (144 + ch <? 144) with false by lia. rewrite Hmod by (exists 9; reflexivity).
    destruct (Z.eqb_spec (Qround.Qfloor (product (n_velocity n))) 0) as [->|]; reflexivity.
  - assert (b = [128 + ch; 60 + pitch (n_tone n) - pitch c; 64]) by congruence. subst b.
    exists (60 + pitch (n_tone n) - pitch c). split; [lia|]. split; [reflexivity|]. split; [exact Hpt|]. apply Hr; [lia|lia|].
    unfold note_read. replace (128 + ch <? 144) with true by lia. rewrite Hmod by (exists 8; reflexivity). reflexivity.
Qed.
