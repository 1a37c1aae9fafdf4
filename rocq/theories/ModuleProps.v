(** Constructors of tracks, writers and readers, and the functions of the module io.midi (C64). *)
From Coq Require Import ZArith QArith List Bool Lia ZifyBool Permutation.
From Coq Require Import String.
From Verif Require Import Py PyFloat PySort Timsort Signature Tone Note Track MidiWriter MidiReader Show
  SpecBase TrackSpec MidiSpec ReaderSpec DumpSpec ToneProps NoteProps TrackFacts TrackProps TripSpec TripFacts TripProps StableProps ChannelProps.
Import ListNotations.
Open Scope Z_scope.

(** ** Track *)
Lemma add_content_err : forall content t l, Inv t l -> Forall (fun c => op_ok (content_op c)) content ->
  (exists c a, In c content /\ snd c = Some a /\ position_of a = None) ->
  add_content t content = Err ValueError \/ add_content t content = Err TypeError.
Proof.
  induction content as [|[w p] r IH]; intros t l HI Hc (c & a & H1 & H2 & H3); [destruct H1|].
  inversion Hc as [|? ? Hw Hr]; subst. cbn [add_content].
  destruct (track_add_inv t l w p HI Hw) as (I1 & _ & I2 & _).
  assert (D : (exists b, p = Some b /\ position_of b = None) \/ (forall b, p = Some b -> position_of b <> None)).
  { destruct p as [b|]; [|right; discriminate]. destruct (position_of b) eqn:E; [|left; exists b; auto].
    right. intros b' Eb. injection Eb as <-. congruence. }
  destruct D as [(b & -> & Hb)|D].
  - destruct (c24_rejected t w b Hb) as [-> | ->]; auto.
  - assert (E : snd (track_add t w p) = Ok tt).
    { apply I2. destruct p as [b|]; [right|left; reflexivity]. exists b. specialize (D b eq_refl).
      destruct (position_of b) as [q|]; [exists q; auto|congruence]. }
    destruct (track_add t w p) as [t' o]. cbn [fst snd] in *. subst o.
    eapply IH; [exact I1|exact Hr|]. exists c, a. split; [|auto]. destruct H1 as [<-|H1]; [|exact H1].
    cbn [snd] in H2. subst p. exfalso. exact (D a eq_refl H3).
Qed.

Lemma c64_track : forall sort sa content, Forall (fun c => op_ok (content_op c)) content ->
  (forall s, position_of sa = Some s -> (forall c a, In c content -> snd c = Some a -> position_of a <> None) ->
     track_new sa content = Ok (run sort (track_empty s) (map content_op content))) /\
  (position_of sa = None \/ (exists c a, In c content /\ snd c = Some a /\ position_of a = None) ->
     track_new sa content = Err ValueError \/ track_new sa content = Err TypeError).
Proof.
  intros sort sa content Hc. split.
  - intros s Hs HP. apply c17_constructor; [exact Hs|]. rewrite Forall_forall in *. intros c Hin. split; [apply Hc, Hin|].
    intros a Ha. eapply HP; eassumption.
  - intros H. destruct (position_of_sig sa) as [E1 E2]. unfold track_new.
    destruct (position_of sa) as [s|] eqn:E.
    + destruct H as [H|H]; [discriminate|]. rewrite E1. cbn [bind]. eapply add_content_err; [apply inv_empty|exact Hc|exact H].
    + destruct (E2 eq_refl) as [-> | ->]; auto.
Qed.

(** ** MIDIWriter and MIDIReader *)
Lemma c64_writer : forall nd ppq middle_c bpm channel, digit_table nd ->
  (forall c, tone_argument nd middle_c c -> 1 <= ppq <= 32767 -> 0 <= channel <= 15 ->
     writer_new nd ppq middle_c bpm channel = Ok (mkWriter ppq (4 * ppq) (60 - pitch c) bpm channel)) /\
  (~ (1 <= ppq <= 32767 /\ 0 <= channel <= 15) -> writer_new nd ppq middle_c bpm channel = Err ValueError) /\
  ((forall c, ~ tone_argument nd middle_c c) ->
     writer_new nd ppq middle_c bpm channel = Err ValueError \/ writer_new nd ppq middle_c bpm channel = Err TypeError).
Proof.
  intros nd ppq mc bpm ch Hnd. unfold writer_new.
  destruct (tone_of_arg_spec nd mc Hnd) as [(t & T1 & T2)|(T1 & T2)].
  - split; [|split].
    + intros c Hc H1 H2. rewrite (tone_argument_fun _ _ _ _ Hc T1), T2.
      destruct ((1 <=? ppq) && (ppq <=? 32767)) eqn:E1; [|lia].
      destruct ((0 <=? ch) && (ch <=? 15)) eqn:E2; [|lia]. cbn [negb bind]. rewrite Z.mul_comm. reflexivity.
    + intros H. destruct ((1 <=? ppq) && (ppq <=? 32767)) eqn:E1; [|reflexivity].
      destruct ((0 <=? ch) && (ch <=? 15)) eqn:E2; [lia|reflexivity].
    + intros H. exfalso. exact (H _ T1).
  - split; [|split].
    + intros c Hc. exfalso. exact (T1 _ Hc).
    + intros H. destruct ((1 <=? ppq) && (ppq <=? 32767)) eqn:E1; [|reflexivity].
      destruct ((0 <=? ch) && (ch <=? 15)) eqn:E2; [lia|reflexivity].
    + intros _. destruct (negb _); [auto|]. destruct (negb _); [auto|]. destruct T2 as [-> | ->]; auto.
Qed.

Lemma c64_reader : forall nd middle_c, digit_table nd ->
  (forall c, tone_argument nd middle_c c -> midi_reader_new nd middle_c = Ok (mkMR (60 - pitch c))) /\
  ((forall c, ~ tone_argument nd middle_c c) ->
     midi_reader_new nd middle_c = Err ValueError \/ midi_reader_new nd middle_c = Err TypeError).
Proof.
  intros nd mc Hnd. unfold midi_reader_new. destruct (tone_of_arg_spec nd mc Hnd) as [(t & T1 & T2)|(T1 & T2)]; split.
  - intros c Hc. rewrite (tone_argument_fun _ _ _ _ Hc T1), T2. reflexivity.
  - intros H. exfalso. exact (H _ T1).
  - intros c Hc. exfalso. exact (T1 _ Hc).
  - intros _. destruct T2 as [-> | ->]; auto.
Qed.

(** ** dumps and loads *)
Definition module_writer (bpm : float) (channel : Z) : writer := mkWriter 96 384 24 bpm channel.

Lemma module_writer_new bpm channel : 0 <= channel <= 15 ->
  writer_new ascii_digit 96 default_middle_c bpm channel = Ok (module_writer bpm channel).
Proof.
  intros H. unfold writer_new. destruct ((0 <=? channel) && (channel <=? 15)) eqn:E; [|lia]. reflexivity.
Qed.

Lemma c64_dumps : forall sort t bpm channel,
  (~ 0 <= channel <= 15 -> midi_dumps sort t bpm channel = Err ValueError) /\
  (forall nd middle_c c w, digit_table nd -> tone_argument nd middle_c c -> pitch c = 36 ->
     writer_new nd 96 middle_c bpm channel = Ok w -> midi_dumps sort t bpm channel = dumps sort w t) /\
  (forall nd w, digit_table nd -> writer_new nd 96 (TA_str (lit "C3")) bpm channel = Ok w ->
     midi_dumps sort t bpm channel = dumps sort w t).
Proof.
  intros sort t bpm channel.
  assert (H : forall nd middle_c c w, digit_table nd -> tone_argument nd middle_c c -> pitch c = 36 ->
     writer_new nd 96 middle_c bpm channel = Ok w -> midi_dumps sort t bpm channel = dumps sort w t).
  { intros nd mc c w Hnd Hc Ep Hw. destruct (c64_writer nd 96 mc bpm channel Hnd) as (W1 & W2 & _).
    assert (Hch : 0 <= channel <= 15).
    { destruct (Z_le_dec 0 channel) as [A|A]; [destruct (Z_le_dec channel 15) as [B|B]; [lia|]|];
        rewrite W2 in Hw by lia; discriminate. }
    rewrite (W1 c Hc ltac:(lia) Hch), Ep in Hw. injection Hw as <-.
    unfold midi_dumps. rewrite (module_writer_new bpm channel Hch). reflexivity. }
  split; [|split].
  - intros Hc. unfold midi_dumps, writer_new. destruct ((0 <=? channel) && (channel <=? 15)) eqn:E; [lia|]. reflexivity.
  - exact H.
  - intros nd w Hnd Hw. apply (H nd (TA_str (lit "C3")) (mkTone 36) w Hnd); [|reflexivity|exact Hw].
    constructor. apply c09_meaning; [exact Hnd|].
    change 36 with (12 * 3 + 0 + occurrences sharp [] - occurrences flat []).
    apply (notation_intro nd 67 0 [] [51] 3); [cbn; auto 10|constructor|].
    apply (octave_pos nd [51] [3]); [discriminate|]. constructor; [|constructor].
    destruct Hnd as [Hnd _]. apply (Hnd 51). lia.
Qed.

Lemma c64_loads : forall sort file channel nd middle_c c m, digit_table nd -> tone_argument nd middle_c c -> pitch c = 36 ->
  midi_reader_new nd middle_c = Ok m -> midi_loads sort file channel = load sort m file channel.
Proof.
  intros sort file ch nd mc c m Hnd Hc Ep Hm. destruct (c64_reader nd mc Hnd) as (R & _). rewrite (R c Hc), Ep in Hm.
  injection Hm as <-. reflexivity.
Qed.

Lemma c64_round_trip : forall sort, sort_contract sort -> forall s ops bpm channel bs,
  valid_sig s -> Forall op_ok ops -> midi_dumps sort (run sort (track_empty s) ops) bpm channel = Ok bs ->
  Z.of_nat (length bs) < 22 + 2 ^ 24 ->
  ForallOrdPairs apart (contents sort s ops) -> plain (contents sort s ops) ->
  Forall audible (contents sort s ops) -> Forall (whole_note 96) (contents sort s ops) -> Forall byte_velocity (contents sort s ops) ->
  (exists t, midi_loads sort bs None = Ok t /\
     eq_result sort t (run sort (track_empty s) ops) = true /\ eq_result sort (run sort (track_empty s) ops) t = true) /\
  (contents sort s ops <> [] ->
   (exists u, midi_loads sort bs (Some channel) = Ok u /\
      Permutation (map value_of (yields sort u)) (map value_of (yields sort (run sort (track_empty s) ops)))) /\
   forall other, other <> channel -> midi_loads sort bs (Some other) = Err ValueError).
Proof.
  intros sort Hs s ops bpm ch bs HS Ho E HL H1 H2 H3 H4 H5.
  assert (Hch : 0 <= ch <= 15).
  { destruct (Z_le_dec 0 ch) as [A|A]; [destruct (Z_le_dec ch 15) as [B|B]; [lia|]|];
      destruct (c64_dumps sort (run sort (track_empty s) ops) bpm ch) as (D & _); rewrite D in E by lia; discriminate. }
  assert (HT : trip sort 96 ch (module_writer bpm ch) (mkTone 36) (mkTone 36) (mkMR 24) s ops bs).
  { unfold midi_dumps in E. rewrite (module_writer_new bpm ch Hch) in E. cbn [bind] in E. split; try assumption.
    - exists ascii_digit, default_middle_c, bpm. split; [apply module_writer_new, Hch|reflexivity].
    - exists ascii_digit, default_middle_c. split; reflexivity. }
  destruct (c40_equal sort Hs _ _ _ _ _ _ _ _ _ HT eq_refl H1 H2 H3 H4 H5) as (t & T1 & T2 & T3 & T4).
  split; [exists t; auto|]. intros Hne.
  destruct (c47_dumped sort Hs _ _ _ _ _ _ _ _ _ HT Hne) as (u & t' & U1 & U2 & U3 & _ & U4 & _).
  split; [|exact U3]. exists u. split; [exact U1|]. rewrite U2 in T1. injection T1 as ->. rewrite <- T4. exact U4.
Qed.
