(** Lemmas for C88 and C90: when all replies of a session are packets. *)
From Coq Require Import Ascii ZifyBool ZifyNat ZifyN Lia.
From Verif Require Import Base BaseFacts Text SpecText TextFacts TextThms GoTypes Types Payload Lingo LingoFacts Command SpecPayload SpecCommand Handlers SpecHandlers HandlersFacts
  Packet PacketFacts PacketThms SpecPacket Hid SpecHid Trace SpecTrace Server SpecServer ServerFacts ServerThms SpecProtocol SpecWire ProtocolProps ProtocolMore
  SpecSession RecordThms Log SpecLog LogThms AgreeThms SpecReadable.
Local Open Scope string_scope.
#[local] Opaque std_registry requests.

Definition sent_within (k : nat) (x : happening) : Prop := match x with Sent f => List.length f <= k | Received _ => True end.

Lemma feed_watched {W} (tp : transport W) fs : forall w hs w' hs',
  feed (watched tp) (w, hs) fs = done (w', hs') -> hs' = (hs ++ map Sent fs)%list.
Proof.
  induction fs as [|f fs IH]; intros w hs w' hs'; cbn [feed].
  - intros E. injection E as _ <-. now rewrite app_nil_r.
  - cbn [watched tp_WriteFrame fst snd]. destruct (tp_WriteFrame tp w f) as [[[w1 e]|]|]; cbn [io_bind done]; try discriminate.
    intros E. apply IH in E as ->. now rewrite <- app_assoc.
Qed.

Lemma frame_within {W} rt clock (tp : transport W) st w fr ps st' w' :
  sound st -> holds fr ps -> process_frame rt std_registry clock DevGeneral_device tp st w fr = done (st', w') ->
  sound st' /\ exists fs, feed tp w fs = done w' /\ Forall (fun f => List.length f <= 1285) fs
    /\ (Forall (fun p => ~ has_tokens p) ps -> Forall (fun f => List.length f <= 28) fs).
Proof.
  intros S H P. pose proof (frame_received rt clock tp st w fr ps S H) as F. unfold receive_frame in F.
  destruct (receive_all rt clock (memory_of st) ps) as [[m l]|] eqn:R; [|rewrite F in P; discriminate].
  destruct F as (st1 & S1 & _ & E). rewrite P in E.
  destruct (feed tp w _) as [[w1|]|] eqn:FE; cbn [io_bind done] in E; try discriminate. injection E as <- <-.
  split; [exact S1|]. eexists. split; [exact FE|].
  destruct (received_all _ _ _ _ _ _ R) as (_ & L & B & N). rewrite !Forall_map. split.
  - eapply Forall_impl; [|exact B]. intros r Hr. exact (frame_size _ 1280 (Hr _)).
  - intros T. eapply Forall_impl; [|exact (N T)]. intros r Hr. exact (frame_size _ 25 (Hr _)).
Qed.

Lemma session_within {W} rt clock (tp : transport W) fuel : forall st w hs st' w' hs',
  sound st ->
  processFrames_loop fuel rt std_registry clock DevGeneral_device (watched tp) st (w, hs) = done (st', (w', hs')) ->
  exists more, hs' = (hs ++ more)%list /\ Forall (sent_within 1285) more
    /\ (Forall tokenless more -> Forall (sent_within 28) more).
Proof.
  induction fuel as [|fuel IH]; intros st w hs st' w' hs' SO; cbn [processFrames_loop]; [discriminate|].
  cbn [watched tp_ReadFrame fst snd].
  destruct (tp_ReadFrame tp w) as [[[w1 r]|]|]; cbn [io_bind done]; try discriminate.
  destruct r as [fr|e].
  - destruct (process_frame rt std_registry clock DevGeneral_device (watched tp) st (w1, hs ++ [Received (inl (vis fr))])%list fr)
      as [[[st1 [w2 hs2]]|]|] eqn:P; cbn [io_bind]; try discriminate. intros E.
    assert (H : exists ps, holds fr ps).
    { destruct (process_frame_run rt clock (watched tp) st (w1, hs ++ [Received (inl (vis fr))])%list fr SO)
        as [(fs & st2 & (ps & _ & _ & H & _) & _)|[_ X]]; [eauto|rewrite P in X; discriminate]. }
    destruct H as (ps & H). destruct (frame_within _ _ _ _ _ _ _ _ _ SO H P) as (S1 & fs & FE & B & N).
    apply feed_watched in FE. subst hs2. destruct (IH _ _ _ _ _ _ S1 E) as (more & -> & M1 & M2).
    exists (Received (inl (vis fr)) :: map Sent fs ++ more)%list. split; [now rewrite <- !app_assoc|].
    split; [apply Forall_cons; [exact I|]; apply Forall_app; split; [rewrite Forall_map; exact B|exact M1]|].
    intros T. inversion T as [|? ? T1 T2]; subst. apply Forall_app in T2 as [_ T2].
    apply Forall_cons; [exact I|]. apply Forall_app. split; [|exact (M2 T2)]. rewrite Forall_map. apply N.
    cbn [tokenless] in T1. apply (T1 (spare fr)). destruct fr as [v sp]. exact H.
  - destruct e; cbn beta iota.
    + intros E. injection E as _ _ <-. exists []. split; [reflexivity|]. split; [|intros _]; apply Forall_nil.
    + intros E. destruct (IH _ _ _ _ _ _ SO E) as (more & -> & M1 & M2). eexists (_ :: more). split; [now rewrite <- app_assoc|].
      split; [apply Forall_cons; [exact I|exact M1]|]. intros T. inversion T; subst. apply Forall_cons; [exact I|auto].
    + intros E. destruct (IH _ _ _ _ _ _ SO E) as (more & -> & M1 & M2). eexists (_ :: more). split; [now rewrite <- app_assoc|].
      split; [apply Forall_cons; [exact I|exact M1]|]. intros T. inversion T; subst. apply Forall_cons; [exact I|auto].
    + intros E. destruct (IH _ _ _ _ _ _ SO E) as (more & -> & M1 & M2). eexists (_ :: more). split; [now rewrite <- app_assoc|].
      split; [apply Forall_cons; [exact I|exact M1]|]. intros T. inversion T; subst. apply Forall_cons; [exact I|auto].
Qed.

(** ** From the log *)

Lemma shown_256 errText (b : bytes) me r : sized_entry errText ">> PACKET" (len b) me r -> no_256 r -> len b <> 256%N.
Proof.
  intros E N L. pose proof (sized_unique _ _ _ _ _ _ E (logPacket_entry errText b me ">> PACKET")) as X. subst r.
  unfold no_256 in N. rewrite field_len, L in N. apply N; [destruct me; reflexivity|]. vm_compute. reflexivity.
Qed.

(** Frames of these lengths are packets or empty. *)
Definition fine (x : happening) : Prop := match x with Sent f => List.length f <= 1285 /\ List.length f <> 259 | Received _ => True end.

Lemma length_259 (b f : bytes) : WritePacket [] b = (f, None) -> b <> [] ->
  (List.length f = 259 <-> len b = 256%N) /\ List.length b < List.length f.
Proof.
  intros WP NB. destruct (WritePacket_shape [] b NB) as (h & E & Eh). rewrite E in WP. cbn [app] in WP.
  assert (F2 : (x55 :: h ++ b ++ [n2b (checksum (h ++ b))])%list = f) by congruence.
  rewrite <- F2. cbn [List.length]. rewrite !app_length. cbn [List.length]. unfold len in *.
  destruct (N.ltb_spec 256 (N.of_nat (List.length b))); subst h; cbn [List.length]; lia.
Qed.

Lemma logged_readable errText rt m hs l : logged errText rt m hs l -> Forall fine hs -> Forall readable hs.
Proof.
  induction 1 as [m|m e hs r l Er _ IH|m fr ps evs r l1 l2 hs l Er Hh Ha Pe Q _ IH|m c b me f we r1 r2 r3 hs l C M P F CT RG _ IH];
    intros B; [apply Forall_nil|..]; inversion B as [|? ? B1 B2]; subst; (apply Forall_cons; [|auto]); try exact I.
  cbn [readable fine] in *.
  destruct M as [(_ & _ & WP & NB)|(_ & ->)]; [right|left; reflexivity]. exists b.
  destruct (length_259 _ _ WP NB) as [L1 L2].
  assert (W : writable b).
  { split; [|lia]. unfold carriable, len. destruct b; [congruence|]. cbn [List.length] in *. lia. }
  destruct (WritePacket_is_packet [] b W) as (w & E & IP). rewrite E in WP. cbn [app] in WP. injection WP as <-. exact IP.
Qed.

Lemma logged_fine errText rt m hs l : logged errText rt m hs l -> Forall no_256 l ->
  Forall (sent_within 1285) hs -> Forall fine hs.
Proof.
  induction 1 as [m|m e hs r l Er _ IH|m fr ps evs r l1 l2 hs l Er Hh Ha Pe Q _ IH|m c b me f we r1 r2 r3 hs l C M P F CT RG _ IH];
    intros N B.
  - apply Forall_nil.
  - inversion N; inversion B; subst. apply Forall_cons; [exact I|auto].
  - inversion N as [|? ? _ N2]; inversion B; subst. apply Forall_app in N2 as [_ N2]. apply Forall_app in N2 as [_ N2].
    apply Forall_cons; [exact I|auto].
  - inversion N as [|? ? _ N1]; subst. inversion N1 as [|? ? X2 N2]; subst. inversion N2 as [|? ? _ N3]; subst.
    inversion B as [|? ? B1 B2]; subst. apply Forall_cons; [|auto]. cbn [fine sent_within] in *. split; [exact B1|].
    destruct M as [(_ & _ & WP & NB)|(_ & ->)]; [|discriminate].
    destruct (length_259 _ _ WP NB) as [L1 _]. intros X. exact (shown_256 _ _ _ _ P X2 (proj1 L1 X)).
Qed.

Lemma session_readable {W} errText sdump certLog rt clock (tp : transport W) fuel st w st' w' hs l :
  (forall b, Forall quiet (certLog b)) -> sound st ->
  processFrames_log fuel errText sdump certLog rt std_registry clock (watched tp) st (w, []) = done (st', (w', hs), l) ->
  Forall no_256 l \/ Forall tokenless hs -> Forall readable hs.
Proof.
  intros Q SO PL N.
  pose proof (log_erase errText sdump certLog rt std_registry clock (watched tp) fuel st (w, [])) as PF.
  rewrite PL in PF. cbn [io_bind done] in PF. symmetry in PF.
  destruct (session_within rt clock tp fuel st w [] st' w' hs SO PF) as (more & -> & B & T). cbn [app] in *.
  destruct (transcript_logged _ _ _ _ _ _ _ _ _ _ _ Q (log_transcript _ _ _ _ _ _ _ _ _ _ _ _ SO PL) SO) as (hs1 & E1 & LG).
  cbn [snd app] in E1. subst hs1. apply (logged_readable _ _ _ _ _ LG). destruct N as [N|N].
  - exact (logged_fine _ _ _ _ _ LG N B).
  - eapply Forall_impl; [|exact (T N)]. intros [x|f]; cbn [sent_within fine]; [auto|lia].
Qed.
