(** What the server does with two devices that answer alike (C114). *)
From Coq Require Import ZifyBool ZifyNat ZifyN Lia.
From Verif Require Import Base BaseFacts GoTypes Types Payload Lingo Command SpecPayload SpecCommand CommandFacts Handlers SpecHandlers HandlersThms
  SpecProtocol Packet SpecPacket Hid SpecHid HidThms Server SpecServer SpecWire ServerThms ProtocolProps SpecPlug.
#[local] Opaque std_registry.

(** The replies that hold the answer to a question. *)
Inductive holds_answer : devcall -> payload -> payload -> Prop :=
| ha_name a b : holds_answer CName (Pst general_ReturniPodName [VBytes a]) (Pst general_ReturniPodName [VBytes b])
| ha_version a b c a' b' c' : holds_answer CSoftwareVersion (Pst general_ReturniPodSoftwareVersion [VU a; VU b; VU c]) (Pst general_ReturniPodSoftwareVersion [VU a'; VU b'; VU c'])
| ha_serial a b : holds_answer CSerialNum (Pst general_ReturniPodSerialNum [VBytes a]) (Pst general_ReturniPodSerialNum [VBytes b])
| ha_lingo l x a b a' b' : holds_answer (CLingoProtocolVersion l) (Pst general_ReturnLingoProtocolVersion [VU x; VU a; VU b]) (Pst general_ReturnLingoProtocolVersion [VU x; VU a'; VU b'])
| ha_max a b : holds_answer CMaxPayload (Pst general_ReturnTransportMaxPayloadSize [VU a]) (Pst general_ReturnTransportMaxPayloadSize [VU b])
| ha_pref l x a b : holds_answer (CPrefSettingID l) (Pst general_RetiPodPreferences [VU x; VU a]) (Pst general_RetiPodPreferences [VU x; VU b])
| ha_options l x a b : holds_answer (CLingoOptions l) (Pst general_RetiPodOptionsForLingo [VU x; VU a]) (Pst general_RetiPodOptionsForLingo [VU x; VU b])
| ha_mask a b : holds_answer CEventNotificationMask (Pst general_RetEventNotification [VU a]) (Pst general_RetEventNotification [VU b])
| ha_supported a b : holds_answer CSupportedEventNotificationMask (Pst general_RetSupportedEventNotification [VU a]) (Pst general_RetSupportedEventNotification [VU b]).

Definition payloads_alike (may : devcall -> Prop) (p1 p2 : payload) : Prop := p1 = p2 \/ exists q, may q /\ holds_answer q p1 p2.

Definition commands_alike (may : devcall -> Prop) (c1 c2 : command) : Prop :=
  c1 = c2 \/ exists q code p1 p2, may q /\ holds_answer q p1 p2 /\ told_in q = Some code
     /\ cmd_id c1 = b2n code /\ cmd_id c2 = b2n code /\ cmd_trx c1 = cmd_trx c2 /\ cmd_payload c1 = Some p1 /\ cmd_payload c2 = Some p2.

Definition event_alike (may : devcall -> Prop) (e1 e2 : event) : Prop :=
  match e1, e2 with
  | Called a, Called b => a = b
  | Wrote a, Wrote b => commands_alike may a b
  | _, _ => False
  end.

Definition h_alike {S1 S2} (may : devcall -> Prop) (R : S1 -> S2 -> Prop) (h1 : hstate S1) (h2 : hstate S2) : Prop :=
  R (h_dev h1) (h_dev h2) /\ h_cert h1 = h_cert h2 /\ h_trx h1 = h_trx h2 /\ h_ticks h1 = h_ticks h2 /\ Forall2 (event_alike may) (h_log h1) (h_log h2).

Lemma commands_same may l : Forall2 (event_alike may) (map Wrote l) (map Wrote l).
Proof. induction l; constructor; [left; reflexivity|assumption]. Qed.

Lemma told_id q p1 p2 : holds_answer q p1 p2 -> exists code, told_in q = Some code
  /\ LookupID std_registry p1 = Ret (Some (b2n code)) /\ LookupID std_registry p2 = Ret (Some (b2n code)).
Proof. intros []; eexists; (split; [reflexivity|]); split; vm_compute; reflexivity. Qed.

Section alike.
  Context {S1 S2 : Type} (may : devcall -> Prop) (R : S1 -> S2 -> Prop) (d1 : DeviceGeneral S1) (d2 : DeviceGeneral S2) (AL : alike may R d1 d2).
  Context (clock : nat -> datetime).
  Notation reg := std_registry.
  Notation like := (h_alike may R).

  Definition rel {A B} (m1 : act S1 A) (m2 : act S2 B) (Q : A -> B -> Prop) : Prop :=
    forall h1 h2, like h1 h2 ->
    match m1 h1, m2 h2 with
    | Ret (h1', a), Ret (h2', b) => like h1' h2' /\ Q a b
    | Panic, Panic => True
    | _, _ => False
    end.

  Lemma rel_ret {A B} (a : A) (b : B) (Q : A -> B -> Prop) : Q a b -> rel (ret a) (ret b) Q.
  Proof. intros H h1 h2 L. split; assumption. Qed.

  Lemma rel_seq {A1 B1 A2 B2} (m1 : act S1 A1) (m2 : act S2 A2) (k1 : A1 -> act S1 B1) (k2 : A2 -> act S2 B2) P Q :
    rel m1 m2 P -> (forall a b, P a b -> rel (k1 a) (k2 b) Q) -> rel (seq m1 k1) (seq m2 k2) Q.
  Proof.
    intros H K h1 h2 L. unfold seq. specialize (H h1 h2 L).
    destruct (m1 h1) as [[h1' a]|], (m2 h2) as [[h2' b]|]; cbn [bind]; try contradiction; [|exact I].
    destruct H as [L' P']. exact (K a b P' h1' h2' L').
  Qed.

  Lemma rel_ask {A} c (m1 : S1 -> S1 * A) (m2 : S2 -> S2 * A) D : (forall s t, R s t -> answer_alike R D (m1 s) (m2 t)) ->
    rel (ask c m1) (ask c m2) (fun a b => a = b \/ D).
  Proof.
    intros H h1 h2 (L1 & L2 & L3 & L4 & L5). unfold ask. specialize (H _ _ L1). destruct (m1 (h_dev h1)) as [s a], (m2 (h_dev h2)) as [t b].
    destruct H as [H1 H2]. split; [|exact H2]. repeat split; cbn [h_dev h_cert h_trx h_ticks h_log]; try assumption.
    apply Forall2_app; [exact L5|]. constructor; [reflexivity|constructor].
  Qed.

  Lemma rel_ask_free {A} c (m1 : S1 -> S1 * A) (m2 : S2 -> S2 * A) : (forall s t, R s t -> R (fst (m1 s)) (fst (m2 t))) ->
    rel (ask c m1) (ask c m2) (fun _ _ => True).
  Proof.
    intros H h1 h2 (L1 & L2 & L3 & L4 & L5). unfold ask. specialize (H _ _ L1). destruct (m1 (h_dev h1)) as [s a], (m2 (h_dev h2)) as [t b].
    split; [|exact I]. repeat split; cbn [h_dev h_cert h_trx h_ticks h_log]; try assumption.
    apply Forall2_app; [exact L5|]. constructor; [reflexivity|constructor].
  Qed.

  Lemma rel_tell c (m1 : S1 -> S1) (m2 : S2 -> S2) : (forall s t, R s t -> R (m1 s) (m2 t)) -> rel (tell c m1) (tell c m2) eq.
  Proof.
    intros H h1 h2 (L1 & L2 & L3 & L4 & L5). split; [|reflexivity]. repeat split; cbn [h_dev h_cert h_trx h_ticks h_log]; auto.
    apply Forall2_app; [exact L5|]. constructor; [reflexivity|constructor].
  Qed.

  Lemma rel_respond req p1 p2 : payloads_alike may p1 p2 -> rel (respond reg req p1) (respond reg req p2) eq.
  Proof.
    intros H h1 h2 (L1 & L2 & L3 & L4 & L5). unfold respond, Respond, BuildCommand. destruct H as [<-|(q & M & H)].
    - destruct (LookupID reg p1) as [[id|]|]; cbn [bind]; [| |exact I]; (split; [|reflexivity]); repeat split;
        cbn [log h_dev h_cert h_trx h_ticks h_log]; try assumption; (apply Forall2_app; [exact L5|]); apply commands_same.
    - destruct (told_id _ _ _ H) as (code & T & -> & ->). cbn [bind]. split; [|reflexivity]. repeat split;
        cbn [log h_dev h_cert h_trx h_ticks h_log]; try assumption. apply Forall2_app; [exact L5|]. cbn [map]. constructor; [|constructor].
      right. exists q, code, p1, p2. repeat split; assumption.
  Qed.

  Lemma rel_send p : rel (send reg p) (send reg p) eq.
  Proof.
    intros h1 h2 (L1 & L2 & L3 & L4 & L5). unfold send. rewrite L3. destruct (Send reg (h_trx h2) p) as [[c cs]|]; cbn [bind]; [|exact I].
    split; [|reflexivity]. repeat split; cbn [h_dev h_cert h_trx h_ticks h_log]; try assumption. apply Forall2_app; [exact L5|apply commands_same].
  Qed.
  Lemma rel_trx_reset : rel trx_reset trx_reset eq.
  Proof. intros h1 h2 (L1 & L2 & L3 & L4 & L5). split; [|reflexivity]. repeat split; assumption. Qed.
  Lemma rel_cert_reset : rel cert_reset cert_reset eq.
  Proof. intros h1 h2 (L1 & L2 & L3 & L4 & L5). split; [|reflexivity]. repeat split; assumption. Qed.
  Lemma rel_cert_write b : rel (cert_write b) (cert_write b) eq.
  Proof. intros h1 h2 (L1 & L2 & L3 & L4 & L5). split; [|reflexivity]. repeat split; cbn [h_dev h_cert h_trx h_ticks h_log]; try assumption. now rewrite L2. Qed.
  Lemma rel_cert_bytes : rel cert_bytes cert_bytes eq.
  Proof. intros h1 h2 L. split; [exact L|apply L]. Qed.
  Lemma rel_now : rel (now clock) (now clock) eq.
  Proof. intros h1 h2 (L1 & L2 & L3 & L4 & L5). split; [|cbn; now rewrite L4]. repeat split; cbn [h_dev h_cert h_trx h_ticks h_log]; try assumption. now rewrite L4. Qed.

  Lemma rel_if {A B} (b : bool) (m1 m1' : act S1 A) (m2 m2' : act S2 B) Q : rel m1 m2 Q -> rel m1' m2' Q -> rel (if b then m1 else m1') (if b then m2 else m2') Q.
  Proof. destruct b; auto. Qed.

  Lemma same_payload p : payloads_alike may p p. Proof. now left. Qed.

  Ltac rstep := first
    [ apply rel_respond; apply same_payload | apply rel_ret; reflexivity | apply rel_ret; exact I | apply rel_send | apply rel_if
    | eapply rel_seq; [first [apply rel_trx_reset | apply rel_cert_reset | apply rel_cert_write | apply rel_cert_bytes | apply rel_now | apply rel_send
                       | apply rel_respond; apply same_payload | apply rel_tell; intros | apply rel_if]|intros ? ? <-] | apply rel_cert_reset | apply rel_tell; intros].

  Lemma set_tokens_alike l : rel (set_tokens d1 l) (set_tokens d2 l) eq.
  Proof.
    induction l as [|t l IH]; cbn [set_tokens]; [now apply rel_ret|].
    eapply rel_seq; [apply rel_ask_free; intros s u H; now apply (al_SetToken _ _ _ _ AL)|]. intros _ _ _. exact IH.
  Qed.

  Lemma HandleGeneral_alike req : rel (HandleGeneral reg d1 req) (HandleGeneral reg d2 req) eq.
  Proof.
    unfold HandleGeneral. destruct (cmd_payload req) as [p|]; [|now apply rel_ret].
    destruct p as [t vs|l| | | | | | | ]; try (now apply rel_ret); try (apply rel_respond; apply same_payload).
    2:{ eapply rel_seq; [apply set_tokens_alike|]. intros ? ? _. apply rel_respond; apply same_payload. }
    destruct t; try (now apply rel_ret); try (apply rel_respond; apply same_payload).
    all: try (eapply rel_seq; [apply rel_ask; intros ? ? HR; now apply (al_UIMode _ _ _ _ AL)|intros ? ? [<-|[]]]; repeat rstep; now apply (al_SetUIMode _ _ _ _ AL)).
    all: try (eapply rel_seq;
      [apply rel_ask; intros ? ? HR;
        first [now apply (al_Name _ _ _ _ AL) | now apply (al_SoftwareVersion _ _ _ _ AL) | now apply (al_SerialNum _ _ _ _ AL) | now apply (al_LingoProtocolVersion _ _ _ _ AL)
              | now apply (al_MaxPayload _ _ _ _ AL) | now apply (al_PrefSettingID _ _ _ _ AL) | now apply (al_LingoOptions _ _ _ _ AL)
              | now apply (al_EventNotificationMask _ _ _ _ AL) | now apply (al_SupportedEventNotificationMask _ _ _ _ AL)]
      |]; intros a b [<-|M];
        [repeat match goal with |- context [let (_, _) := ?x in _] => destruct x end; apply rel_respond; apply same_payload
        |repeat match goal with |- context [let (_, _) := ?x in _] => destruct x end; apply rel_respond; right; eexists; (split; [exact M|constructor])]).
    all: repeat rstep; try (now apply AL); try reflexivity.
    - eapply rel_seq; [apply rel_if; [apply rel_cert_reset|now apply rel_ret]|]. intros ? ? _. repeat rstep. now apply AL.
    - destruct (fu vs 0) as [|[[]|[]|]]; repeat rstep.
  Qed.

  Lemma HandleExtRemote_alike req : rel (HandleExtRemote reg req) (HandleExtRemote reg req) eq.
  Proof.
    unfold HandleExtRemote. destruct (cmd_payload req) as [[t vs| | | | | | | | ]|]; try (now apply rel_ret).
    destruct t; try (now apply rel_ret); apply rel_respond; apply same_payload.
  Qed.

  Lemma HandleDispRemote_alike req : rel (HandleDispRemote reg clock req) (HandleDispRemote reg clock req) eq.
  Proof.
    unfold HandleDispRemote. destruct (cmd_payload req) as [[t vs| | | | | | | | ]|]; try (now apply rel_ret).
    destruct t; try (now apply rel_ret); try (repeat rstep; fail).
    - destruct (fu vs 0 =? 9)%N; [repeat rstep|]. destruct (disp_state_info (fu vs 0)); repeat rstep.
    - destruct (disp_track_info (fu vs 0)); repeat rstep.
  Qed.

  Lemma HandleAudio_alike req : rel (HandleAudio reg req) (HandleAudio reg req) eq.
  Proof.
    unfold HandleAudio. destruct (cmd_payload req) as [[t vs| | | | | | | | ]|]; try (now apply rel_ret).
    destruct t; try (now apply rel_ret); apply rel_respond; apply same_payload.
  Qed.

  Lemma handlePacket_alike c : rel (handlePacket reg clock d1 c) (handlePacket reg clock d2 c) eq.
  Proof.
    unfold handlePacket. apply rel_if; [|apply rel_if; [|apply rel_if; [apply HandleExtRemote_alike|apply rel_if; [apply HandleAudio_alike|now apply rel_ret]]]].
    - eapply rel_seq; [|intros ? ? _; apply HandleGeneral_alike]. destruct (cmd_payload c) as [[t vs| | | | | | | | ]|]; try (now apply (rel_ret tt tt eq)).
      destruct t; try (now apply (rel_ret tt tt eq)). apply rel_if; [apply rel_send|now apply rel_ret].
    - eapply rel_seq; [apply HandleDispRemote_alike|]. intros ? ? _. now apply rel_ret.
  Qed.

  Lemma handle_all_alike cs : rel (handle_all reg clock d1 cs) (handle_all reg clock d2 cs) eq.
  Proof.
    induction cs as [|c cs IH]; cbn [handle_all]; [now apply rel_ret|]. eapply rel_seq; [apply handlePacket_alike|]. intros ? ? _. exact IH.
  Qed.
End alike.

Lemma event_alike_out may before1 before2 after1 after2 : Forall2 (event_alike may) before1 before2 -> Forall2 (event_alike may) after1 after2 ->
  Forall2 (commands_alike may) (outCmds before1 after1) (outCmds before2 after2).
Proof.
  intros B M. unfold outCmds. replace (List.length before1) with (List.length before2) by (induction B; cbn; congruence). generalize (List.length before2) as n. clear B. intros n.
  assert (T : Forall2 (event_alike may) (skipn n after1) (skipn n after2)).
  { revert after1 after2 M. induction n as [|n IH]; intros l1 l2 M; [exact M|]. destruct M; [constructor|]. cbn [skipn]. auto. }
  induction T as [|x y l1 l2 E T IH]; [constructor|]. cbn [flat_map]. destruct x, y; try contradiction; cbn [event_alike app] in *; [constructor; assumption|exact IH].
Qed.

Lemma answer_frames rt m may c1 c2 : commands_alike may c1 c2 ->
  MarshalCmd rt m c1 = MarshalCmd rt m c2
  \/ exists m' b1 b2, MarshalCmd rt m c1 = Ret (m', Ok b1) /\ MarshalCmd rt m c2 = Ret (m', Ok b2) /\ frames_alike may (frame_bytes b1) (frame_bytes b2).
Proof.
  intros [->|(q & code & p1 & p2 & M & H & T & I1 & I2 & TR & P1 & P2)]; [now left|right].
  destruct c1 as [id tr pl], c2 as [id2 tr2 pl2]; cbn [cmd_id cmd_trx cmd_payload] in *; subst.
  assert (Z : exists b1 b2, (forall e, match payload_marshaler rt p1 with Some x => x = Ret (Ok b1) | None => payload_binary_write p1 = Ok b1 \/ e end)
              /\ forall e, match payload_marshaler rt p2 with Some x => x = Ret (Ok b2) | None => payload_binary_write p2 = Ok b2 \/ e end).
  { destruct H; do 2 eexists; split; intros e; cbn [payload_marshaler]; (reflexivity || (left; reflexivity)). }
  destruct Z as (b1 & b2 & Z1 & Z2). specialize (Z1 False). specialize (Z2 False). unfold MarshalCmd; cbn [cmd_id cmd_trx cmd_payload].
  set (e := handleCmdID m (b2n code)). set (tr := match tr2 with Some t => if e then be_enc 2 t else [] | None => [] end).
  exists e, (marshalLingoCmdID (b2n code) ++ tr ++ b1), (marshalLingoCmdID (b2n code) ++ tr ++ b2).
  split; [|split].
  - destruct (payload_marshaler rt p1); [rewrite Z1; reflexivity|]. destruct Z1 as [->|[]]. reflexivity.
  - destruct (payload_marshaler rt p2); [rewrite Z2; reflexivity|]. destruct Z2 as [->|[]]. reflexivity.
  - right. exists q, code, (tr ++ b1), (tr ++ b2). split; [exact M|]. split; [exact T|].
    assert (Q : marshalLingoCmdID (b2n code) = [x00; code]) by (destruct q; try discriminate T; injection T as <-; reflexivity).
    rewrite Q. split; reflexivity.
Qed.

Section wires.
  Context {S1 S2 : Type} (may : devcall -> Prop) (R : S1 -> S2 -> Prop) (d1 : DeviceGeneral S1) (d2 : DeviceGeneral S2) (AL : alike may R d1 d2).
  Context (clock : nat -> datetime) (rt : bool) (defs : list ReportDef) (U : usable defs) (spares : nat -> bytes) (fuel2 : nat).
  Notation tp := (hid_transport fuel2 defs spares wire_read wire_write).

  Lemma read_indep fuel : forall buf l, exists r, forall o, ReadFrame_dev fuel defs wire_read buf (l, o) = (go (l', x) <- r; done (((l', o) : wire), x)).
  Proof.
    induction fuel as [|fuel IH]; intros buf l; [exists None; reflexivity|].
    cbn [ReadFrame_dev]. unfold wire_read at 1. cbn [fst snd]. destruct l as [|x l].
    - exists (done ([], inr EOF)). intros o. cbn [fst snd done io_bind]. reflexivity.
    - cbn [fst snd io_bind done]. destruct (ReadReport x) as [r|e] eqn:X.
      2:{ exists (done (l, inr e)). intros o. cbn [fst snd done io_bind]. reflexivity. }
      destruct (Find defs (Z.of_N (b2n (rep_ID r)))) as [d|e] eqn:F.
      2:{ exists (done (l, inr e)). intros o. cbn [fst snd done io_bind]. reflexivity. }
      set (n := Z.min (Z.of_nat (List.length (rep_Data r))) (MaxPayload d)).
      destruct (n <? 0)%Z eqn:N0.
      { exists (Some Panic). intros o. cbn [fst snd done io_bind]. reflexivity. }
      set (dt := firstn (Z.to_nat n) (rep_Data r)). set (lc := b2n (rep_LinkControl r)).
      destruct (IH dt l) as (r1 & E1). destruct (IH (buf ++ dt) l) as (r2 & E2). destruct (IH buf l) as (r3 & E3).
      exists (if (lc =? LinkControlDone)%N then done (l, inl dt) else if (lc =? LinkControlMoreToFollow)%N then r1
              else if (lc =? N.lor LinkControlContinue LinkControlMoreToFollow)%N then r2 else if (lc =? LinkControlContinue)%N then done (l, inl (buf ++ dt)) else r3).
      intros o. cbn [fst snd done io_bind]. 
      destruct (lc =? LinkControlDone)%N; [reflexivity|]. destruct (lc =? LinkControlMoreToFollow)%N; [apply E1|].
      destruct (lc =? N.lor LinkControlContinue LinkControlMoreToFollow)%N; [apply E2|]. destruct (lc =? LinkControlContinue)%N; [reflexivity|apply E3].
  Qed.

  Lemma replies_alike cs1 cs2 : Forall2 (commands_alike may) cs1 cs2 -> forall m l o1 o2 n,
    match write_replies rt tp m cs1 ((l, o1), n), write_replies rt tp m cs2 ((l, o2), n) with
    | Some (Ret (m1, w1)), Some (Ret (m2, w2)) => m1 = m2 /\ exists x1 x2 fs1 fs2,
        w1 = ((l, o1 ++ x1), n) /\ w2 = ((l, o2 ++ x2), n) /\ departs defs fs1 x1 /\ departs defs fs2 x2 /\ Forall2 (frames_alike may) fs1 fs2
    | Some Panic, Some Panic => True
    | None, None => True
    | _, _ => False
    end.
  Proof.
    induction 1 as [|c1 c2 cs1 cs2 C CS IH]; intros m l o1 o2 n; cbn [write_replies].
    - split; [reflexivity|]. exists [], [], [], []. rewrite !app_nil_r. repeat split; constructor.
    - assert (Z : forall m' p1 p2, frames_alike may (frame_bytes p1) (frame_bytes p2) ->
        match (go (w', _) <- tp_WriteFrame tp ((l, o1), n) (fst (WritePacket NewPacketWriter p1)); write_replies rt tp m' cs1 w'),
              (go (w', _) <- tp_WriteFrame tp ((l, o2), n) (fst (WritePacket NewPacketWriter p2)); write_replies rt tp m' cs2 w') with
        | Some (Ret (m1, w1)), Some (Ret (m2, w2)) => m1 = m2 /\ exists x1 x2 fs1 fs2,
            w1 = ((l, o1 ++ x1), n) /\ w2 = ((l, o2 ++ x2), n) /\ departs defs fs1 x1 /\ departs defs fs2 x2 /\ Forall2 (frames_alike may) fs1 fs2
        | Some Panic, Some Panic => True
        | None, None => True
        | _, _ => False
        end).
      { intros m' p1 p2 F. change NewPacketWriter with (@nil byte). rewrite <- !frame_bytes_eq.
        destruct (wire_sent defs l o1 (frame_bytes p1) U) as (y1 & E1 & D1). destruct (wire_sent defs l o2 (frame_bytes p2) U) as (y2 & E2 & D2).
        cbn [hid_transport tp_WriteFrame fst snd]. rewrite E1, E2. cbn [io_bind done]. specialize (IH m' l (o1 ++ y1) (o2 ++ y2) n).
        destruct (write_replies rt tp m' cs1 _) as [[[m1 w1]|]|], (write_replies rt tp m' cs2 _) as [[[m2 w2]|]|]; try contradiction; try exact I.
        destruct IH as (-> & x1 & x2 & fs1 & fs2 & -> & -> & G1 & G2 & FF). split; [reflexivity|].
        exists (y1 ++ x1), (y2 ++ x2), (frame_bytes p1 :: fs1), (frame_bytes p2 :: fs2). rewrite !app_assoc. repeat split; auto. }
      destruct (answer_frames rt m may c1 c2 C) as [->|(m' & b1 & b2 & -> & -> & F)].
      + destruct (MarshalCmd rt m c2) as [[m' res]|]; cbn [io_bind]; [|exact I].
        specialize (Z m' (match res with Ok b => b | Err _ => [] end) (match res with Ok b => b | Err _ => [] end) (or_introl eq_refl)).
        destruct (WritePacket NewPacketWriter _) as [fr er]. exact Z.
      + cbn [io_bind]. specialize (Z m' b1 b2 F). destruct (WritePacket NewPacketWriter b1) as [fr1 er1], (WritePacket NewPacketWriter b2) as [fr2 er2]. exact Z.
  Qed.

  Lemma server_alike fuel : forall st1 st2 l o1 o2 n, sv_mode st1 = sv_mode st2 -> h_alike may R (sv_h st1) (sv_h st2) ->
    match processFrames_loop fuel rt std_registry clock d1 tp st1 ((l, o1), n), processFrames_loop fuel rt std_registry clock d2 tp st2 ((l, o2), n) with
    | Some (Ret (st1', w1)), Some (Ret (st2', w2)) => sv_mode st1' = sv_mode st2' /\ h_alike may R (sv_h st1') (sv_h st2') /\ exists l' k x1 x2 fs1 fs2,
        w1 = ((l', o1 ++ x1), k) /\ w2 = ((l', o2 ++ x2), k) /\ departs defs fs1 x1 /\ departs defs fs2 x2 /\ Forall2 (frames_alike may) fs1 fs2
    | Some Panic, Some Panic => True
    | None, None => True
    | _, _ => False
    end.
  Proof.
    induction fuel as [|fuel IH]; intros st1 st2 l o1 o2 n SM SH; cbn [processFrames_loop]; [exact I|].
    destruct (read_indep fuel2 [] l) as (r & E).
    assert (T : forall o, tp_ReadFrame tp ((l, o), n) = (go (l', x) <- r; done (((l', o), S n), match x with inl f => inl (mkSlice f (spares n)) | inr e => inr e end))).
    { intros o. cbn [hid_transport tp_ReadFrame fst snd]. rewrite E. destruct r as [[[l' x]|]|]; reflexivity. }
    rewrite !T.
    destruct r as [[[l' x]|]|]; cbn [io_bind done]; try exact I. destruct x as [f|e].
    - unfold process_frame. rewrite SM. destruct (frame_packets rt std_registry (sv_mode st2) _) as [[[m1 evs]|]|]; cbn [io_bind]; try exact I.
      pose proof (handle_all_alike may R d1 d2 AL clock (inCmds evs) (sv_h st1) (sv_h st2) SH) as H.
      destruct (handle_all std_registry clock d1 (inCmds evs) (sv_h st1)) as [[h1 a]|] eqn:H1, (handle_all std_registry clock d2 (inCmds evs) (sv_h st2)) as [[h2 b]|] eqn:H2;
        cbn [io_bind]; try contradiction; try exact I.
      destruct H as [H _].
      assert (C : Forall2 (commands_alike may) (outCmds (h_log (sv_h st1)) (h_log h1)) (outCmds (h_log (sv_h st2)) (h_log h2))).
      { destruct SH as (_ & _ & _ & _ & B). destruct H as (_ & _ & _ & _ & B'). now apply event_alike_out. }
      pose proof (replies_alike _ _ C m1 l' o1 o2 (S n)) as W.
      destruct (write_replies rt tp m1 _ ((l', o1), S n)) as [[[m2 w2]|]|], (write_replies rt tp m1 _ ((l', o2), S n)) as [[[m3 w3]|]|]; cbn [io_bind done]; try contradiction; try exact I.
      destruct W as (-> & x1 & x2 & fs1 & fs2 & -> & -> & D1 & D2 & F).
      specialize (IH (mkServer m3 h1) (mkServer m3 h2) l' (o1 ++ x1) (o2 ++ x2) (S n) eq_refl H).
      destruct (processFrames_loop fuel rt std_registry clock d1 tp _ _) as [[[st1' w1]|]|], (processFrames_loop fuel rt std_registry clock d2 tp _ _) as [[[st2' w2']|]|];
        try contradiction; try exact I.
      destruct IH as (M' & H' & l2 & k & y1 & y2 & gs1 & gs2 & -> & -> & E1 & E2 & FF). split; [exact M'|]. split; [exact H'|].
      exists l2, k, (x1 ++ y1), (x2 ++ y2), (fs1 ++ gs1), (fs2 ++ gs2). rewrite !app_assoc. repeat split; auto using departs_app, Forall2_app.
    - destruct e; try exact (IH st1 st2 l' o1 o2 (S n) SM SH).
      split; [exact SM|]. split; [exact SH|]. exists l', (S n), [], [], [], []. rewrite !app_nil_r. repeat split; constructor.
  Qed.
End wires.



Lemma commands_none c1 c2 : commands_alike none c1 c2 -> c1 = c2.
Proof. intros [E|(q & code & p1 & p2 & [] & _)]. exact E. Qed.
Lemma events_none l1 l2 : Forall2 (event_alike none) l1 l2 -> l1 = l2.
Proof.
  induction 1 as [|x y l1 l2 E _ IH]; [reflexivity|]. rewrite IH. destruct x, y; try contradiction; cbn [event_alike] in E; [now rewrite (commands_none _ _ E)|now rewrite E].
Qed.

Section any_transport.
  Context {S1 S2 W : Type} (R : S1 -> S2 -> Prop) (d1 : DeviceGeneral S1) (d2 : DeviceGeneral S2) (AL : alike none R d1 d2).
  Context (clock : nat -> datetime) (rt : bool) (tp : transport W).

  Lemma server_same fuel : forall st1 st2 w, sv_mode st1 = sv_mode st2 -> h_alike none R (sv_h st1) (sv_h st2) ->
    match processFrames_loop fuel rt std_registry clock d1 tp st1 w, processFrames_loop fuel rt std_registry clock d2 tp st2 w with
    | Some (Ret (st1', w1)), Some (Ret (st2', w2)) => sv_mode st1' = sv_mode st2' /\ h_alike none R (sv_h st1') (sv_h st2') /\ w1 = w2
    | Some Panic, Some Panic => True
    | None, None => True
    | _, _ => False
    end.
  Proof.
    induction fuel as [|fuel IH]; intros st1 st2 w SM SH; cbn [processFrames_loop]; [exact I|].
    destruct (tp_ReadFrame tp w) as [[[w1 x]|]|]; cbn [io_bind done]; try exact I. destruct x as [f|e].
    - unfold process_frame. rewrite SM. destruct (frame_packets rt std_registry (sv_mode st2) f) as [[[m1 evs]|]|]; cbn [io_bind]; try exact I.
      pose proof (handle_all_alike none R d1 d2 AL clock (inCmds evs) (sv_h st1) (sv_h st2) SH) as H.
      destruct (handle_all std_registry clock d1 (inCmds evs) (sv_h st1)) as [[h1 a]|], (handle_all std_registry clock d2 (inCmds evs) (sv_h st2)) as [[h2 b]|];
        cbn [io_bind]; try contradiction; try exact I.
      destruct H as [H _].
      assert (C : outCmds (h_log (sv_h st1)) (h_log h1) = outCmds (h_log (sv_h st2)) (h_log h2)).
      { destruct SH as (_ & _ & _ & _ & B). destruct H as (_ & _ & _ & _ & B'). now rewrite (events_none _ _ B), (events_none _ _ B'). }
      rewrite C. destruct (write_replies rt tp m1 _ w1) as [[[m2 w2]|]|]; cbn [io_bind done]; try exact I.
      exact (IH (mkServer m2 h1) (mkServer m2 h2) w2 eq_refl H).
    - destruct e; try exact (IH st1 st2 w1 SM SH). split; [exact SM|split; [exact SH|reflexivity]].
  Qed.
End any_transport.
