(** What other servers of the process do to one of them (C115). *)
From Coq Require Import ZifyBool ZifyNat ZifyN Lia.
From Verif Require Import Base BaseFacts GoTypes Types Payload Lingo Command SpecPayload SpecCommand CommandFacts Handlers SpecHandlers HandlersThms
  SpecProtocol Packet SpecPacket Hid SpecHid HidThms Server SpecServer SpecWire ServerThms ProtocolProps SpecPlug PlugThms Shared SpecShared.
#[local] Opaque std_registry.

Definition question_id (id : N) (p : payload) : Prop :=
  (id = 20%N /\ p = Pst general_GetDevAuthenticationInfo []) \/ (id = 655362%N /\ p = Pst audio_GetAccSampleRateCaps []).

Definition commands_close (c1 c2 : command) : Prop :=
  c1 = c2
  \/ (exists id p t1 t2, question_id id p /\ c1 = mkCmd id (NewTransaction t1) (Some p) /\ c2 = mkCmd id (NewTransaction t2) (Some p))
  \/ (exists tr a b, c1 = mkCmd 196621 tr (Some (PStateInfo 9 (disp_date_info a))) /\ c2 = mkCmd 196621 tr (Some (PStateInfo 9 (disp_date_info b)))).

Definition event_close (e1 e2 : event) : Prop :=
  match e1, e2 with
  | Called a, Called b => calls_close a b
  | Wrote a, Wrote b => commands_close a b
  | _, _ => False
  end.

Definition h_close {S} (R : S -> S -> Prop) (h1 h2 : hstate S) : Prop := R (h_dev h1) (h_dev h2) /\ Forall2 event_close (h_log h1) (h_log h2).

Lemma commands_closed l : Forall2 event_close (map Wrote l) (map Wrote l).
Proof. induction l; constructor; [left; reflexivity|assumption]. Qed.

Section close.
  Context {S : Type} (R : S -> S -> Prop) (d : DeviceGeneral S) (B : blind R d) (clock : nat -> datetime).
  Notation reg := std_registry.
  Let AL : alike none R d d := proj1 B.

  Definition crel {A1 A2} (m1 : act S A1) (m2 : act S A2) (Q : A1 -> A2 -> Prop) : Prop :=
    forall h1 h2, h_close R h1 h2 ->
    match m1 h1, m2 h2 with
    | Ret (h1', a), Ret (h2', b) => h_close R h1' h2' /\ Q a b
    | Panic, Panic => True
    | _, _ => False
    end.

  Lemma crel_ret {A1 A2} (a : A1) (b : A2) (Q : A1 -> A2 -> Prop) : Q a b -> crel (ret a) (ret b) Q.
  Proof. intros H h1 h2 L. split; assumption. Qed.

  Lemma crel_seq {A1 B1 A2 B2} (m1 : act S A1) (m2 : act S A2) (k1 : A1 -> act S B1) (k2 : A2 -> act S B2) P Q :
    crel m1 m2 P -> (forall a b, P a b -> crel (k1 a) (k2 b) Q) -> crel (seq m1 k1) (seq m2 k2) Q.
  Proof.
    intros H K h1 h2 L. unfold seq. specialize (H h1 h2 L).
    destruct (m1 h1) as [[h1' a]|], (m2 h2) as [[h2' b]|]; cbn [bind]; try contradiction; [|exact I].
    destruct H as [L' P']. exact (K a b P' h1' h2' L').
  Qed.

  Lemma crel_ask {A} c (m : S -> S * A) : (forall s t, R s t -> answer_alike R False (m s) (m t)) -> crel (ask c m) (ask c m) eq.
  Proof.
    intros H h1 h2 (L1 & L5). unfold ask. specialize (H _ _ L1). destruct (m (h_dev h1)) as [s a], (m (h_dev h2)) as [t b].
    destruct H as [H1 [H2|[]]]. split; [|exact H2]. split; cbn [h_dev h_log]; [exact H1|]. apply Forall2_app; [exact L5|]. constructor; [left; reflexivity|constructor].
  Qed.

  Lemma crel_ask_free {A} c (m : S -> S * A) : (forall s t, R s t -> R (fst (m s)) (fst (m t))) -> crel (ask c m) (ask c m) (fun _ _ => True).
  Proof.
    intros H h1 h2 (L1 & L5). unfold ask. specialize (H _ _ L1). destruct (m (h_dev h1)) as [s a], (m (h_dev h2)) as [t b].
    split; [|exact I]. split; cbn [h_dev h_log]; [exact H|]. apply Forall2_app; [exact L5|]. constructor; [left; reflexivity|constructor].
  Qed.

  Lemma crel_tell c1 c2 (m1 m2 : S -> S) : calls_close c1 c2 -> (forall s t, R s t -> R (m1 s) (m2 t)) -> crel (tell c1 m1) (tell c2 m2) eq.
  Proof.
    intros C H h1 h2 (L1 & L5). split; [|reflexivity]. split; cbn [h_dev h_log]; auto. apply Forall2_app; [exact L5|]. constructor; [exact C|constructor].
  Qed.

  Lemma crel_respond req p : crel (respond reg req p) (respond reg req p) eq.
  Proof.
    intros h1 h2 (L1 & L5). unfold respond. destruct (Respond reg req p) as [cs|]; cbn [bind]; [|exact I]. split; [|reflexivity].
    split; cbn [log h_dev h_log]; [exact L1|]. apply Forall2_app; [exact L5|apply commands_closed].
  Qed.

  Lemma crel_date req a b : crel (respond reg req (PStateInfo 9 (disp_date_info a))) (respond reg req (PStateInfo 9 (disp_date_info b))) eq.
  Proof.
    intros h1 h2 (L1 & L5). unfold respond, Respond, BuildCommand.
    assert (I : forall x, LookupID reg (PStateInfo 9 (disp_date_info x)) = Ret (Some 196621%N)) by (intros x; vm_compute; reflexivity).
    rewrite !I. cbn [bind]. split; [|reflexivity]. split; cbn [log h_dev h_log]; [exact L1|]. apply Forall2_app; [exact L5|].
    cbn [map]. constructor; [|constructor]. right. right. exists (trx_Copy (cmd_trx req)), a, b. split; reflexivity.
  Qed.

  Lemma crel_send p : p = Pst general_GetDevAuthenticationInfo [] \/ p = Pst audio_GetAccSampleRateCaps [] -> crel (send reg p) (send reg p) eq.
  Proof.
    intros P h1 h2 (L1 & L5). unfold send, Send, BuildCommand.
    assert (I : exists id, LookupID reg p = Ret (Some id) /\ question_id id p)
      by (destruct P as [->| ->]; eexists; (split; [vm_compute; reflexivity|]); [left|right]; split; reflexivity).
    destruct I as (id & -> & Q). cbn [bind TrxNext]. split; [|reflexivity]. split; cbn [h_dev h_log]; [exact L1|]. apply Forall2_app; [exact L5|].
    cbn [map cmd_id cmd_payload]. constructor; [|constructor]. right. left. exists id, p. do 2 eexists. split; [exact Q|split; reflexivity].
  Qed.
  Lemma crel_trx_reset : crel trx_reset trx_reset eq.
  Proof. intros h1 h2 L. split; [exact L|reflexivity]. Qed.
  Lemma crel_cert_reset : crel cert_reset cert_reset eq.
  Proof. intros h1 h2 L. split; [exact L|reflexivity]. Qed.
  Lemma crel_cert_write b : crel (cert_write b) (cert_write b) eq.
  Proof. intros h1 h2 L. split; [exact L|reflexivity]. Qed.
  Lemma crel_cert_bytes : crel cert_bytes cert_bytes (fun _ _ => True).
  Proof. intros h1 h2 L. split; [exact L|exact I]. Qed.
  Lemma crel_now : crel (now clock) (now clock) (fun _ _ => True).
  Proof. intros h1 h2 L. split; [exact L|exact I]. Qed.
  Lemma crel_meanwhile env n : crel (meanwhile env n) (ret tt) (fun _ _ => True).
  Proof. intros h1 h2 L. split; [exact L|exact I]. Qed.

  Lemma crel_if {A1 A2} (b : bool) (m1 m1' : act S A1) (m2 m2' : act S A2) Q : crel m1 m2 Q -> crel m1' m2' Q -> crel (if b then m1 else m1') (if b then m2 else m2') Q.
  Proof. destruct b; auto. Qed.

  Ltac cstep := first
    [ apply crel_respond | apply crel_ret; reflexivity | apply crel_ret; exact I | apply crel_send; tauto | apply crel_if
    | eapply crel_seq; [first [apply crel_trx_reset | apply crel_cert_reset | apply crel_cert_write | apply crel_send; tauto
                       | apply crel_respond | apply crel_tell; [left; reflexivity|intros]]|intros ? ? <-]
    | eapply crel_seq; [first [apply crel_cert_bytes | apply crel_now]|intros ? ? _] | apply crel_cert_reset ].

  Lemma set_tokens_close l : crel (set_tokens d l) (set_tokens d l) eq.
  Proof.
    induction l as [|t l IH]; cbn [set_tokens]; [now apply crel_ret|].
    eapply crel_seq; [apply crel_ask_free; intros s u H; now apply (al_SetToken _ _ _ _ AL)|]. intros _ _ _. exact IH.
  Qed.

  Lemma HandleGeneral_close req : crel (HandleGeneral reg d req) (HandleGeneral reg d req) eq.
  Proof.
    unfold HandleGeneral. destruct (cmd_payload req) as [p|]; [|now apply crel_ret].
    destruct p as [t vs|l| | | | | | | ]; try (now apply crel_ret); try (apply crel_respond).
    2:{ eapply crel_seq; [apply set_tokens_close|]. intros ? ? _. apply crel_respond. }
    destruct t; try (now apply crel_ret); try (apply crel_respond).
    all: try (eapply crel_seq; [apply crel_ask; intros ? ? HR; now apply (al_UIMode _ _ _ _ AL)|intros ? ? <-]; repeat cstep; now apply (al_SetUIMode _ _ _ _ AL)).
    all: try (eapply crel_seq;
      [apply crel_ask; intros ? ? HR;
        first [now apply (al_Name _ _ _ _ AL) | now apply (al_SoftwareVersion _ _ _ _ AL) | now apply (al_SerialNum _ _ _ _ AL) | now apply (al_LingoProtocolVersion _ _ _ _ AL)
              | now apply (al_MaxPayload _ _ _ _ AL) | now apply (al_PrefSettingID _ _ _ _ AL) | now apply (al_LingoOptions _ _ _ _ AL)
              | now apply (al_EventNotificationMask _ _ _ _ AL) | now apply (al_SupportedEventNotificationMask _ _ _ _ AL)]
      |]; intros a ? <-; repeat match goal with |- context [let (_, _) := ?x in _] => destruct x end; apply crel_respond).
    all: repeat cstep; try (now apply AL); try reflexivity.
    - eapply crel_seq; [apply crel_if; [apply crel_cert_reset|now apply crel_ret]|]. intros ? ? _. repeat cstep.
      eapply crel_seq; [apply crel_tell; [right; eauto|intros; now apply (proj2 B)]|]. intros ? ? _. apply crel_respond.
    - destruct (fu vs 0) as [|[[]|[]|]]; repeat cstep.
  Qed.

  Lemma HandleExtRemote_close req : crel (HandleExtRemote reg req) (HandleExtRemote reg req) eq.
  Proof.
    unfold HandleExtRemote. destruct (cmd_payload req) as [[t vs| | | | | | | | ]|]; try (now apply crel_ret).
    destruct t; try (now apply crel_ret); apply crel_respond.
  Qed.

  Lemma HandleDispRemote_close req : crel (HandleDispRemote reg clock req) (HandleDispRemote reg clock req) eq.
  Proof.
    unfold HandleDispRemote. destruct (cmd_payload req) as [[t vs| | | | | | | | ]|]; try (now apply crel_ret).
    destruct t; try (now apply crel_ret); try (repeat cstep; fail).
    - destruct (fu vs 0 =? 9)%N eqn:N9; [|destruct (disp_state_info (fu vs 0)); repeat cstep].
      apply N.eqb_eq in N9. rewrite N9. eapply crel_seq; [apply crel_now|]. intros a b _. eapply crel_seq; [apply crel_date|]. intros ? ? _. now apply crel_ret.
    - destruct (disp_track_info (fu vs 0)); repeat cstep.
  Qed.

  Lemma HandleAudio_close req : crel (HandleAudio reg req) (HandleAudio reg req) eq.
  Proof.
    unfold HandleAudio. destruct (cmd_payload req) as [[t vs| | | | | | | | ]|]; try (now apply crel_ret).
    destruct t; try (now apply crel_ret); apply crel_respond.
  Qed.

  Lemma handlePacket_close c : crel (handlePacket reg clock d c) (handlePacket reg clock d c) eq.
  Proof.
    unfold handlePacket. apply crel_if; [|apply crel_if; [|apply crel_if; [apply HandleExtRemote_close|apply crel_if; [apply HandleAudio_close|now apply crel_ret]]]].
    - eapply crel_seq; [|intros ? ? _; apply HandleGeneral_close]. destruct (cmd_payload c) as [[t vs| | | | | | | | ]|]; try (now apply (crel_ret tt tt eq)).
      destruct t; try (now apply (crel_ret tt tt eq)). apply crel_if; [apply crel_send; now right|now apply crel_ret].
    - eapply crel_seq; [apply HandleDispRemote_close|]. intros ? ? _. now apply crel_ret.
  Qed.

  Lemma handle_all_close env cs : forall n, crel (handle_all_shared reg clock env d n cs) (handle_all reg clock d cs) eq.
  Proof.
    induction cs as [|c cs IH]; intros n; cbn [handle_all handle_all_shared]; [now apply crel_ret|].
    intros h1 h2 L. unfold seq at 1. unfold meanwhile. cbn [bind].
    exact (crel_seq _ _ _ _ _ _ (handlePacket_close c) (fun a b _ => IH (1 + n)) (with_globals (env n (globals_of h1)) h1) h2 L).
  Qed.
End close.

Lemma event_close_out before1 before2 after1 after2 : Forall2 event_close before1 before2 -> Forall2 event_close after1 after2 ->
  Forall2 commands_close (outCmds before1 after1) (outCmds before2 after2).
Proof.
  intros B M. unfold outCmds. replace (List.length before1) with (List.length before2) by (induction B; cbn; congruence). generalize (List.length before2) as n. clear B. intros n.
  assert (T : Forall2 event_close (skipn n after1) (skipn n after2)).
  { revert after1 after2 M. induction n as [|n IH]; intros l1 l2 M; [exact M|]. destruct M; [constructor|]. cbn [skipn]. auto. }
  induction T as [|x y l1 l2 E T IH]; [constructor|]. cbn [flat_map]. destruct x, y; try contradiction; cbn [event_close app] in *; [constructor; assumption|exact IH].
Qed.

Lemma question_frames rt m id p : question_id id p -> exists q, In q own_questions
  /\ forall t, MarshalCmd rt m (mkCmd id (NewTransaction t) (Some p)) = Ret (m, Ok (q ++ if m then be_enc 2 (t mod 65536) else [])).
Proof.
  intros [[-> ->]|[-> ->]]; [exists [x00; x14]|exists [x0a; x02]]; (split; [cbn [In own_questions]; tauto|]);
    intros t; unfold MarshalCmd; cbn [cmd_id cmd_trx cmd_payload NewTransaction]; destruct m; cbn; rewrite ?app_nil_r; reflexivity.
Qed.

Lemma date_frames rt m tr : exists t, forall b, exists d, List.length d = 6
  /\ MarshalCmd rt m (mkCmd 196621 tr (Some (PStateInfo 9 (disp_date_info b)))) = Ret (m, Ok ([x03; x0d] ++ t ++ [x09] ++ d)).
Proof.
  exists (match tr with Some t => if m then be_enc 2 t else [] | None => [] end). intros [[[[y mo] da] ho] mi].
  unfold MarshalCmd. cbn [cmd_id cmd_trx cmd_payload]. exists (be_enc 2 (y mod 65536) ++ be_enc 1 (mo mod 256) ++ be_enc 1 (da mod 256) ++ be_enc 1 (ho mod 256) ++ be_enc 1 (mi mod 256)).
  split; [reflexivity|]. destruct m, tr; reflexivity.
Qed.

Lemma close_frames rt m c1 c2 : commands_close c1 c2 ->
  MarshalCmd rt m c1 = MarshalCmd rt m c2
  \/ exists m' b1 b2, MarshalCmd rt m c1 = Ret (m', Ok b1) /\ MarshalCmd rt m c2 = Ret (m', Ok b2) /\ frames_close (frame_bytes b1) (frame_bytes b2).
Proof.
  intros [->|[(id & p & t1 & t2 & Q & -> & ->)|(tr & a & b & -> & ->)]]; [now left| |].
  - destruct (question_frames rt m id p Q) as (q & I & E). rewrite !E. destruct m; [right|now left].
    do 3 eexists. split; [reflexivity|]. split; [reflexivity|]. right. left. exists q, (be_enc 2 (t1 mod 65536)), (be_enc 2 (t2 mod 65536)). repeat split; auto.
  - destruct (date_frames rt m tr) as (t & E). destruct (E a) as (da & La & ->), (E b) as (db & Lb & ->). right.
    do 3 eexists. split; [reflexivity|]. split; [reflexivity|]. right. right. exists t, da, db. auto.
Qed.

Section close_wires.
  Context {S : Type} (R : S -> S -> Prop) (d : DeviceGeneral S) (B : blind R d).
  Context (clock : nat -> datetime) (env : nat -> globals -> globals) (rt : bool) (defs : list ReportDef) (U : usable defs) (spares : nat -> bytes) (fuel2 : nat).
  Notation tp := (hid_transport fuel2 defs spares wire_read wire_write).

  Lemma replies_close cs1 cs2 : Forall2 commands_close cs1 cs2 -> forall m l o1 o2 n,
    match write_replies rt tp m cs1 ((l, o1), n), write_replies rt tp m cs2 ((l, o2), n) with
    | Some (Ret (m1, w1)), Some (Ret (m2, w2)) => m1 = m2 /\ exists x1 x2 fs1 fs2,
        w1 = ((l, o1 ++ x1), n) /\ w2 = ((l, o2 ++ x2), n) /\ departs defs fs1 x1 /\ departs defs fs2 x2 /\ Forall2 frames_close fs1 fs2
    | Some Panic, Some Panic => True
    | None, None => True
    | _, _ => False
    end.
  Proof.
    induction 1 as [|c1 c2 cs1 cs2 C CS IH]; intros m l o1 o2 n; cbn [write_replies].
    - split; [reflexivity|]. exists [], [], [], []. rewrite !app_nil_r. repeat split; constructor.
    - assert (Z : forall m' p1 p2, frames_close (frame_bytes p1) (frame_bytes p2) ->
        match (go (w', _) <- tp_WriteFrame tp ((l, o1), n) (fst (WritePacket NewPacketWriter p1)); write_replies rt tp m' cs1 w'),
              (go (w', _) <- tp_WriteFrame tp ((l, o2), n) (fst (WritePacket NewPacketWriter p2)); write_replies rt tp m' cs2 w') with
        | Some (Ret (m1, w1)), Some (Ret (m2, w2)) => m1 = m2 /\ exists x1 x2 fs1 fs2,
            w1 = ((l, o1 ++ x1), n) /\ w2 = ((l, o2 ++ x2), n) /\ departs defs fs1 x1 /\ departs defs fs2 x2 /\ Forall2 frames_close fs1 fs2
        | Some Panic, Some Panic => True
        | None, None => True
        | _, _ => False
        end).
      { intros m' p1 p2 F. change NewPacketWriter with (@nil byte). rewrite <- !frame_bytes_eq.
        destruct (wire_sent defs l o1 (frame_bytes p1) U) as (y1 & E1 & D1). destruct (wire_sent defs l o2 (frame_bytes p2) U) as (y2 & E2 & D2).
        cbn [hid_transport tp_WriteFrame fst snd]. rewrite E1, E2. cbn [io_bind done]. specialize (IH m' l (o1 ++ y1) (o2 ++ y2) n).
        destruct (write_replies rt tp m' cs1 _) as [[[m1 w1]|]|], (write_replies rt tp m' cs2 _) as [[[m2 w2]|]|]; try contradiction; try exact I.
        destruct IH as (-> & x1 & x2 & fs1 & fs2 & -> & -> & G1 & G2 & FF). split; [reflexivity|].
        exists (y1 ++ x1), (y2 ++ x2), (frame_bytes p1 :: fs1), (frame_bytes p2 :: fs2). rewrite !app_assoc. repeat split; auto. }
      destruct (close_frames rt m c1 c2 C) as [->|(m' & b1 & b2 & -> & -> & F)].
      + destruct (MarshalCmd rt m c2) as [[m' res]|]; cbn [io_bind]; [|exact I].
        specialize (Z m' (match res with Ok b => b | Err _ => [] end) (match res with Ok b => b | Err _ => [] end) (or_introl eq_refl)).
        destruct (WritePacket NewPacketWriter _) as [fr er]. exact Z.
      + cbn [io_bind]. specialize (Z m' b1 b2 F). destruct (WritePacket NewPacketWriter b1) as [fr1 er1], (WritePacket NewPacketWriter b2) as [fr2 er2]. exact Z.
  Qed.

  Lemma server_close fuel : forall c st1 st2 l o1 o2 n, sv_mode st1 = sv_mode st2 -> h_close R (sv_h st1) (sv_h st2) ->
    match processFrames_shared fuel rt std_registry clock env d tp c st1 ((l, o1), n), processFrames_loop fuel rt std_registry clock d tp st2 ((l, o2), n) with
    | Some (Ret (st1', w1)), Some (Ret (st2', w2)) => sv_mode st1' = sv_mode st2' /\ h_close R (sv_h st1') (sv_h st2') /\ exists l' k x1 x2 fs1 fs2,
        w1 = ((l', o1 ++ x1), k) /\ w2 = ((l', o2 ++ x2), k) /\ departs defs fs1 x1 /\ departs defs fs2 x2 /\ Forall2 frames_close fs1 fs2
    | Some Panic, Some Panic => True
    | None, None => True
    | _, _ => False
    end.
  Proof.
    induction fuel as [|fuel IH]; intros c st1 st2 l o1 o2 n SM SH; cbn [processFrames_loop processFrames_shared]; [exact I|].
    destruct (read_indep defs fuel2 [] l) as (r & E).
    assert (T : forall o, tp_ReadFrame tp ((l, o), n) = (go (l', x) <- r; done (((l', o), Datatypes.S n), match x with inl f => inl (mkSlice f (spares n)) | inr e => inr e end))).
    { intros o. cbn [hid_transport tp_ReadFrame fst snd]. rewrite E. destruct r as [[[l' x]|]|]; reflexivity. }
    rewrite !T. destruct r as [[[l' x]|]|]; cbn [io_bind done]; try exact I. destruct x as [f|e].
    - unfold process_frame, process_frame_shared. rewrite SM. destruct (frame_packets rt std_registry (sv_mode st2) _) as [[[m1 evs]|]|]; cbn [io_bind]; try exact I.
      pose proof (handle_all_close R d B clock env (inCmds evs) c (sv_h st1) (sv_h st2) SH) as H.
      destruct (handle_all_shared std_registry clock env d c (inCmds evs) (sv_h st1)) as [[h1 a]|], (handle_all std_registry clock d (inCmds evs) (sv_h st2)) as [[h2 b]|];
        cbn [io_bind]; try contradiction; try exact I.
      destruct H as [H _].
      assert (C : Forall2 commands_close (outCmds (h_log (sv_h st1)) (h_log h1)) (outCmds (h_log (sv_h st2)) (h_log h2))).
      { destruct SH as (_ & B1). destruct H as (_ & B'). now apply event_close_out. }
      pose proof (replies_close _ _ C m1 l' o1 o2 (Datatypes.S n)) as W.
      destruct (write_replies rt tp m1 _ ((l', o1), Datatypes.S n)) as [[[m2 w2]|]|], (write_replies rt tp m1 _ ((l', o2), Datatypes.S n)) as [[[m3 w3]|]|]; cbn [io_bind done]; try contradiction; try exact I.
      destruct W as (-> & x1 & x2 & fs1 & fs2 & -> & -> & D1 & D2 & F).
      specialize (IH (c + List.length (inCmds evs)) (mkServer m3 h1) (mkServer m3 h2) l' (o1 ++ x1) (o2 ++ x2) (Datatypes.S n) eq_refl H).
      destruct (processFrames_shared fuel rt std_registry clock env d tp _ _ _) as [[[st1' w1]|]|], (processFrames_loop fuel rt std_registry clock d tp _ _) as [[[st2' w2']|]|];
        try contradiction; try exact I.
      destruct IH as (M' & H' & l2 & k & y1 & y2 & gs1 & gs2 & -> & -> & E1 & E2 & FF). split; [exact M'|]. split; [exact H'|].
      exists l2, k, (x1 ++ y1), (x2 ++ y2), (fs1 ++ gs1), (fs2 ++ gs2). rewrite !app_assoc. repeat split; auto using departs_app, Forall2_app.
    - destruct e; try exact (IH c st1 st2 l' o1 o2 (Datatypes.S n) SM SH).
      split; [exact SM|]. split; [exact SH|]. exists l', (Datatypes.S n), [], [], [], []. rewrite !app_nil_r. repeat split; constructor.
  Qed.
End close_wires.
