(** Property C114: any device behind the server. *)
From Coq Require Import ZifyBool ZifyNat ZifyN Lia.
From Verif Require Import Base BaseFacts GoTypes Types Payload Lingo Command SpecPayload SpecCommand Handlers SpecHandlers HandlersThms
  SpecProtocol Packet SpecPacket Hid SpecHid HidThms Trace SpecTrace Server SpecServer SpecWire ServerThms ProtocolProps
  Mem SpecMem PropProtocol PropMachine SpecRetry RetryThms PropRetry SpecRenew PropRenew Util SpecPlug PlugThms.
#[local] Opaque std_registry.

Lemma started {S1 S2} may (R : S1 -> S2 -> Prop) s1 s2 : R s1 s2 -> h_alike may R (at_start s1) (at_start s2).
Proof. intros H. repeat split; [exact H|constructor]. Qed.

(** The device is seen through its methods only: two devices, however they work inside, whose methods give the
    same answers lead to the same run on any transport - the transport is left in the same state, so the same
    frames were read and written - with the same calls of their methods in the same order.  They go on giving
    the same answers. *)
Theorem C114_same {S1 S2 W} rt clock (R : S1 -> S2 -> Prop) d1 d2 s1 s2 (tp : transport W) w fuel :
  alike none R d1 d2 -> R s1 s2 ->
  compare (processFrames fuel rt std_registry clock d1 tp (at_start s1) w) (processFrames fuel rt std_registry clock d2 tp (at_start s2) w)
    (fun e1 e2 => snd e1 = snd e2 /\ h_log (sv_h (fst e1)) = h_log (sv_h (fst e2)) /\ R (h_dev (sv_h (fst e1))) (h_dev (sv_h (fst e2)))).
Proof.
  intros AL H. pose proof (server_same R d1 d2 AL clock rt tp fuel (mkServer false (at_start s1)) (mkServer false (at_start s2)) w eq_refl (started none R s1 s2 H)) as K.
  unfold processFrames, compare. destruct (processFrames_loop fuel rt std_registry clock d1 tp _ w) as [[[st1 w1]|]|], (processFrames_loop fuel rt std_registry clock d2 tp _ w) as [[[st2 w2]|]|];
    try contradiction; try exact I. destruct K as (_ & (K & _ & _ & _ & L) & ->). cbn [fst snd]. split; [reflexivity|]. split; [now apply events_none|exact K].
Qed.
Print Assumptions C114_same.

(** The answer to a question is told in the reply to that question and has no other effect: two devices that
    answer some questions differently (but not that for the mode of the user interface) lead to runs in which
    the same methods are called with the same arguments, the same input is used, and frame by frame the same is
    sent, or in both runs the reply that holds the answer to such a question. *)
Theorem C114_answers {S1 S2} rt clock defs spares may (R : S1 -> S2 -> Prop) d1 d2 s1 s2 reads fuel fuel2 :
  usable defs -> alike may R d1 d2 -> R s1 s2 ->
  let ran {S} (d : DeviceGeneral S) s :=
    processFrames fuel rt std_registry clock d (hid_transport fuel2 defs spares wire_read wire_write) (at_start s) ((reads, []), 0) in
  compare (ran d1 s1) (ran d2 s2) (fun e1 e2 =>
    let '(st1, ((rest1, outs1), _)) := e1 in let '(st2, ((rest2, outs2), _)) := e2 in
    rest1 = rest2 /\ sv_mode st1 = sv_mode st2 /\ calls (h_log (sv_h st1)) = calls (h_log (sv_h st2)) /\ R (h_dev (sv_h st1)) (h_dev (sv_h st2))
    /\ exists fs1 fs2, departs defs fs1 outs1 /\ departs defs fs2 outs2 /\ Forall2 (frames_alike may) fs1 fs2).
Proof.
  intros U AL H ran.
  pose proof (server_alike may R d1 d2 AL clock rt defs U spares fuel2 fuel (mkServer false (at_start s1)) (mkServer false (at_start s2)) reads [] [] 0 eq_refl (started may R s1 s2 H)) as K.
  unfold ran, processFrames, compare. destruct (processFrames_loop fuel rt std_registry clock d1 _ _ _) as [[[st1 w1]|]|], (processFrames_loop fuel rt std_registry clock d2 _ _ _) as [[[st2 w2]|]|];
    try contradiction; try exact I. destruct K as (M & (K & _ & _ & _ & L) & l & k & x1 & x2 & fs1 & fs2 & -> & -> & D1 & D2 & F).
  split; [reflexivity|]. split; [exact M|]. split; [|split; [exact K|exists fs1, fs2; auto]].
  clear -L. induction L as [|x y l1 l2 E L IH]; [reflexivity|]. unfold calls in *. cbn [flat_map]. rewrite IH. destruct x, y; try contradiction; [reflexivity|]. cbn [event_alike] in E. now rewrite E.
Qed.
Print Assumptions C114_answers.

(** A device that takes no token. *)
Definition refusing {S} (e : goerr) (d : DeviceGeneral S) : DeviceGeneral S :=
  mkDevice S (dev_UIMode d) (dev_SetUIMode d) (dev_Name d) (dev_SoftwareVersion d) (dev_SerialNum d) (dev_LingoProtocolVersion d) (dev_LingoOptions d)
    (dev_PrefSettingID d) (dev_SetPrefSettingID d) (dev_StartIDPS d) (dev_EndIDPS d) (fun s t => (fst (dev_SetToken d s t), Some e)) (dev_AccAuthCert d)
    (dev_SetEventNotificationMask d) (dev_EventNotificationMask d) (dev_SupportedEventNotificationMask d) (dev_CancelCommand d) (dev_MaxPayload d).

(** Finding: a device that refuses every identification token with an error cannot be told from one that takes
    them all; the accessory gets the same frames, with every token acknowledged. *)
Theorem C114_refused_refuted {S W} rt clock (d : DeviceGeneral S) e s (tp : transport W) w fuel :
  compare (processFrames fuel rt std_registry clock d tp (at_start s) w) (processFrames fuel rt std_registry clock (refusing e d) tp (at_start s) w)
    (fun e1 e2 => snd e1 = snd e2 /\ h_log (sv_h (fst e1)) = h_log (sv_h (fst e2))).
Proof.
  assert (A : alike none eq d (refusing e d)).
  { constructor; intros s0 t0; intros; subst; cbn; try reflexivity; try (split; [reflexivity|now left]). }
  pose proof (C114_same rt clock eq d (refusing e d) s s tp w fuel A eq_refl) as K. unfold compare in *.
  destruct (processFrames fuel rt std_registry clock d tp _ w) as [[[st1 w1]|]|], (processFrames fuel rt std_registry clock (refusing e d) tp _ w) as [[[st2 w2]|]|];
    try contradiction; try exact I. tauto.
Qed.
Print Assumptions C114_refused_refuted.

(** The tool's device under another name, which keeps its tokens in the reverse order. *)
Definition reversed (a b : DevGeneral) : Prop := dg_uimode a = dg_uimode b /\ dg_tokens a = rev (dg_tokens b).
Definition kitchen : DeviceGeneral DevGeneral :=
  let d := DevGeneral_device in
  mkDevice _ (dev_UIMode d) (dev_SetUIMode d) (fun s => (s, lit "kitchen")) (dev_SoftwareVersion d) (dev_SerialNum d) (dev_LingoProtocolVersion d) (dev_LingoOptions d)
    (dev_PrefSettingID d) (dev_SetPrefSettingID d) (dev_StartIDPS d) (dev_EndIDPS d) (fun s t => (mkDG (dg_uimode s) (t :: dg_tokens s), None)) (dev_AccAuthCert d)
    (dev_SetEventNotificationMask d) (dev_EventNotificationMask d) (dev_SupportedEventNotificationMask d) (dev_CancelCommand d) (dev_MaxPayload d).

Example C114_case :
  usable DefaultReportDefs /\ alike (fun c => c = CName) reversed DevGeneral_device kitchen /\ reversed DevGeneral_init DevGeneral_init
  /\ let ran (d : DeviceGeneral DevGeneral) := processFrames 20 true std_registry clock_ticking d
       (hid_transport 20 DefaultReportDefs (fun _ => []) wire_read wire_write) (at_start DevGeneral_init) ((reads_of [request_of [x00; x07]; request_of [x00; x03]], []), 0) in
     exists st1 st2 a b c k1 k2, ran DevGeneral_device = done (st1, (([], [a; c]), k1)) /\ ran kitchen = done (st2, (([], [b; c]), k2)) /\ a <> b.
Proof.
  split; [exact default_usable|]. split; [|split; [split; reflexivity|]].
  - constructor; intros s t; intros; unfold answer_alike, reversed in *; cbn; try tauto.
    destruct H as [H1 H2]. split; [exact H1|]. now rewrite H2.
  - cbv zeta. do 7 eexists. split; [vm_compute; reflexivity|]. split; [vm_compute; reflexivity|discriminate].
Qed.
