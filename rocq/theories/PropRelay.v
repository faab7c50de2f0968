(** Property C106: decoding a packet and encoding the command again. *)
From Coq Require Import ZifyBool ZifyNat ZifyN Lia.
From Verif Require Import Base BaseFacts GoTypes Types Payload Lingo Command SpecPayload SpecCommand Handlers SpecHandlers
  SpecProtocol Packet SpecPacket Hid SpecHid HidThms Trace SpecTrace Server SpecServer SpecWire ServerThms ProtocolProps
  PropProtocol PropMachine PropRetry SpecRelay RelayThms.
Notation fresh := SpecWire.fresh.
#[local] Opaque requests.

(** What was decoded and encoded again decodes, in the mode in which the packet arrived, to the same
    command, with the same error if there was one, and leaves the same mode. *)
Theorem C106_same rt e p e' c x q :
  UnmarshalCmd rt std_registry e p = Ret (e', c, x) -> MarshalCmd rt e' c = Ret (e', Ok q) -> faithful e' c ->
  UnmarshalCmd rt std_registry e q = Ret (e', c, x).
Proof. exact (relayed_same rt e p e' c x q). Qed.
Print Assumptions C106_same.

(** So a second pass changes nothing. *)
Theorem C106_stable rt e p e' c q : relayed rt e p e' c q -> faithful e' c -> relayed rt e q e' c q.
Proof. intros (x & U & M) F. exists x. split; [exact (relayed_same rt e p e' c x q U M F)|exact M]. Qed.
Print Assumptions C106_stable.

(** A packet in wire form is not changed, and no packet of an unknown command is. *)
Theorem C106_exact rt e p e' c q : relayed rt e p e' c q -> faithful e' c -> in_wire_form p c -> q = p.
Proof. exact (relayed_exact rt e p e' c q). Qed.
Print Assumptions C106_exact.

Theorem C106_unknown rt e p e' c x q :
  UnmarshalCmd rt std_registry e p = Ret (e', c, Some x) -> MarshalCmd rt e' c = Ret (e', Ok q) -> q = p.
Proof. exact (relayed_unknown rt e p e' c x q). Qed.
Print Assumptions C106_unknown.

(** Exactly the decoded commands whose payload can be encoded pass. *)
Theorem C106_when rt e p e' c x pay :
  UnmarshalCmd rt std_registry e p = Ret (e', c, x) -> cmd_payload c = Some pay ->
  encodable pay = true <-> exists q, relayed rt e p e' c q.
Proof. exact (relayed_when rt e p e' c x pay). Qed.
Print Assumptions C106_when.

(** A program between the accessory and the server that takes every packet apart and puts it together
    again is not noticed: whichever way both sides cut their frames into reports, the server does not
    crash, ends in the same memory and has written the same reports. *)
Theorem C106_session rt clock defs spares rss pss rss' qss e' fuel :
  usable defs -> Forall2 (sends defs) rss pss -> Forall2 (sends defs) rss' qss -> relays_all rt false pss e' qss ->
  List.length (List.concat rss) < fuel -> List.length (List.concat rss') < fuel ->
  exists m outs, ends_with (session rt clock defs spares fuel rss) m outs
              /\ ends_with (session rt clock defs spares fuel rss') m outs.
Proof.
  intros U S S' R L L'.
  pose proof (session_is rt clock defs spares fuel rss pss U S L) as A.
  pose proof (session_is rt clock defs spares fuel rss' qss U S' L') as B.
  destruct (conversation_relayed rt clock false pss e' qss R fresh eq_refl) as (m & fs & E1 & E2). rewrite E1 in A. rewrite E2 in B.
  destruct A as (o & D & E). destruct B as (o' & D' & E'). exists m, o. split; [exact E|].
  rewrite (departs_unique _ _ _ _ D D'). exact E'.
Qed.
Print Assumptions C106_session.

(** Finding: a number that arrives while numbers are off is understood, but not written again. *)
Theorem C106_number_refuted : exists p c q,
  relayed true false p false c q /\ cmd_trx c = Some 4660%N
  /\ exists c', UnmarshalCmd true std_registry false q = Ret (false, c', None) /\ cmd_trx c' = None.
Proof.
  exists [x00; x07; x12; x34]. eexists. exists [x00; x07]. split; [eexists; split; vm_compute; reflexivity|].
  split; [reflexivity|]. eexists. split; vm_compute; reflexivity.
Qed.
Print Assumptions C106_number_refuted.

(** Finding: an identify token that claims more lingoes than it has is accepted and filled up, and the
    command, encoded again, cannot be decoded. *)
Theorem C106_tokens_refuted : exists p c q,
  relayed true false p false c q
  /\ UnmarshalCmd true std_registry false p = Ret (false, c, None)
  /\ exists c' x, UnmarshalCmd true std_registry false q = Ret (false, c', Some x).
Proof.
  exists [x00; x39; x02; x03; x00; x00; xff; x03; x00; x00; x00]. eexists. eexists.
  split; [eexists; split; vm_compute; reflexivity|]. split; [vm_compute; reflexivity|].
  eexists. eexists. vm_compute. reflexivity.
Qed.
Print Assumptions C106_tokens_refuted.

(** Finding: what an accessory sends to authenticate itself cannot be passed on at all. *)
Theorem C106_authentication_refuted : exists p c, 
  UnmarshalCmd true std_registry true p = Ret (true, c, None) /\ forall q, ~ relayed true true p true c q.
Proof.
  exists [x00; x15; x00; x01; x02; x00; x00; x00; x30]. eexists. split; [vm_compute; reflexivity|].
  intros q (x & _ & M). vm_compute in M. discriminate M.
Qed.
Print Assumptions C106_authentication_refuted.

(** A session: start of identification, which switches numbers on; one frame with a request for the name
    and an unknown command; buttons with bytes that are not needed, which are left out. *)
Example C106_case :
  let pss := [[[x00; x38; x00; x01]]; [[x00; x07; x12; x34]; [x00; xee; x12; x35]]; [[x02; x00; x00; x02; x01; x00; x00; x00]]] in
  let qss := [[[x00; x38; x00; x01]]; [[x00; x07; x12; x34]; [x00; xee; x12; x35]]; [[x02; x00; x00; x02; x01]]] in
  relays_all true false pss true qss
  /\ (exists c, relayed true false [x00; x38; x00; x01] true c [x00; x38; x00; x01] /\ in_wire_form [x00; x38; x00; x01] c)
  /\ exists m outs, conversation true no_date fresh pss = Some (m, outs) /\ outs <> [] 
     /\ conversation true no_date fresh qss = Some (m, outs).
Proof.
  split; [|split].
  - repeat first [eapply ra_cons | eapply ra_nil | eapply rl_cons | eapply rl_nil
      | eexists; split; vm_compute; reflexivity
      | split; [now right|intros p H; injection H as <-; exact I] ].
  - eexists. split; [eexists; split; vm_compute; reflexivity|]. exists (Pst general_StartIDPS []), [].
    split; [reflexivity|]. split; [eapply pw_fixed; [reflexivity|apply sw_nil]|reflexivity].
  - eexists. eexists. split; [vm_compute; reflexivity|]. split; [discriminate|vm_compute; reflexivity].
Qed.
