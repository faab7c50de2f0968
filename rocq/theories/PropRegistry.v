(** Property C119: registering commands. *)
From Coq Require Import Permutation ZifyBool ZifyNat ZifyN Lia.
From Verif Require Import Base BaseFacts GoTypes Types Payload Lingo Command SpecPayload SpecCommand LingoFacts CommandFacts CommandThms Handlers HandlersThms
  Packet SpecPacket Hid SpecHid HidThms Trace Server SpecServer SpecProtocol SpecWire ServerThms ProtocolProps PropProtocol SpecRetry RetryThms PropRetry SpecRenew PropRenew SpecVersions SpecRegistry RegistryThms.
#[local] Opaque std_registry.

(** The server knows the registered commands through the two lookups only: with registries they cannot tell apart, its
    run is the same, with any device, transport and input. *)
Theorem C119_server {S W} rt r1 r2 clock (dev : DeviceGeneral S) (tp : transport W) h w fuel :
  same_lookups r1 r2 ->
  processFrames fuel rt r1 clock dev tp h w = processFrames fuel rt r2 clock dev tp h w.
Proof. intros E. exact (server_eq rt r1 r2 clock dev tp E fuel (mkServer false h) w). Qed.
Print Assumptions C119_server.

(** The order in which Go initialises the lingo packages does not matter: not to the lookups, and so not to the server. *)
Theorem C119_order order :
  Permutation shipped order ->
  same_lookups (registering order) std_registry
  /\ (forall {S W} rt clock (dev : DeviceGeneral S) (tp : transport W) h w fuel,
        processFrames fuel rt (registering order) clock dev tp h w = processFrames fuel rt std_registry clock dev tp h w).
Proof.
  intros P. pose proof (order_same order P) as E. split; [exact E|]. intros S W rt clock dev tp h w fuel. exact (C119_server rt _ _ clock dev tp h w fuel E).
Qed.
Print Assumptions C119_order.

(** How a packet is decoded depends on the registrations of its own lingo only. *)
Theorem C119_lingo rt reg1 reg2 mode l b :
  of_lingo (b2n l) reg1 = of_lingo (b2n l) reg2 ->
  UnmarshalCmd rt reg1 mode (l :: b) = UnmarshalCmd rt reg2 mode (l :: b).
Proof. intros E. rewrite (decode_lingo rt reg1), (decode_lingo rt reg2), E. reflexivity. Qed.
Print Assumptions C119_lingo.

(** In a program without the package of a lingo, its packets are unknown commands, kept as they are. *)
Theorem C119_missing rt reg mode l b id :
  (forall e, In e reg -> lingo_part (fst e) <> b2n l) -> packet_id (l :: b) = Some id ->
  exists mode' e, UnmarshalCmd rt reg mode (l :: b) = Ret (mode', mkCmd id None (Some (PUnknown (packet_body (l :: b)))), Some e).
Proof.
  intros M I. eexists _, _. apply (UnmarshalCmd_unknown rt reg mode (l :: b) id I). unfold Lookup. rewrite (types_of_nil reg id); [reflexivity|].
  intros t H. apply M in H. cbn [fst] in H. apply H. exact (packet_lingo l b id I).
Qed.
Print Assumptions C119_missing.

(** Registering more, under new ids, changes the decoding of no other packet; for new types, the id of no other type. *)
Theorem C119_added rt reg more mode pkt p :
  ((forall e, In e more -> packet_id pkt <> Some (fst e)) -> UnmarshalCmd rt (reg ++ more) mode pkt = UnmarshalCmd rt reg mode pkt)
  /\ ((forall e, In e more -> payload_type p <> Some (snd e)) -> LookupID (reg ++ more) p = LookupID reg p).
Proof.
  split; intros H.
  - unfold UnmarshalCmd. pose proof (unmarshal_id_spec pkt) as U. destruct (packet_id pkt) as [id|]; [|destruct U as (e & r & -> & _); reflexivity].
    destruct U as [-> _]. cbv zeta. rewrite Lookup_new; [reflexivity|]. intros I. apply in_map_iff in I as (e & E & I). apply (H e I). now rewrite E.
  - unfold LookupID. destruct (payload_type p) as [t|]; [|reflexivity]. f_equal. apply id_of_new. intros I. apply in_map_iff in I as (e & E & I). apply (H e I). now rewrite E.
Qed.
Print Assumptions C119_added.

(** Commands registered for a lingo without a handler change nothing for any accessory, whatever it sends: the server's
    run is the same, unless decoding such a command crashes. *)
Theorem C119_unhandled {S W} rt more clock (dev : DeviceGeneral S) (tp : transport W) h w fuel :
  foreign more ->
  same_unless_crash_io (processFrames fuel rt (std_registry ++ more) clock dev tp h w) (processFrames fuel rt std_registry clock dev tp h w).
Proof. intros F. exact (server_more rt more F clock dev tp fuel (mkServer false h) w). Qed.
Print Assumptions C119_unhandled.

(** Finding: registering the same commands again is not harmless.  What fits in size is found as before; nothing else
    is found, so that commands of variable size are unknown from then on. *)
Theorem C119_again reg id n mode :
  ((exists t b, In (id, t) reg /\ size_match t n b) -> Lookup (reg ++ reg) id n mode = Lookup reg id n mode)
  /\ ((forall t b, In (id, t) reg -> ~ size_match t n b) -> Lookup (reg ++ reg) id n mode = None).
Proof.
  rewrite Lookup_again. unfold Lookup. pose proof (lookup_by_size_spec (types_of reg id) n) as L. destruct (lookup_by_size (types_of reg id) n) as [[t b]|].
  - split; [reflexivity|]. intros H. destruct L as (pre & post & m & E & M & N & _). exfalso. apply (H t b); [apply types_of_in; rewrite E; apply in_elt|]. exists m. auto.
  - split; [|reflexivity]. intros (t & b & I & m & M & N). exfalso. apply types_of_in in I. destruct (L t m I M) as [L1 L2]. destruct b; lia.
Qed.
Print Assumptions C119_again.

Theorem C119_again_refuted rt mode id t pkt :
  In (id, t) std_registry -> (forall m, ~ fixed_size t m) -> packet_id pkt = Some id ->
  exists mode' e, UnmarshalCmd rt (std_registry ++ std_registry) mode pkt = Ret (mode', mkCmd id None (Some (PUnknown (packet_body pkt))), Some e).
Proof.
  intros I V PI. eexists _, _. apply (UnmarshalCmd_unknown rt _ mode pkt id PI). apply C119_again. intros u b Hu (m & M & _).
  assert (NS : struct_size (layout t) = None) by (destruct (struct_size (layout t)) as [k|] eqn:K; [now elim (V k)|reflexivity]).
  pose proof (std_single id t I NS) as T. apply types_of_in in Hu. rewrite T in Hu. destruct Hu as [<-|[]]. exact (V m M).
Qed.
Print Assumptions C119_again_refuted.

(** Finding: a command registered for the general lingo, which has a handler, silences its refusal.  As shipped, the
    server refuses an unknown command of that lingo; registered and not handled, it is not answered. *)
Definition ran119 (reg : registry) (reads : list raw_read) : option (outcome (server DevGeneral * (wire * nat))) :=
  processFrames 9 true reg clock_ticking DevGeneral_device (hid_transport 9 DefaultReportDefs (fun _ => []) wire_read wire_write) h0 ((reads, []), 0).
Definition extra119 : bytes := [x00; x70; x01; x02].

Theorem C119_silenced_refuted :
  let more := [(112%N, disp_InfoVolume)] in let reads := reads_of [request_of extra119] in
  (exists st w, ran119 std_registry reads = done (st, w) /\ snd (fst w) = [x01 :: x00 :: frame_bytes [x00; x02; x05; x70] ++ [x00; x00; x00; x00]])
  /\ (exists st w, ran119 (std_registry ++ more) reads = done (st, w) /\ snd (fst w) = []).
Proof. cbv zeta. split; do 2 eexists; (split; [vm_compute; reflexivity|reflexivity]). Qed.
Print Assumptions C119_silenced_refuted.

(** Cases: another order; a lingo that is missing; commands of a lingo of their own (5), met by an accessory that sends one of them and then
    asks for the name; the tokens of identification, registered twice. *)
Example C119_case :
  Permutation shipped (rev shipped) /\ registering (rev shipped) <> std_registry
  /\ of_lingo 0 (registering [(0, general_Lingos)])%N = of_lingo 0 std_registry
  /\ (forall e, In e (registering [(0, general_Lingos)])%N -> lingo_part (fst e) <> 3%N) /\ packet_id [x03; x07] = Some 196615%N
  /\ foreign [(327681%N, disp_InfoVolume)]
  /\ (exists st w, ran119 (std_registry ++ [(327681%N, disp_InfoVolume)]) (reads_of [request_of [x05; x01; x01; x02]; request_of [x00; x07]]) = done (st, w) /\ List.length (snd (fst w)) = 1)
  /\ In (57%N, general_SetFIDTokenValues) std_registry /\ (forall m, ~ fixed_size general_SetFIDTokenValues m) /\ packet_id [x00; x39; x01] = Some 57%N
  /\ (exists t b, In (7%N, t) std_registry /\ size_match t 0 b).
Proof.
  split; [apply Permutation_rev|]. split; [intros H; apply (f_equal (fun r => match r with e :: _ => fst e | [] => 0%N end)) in H; vm_compute in H; discriminate|].
  split; [vm_compute; reflexivity|].
  split; [apply Forall_forall; vm_compute; repeat constructor; discriminate|]. split; [reflexivity|].
  split.
  { intros id t [E|[]]. apply (f_equal fst) in E as E1. apply (f_equal snd) in E as E2. cbn [fst snd] in E1, E2. subst id t.
    assert (N : forall (A : Type) (l : list A) (x : A), Forall (fun y => y <> x) l -> ~ In x l) by (intros A l x Q I; rewrite Forall_forall in Q; exact (Q x I eq_refl)).
    split; [|split]; apply N; vm_compute; repeat (apply Forall_cons; [discriminate|]); apply Forall_nil. }
  split; [do 2 eexists; split; [vm_compute; reflexivity|reflexivity]|].
  split; [apply types_of_in; vm_compute; left; reflexivity|]. split; [intros m H; vm_compute in H; discriminate|]. split; [reflexivity|].
  exists general_RequestiPodName, false. split; [apply types_of_in; vm_compute; left; reflexivity|]. exists 0. split; [reflexivity|reflexivity].
Qed.
