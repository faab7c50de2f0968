(** Property C115: several servers in one process. *)
From Coq Require Import ZifyBool ZifyNat ZifyN Lia.
From Verif Require Import Base BaseFacts GoTypes Types Payload Lingo Command SpecPayload SpecCommand Handlers SpecHandlers HandlersThms
  SpecProtocol Packet SpecPacket Hid SpecHid HidThms Trace SpecTrace Server SpecServer SpecWire ServerThms ProtocolProps
  Mem SpecMem PropProtocol PropMachine SpecRetry RetryThms PropRetry SpecRenew PropRenew Util SpecPlug PlugThms Shared SpecShared SharedThms.
#[local] Opaque std_registry.

(** Whatever the other servers of the process do to what the servers share ([env]: any change of it before each
    command), a server reads the same input, sends as many frames, and each frame is the same as without them
    but for the number of a question of its own, or for the time told; it calls the same methods of its device
    but for the certificate given.  Nothing else of what the servers do reaches an accessory of another. *)
Theorem C115_replies {S} rt clock env defs spares (R : S -> S -> Prop) d s s' reads fuel fuel2 :
  usable defs -> blind R d -> R s s' ->
  let tp := hid_transport fuel2 defs spares wire_read wire_write in
  compare (processFrames_shared fuel rt std_registry clock env d tp 0 (mkServer false (at_start s)) ((reads, []), 0))
          (processFrames fuel rt std_registry clock d tp (at_start s') ((reads, []), 0)) (fun e1 e2 =>
    let '(st1, ((rest1, outs1), _)) := e1 in let '(st2, ((rest2, outs2), _)) := e2 in
    rest1 = rest2 /\ sv_mode st1 = sv_mode st2 /\ R (h_dev (sv_h st1)) (h_dev (sv_h st2))
    /\ Forall2 calls_close (calls (h_log (sv_h st1))) (calls (h_log (sv_h st2)))
    /\ exists fs1 fs2, departs defs fs1 outs1 /\ departs defs fs2 outs2 /\ Forall2 frames_close fs1 fs2).
Proof.
  intros U B H tp.
  pose proof (server_close R d B clock env rt defs U spares fuel2 fuel 0 (mkServer false (at_start s)) (mkServer false (at_start s')) reads [] [] 0 eq_refl (conj H (Forall2_nil _))) as K.
  unfold processFrames, compare. fold tp in K. destruct (processFrames_shared fuel rt std_registry clock env d tp _ _ _) as [[[st1 w1]|]|], (processFrames_loop fuel rt std_registry clock d tp _ _) as [[[st2 w2]|]|];
    try contradiction; try exact I. destruct K as (M & (K & L) & l & k & x1 & x2 & fs1 & fs2 & -> & -> & D1 & D2 & F).
  split; [reflexivity|]. split; [exact M|]. split; [exact K|]. split; [|exists fs1, fs2; auto].
  clear -L. induction L as [|x y l1 l2 E L IH]; [constructor|]. unfold calls in *. cbn [flat_map]. destruct x, y; try contradiction; cbn [app]; [exact IH|]. now constructor.
Qed.
Print Assumptions C115_replies.

(** A section of a certificate, as an accessory sends it; the first and the last command of identification. *)
Definition section_of (cur max : N) (data : bytes) : command :=
  mkCmd 21 None (Some (Pst general_RetDevAuthenticationInfo [VU 2; VU 0; VU cur; VU max; VBytes data])).
Definition start_idps : command := mkCmd 56 None (Some (Pst general_StartIDPS [])).
Definition end_idps : command := mkCmd 59 None (Some (Pst general_EndIDPS [VU 0])).

(** Finding: the sections of a certificate are collected in one place for all servers of the process.  When
    another server's accessory sends a section between two sections of this one's, the device is given a
    certificate with the other's section in it. *)
Theorem C115_cert_refuted {S S'} clock (d : DeviceGeneral S) (d' : DeviceGeneral S') s s' a b x :
  let sections := [section_of 0 1 a; section_of 1 1 b] in
  let others := [[]; [section_of 1 2 x]] in
  (exists h, handle_all std_registry clock d sections (at_start s) = Ret (h, tt) /\ calls (h_log h) = [CAccAuthCert (a ++ b)])
  /\ exists h, handle_all_shared std_registry clock (neighbour std_registry clock d' s' others) d 0 sections (at_start s) = Ret (h, tt)
       /\ calls (h_log h) = [CAccAuthCert (a ++ x ++ b)].
Proof. split; eexists; (split; [reflexivity|]); cbn; rewrite ?app_assoc; reflexivity. Qed.
Print Assumptions C115_cert_refuted.

(** Finding: the numbers of a server's own questions come from one counter for all servers of the process,
    which any accessory's start of identification sets back.  Alone, a server numbers two questions
    differently; with another accessory starting in between, two questions to one accessory bear one number. *)
Theorem C115_numbers_refuted {S S'} clock (d : DeviceGeneral S) (d' : DeviceGeneral S') s s' :
  let question t := mkCmd 20 (NewTransaction t) (Some (Pst general_GetDevAuthenticationInfo [])) in
  let asked (h : hstate S) := filter (fun c => (cmd_id c =? 20)%N) (outCmds [] (h_log h)) in
  let others := [[]; []; [start_idps]] in
  (exists h t u, handle_all std_registry clock d [start_idps; end_idps; end_idps] (at_start s) = Ret (h, tt) /\ asked h = [question t; question u] /\ t <> u)
  /\ exists h t, handle_all_shared std_registry clock (neighbour std_registry clock d' s' others) d 0 [start_idps; end_idps; end_idps] (at_start s) = Ret (h, tt)
       /\ asked h = [question t; question t].
Proof.
  split.
  - eexists. exists 1%N, 2%N. split; [reflexivity|]. split; [|discriminate]. vm_compute. reflexivity.
  - eexists. exists 1%N. split; [reflexivity|]. vm_compute. reflexivity.
Qed.
Print Assumptions C115_numbers_refuted.

(** The tool's device is one of those; with a neighbour that starts identification before each command, an
    identification over the wire in which the server's question bears another number. *)
Example C115_case :
  usable DefaultReportDefs /\ blind eq DevGeneral_device
  /\ let reads := reads_of [request_of [x00; x38; x00; x01]; request_of [x00; x07; x00; x02]; request_of [x00; x3b; x00; x03; x00]; request_of [x00; x3b; x00; x04; x00]] in
     let tp := hid_transport 20 DefaultReportDefs (fun _ => []) wire_read wire_write in
     let env := neighbour std_registry clock_ticking DevGeneral_device DevGeneral_init [[]; []; []; [start_idps]] in
     exists st1 st2 l1 l2 k1 k2 g1 g2, processFrames_shared 20 true std_registry clock_ticking env DevGeneral_device tp 0 (mkServer false (at_start DevGeneral_init)) ((reads, []), 0) = done (st1, (([], l1 ++ [g1]), k1))
       /\ processFrames 20 true std_registry clock_ticking DevGeneral_device tp (at_start DevGeneral_init) ((reads, []), 0) = done (st2, (([], l2 ++ [g2]), k2))
       /\ l1 = l2 /\ List.length l1 = 5 /\ g1 <> g2.
Proof.
  split; [exact default_usable|]. split.
  - split; [|intros s t c c' ->; reflexivity]. constructor; intros s t; intros; subst; unfold answer_alike; cbn; auto.
  - cbv zeta. eexists; eexists; eexists [_;_;_;_;_], [_;_;_;_;_]; do 4 eexists. split; [vm_compute; reflexivity|]. split; [vm_compute; reflexivity|]. split; [reflexivity|]. split; [reflexivity|discriminate].
Qed.
