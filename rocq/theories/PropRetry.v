(** Property C105: requests that are sent again. *)
From Coq Require Import ZifyBool ZifyNat ZifyN Lia.
From Verif Require Import Base BaseFacts GoTypes Types Payload Lingo Command SpecPayload SpecCommand Handlers SpecHandlers
  SpecProtocol Packet SpecPacket Hid SpecHid HidThms Trace SpecTrace Server SpecServer SpecWire ServerThms ProtocolProps
  Mem SpecMem MemThms MemServer ProtocolMore PropProtocol PropMachine SpecRetry RetryThms.
Notation fresh := SpecWire.fresh.
#[local] Opaque std_registry requests.

(** The server over HID with an accessory whose frames, given by their reports, are [rss]. *)
Definition session (rt : bool) (clock : nat -> datetime) (defs : list ReportDef) (spares : nat -> bytes) (fuel : nat) (rss : list (list Report))
  : io (server DevGeneral * (wire * nat)) :=
  processFrames fuel rt std_registry clock DevGeneral_device (hid_transport fuel defs spares wire_read wire_write) h0
    ((map (fun r => (report_bytes r, None)) (List.concat rss), []), 0).

(** [ends_with ran m outs]: the run ends with the machine's memory [m] and the reports [outs] written. *)
Definition ends_with (ran : io (server DevGeneral * (wire * nat))) (m : memory) (outs : list bytes) : Prop :=
  exists st rest k, ran = done (st, ((rest, outs), k)) /\ memory_of st = m.

Lemma session_is rt clock defs spares fuel rss pss : usable defs -> Forall2 (sends defs) rss pss -> List.length (List.concat rss) < fuel ->
  match conversation rt clock fresh pss with
  | None => session rt clock defs spares fuel rss = Some Panic
  | Some (m, fs) => exists outs, departs defs fs outs /\ ends_with (session rt clock defs spares fuel rss) m outs
  end.
Proof.
  intros U S L. pose proof (C94_accessory rt clock defs spares rss pss fuel fuel U S) as A. cbv zeta in A. rewrite map_length in A.
  specialize (A L L). destruct (conversation rt clock fresh pss) as [[m fs]|]; [|exact A].
  destruct A as (st & rest & k & outs & E & M & D). exists outs. split; [exact D|]. exists st, rest, k. auto.
Qed.

(** A repeatable frame sent [S n] times instead of once, anywhere in a session: either it does not matter,
    because the server crashes in both sessions; or it makes no difference but for the answers [o] to this
    frame, which are written again each time: the sessions have the same memory at the end, and the same
    reports before and after.  [o] is what the frame leads to when it is the last one. *)
Theorem C105_again rt clock defs spares before rs after pss1 ps pss2 n fuel :
  usable defs -> Forall2 (sends defs) before pss1 -> sends defs rs ps -> Forall2 (sends defs) after pss2 -> repeatable ps ->
  List.length (List.concat (before ++ repeat rs (S n) ++ after)) < fuel ->
  let ran rss := session rt clock defs spares fuel rss in
  ran (before ++ [rs] ++ after) = Some Panic /\ ran (before ++ repeat rs (S n) ++ after) = Some Panic
  \/ exists m m1 m2 o1 o o2,
       ends_with (ran before) m o1 /\ ends_with (ran (before ++ [rs])) m1 (o1 ++ o)
       /\ ends_with (ran (before ++ [rs] ++ after)) m2 (o1 ++ o ++ o2)
       /\ ends_with (ran (before ++ repeat rs (S n) ++ after)) m2 (o1 ++ List.concat (repeat o (S n)) ++ o2).
Proof.
  intros U B S A K L ran.
  exact (run_again rt clock defs fuel fresh (fun rss => ran rss = Some Panic) (fun rss => ends_with (ran rss))
           (fun rss pss => session_is rt clock defs spares fuel rss pss U) before rs after pss1 ps pss2 n B S A K L).
Qed.
Print Assumptions C105_again.

(** The same with the real buffers, in whatever state earlier use has left them and however they grow. *)
Definition session_mem (rt : bool) (clock : nat -> datetime) (defs : list ReportDef) (pol : nat -> nat -> nat -> nat) (mm : mem) (fuel : nat)
  (rss : list (list Report)) : io (server DevGeneral * (mem * wire)) :=
  processFrames fuel rt std_registry clock DevGeneral_device (mem_transport fuel defs pol wire_read wire_write) h0
    (mm, (map (fun r => (report_bytes r, None)) (List.concat rss), [])).
Definition ends_with_mem (ran : io (server DevGeneral * (mem * wire))) (m : memory) (outs : list bytes) : Prop :=
  exists st mm rest, ran = done (st, (mm, (rest, outs))) /\ memory_of st = m.

Lemma session_mem_is rt clock defs pol mm fuel rss pss : usable defs -> reachable mm -> Forall2 (sends defs) rss pss -> List.length (List.concat rss) < fuel ->
  match conversation rt clock fresh pss with
  | None => session_mem rt clock defs pol mm fuel rss = Some Panic
  | Some (m, fs) => exists outs, departs defs fs outs /\ ends_with_mem (session_mem rt clock defs pol mm fuel rss) m outs
  end.
Proof.
  intros U R S L. pose proof (C94_memory rt clock defs pol mm rss pss fuel fuel U R S) as A. cbv zeta in A. rewrite map_length in A.
  specialize (A L L). destruct (conversation rt clock fresh pss) as [[m fs]|]; [|exact A].
  destruct A as (st & m' & rest & outs & E & M & D). exists outs. split; [exact D|]. exists st, m', rest. auto.
Qed.

Theorem C105_memory rt clock defs pol mm before rs after pss1 ps pss2 n fuel :
  usable defs -> reachable mm -> Forall2 (sends defs) before pss1 -> sends defs rs ps -> Forall2 (sends defs) after pss2 -> repeatable ps ->
  List.length (List.concat (before ++ repeat rs (S n) ++ after)) < fuel ->
  let ran rss := session_mem rt clock defs pol mm fuel rss in
  ran (before ++ [rs] ++ after) = Some Panic /\ ran (before ++ repeat rs (S n) ++ after) = Some Panic
  \/ exists m m1 m2 o1 o o2,
       ends_with_mem (ran before) m o1 /\ ends_with_mem (ran (before ++ [rs])) m1 (o1 ++ o)
       /\ ends_with_mem (ran (before ++ [rs] ++ after)) m2 (o1 ++ o ++ o2)
       /\ ends_with_mem (ran (before ++ repeat rs (S n) ++ after)) m2 (o1 ++ List.concat (repeat o (S n)) ++ o2).
Proof.
  intros U R B S A K L ran.
  exact (run_again rt clock defs fuel fresh (fun rss => ran rss = Some Panic) (fun rss => ends_with_mem (ran rss))
           (fun rss pss => session_mem_is rt clock defs pol mm fuel rss pss U R) before rs after pss1 ps pss2 n B S A K L).
Qed.
Print Assumptions C105_memory.

(** Any packet at all: sending it again crashes the server only if sending it once does, and changes neither
    the mode of transaction numbers nor that of the user interface. *)
Theorem C105_modes rt clock defs spares before rs pss1 p n fuel :
  usable defs -> Forall2 (sends defs) before pss1 -> sends defs rs [p] ->
  List.length (List.concat (before ++ repeat rs (S n))) < fuel ->
  let ran rss := session rt clock defs spares fuel rss in
  ran (before ++ [rs]) = Some Panic /\ ran (before ++ repeat rs (S n)) = Some Panic
  \/ exists m1 m2 o1 o2, ends_with (ran (before ++ [rs])) m1 o1 /\ ends_with (ran (before ++ repeat rs (S n))) m2 o2
       /\ numbered m2 = numbered m1 /\ extended m2 = extended m1.
Proof.
  intros U B S L ran.
  exact (run_modes rt clock defs fuel fresh (fun rss => ran rss = Some Panic) (fun rss => ends_with (ran rss))
           (fun rss pss => session_is rt clock defs spares fuel rss pss U) before rs pss1 p n B S L).
Qed.
Print Assumptions C105_modes.

#[local] Transparent requests.

(** Finding: the five delicate requests are answered differently the second time.  The switch to the extended
    mode is first announced as pending; the end of identification and the certificate's last section make
    the tool ask with its next own number; the state of the player shows the time. *)
Definition request_of (p : bytes) : list Report := [mkReport x09 x00 (frame_with [p])].
Definition clock_ticking : nat -> datetime := fun k => (2024, 5, 17, 12, N.of_nat k)%N.
Definition answered_to (m : memory) (p : bytes) : option (list reply) := option_map snd (receive true clock_ticking m p).
Theorem C105_delicate_refuted :
  Forall (fun p => exists m m1 l1 l2, receive true clock_ticking m p = Some (m1, l1) /\ answered_to m1 p = Some l2 /\ l1 <> l2)
    [[x00; x05]; [x00; x06]; [x00; x15; x01; x00]; [x00; x3b; x00]; [x03; x0c; x09]].
Proof.
  apply Forall_cons; [exists fresh|apply Forall_cons; [exists (mkMemory false true 0 0)|
    repeat (apply Forall_cons; [exists fresh|]); [..|apply Forall_nil]]];
  (do 3 eexists; (split; [vm_compute; reflexivity|]); (split; [vm_compute; reflexivity|discriminate])).
Qed.
Print Assumptions C105_delicate_refuted.

(** Finding: a section of the certificate that is sent again is kept twice. *)
Theorem C105_certificate_refuted :
  let p := [x00; x15; x02; x00; x01; x02; xaa; xbb] in
  exists st w st' w', session true clock0 DefaultReportDefs (fun _ => []) 9 [request_of p] = done (st, w)
    /\ session true clock0 DefaultReportDefs (fun _ => []) 9 [request_of p; request_of p] = done (st', w')
    /\ h_cert (sv_h st) = [xaa; xbb] /\ h_cert (sv_h st') = [xaa; xbb; xaa; xbb].
Proof. cbv zeta. do 4 eexists. split; [vm_compute; reflexivity|]. split; [vm_compute; reflexivity|]. split; vm_compute; reflexivity. Qed.
Print Assumptions C105_certificate_refuted.

Lemma request_sent p : writable p -> List.length (frame_with [p]) <= 62 -> sends DefaultReportDefs (request_of p) [p].
Proof.
  intros W L. assert (K : known DefaultReportDefs (mkReport x09 x00 (frame_with [p])) (mkDef 9 63 0)).
  { exists (firstn 8 DefaultReportDefs), []. split; [reflexivity|]. split; [reflexivity|]. repeat (apply Forall_cons; [discriminate|]). apply Forall_nil. }
  exists [], (mkReport x09 x00 (frame_with [p])), (frame_with [p]).
  split; [reflexivity|]. split; [split; apply Forall_nil|]. split; [exists (mkDef 9 63 0); split; [exact K|discriminate]|]. split; [left; reflexivity|].
  split; [apply Forall_cons; [cbn [rep_Data]; split; [cbn; lia|lia]|apply Forall_nil]|]. split.
  - apply frame_started with [] (mkReport x09 x00 (frame_with [p])) [] [frame_with [p]]; [reflexivity|left; reflexivity|apply Forall_nil| |symmetry; apply app_nil_r].
    apply Forall2_cons; [|apply Forall2_nil]. exists (mkDef 9 63 0). split; [exact K|]. split; [discriminate|]. symmetry. now apply firstn_all2.
  - apply framed. apply Forall_cons; [exact W|apply Forall_nil].
Qed.

(** Start of identification; the request for the name with a number, three times; then the request for the
    mode.  The name is answered three times, and each frame sent is repeatable. *)
Example C105_case :
  let start := request_of [x00; x38; x00; x01] in let name := request_of [x00; x07; x12; x34] in let mode := request_of [x00; x03; x12; x35] in
  Forall2 (sends DefaultReportDefs) [start; name; mode] [[[x00; x38; x00; x01]]; [[x00; x07; x12; x34]]; [[x00; x03; x12; x35]]]
  /\ Forall repeatable [[[x00; x38; x00; x01]]; [[x00; x07; x12; x34]; [x00; x03; x12; x35]]]
  /\ exists m a b c, ends_with (session true clock0 DefaultReportDefs (fun _ => []) 9 [start; name; mode]) m [a; b; c]
       /\ ends_with (session true clock0 DefaultReportDefs (fun _ => []) 9 [start; name; name; name; mode]) m [a; b; b; b; c].
Proof.
  cbv zeta. split; [|split].
  - repeat (apply Forall2_cons; [apply request_sent; [split; vm_compute; (reflexivity || discriminate || (split; discriminate))|vm_compute; lia]|]). apply Forall2_nil.
  - apply Forall_cons; [|apply Forall_cons; [|apply Forall_nil]]; split.
    all: try (repeat (apply Forall_cons; [intros (a & c & b & E & I); injection E as <- <- <-; cbn [In] in I; intuition discriminate|]); apply Forall_nil).
    + left. cbn. lia.
    + right. repeat (apply Forall_cons; [intros (c & b & E & I); injection E as <- <-; cbn [In] in I; intuition discriminate|]). apply Forall_nil.
  - do 4 eexists. split; do 3 eexists; (split; [vm_compute; reflexivity|vm_compute; reflexivity]).
Qed.
