(** Property C121: an accessory that reacts. *)
From Coq Require Import ZifyBool ZifyNat ZifyN Lia.
From Verif Require Import Mem SpecMem MemFacts MemThms MemServer Base BaseFacts GoTypes Types Payload Lingo Command SpecPayload SpecCommand Handlers SpecHandlers HandlersThms
  SpecProtocol Packet SpecPacket PacketThms Hid SpecHid HidThms Server SpecServer ServerFacts ServerThms SpecWire ProtocolProps PropProtocol SpecRetry RetryThms PropRetry SpecRenew PropRenew
  SpecReact ReactThms.

(** The server on an accessory that decides what to send next by what it was sent: the session is that of an accessory
    that sends the same reads whatever it gets - same end of the server, same reports written, same crash.  And whenever
    the accessory is to send, it has got all the server has to say to what was sent before: what the server writes if
    the accessory hangs up at that point. *)
Theorem C121_reacts {D S} (a : accessory D) rt reg clock (dev : DeviceGeneral S) h defs spares d fuel fuel2 :
  usable defs ->
  let run_acc := processFrames fuel rt reg clock dev (hid_transport fuel2 defs spares (acc_read a) (acc_write a)) h (d, 0) in
  let run_fixed reads := processFrames fuel rt reg clock dev (hid_transport fuel2 defs spares wire_read wire_write) h ((reads, []), 0) in
  run_acc = None
  \/ exists evs d', exchange a d evs d'
     /\ match run_acc with
        | Some (Ret (st, (d1, n))) => d1 = d' /\ run_fixed (sent evs) = done (st, (([], got evs), n))
        | _ => run_acc = Some Panic /\ run_fixed (sent evs) = Some Panic
        end
     /\ forall e1 x e2, evs = e1 ++ FromAcc x :: e2 -> exists st n, run_fixed (sent e1) = done (st, (([], got e1), n)).
Proof.
  intros U. cbv zeta. unfold processFrames. pose proof (server_reacts a defs U rt reg clock dev spares fuel2 fuel (mkServer false h) d 0) as R.
  destruct (processFrames_loop fuel rt reg clock dev (hid_transport fuel2 defs spares (acc_read a) (acc_write a)) (mkServer false h) (d, 0)) as [r|]; [right|now left].
  destruct R as (evs & d1 & E & P & K). exists evs, d1. split; [exact E|]. split.
  - destruct r as [[st [d2 n]]|].
    + destruct K as [-> K]. split; [reflexivity|]. specialize (K [] []). rewrite app_nil_r in K. exact K.
    + split; [reflexivity|]. specialize (K [] []). rewrite app_nil_r in K. exact K.
  - intros e1 x e2 H. exact (P e1 x e2 [] H).
Qed.
Print Assumptions C121_reacts.

(** So, with the tool's device, at every point where the accessory is to send, it has got exactly the machine's answers
    (C93) to the packets that have arrived by then. *)
Theorem C121_machine {D} (a : accessory D) rt clock defs spares d fuel :
  usable defs ->
  let run_acc := processFrames fuel rt std_registry clock DevGeneral_device (hid_transport fuel defs spares (acc_read a) (acc_write a)) h0 (d, 0) in
  run_acc = None
  \/ exists evs d', exchange a d evs d'
     /\ forall e1 x e2, evs = e1 ++ FromAcc x :: e2 -> List.length (sent e1) < fuel ->
          exists pss m fs, arrives defs spares 0 (sent e1) pss /\ conversation rt clock fresh pss = Some (m, fs) /\ departs defs fs (got e1).
Proof.
  intros U run_acc. destruct (C121_reacts a rt std_registry clock DevGeneral_device h0 defs spares d fuel fuel U) as [N|(evs & d' & E & _ & P)]; [now left|right].
  exists evs, d'. split; [exact E|]. intros e1 x e2 H L. destruct (P e1 x e2 H) as (st & n & Q).
  destruct (served_before rt clock defs spares fuel (sent e1) (memory_of st) (got e1) U L) as (pss & fs & A & C & DP).
  - exists st, [], n. split; [exact Q|reflexivity].
  - exists pss, (memory_of st), fs. auto.
Qed.
Print Assumptions C121_machine.

(** The same with the buffers the program has, in whatever state they are: what they leave behind the frames read is some
    such choice of bytes. *)
Theorem C121_memory {D S} (a : accessory D) rt reg clock (dev : DeviceGeneral S) h defs pol mm d fuel fuel2 :
  usable defs -> reachable mm ->
  let run_acc := processFrames fuel rt reg clock dev (mem_transport fuel2 defs pol (acc_read a) (acc_write a)) h (mm, d) in
  run_acc = None
  \/ exists spares evs d', exchange a d evs d'
     /\ let run_fixed reads := processFrames fuel rt reg clock dev (hid_transport fuel2 defs spares wire_read wire_write) h ((reads, []), 0) in
        match run_acc with
        | Some (Ret (st, (_, d1))) => d1 = d' /\ exists n, run_fixed (sent evs) = done (st, (([], got evs), n))
        | _ => run_acc = Some Panic /\ run_fixed (sent evs) = Some Panic
        end
     /\ forall e1 x e2, evs = e1 ++ FromAcc x :: e2 -> exists st n, run_fixed (sent e1) = done (st, (([], got e1), n)).
Proof.
  intros U R. cbv zeta.
  destruct (processFrames_sim rt reg clock dev fuel2 defs pol (acc_read a) (acc_write a) fuel h mm d (reachable_ok mm R)) as [spares E].
  change (same_end (fun w v => snd w = fst v) (processFrames fuel rt reg clock dev (mem_transport fuel2 defs pol (acc_read a) (acc_write a)) h (mm, d))
            (processFrames fuel rt reg clock dev (hid_transport fuel2 defs spares (acc_read a) (acc_write a)) h (d, 0))) in E.
  destruct (C121_reacts a rt reg clock dev h defs spares d fuel fuel2 U) as [N|(evs & d' & EX & B & P)].
  - left. rewrite N in E. match type of E with same_end _ ?x _ => destruct x as [[[? ?]|]|] end; [contradiction..|reflexivity].
  - right. exists spares, evs, d'. split; [exact EX|]. split; [|exact P].
    destruct (processFrames fuel rt reg clock dev (hid_transport fuel2 defs spares (acc_read a) (acc_write a)) h (d, 0)) as [[[st [d1 n]]|]|];
      match type of E with same_end _ ?x _ => destruct x as [[[st2 [m2 d2]]|]|] end; try contradiction.
    + cbn [same_end fst snd] in E. destruct E as [-> ->]. destruct B as [-> B]. split; [reflexivity|]. exists n. exact B.
    + split; [reflexivity|]. apply B.
    + destruct B as [B _]. discriminate B.
Qed.
Print Assumptions C121_memory.

(** An accessory that waits: it asks for the name, and only when a report has come asks for the serial number with the
    first byte it was sent (the report id) as the number of its question, and hangs up when that was answered too.  If it is to
    send while it is waiting, it breaks off with an error. *)
Definition waiting : accessory (nat * bool * byte) := mkAccessory
  (fun s : nat * bool * byte => let '(k, free, b) := s in
            (match k with O => (1, false, b) | 1 => if free then (2, false, b) else (3, false, b) | _ => (3, false, b) end,
             match k with
             | O => (report_bytes (mkReport x09 x00 (frame_with [[x00; x07]])), @None goerr)
             | 1 => if free then (report_bytes (mkReport x09 x00 (frame_with [[x00; x0b; b; x21]])), @None goerr) else ([], Some (ErrMsg "still waiting"))
             | 2 => if free then ([], Some EOF) else ([], Some (ErrMsg "still waiting"))
             | _ => ([], Some EOF)
             end))
  (fun (s : nat * bool * byte) p => let '(k, _, _) := s in (k, true, hd x00 p)).

Definition ran121 := processFrames 9 true std_registry clock_ticking DevGeneral_device
  (hid_transport 9 DefaultReportDefs (fun _ => []) (acc_read waiting) (acc_write waiting)) h0 ((0, true, x00), 0).

Example C121_case :
  exists st p1 p2 n, let r1 := report_bytes (mkReport x09 x00 (frame_with [[x00; x07]])) in
    let r2 := report_bytes (mkReport x09 x00 (frame_with [[x00; x0b; hd x00 p1; x21]])) in
    ran121 = done (st, ((3, false, hd x00 p2), n))
    /\ exchange waiting (0, true, x00) [FromAcc (r1, None); ToAcc p1; FromAcc (r2, None); ToAcc p2; FromAcc ([], Some EOF)] (3, false, hd x00 p2)
    /\ served true clock_ticking DefaultReportDefs (fun _ => []) 9 [(r1, None); (r2, None); ([], Some EOF)] = done (st, (([], [p1; p2]), n))
    /\ p1 <> p2.
Proof.
  destruct ran121 as [[[st [d n]]|]|] eqn:R; [|exfalso; vm_compute in R; discriminate R..].
  set (fixed := served true clock_ticking DefaultReportDefs (fun _ => []) 9
    [(report_bytes (mkReport x09 x00 (frame_with [[x00; x07]])), None); (report_bytes (mkReport x09 x00 (frame_with [[x00; x0b; x03; x21]])), None); ([], Some EOF)]).
  exists st, (match fixed with Some (Ret (_, ((_, [p; _]), _))) => p | _ => [] end), (match fixed with Some (Ret (_, ((_, [_; p]), _))) => p | _ => [] end), n.
  cbv zeta. vm_compute in R. injection R as <- <- <-. split; [vm_compute; reflexivity|]. split; [|split; [vm_compute; reflexivity|vm_compute; discriminate]].
  vm_compute. apply (ex_read waiting (0, true, x00)). apply ex_write. apply (ex_read waiting (1, true, x03)). apply ex_write. apply (ex_read waiting (2, true, x03)). apply ex_end.
Qed.
