(** Property C120: the clock. *)
From Coq Require Import ZifyBool ZifyNat ZifyN Lia.
From Verif Require Import Base BaseFacts GoTypes Types Payload Lingo Command SpecPayload SpecCommand Handlers SpecHandlers HandlersThms
  SpecProtocol Packet SpecPacket PacketThms Hid SpecHid HidThms Server SpecServer ServerFacts ServerThms SpecWire ProtocolProps PropProtocol SpecRetry RetryThms PropRetry SpecRenew PropRenew
  SpecPlug SpecTransport TransportThms SpecClock ClockThms.
#[local] Opaque std_registry.

(** A run depends on the readings of the clock it takes, and on no other moment: with any device and transport, clocks
    that agree on those readings give the same run. *)
Theorem C120_readings {S W} rt c1 c2 (dev : DeviceGeneral S) (tp : transport W) h w fuel st w' :
  processFrames fuel rt std_registry c1 dev tp h w = done (st, w') ->
  (forall k, h_ticks h <= k < h_ticks (sv_h st) -> c1 k = c2 k) ->
  processFrames fuel rt std_registry c2 dev tp h w = done (st, w').
Proof. intros E A. exact (proj2 (loop_ticks dev c1 c2 rt tp fuel (mkServer false h) w st w' E) A). Qed.
Print Assumptions C120_readings.

(** Whatever two clocks show, the same happens but for the dates told: any device gets the same calls and ends in the
    same state, and the frames sent are the same but for those that tell a reading.  Each reading is told in one frame, in
    the order they are taken, all five numbers from the one reading. *)
Theorem C120_alike {S} rt c1 c2 (dev : DeviceGeneral S) s defs spares reads pss fuel :
  usable defs -> arrives defs spares 0 reads pss -> List.length reads < fuel ->
  let ran c := processFrames fuel rt std_registry c dev (hid_transport fuel defs spares wire_read wire_write) (at_start s) ((reads, []), 0) in
  compare (ran c1) (ran c2) (fun e1 e2 =>
    let '(st1, ((_, outs1), _)) := e1 in let '(st2, ((_, outs2), _)) := e2 in
    sv_mode st1 = sv_mode st2 /\ h_dev (sv_h st1) = h_dev (sv_h st2) /\ calls (h_log (sv_h st1)) = calls (h_log (sv_h st2))
    /\ h_ticks (sv_h st1) = h_ticks (sv_h st2)
    /\ exists fs1 fs2, departs defs fs1 outs1 /\ departs defs fs2 outs2 /\ frames_told c1 c2 0 fs1 fs2 (h_ticks (sv_h st1))).
Proof.
  intros U A L. cbv zeta.
  pose proof (server_wired rt c1 dev defs spares reads pss 0 U A fuel fuel (mkServer false (at_start s)) [] L L) as K1.
  pose proof (server_wired rt c2 dev defs spares reads pss 0 U A fuel fuel (mkServer false (at_start s)) [] L L) as K2.
  pose proof (talk_told dev c1 c2 rt pss (mkServer false (at_start s)) (mkServer false (at_start s)) eq_refl ltac:(repeat split)) as T.
  unfold processFrames. destruct (talk_all rt c1 dev _ pss) as [[st1 fs1]|], (talk_all rt c2 dev _ pss) as [[st2 fs2]|]; try contradiction.
  - destruct K1 as (r1 & k1 & o1 & D1 & ->), K2 as (r2 & k2 & o2 & D2 & ->). cbn [compare done].
    destruct T as (M & (E1 & _ & _ & E4) & (l1 & l2 & L1 & L2 & T) & F). cbn [sv_h at_start h_log h_ticks app] in L1, L2, T, F.
    split; [exact M|]. split; [exact E1|]. split; [rewrite L1, L2; exact (told_calls c1 c2 _ _ _ _ T)|]. split; [exact E4|].
    exists fs1, fs2. split; [exact D1|]. split; [exact D2|]. exact F.
  - rewrite K1, K2. exact I.
Qed.
Print Assumptions C120_alike.

(** A session in which the date is not asked for takes no reading: it is the same under every clock. *)
Theorem C120_unasked {S} rt c1 c2 (dev : DeviceGeneral S) h defs spares reads pss fuel :
  usable defs -> arrives defs spares 0 reads pss -> List.length reads < fuel -> Forall (Forall (fun p => ~ may_ask_date p)) pss ->
  let ran c := processFrames fuel rt std_registry c dev (hid_transport fuel defs spares wire_read wire_write) h ((reads, []), 0) in
  ran c1 = ran c2.
Proof.
  intros U A L N. cbv zeta.
  pose proof (server_wired rt c1 dev defs spares reads pss 0 U A fuel fuel (mkServer false h) [] L L) as K1.
  pose proof (server_wired rt c2 dev defs spares reads pss 0 U A fuel fuel (mkServer false h) [] L L) as K2.
  pose proof (talk_told dev c1 c2 rt pss (mkServer false h) (mkServer false h) eq_refl ltac:(repeat split)) as T.
  pose proof (keeps_talk dev c1 rt pss N (mkServer false h)) as K.
  unfold processFrames in *. destruct (talk_all rt c1 dev _ pss) as [[st1 fs1]|], (talk_all rt c2 dev _ pss) as [[st2 fs2]|]; try contradiction.
  - destruct K1 as (r1 & k1 & o1 & D1 & E1). rewrite E1. symmetry.
    apply (proj2 (loop_ticks dev c1 c2 rt _ fuel (mkServer false h) _ _ _ E1)). intros j J. cbn [sv_h] in *. lia.
  - now rewrite K1, K2.
Qed.
Print Assumptions C120_unasked.

(** Two sessions, one with two questions for the date around one for the name, the other without, under the clocks of
    two years: the dates told differ, and the second session does not. *)
Definition clock_before : nat -> datetime := fun k => (1999, 12, 31, 23, N.of_nat k)%N.
Definition asked120 : list bytes := [[x03; x0c; x09]; [x00; x07]; [x03; x0c; x12; x34; x09]].

Example C120_case :
  arrives DefaultReportDefs (fun _ => []) 0 (reads_of (map request_of asked120)) (map (fun p => [p]) asked120)
  /\ Forall may_ask_date [[x03; x0c; x09]; [x03; x0c; x12; x34; x09]]
  /\ (exists st1 w1 st2 w2, served true clock_ticking DefaultReportDefs (fun _ => []) 9 (reads_of (map request_of asked120)) = done (st1, w1)
        /\ served true clock_before DefaultReportDefs (fun _ => []) 9 (reads_of (map request_of asked120)) = done (st2, w2)
        /\ h_ticks (sv_h st1) = 2 /\ snd (fst w1) <> snd (fst w2)
        /\ nth_error (snd (fst w1)) 0 = Some (report_bytes (mkReport x02 x00 (date_frame [] (clock_ticking 0) ++ [x00])))
        /\ nth_error (snd (fst w2)) 0 = Some (report_bytes (mkReport x02 x00 (date_frame [] (clock_before 0) ++ [x00]))))
  /\ Forall (Forall (fun p => ~ may_ask_date p)) [[[x00; x07]]; [[x03; x0c; x03]]]
  /\ (exists st w, served true clock_ticking DefaultReportDefs (fun _ => []) 9 (reads_of (map request_of [[x00; x07]; [x03; x0c; x03]])) = done (st, w)
        /\ List.length (snd (fst w)) = 2 /\ h_ticks (sv_h st) = 0).
Proof.
  split; [|split; [|split; [|split]]].
  - apply (sent_arrives DefaultReportDefs (fun _ => []) (map request_of asked120)).
    repeat (apply Forall2_cons; [apply request_sent; [split; vm_compute; (reflexivity || discriminate || (split; discriminate))|vm_compute; lia]|]). apply Forall2_nil.
  - repeat constructor; eexists; (split; [reflexivity|]); [left|right]; reflexivity.
  - do 4 eexists. split; [vm_compute; reflexivity|]. split; [vm_compute; reflexivity|]. split; [reflexivity|]. split; [discriminate|]. split; vm_compute; reflexivity.
  - repeat constructor; intros (b & E & [H|H]); try discriminate E; injection E as <-; discriminate H.
  - do 2 eexists. split; [vm_compute; reflexivity|]. split; reflexivity.
Qed.
