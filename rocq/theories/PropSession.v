(** Properties C79-C80: crashes reproduced from the trace, sessions seen in the viewer. *)
From Coq Require Import ZifyBool ZifyNat ZifyN Lia.
From Verif Require Import Base GoTypes Types Payload Lingo Command SpecPayload SpecCommand Handlers SpecHandlers
  Packet SpecPacket Hid SpecHid HidThms Trace SpecTrace TraceSessions Server SpecServer SessionThms PropServer SpecView ViewThms SpecSession CrashThms RecordThms.

(** ** C79 *)

(** A recorded session crashes exactly when it gets, by whole rounds, to a frame it crashes on. *)
Theorem C79_crash_point {S DS} rt reg clock (g : DeviceGeneral DS) h (dev : io_rw S) w fuel2 defs spares :
  usable defs -> Forall (fun d => (1 <= def_Len d)%Z) defs -> honest dev -> counting dev ->
  (exists fuel, processFrames fuel rt reg clock g (traced fuel2 defs spares dev) h w = Some Panic)
  <-> (exists w', crashes_at rt reg clock g (traced fuel2 defs spares dev) h w w').
Proof.
  intros U L HO CO. split.
  - intros (fuel & E). exact (traced_crash rt reg clock g h dev w fuel2 defs spares fuel L U HO CO E).
  - intros (w' & C). exact (crash_at_loop rt reg clock g (traced fuel2 defs spares dev) h w w' C).
Qed.
Print Assumptions C79_crash_point.

(** The file written up to a crash reproduces it: the replay reads as many frames, has sent the
    same frames and crashes. *)
Theorem C79_crash_replayed {S DS} rt reg clock (g : DeviceGeneral DS) h (dev : io_rw S) s fuel2 defs spares s' file n out :
  usable defs -> Forall (fun d => (def_Len d <= 21843)%Z) defs -> honest dev -> counting dev -> clean dev ->
  crashes_at rt reg clock g (traced fuel2 defs spares dev) h (((s, []), 0), []) (((s', file), n), out) ->
  (exists r, crashes_at rt reg clock g (replayed fuel2 defs spares) h ((NewReader file EOF, 0), []) ((r, n), out))
  /\ exists fuel, processFrames fuel rt reg clock g (replayed fuel2 defs spares) h ((NewReader file EOF, 0), []) = Some Panic.
Proof.
  intros U N HO CO C H.
  destruct (crash_replayed rt reg clock g h dev s fuel2 defs spares s' file n out U N HO CO C H) as (r & CR).
  split; [exists r; exact CR|]. exact (crash_at_loop _ _ _ _ _ _ _ _ CR).
Qed.
Print Assumptions C79_crash_replayed.

(** Finding: without the condition on read errors (C68) the replay may crash where the session
    did not. *)
Definition crash_reads : list (bytes + goerr) :=
  [inl [x05; x02; x55; x07; x00; x39; x01; x03; x00]; inr errShortWrite; inl [x05; x01; x06; xaa; x0c; x00; x00; x00; x00]].
Theorem C79_only_crash_refuted :
  honest host /\ counting host /\ host_out host crash_reads = done [] /\ replay_out host crash_reads = Some Panic.
Proof.
  split; [|split; [|split; vm_compute; reflexivity]].
  - split.
    + intros l n l' got. cbn [rw_read host]. destruct l as [|[[|b d]|e] l]; intros H; try discriminate.
      injection H as _ <-. rewrite firstn_length. lia.
    + intros l p l' n H. cbn [rw_write host] in H. injection H as _ <-. lia.
  - intros l p l' n e H. cbn [rw_write host] in H. injection H as _ <- _. lia.
Qed.
Print Assumptions C79_only_crash_refuted.

(** A request that is answered, then a malformed identification that crashes the server. *)
Example C79_case :
  honest good_host /\ counting good_host /\ clean good_host
  /\ Forall (fun d => (1 <= def_Len d <= 21843)%Z) DefaultReportDefs
  /\ processFrames 9 true std_registry clock0 DevGeneral_device (traced 9 DefaultReportDefs (fun _ => []) good_host) h0
       ((([[x05; x02; x55; x02; x00; x07; xf7; x00; x00]; [x05; x01; x00; x00; x00; x00; x00; x00; x00];
           [x05; x02; x55; x07; x00; x39; x01; x03; x00]; [x05; x01; x06; xaa; x0c; x00; x00; x00; x00]], []), 0), []) = Some Panic.
Proof.
  destruct C68_case as (A & B & _). split; [exact A|]. split; [|split; [exact B|split; [|vm_compute; reflexivity]]].
  - intros l p l' n e H. cbn [rw_write good_host] in H. injection H as _ <- _. lia.
  - unfold DefaultReportDefs. repeat (apply Forall_cons; [cbn [def_Len]; lia|]). apply Forall_nil.
Qed.

(** ** C80 *)

(** Watching a session does not change it. *)
Theorem C80_watched {S W} fuel rt reg clock (g : DeviceGeneral S) (tp : transport W) h w hs st w' :
  processFrames fuel rt reg clock g tp h w = done (st, w')
  <-> exists hs', processFrames fuel rt reg clock g (watched tp) h (w, hs) = done (st, (w', hs')).
Proof. exact (watched_same fuel rt reg clock g tp h w hs st w'). Qed.
Print Assumptions C80_watched.

(** A session recorded on a device that takes all writes and whose reads do not fail, viewed with
    the same table: the viewer shows, in order, each frame received and each frame sent, and leaves
    nothing out but frames without a byte.  (The viewer may crash on a frame, see C53.) *)
Theorem C80_session_viewed {S DS} rt reg clock (g : DeviceGeneral DS) h (dev : io_rw S) s fuel fuel2 defs spares st s' file n hs
  rt' spares' :
  usable defs -> Forall (fun d => (1 <= def_Len d <= 1023)%Z) defs -> honest dev -> obliging dev -> clean dev ->
  processFrames fuel rt reg clock g
    (watched (hid_transport fuel2 defs spares (traced_read append_file dev) (tracer_Write append_file dev))) h (((s, []), 0), [])
    = done (st, (((s', file), n), hs)) ->
  dumpTrace rt' std_registry defs spares' (NewReader file EOF) <> Some Panic ->
  exists q es, dumpTrace rt' std_registry defs spares' (NewReader file EOF) = done (inl (q, es))
    /\ qlist q = [] /\ Forall2 (shown_as defs) (filter visible hs) es.
Proof. exact (session_viewed rt reg clock g h dev s fuel fuel2 defs spares st s' file n hs rt' spares'). Qed.
Print Assumptions C80_session_viewed.

(** A request in two reports, its reply, and half a frame more. *)
Definition viewed_session : io (list happening * (list view_entry + goerr)) :=
  go (_, w) <- processFrames 9 true std_registry clock0 DevGeneral_device
                 (watched (hid_transport 9 DefaultReportDefs (fun _ => []) (traced_read append_file good_host)
                             (tracer_Write append_file good_host))) h0
                 ((([[x05; x02; x55; x02; x00; x07; xf7; x00; x00]; [x05; x01; x00; x00; x00; x00; x00; x00; x00];
                     [x05; x02; x55; x02; x00; x07; xf7; x00; x00]], []), 0), []);
  go r <- dumpTrace true std_registry DefaultReportDefs (fun _ => []) (NewReader (snd (fst (fst w))) EOF);
  done (snd w, match r with inl (_, es) => inl es | inr e => inr e end).

Example C80_case :
  Forall (fun d => (1 <= def_Len d <= 1023)%Z) DefaultReportDefs /\ honest good_host /\ obliging good_host /\ clean good_host
  /\ exists es, viewed_session
       = done ([Received (inl ([x55; x02; x00; x07; xf7] ++ repeat x00 9)); Sent (fst (WritePacket [] name_reply))], inl es)
     /\ map vw_dir es = [0%N; 1%N].
Proof.
  destruct C68_case as (A & B & _).
  split; [unfold DefaultReportDefs; repeat (apply Forall_cons; [cbn [def_Len]; lia|]); apply Forall_nil|].
  split; [exact A|]. split; [intros s p; eexists; reflexivity|]. split; [exact B|].
  eexists. split; [vm_compute; reflexivity|reflexivity].
Qed.
