(** Property C125: recording does not disturb the session. *)
From Coq Require Import ZifyBool ZifyNat ZifyN Lia.
From Verif Require Import Mem SpecMem MemFacts MemThms MemServer Base BaseFacts GoTypes Types Payload Lingo Command SpecPayload SpecCommand Handlers SpecHandlers HandlersThms
  SpecProtocol Packet SpecPacket PacketThms Hid SpecHid HidThms Trace SpecTrace TraceThms TraceSessions Server SpecServer ServerFacts ServerThms
  SpecPlug SpecTransport TransportThms PropTransport SpecWire ProtocolProps PropProtocol
  SpecRetry RetryThms PropRetry SpecEdit EditThms PropEdit SpecRefuse RefuseThms PropRefuse SpecRefuseTrace RefuseTraceThms PropRefuseTrace SpecCut CutThms PropCut SpecRecord RecordAnyThms.
#[local] Opaque std_registry requests.

(** Whatever becomes of the trace file - it may take writes, fail, or take parts - the session with -w is the one without:
    the server ends in the same state having replied the same, the device file ends in the same state, or both crash. *)
Theorem C125_undisturbed {D S T} (tw : io_write T) (dev : io_rw D) rt clock (g : DeviceGeneral S) h defs spares s t fuel fuel2 :
  honest dev ->
  compare (processFrames fuel rt std_registry clock g (hid_transport fuel2 defs spares (traced_read tw dev) (tracer_Write tw dev)) h ((s, t), 0))
          (processFrames fuel rt std_registry clock g (hid_transport fuel2 defs spares (plain_read dev) (plain_write dev)) h (s, 0))
    (fun e1 e2 => let '(st1, ((s1, _), n1)) := e1 in let '(st2, (s2, n2)) := e2 in st1 = st2 /\ s1 = s2 /\ n1 = n2).
Proof.
  intros H. pose proof (C118_same rt clock g _ _ _ h ((s, t), 0) (s, 0) fuel (plain_carries dev H tw fuel2 defs spares) (conj eq_refl eq_refl)) as K.
  unfold compare in *.
  destruct (processFrames fuel rt std_registry clock g (hid_transport fuel2 defs spares (traced_read tw dev) (tracer_Write tw dev)) h (s, t, 0)) as [[[st1 [[s1 t1] n1]]|]|],
    (processFrames fuel rt std_registry clock g (hid_transport fuel2 defs spares (plain_read dev) (plain_write dev)) h (s, 0)) as [[[st2 [s2 n2]]|]|]; try contradiction; try exact I.
  cbn [fst snd] in K. tauto.
Qed.
Print Assumptions C125_undisturbed.

(** The same with the real buffers, which end with the same contents. *)
Theorem C125_memory {D S T} (tw : io_write T) (dev : io_rw D) rt clock (g : DeviceGeneral S) h defs pol m s t fuel fuel2 :
  honest dev ->
  compare (processFrames fuel rt std_registry clock g (mem_transport fuel2 defs pol (traced_read tw dev) (tracer_Write tw dev)) h (m, (s, t)))
          (processFrames fuel rt std_registry clock g (mem_transport fuel2 defs pol (plain_read dev) (plain_write dev)) h (m, s))
    (fun e1 e2 => let '(st1, (m1, (s1, _))) := e1 in let '(st2, (m2, s2)) := e2 in st1 = st2 /\ m1 = m2 /\ s1 = s2).
Proof.
  intros H. pose proof (C118_same rt clock g _ _ _ h (m, (s, t)) (m, s) fuel (plain_carries_mem dev H tw fuel2 defs pol) (conj eq_refl eq_refl)) as K.
  unfold compare in *.
  destruct (processFrames fuel rt std_registry clock g (mem_transport fuel2 defs pol (traced_read tw dev) (tracer_Write tw dev)) h (m, (s, t))) as [[[st1 [m1 [s1 t1]]]|]|],
    (processFrames fuel rt std_registry clock g (mem_transport fuel2 defs pol (plain_read dev) (plain_write dev)) h (m, s)) as [[[st2 [m2 s2]]|]|]; try contradiction; try exact I.
  cbn [fst snd] in K. tauto.
Qed.
Print Assumptions C125_memory.

(** On a disk with room for [cap] bytes the file holds the first [cap] bytes of what it would hold otherwise. *)
Theorem C125_disk {D S} cap (dev : io_rw D) rt clock (g : DeviceGeneral S) h defs spares s fuel fuel2 :
  honest dev ->
  compare (processFrames fuel rt std_registry clock g (hid_transport fuel2 defs spares (traced_read (disk cap) dev) (tracer_Write (disk cap) dev)) h ((s, []), 0))
          (processFrames fuel rt std_registry clock g (hid_transport fuel2 defs spares (traced_read append_file dev) (tracer_Write append_file dev)) h ((s, []), 0))
    (fun e1 e2 => let '(st1, ((s1, file1), n1)) := e1 in let '(st2, ((s2, file2), n2)) := e2 in
                  st1 = st2 /\ s1 = s2 /\ n1 = n2 /\ file1 = firstn cap file2).
Proof.
  intros H. pose proof (C118_same rt clock g _ _ _ h ((s, []), 0) ((s, []), 0) fuel
    (files_carry dev H (disk cap) append_file (fun t1 t2 => t1 = firstn cap t2) fuel2 defs spares (disk_keeps cap))
    (conj (conj eq_refl (eq_sym (@firstn_nil byte cap))) eq_refl)) as K.
  unfold compare in *.
  destruct (processFrames fuel rt std_registry clock g (hid_transport fuel2 defs spares (traced_read (disk cap) dev) (tracer_Write (disk cap) dev)) h (s, [], 0)) as [[[st1 [[s1 t1] n1]]|]|],
    (processFrames fuel rt std_registry clock g (hid_transport fuel2 defs spares (traced_read append_file dev) (tracer_Write append_file dev)) h (s, [], 0)) as [[[st2 [[s2 t2] n2]]|]|]; try contradiction; try exact I.
  cbn [fst snd] in K. tauto.
Qed.
Print Assumptions C125_disk.

(** So the replay of a recording to a disk that was too small does what the server does on a device that gives the reads up
    to some moment and at most one more (C124). *)
Theorem C125_replay {D S} cap (dev : io_rw D) rt clock (g : DeviceGeneral S) h defs spares s fuel fuel2 st s' file n :
  usable defs -> Forall (fun d => (def_Len d <= 21843)%Z) defs -> honest dev -> whole_or_error dev ->
  processFrames fuel rt std_registry clock g
    (hid_transport fuel2 defs spares (traced_read (disk cap) dev) (tracer_Write (disk cap) dev)) h ((s, []), 0) = done (st, ((s', file), n)) ->
  exists e1 e2 extra, happens (as_chooser dev) s (e1 ++ e2) s' /\ cut_after (crossed (e1 ++ e2)) (List.length (crossed e1)) extra
    /\ (List.length file < cap -> crossed e2 = [] /\ extra = [])
    /\ forall fuel' fuel2',
         served (processFrames fuel' rt std_registry clock g (hid_transport fuel2' defs spares replay_read discard) h (NewReader file EOF, 0))
         = served (processFrames fuel' rt std_registry clock g (hid_transport fuel2' defs spares wire_read wire_write) h ((map as_read (ins (crossed e1) ++ extra), []), 0)).
Proof.
  intros U LN H W RUN. pose proof (C125_disk cap dev rt clock g h defs spares s fuel fuel2 H) as K. rewrite RUN in K. unfold compare, done in K.
  destruct (processFrames fuel rt std_registry clock g (hid_transport fuel2 defs spares (traced_read append_file dev) (tracer_Write append_file dev)) h (s, [], 0)) as [[[st2 [[s2 full] n2]]|]|] eqn:E;
    try contradiction. destruct K as (<- & <- & <- & ->).
  destruct (C123_recorded dev rt clock g h defs spares s fuel fuel2 U W) as [N|(evs & s2 & HP & B)].
  { cbv zeta in N. rewrite E in N. discriminate N. }
  cbv zeta in B. rewrite E in B. destruct B as (-> & WM & outs & fs & whole & _ & _ & T).
  pose proof (session_readable dev s evs s2 defs fs whole W LN HP T) as R.
  destruct (C124_file _ _ (Nat.min cap (List.length full)) R WM ltac:(lia)) as (m & extra & [CL CX] & L & NX & X & P & _).
  assert (FM : firstn (Nat.min cap (List.length full)) full = firstn cap full).
  { destruct (Nat.le_ge_cases cap (List.length full)); [now rewrite Nat.min_l|]. rewrite Nat.min_r by assumption. now rewrite firstn_all, firstn_all2. }
  rewrite FM in P. destruct (crossed_split evs m CL) as (e1 & e2 & -> & F).
  assert (ML : List.length (crossed e1) = m) by (rewrite <- F, firstn_length; lia).
  exists e1, e2, extra. rewrite ML. split; [exact HP|]. split; [split; assumption|]. split.
  - intros Q. rewrite firstn_length in Q. rewrite Nat.min_r in * by lia.
    assert (m = List.length (crossed (e1 ++ e2))) as M2.
    { destruct (Nat.eq_dec m (List.length (crossed (e1 ++ e2)))) as [Y|Y]; [exact Y|]. specialize (NX ltac:(lia)). exfalso.
      apply readable_split in R as [R Z]. destruct (lines_exist _ R) as (texts & FT). pose proof (write_file _ _ FT []) as WF. rewrite WM in WF. injection WF as WF. cbn [app] in WF.
      rewrite (write_file _ _ (Forall2_firstn _ (Datatypes.S m) _ _ FT) []) in NX. cbn [fst app] in NX. subst full.
      rewrite <- (firstn_skipn (Datatypes.S m) texts) in NX at 1. unfold file_of in NX. rewrite map_app, concat_app, app_length in NX. lia. }
    split.
    + rewrite crossed_app, app_length in M2. destruct (crossed e2); [reflexivity|]. cbn [List.length] in M2. lia.
    + apply X. rewrite M2, firstn_all, WM. reflexivity.
  - intros fuel' fuel2'. rewrite F in P. exact (P S rt std_registry clock g defs spares h fuel' fuel2' U).
Qed.
Print Assumptions C125_replay.

(** The session of C123 with room for 70 bytes, which is in the third line, and with a file that takes nothing. *)
Definition full_run := processFrames 9 true std_registry clock_ticking DevGeneral_device
  (hid_transport 9 small (fun _ => []) (traced_read (disk 70) choosy_file) (tracer_Write (disk 70) choosy_file)) h0 (((3, 0), []), 0).
Definition no_file : io_write unit := fun t _ => (t, (0, Some (ErrMsg "bad file descriptor"))).
Definition none_run := processFrames 9 true std_registry clock_ticking DevGeneral_device
  (hid_transport 9 small (fun _ => []) (traced_read no_file choosy_file) (tracer_Write no_file choosy_file)) h0 (((3, 0), tt), 0).

Example C125_case :
  honest choosy_file /\ whole_or_error choosy_file /\ usable small
  /\ (exists st n, full_run = done (st, (((0, 6), firstn 70 (file123 3)), n)) /\ none_run = done (st, (((0, 6), tt), n)) /\ List.length (h_log (sv_h st)) = 6)
  /\ List.length (file123 3) = 215.
Proof.
  split.
  { split.
    - intros [[|k] j] n s' b E; cbn [choosy_file rw_read fst snd] in E; [discriminate E|]. apply (f_equal (fun x => fst (snd x))) in E. cbn [fst snd] in E. subst b. rewrite firstn_length. lia.
    - intros [i [|[|[|k]]]] p s' n E; cbn [choosy_file rw_write fst snd] in E; injection E as _ <-; lia. }
  split; [apply C123_case|]. split; [exact small_usable|]. split.
  - eexists _, _. split; [vm_compute; reflexivity|]. split; vm_compute; reflexivity.
  - vm_compute. reflexivity.
Qed.
