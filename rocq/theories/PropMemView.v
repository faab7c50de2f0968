(** Property C103: the viewer with its real buffers. *)
From Coq Require Import Lia.
From Verif Require Import Base GoTypes Types Payload Lingo Command Handlers Packet Hid SpecHid Trace SpecTrace Server SpecServer Mem SpecMem MemView
  SpecWire SpecView SpecDamage SpecLoss SpecMemView MemViewThms MemViewMore PropServer PropSession PropView PropMem PropLoss.
Notation report_of := PropMem.report_of.

(** The viewer with its real buffers behaves as the one of the other properties, for some bytes behind the
    frames: what holds for all of them holds for it. *)
Theorem C103_covered rt reg defs pol r : exists spares, dumpTrace_mem rt reg defs pol r = dumpTrace rt reg defs spares r.
Proof. exact (dumpTrace_mem_sim rt reg defs pol r). Qed.
Print Assumptions C103_covered.

(** Behind a frame whose reports come in a row a new decoder has zeros only, however its buffer grows: of
    earlier frames nothing is left, unlike in the server's (C75_stale). *)
Theorem C103_zeros defs pol rs f more outs fuel : carries defs rs f -> List.length rs + List.length more < fuel ->
  exists m s k, ReadFrame_mem fuel defs pol wire_read new_mem ((map as_read rs ++ more)%list, outs) = done (m, (more, outs), inl s)
    /\ as_slice (m_heap m) s = mkSlice f (repeat x00 k).
Proof. intros C L. destruct (frame_clean defs pol rs f more outs fuel C L) as (m & k & H). eauto. Qed.
Print Assumptions C103_zeros.

(** So it is along a whole trace in which the messages of each direction are whole frames, however those
    of the two directions are mixed: the view is the one with nothing but zeros behind each frame, for
    each way to let the buffers grow. *)
Theorem C103_trace rt defs pol content fin ms :
  Forall (fun d => (1 <= def_Len d)%Z) defs -> trace_of content fin ms -> (forall d, valid_dir d -> orderly defs d ms) ->
  exists spares, (forall k, zeros (spares k))
    /\ dumpTrace_mem rt std_registry defs pol (NewReader content fin) = dumpTrace rt std_registry defs spares (NewReader content fin).
Proof. exact (dump_clean rt defs pol content fin ms). Qed.
Print Assumptions C103_trace.

(** Finding: the viewer crashes on the trace of a session that the server lived through.  The second frame
    holds the start of a packet of 80 bytes; the server's buffer is long enough from the first frame, the
    viewer's is not. *)
Definition recorded_on (reports : list bytes) : io (server DevGeneral * (mem * (list bytes * bytes))) :=
  processFrames 9 true std_registry clock0 DevGeneral_device
    (mem_transport 9 DefaultReportDefs go_growth (traced_read append_file good_host) (tracer_Write append_file good_host))
    h0 (new_mem, (reports, [])).
Definition viewed (trace : bytes) : io ((Queue * list view_entry) + goerr) :=
  dumpTrace_mem true std_registry DefaultReportDefs go_growth (NewReader trace EOF).
Theorem C103_survivor_refuted :
  exists reports, exists x, recorded_on reports = done x /\ viewed (snd (snd (snd x))) = Some Panic.
Proof.
  exists [x09 :: x02 :: repeat x01 62; x09 :: x01 :: repeat x01 62; [x05; x00; x55; x50; x00; x07; x00; x00; x00]].
  eexists. split; [vm_compute; reflexivity|]. vm_compute. reflexivity.
Qed.
Print Assumptions C103_survivor_refuted.

(** Finding: and the viewer shows to its end the trace of a session that ended with a crash of the server
    (C75_frames_are_independent_refuted), so the crash cannot be repeated with it.  The trace is that of
    the session without the last report, and what the tracer adds when that one is read. *)
Theorem C103_crash_hidden_refuted :
  exists f1 f2 x y v, recorded_on [f1; f2] = Some Panic
    /\ recorded_on [f1] = done x /\ fst (snd (snd x)) = []
    /\ traced_read append_file good_host ([f2], snd (snd (snd x))) = done y /\ fst y = ([], snd (fst y))
    /\ viewed (snd (fst y)) = done (inl v) /\ List.length (snd v) = 4.
Proof.
  exists (report_of [x00; x05; xf8; x00; x00; x00]), [x09; x00; x55; x05; x01; x02].
  eexists _, _, _. split; [vm_compute; reflexivity|]. split; [vm_compute; reflexivity|]. split; [vm_compute; reflexivity|].
  split; [vm_compute; reflexivity|]. split; [vm_compute; reflexivity|]. split; [vm_compute; reflexivity|].
  vm_compute. reflexivity.
Qed.
Print Assumptions C103_crash_hidden_refuted.

(** The two reports of PropLoss.v are one frame of 14 bytes; the viewer reads it and leaves the next
    report alone, and 50 zeros lie behind it. *)
Example C103_case :
  let a := [x55; x02; x00; x07; xf7; x01; x02] in
  carries DefaultReportDefs [part x02 a; part x01 a] (a ++ a)
  /\ match ReadFrame_mem 4 DefaultReportDefs go_growth wire_read new_mem (map as_read [part x02 a; part x01 a; part x00 a], []) with
     | Some (Ret (m, (more, _), inl s)) => List.length more = 1 /\ as_slice (m_heap m) s = mkSlice (a ++ a) (repeat x00 50)
     | _ => False
     end.
Proof. split; [apply two_parts; cbn [List.length]; lia|]. vm_compute. split; reflexivity. Qed.

(** A trace of three reports, one of the other direction between the first and the last: the messages of
    each direction are whole frames, and the view has both. *)
Example C103_trace_case :
  let a := [x55; x02; x00; x07; xf7; x01; x02] in
  let ms := [mkMsg 0 0 (x09 :: x02 :: a); mkMsg 1 1 (x09 :: x00 :: a); mkMsg 0 2 (x09 :: x01 :: a)] in
  exists file ms' v, write_msgs append_file [] ms = (file, [None; None; None]) /\ trace_of file EOF ms'
    /\ (forall d, valid_dir d -> orderly DefaultReportDefs d ms')
    /\ viewed file = done (inl v) /\ map (fun e => (vw_dir e, vw_frame e)) (snd v) = [(0%N, inl (a ++ a)); (1%N, inl a)].
Proof.
  intros a ms. destruct (write_msgs append_file [] ms) as [file x] eqn:E.
  assert (X : x = map (fun _ => None) ms) by (vm_compute in E; injection E as _ <-; reflexivity). subst x.
  destruct (C53_file ms file) as (ms' & T & M); [|exact E|].
  { repeat constructor; try discriminate; vm_compute; discriminate. }
  exists file, ms'. vm_compute in E. injection E as <-. eexists. split; [reflexivity|]. split; [exact T|]. split; [|split].
  - destruct ms' as [|[d1 i1 b1] [|[d2 i2 b2] [|[d3 i3 b3] [|]]]]; try discriminate M. cbn [map msg_Dir msg_Data ms] in M.
    injection M as -> -> -> -> -> ->. intros d [-> | ->].
    + exists [[part x02 a; part x01 a]], [(a ++ a)%list]. split; [|reflexivity].
      apply Forall2_cons; [apply two_parts; cbn [List.length a]; lia|apply Forall2_nil].
    + exists [[part x00 a]], [a]. split; [|reflexivity]. apply Forall2_cons; [|apply Forall2_nil].
      apply carries_intro with [a].
      * exists (part x00 a), []. split; [reflexivity|]. split; [now left|apply Forall_nil].
      * exists [], (part x00 a). split; [reflexivity|]. split; [now left|apply Forall_nil].
      * apply Forall_cons; [cbn [rep_Data part List.length a]; lia|apply Forall_nil].
      * apply Forall2_cons; [apply contributes9; [reflexivity|cbn [List.length a]; lia]|apply Forall2_nil].
      * reflexivity.
  - vm_compute. reflexivity.
  - vm_compute. reflexivity.
Qed.
