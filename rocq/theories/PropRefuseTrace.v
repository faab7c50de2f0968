(** Property C123: what a trace tells of refused reports. *)
From Coq Require Import ZifyBool ZifyNat ZifyN Lia.
From Verif Require Import Mem SpecMem MemFacts MemThms MemServer Base BaseFacts GoTypes Types Payload Lingo Command SpecPayload SpecCommand Handlers SpecHandlers HandlersThms
  SpecProtocol Packet SpecPacket PacketThms Hid SpecHid HidThms Trace SpecTrace TraceThms TraceSessions Server SpecServer ServerFacts ServerThms SpecView ViewThms PropView
  SpecPlug SpecTransport TransportThms PropTransport SpecWire ProtocolProps PropProtocol
  SpecRetry RetryThms PropRetry SpecRenew PropRenew SpecRefuse RefuseThms PropRefuse SpecRefuseTrace RefuseTraceThms.
#[local] Opaque std_registry requests.

(** The server with -w on a device file that takes a write whole or answers with an error: everything is as without the
    tracer (C122), and the file is that of the messages that got across, in order: the reads, and the reports taken; of
    the refused ones there is nothing. *)
Theorem C123_recorded {D S} (dev : io_rw D) rt clock (d : DeviceGeneral S) h defs spares s fuel fuel2 :
  usable defs -> whole_or_error dev ->
  let ran := processFrames fuel rt std_registry clock d
               (hid_transport fuel2 defs spares (traced_read append_file dev) (tracer_Write append_file dev)) h ((s, []), 0) in
  let run_all l := processFrames fuel rt std_registry clock d (hid_transport fuel2 defs spares wire_read wire_write) h ((l, []), 0) in
  ran = None
  \/ exists evs s', happens (as_chooser dev) s evs s'
     /\ match ran with
        | Some (Ret (st, ((s1, file), n))) =>
            s1 = s' /\ write_msgs append_file [] (crossed evs) = (file, map (fun _ => None) (crossed evs))
            /\ exists outs fs whole, run_all (reads evs) = done (st, (([], outs), n)) /\ departs defs fs outs /\ tries defs fs (writes evs) whole
        | _ => ran = Some Panic /\ run_all (reads evs) = Some Panic
        end.
Proof.
  intros U W. cbv zeta.
  pose proof (C118_same rt clock d eq _ _ h ((s, []), 0) ((s, []), 0) fuel
    (transport_same fuel2 defs spares _ _ _ _ (behind_read dev W) (behind_write dev W)) eq_refl) as K.
  destruct (C122_server (behind dev) rt clock d h defs spares (s, []) fuel fuel2 U (behind_plausible dev W)) as [N|(evs & s' & H & R & _)].
  { left. rewrite N in K. unfold compare in K. destruct (processFrames fuel rt std_registry clock d _ h (s, [], 0)) as [[?|]|]; [contradiction..|reflexivity]. }
  right. destruct (behind_happens dev W _ _ _ H) as [H1 H2]. cbn [fst snd] in H1, H2. exists evs, (fst s'). split; [exact H1|]. unfold compare in K.
  destruct (processFrames fuel rt std_registry clock d (hid_transport fuel2 defs spares (ch_read (behind dev)) (ch_write (behind dev))) h (s, [], 0)) as [[[st2 [[d2 f2] n2]]|]|];
  destruct (processFrames fuel rt std_registry clock d _ h (s, [], 0)) as [[[st [[d1 f1] n]]|]|]; try contradiction.
  - cbn [fst snd] in K. destruct K as [-> K]. injection K as -> -> ->. destruct R as [<- R]. cbn [fst snd] in *. split; [reflexivity|]. split; [|exact R].
    assert (RC : Forall recordable (crossed evs)).
    { clear. unfold crossed. induction evs as [|[[[|b bs] [e|]]|[|p ps]|p] evs IH]; cbn [flat_map app]; auto; constructor; auto; split; cbn; unfold DirIn, DirOut; auto; discriminate. }
    destruct (lines_exist _ RC) as (texts & F). pose proof (write_file _ _ F []) as Q. rewrite Q in *. cbn [fst] in H2. subst f2. reflexivity.
  - split; [reflexivity|]. apply R.
  - destruct R as [R _]. discriminate R.
Qed.
Print Assumptions C123_recorded.

(** The same with the buffers the program has, in whatever state. *)
Theorem C123_memory {D S} (dev : io_rw D) rt clock (d : DeviceGeneral S) h defs pol mm s fuel fuel2 :
  usable defs -> whole_or_error dev -> reachable mm ->
  let ran := processFrames fuel rt std_registry clock d
               (mem_transport fuel2 defs pol (traced_read append_file dev) (tracer_Write append_file dev)) h (mm, (s, [])) in
  ran = None
  \/ exists spares evs s', happens (as_chooser dev) s evs s'
     /\ let run_all l := processFrames fuel rt std_registry clock d (hid_transport fuel2 defs spares wire_read wire_write) h ((l, []), 0) in
        match ran with
        | Some (Ret (st, (_, (s1, file)))) =>
            s1 = s' /\ write_msgs append_file [] (crossed evs) = (file, map (fun _ => None) (crossed evs))
            /\ exists n outs fs whole, run_all (reads evs) = done (st, (([], outs), n)) /\ departs defs fs outs /\ tries defs fs (writes evs) whole
        | _ => ran = Some Panic /\ run_all (reads evs) = Some Panic
        end.
Proof.
  intros U PL R. cbv zeta.
  destruct (processFrames_sim rt std_registry clock d fuel2 defs pol (traced_read append_file dev) (tracer_Write append_file dev) fuel h mm (s, []) (reachable_ok mm R)) as [spares E].
  change (same_end (fun w v => snd w = fst v) (processFrames fuel rt std_registry clock d (mem_transport fuel2 defs pol (traced_read append_file dev) (tracer_Write append_file dev)) h (mm, (s, [])))
            (processFrames fuel rt std_registry clock d (hid_transport fuel2 defs spares (traced_read append_file dev) (tracer_Write append_file dev)) h ((s, []), 0))) in E.
  destruct (C123_recorded dev rt clock d h defs spares s fuel fuel2 U PL) as [N|(evs & s' & EX & B)].
  - left. rewrite N in E. match type of E with same_end _ ?x _ => destruct x as [[[? ?]|]|] end; [contradiction..|reflexivity].
  - right. exists spares, evs, s'. split; [exact EX|].
    destruct (processFrames fuel rt std_registry clock d (hid_transport fuel2 defs spares (traced_read append_file dev) (tracer_Write append_file dev)) h (s, [], 0)) as [[[st [[d1 f1] n]]|]|];
      match type of E with same_end _ ?x _ => destruct x as [[[st2 [m2 [d2 f2]]]|]|] end; try contradiction.
    + cbn [same_end fst snd] in E. destruct E as [-> E]. injection E as -> ->. destruct B as (-> & B1 & B2). split; [reflexivity|]. split; [exact B1|]. exists n. exact B2.
    + split; [reflexivity|]. apply B.
    + destruct B as [B _]. discriminate B.
Qed.
Print Assumptions C123_memory.

(** In the viewer: if in both directions the last message that got across ends a frame, the replies shown are exactly those
    that were taken whole, in order and padded at most. *)
Theorem C123_viewed rt defs spares evs fs whole file q es :
  usable defs -> Forall (fun d => (1 <= def_Len d <= 1023)%Z) defs ->
  tries defs fs (writes evs) whole -> Forall (fun x => List.length (fst x) <= maxRawSize) (reads evs) ->
  write_msgs append_file [] (crossed evs) = (file, map (fun _ => None) (crossed evs)) ->
  closed defs 0 (crossed evs) -> closed defs 1 (crossed evs) ->
  dumpTrace rt std_registry defs spares (NewReader file EOF) = done (inl (q, es)) ->
  exists frames, Forall2 (padded defs) whole frames /\ frames_shown 1 es = map inl frames.
Proof.
  intros U LN T RD W C0 C1 V.
  destruct (tries_viewed defs U fs _ whole T) as (rs & frames & TK & F & SZ & R). exists frames. split; [exact F|].
  assert (TE : taken (writes evs) = taken evs).
  { clear. unfold taken, writes. induction evs as [|[x|p|p] evs IH]; cbn [filter flat_map app]; congruence. }
  rewrite TE in TK.
  assert (NE : Forall (fun p => p <> []) (taken evs)) by (rewrite TK; clear; induction rs; constructor; auto; discriminate).
  assert (SM : Forall (fun r => rep_Data r <> [] /\ List.length (report_bytes r) <= maxRawSize) rs).
  { eapply Forall_impl; [|exact SZ]. intros r (d & I & L & P). rewrite Forall_forall in LN. specialize (LN _ I). unfold room in *. split.
    - intros X. rewrite X in L. cbn in L. lia.
    - unfold report_bytes, maxRawSize. cbn [List.length]. lia. }
  assert (RB : Forall readable (crossed evs)).
  { apply crossed_readable; [exact RD|]. rewrite TK. clear -SM. induction SM as [|r rs [_ ?] _ IH]; constructor; auto. }
  destruct (C53_file _ _ RB W) as (ms & TR & SAME).
  destruct (C53_view rt defs spares file EOF ltac:(eapply Forall_impl; [|exact LN]; cbn; lia)) as [(q' & es' & ms' & V' & TR' & VD & SH)|[(ms' & V' & _)|(ms' & e & V' & _)]];
    rewrite V in V'; try discriminate V'. injection V' as <- <-. rewrite (trace_of_unique _ _ _ _ TR' TR) in *. clear TR' V ms'.
  assert (DS : forall d, map msg_Data (of_dir d ms) = map msg_Data (of_dir d (crossed evs))).
  { intros d. clear -SAME. revert ms SAME. induction (crossed evs) as [|m l IH]; intros [|m' ms]; cbn [map of_dir filter]; intros E; try discriminate E; [reflexivity|].
    injection E as E1 E2 E3. unfold of_dir in IH. rewrite E1. destruct (msg_Dir m =? d)%N; cbn [map]; [rewrite E2; f_equal|]; now apply IH. }
  assert (CL : forall d, closed defs d (crossed evs) -> closed defs d ms).
  { intros d C pre m E. pose proof (DS d) as Q. rewrite E, map_app in Q. cbn [map] in Q.
    destruct (exists_last (l := of_dir d (crossed evs)) ltac:(intros X; rewrite X in Q; destruct pre; discriminate Q)) as (pre' & m' & E').
    specialize (C pre' m' E'). rewrite E', map_app in Q. cbn [map] in Q. apply app_inj_tail in Q as [_ Q]. unfold report_of in *. now rewrite Q. }
  destruct (C53_complete rt defs spares 0 false ms es (qlist q) SH VD (CL _ C0) (CL _ C1)) as [_ FR]. specialize (FR 1%N).
  assert (MR : map report_of (of_dir 1 ms) = map inl (map (fun r => r) rs)).
  { rewrite map_id. unfold report_of. rewrite <- (map_map msg_Data (fun x => ReadReport (x, None))), DS, (crossed_out _ NE), TK, map_map.
    apply map_ext_in. intros r I. rewrite Forall_forall in SM. destruct (SM _ I) as [A B]. unfold ReadReport. rewrite firstn_all2 by exact B.
    destruct r as [id lc [|x data]]; [contradiction|reflexivity]. }
  rewrite MR, map_id in FR. exact (R [] _ ltac:(constructor) ltac:(constructor) FR).
Qed.
Print Assumptions C123_viewed.

(** A device file like that of C122, refusing the second and the third write, both with an error. *)
Definition choosy_file : io_rw (nat * nat) := {|
  rw_read := fun s n => ((pred (fst s), snd s), match fst s with O => ([], Some EOF) | _ => (firstn n (report_bytes (mkReport x01 x00 (frame_with [[x00; x07]]))), None) end);
  rw_write := fun s p => ((fst s, Datatypes.S (snd s)), match snd s with 1 | 2 => (0, Some (ErrMsg "busy")) | _ => (List.length p, None) end) |}.

Definition ran123 k := processFrames 9 true std_registry clock_ticking DevGeneral_device
  (hid_transport 9 small (fun _ => []) (traced_read append_file choosy_file) (tracer_Write append_file choosy_file)) h0 (((k, 0), []), 0).
Definition file123 k : bytes := match ran123 k with Some (Ret (_, ((_, f), _))) => f | _ => [] end.
Definition seen123 k := match dumpTrace true std_registry small (fun _ => []) (NewReader (file123 k) EOF) with Some (Ret (inl (q, es))) => (qlist q, es) | _ => ([], []) end.

Example C123_case :
  usable small /\ Forall (fun d => (1 <= def_Len d <= 1023)%Z) small /\ whole_or_error choosy_file
  /\ (exists st n, ran123 3 = done (st, (((0, 6), file123 3), n)))
  /\ happens (as_chooser choosy_file) (3, 0) events122 (0, 6)
  /\ tries small [name_answer; name_answer; name_answer] (writes events122) [name_answer]
  /\ Forall (fun x => List.length (fst x) <= maxRawSize) (reads events122)
  /\ write_msgs append_file [] (crossed events122) = (file123 3, map (fun _ => None) (crossed events122))
  /\ crossed events122 = [mkMsg DirIn 0 (fst asks); mkMsg DirOut 0 (report_bytes n1); mkMsg DirIn 0 (fst asks); mkMsg DirIn 0 (fst asks);
                          mkMsg DirOut 0 (report_bytes n1); mkMsg DirOut 0 (report_bytes n2); mkMsg DirOut 0 (report_bytes n3)]
  /\ closed small 0 (crossed events122) /\ closed small 1 (crossed events122)
  /\ (exists q, dumpTrace true std_registry small (fun _ => []) (NewReader (file123 3) EOF) = done (inl (q, snd (seen123 3))))
  /\ frames_shown 1 (snd (seen123 3)) = [inl (name_answer ++ repeat x00 7)].
Proof.
  split; [exact small_usable|]. split; [repeat constructor; cbn; lia|]. split.
  { split.
    - intros [[|k] j] s' b E; cbn [choosy_file rw_read fst snd] in E; [discriminate E|]. apply (f_equal (fun x => fst (snd x))) in E. cbn [fst snd] in E. subst b. rewrite firstn_length. lia.
    - intros [i [|[|[|k]]]] p s' n e E; cbn [choosy_file rw_write fst snd] in E; injection E as _ <- <-; split; (lia || congruence). }
  split; [eexists _, _; vm_compute; reflexivity|]. split.
  { apply (hp_read (as_chooser choosy_file) (3, 0)). cbn [ch_sends as_chooser choosy_file rw_read fst snd pred]. apply hp_taken; [reflexivity|]. apply hp_refused; [discriminate|].
    apply (hp_read (as_chooser choosy_file) (2, 2)). cbn [ch_sends as_chooser choosy_file rw_read fst snd pred]. apply hp_refused; [discriminate|].
    apply (hp_read (as_chooser choosy_file) (1, 3)). cbn [ch_sends as_chooser choosy_file rw_read fst snd pred]. do 3 (apply hp_taken; [reflexivity|]).
    apply (hp_read (as_chooser choosy_file) (0, 6)). apply hp_end. }
  split; [apply C122_case|]. split; [repeat (apply Forall_cons || apply Forall_nil); apply Nat.leb_le; vm_compute; reflexivity|]. split; [vm_compute; reflexivity|]. split; [vm_compute; reflexivity|].
  assert (CL : forall d m ms, of_dir d (crossed events122) = ms ++ [m] -> match report_of m with inr _ => True | inl r => ends r \/ unknown small r end -> closed small d (crossed events122)).
  { intros d m ms E H pre m' E'. rewrite E in E'. apply app_inj_tail in E' as [_ <-]. exact H. }
  split; [apply (CL _ (mkMsg DirIn 0 (fst asks)) (repeat (mkMsg DirIn 0 (fst asks)) 2)); [vm_compute; reflexivity|left; vm_compute; auto]|].
  split; [apply (CL _ (mkMsg DirOut 0 (report_bytes n3)) (map (fun r => mkMsg DirOut 0 (report_bytes r)) [n1; n1; n2])); [vm_compute; reflexivity|left; vm_compute; auto]|].
  split; [eexists; vm_compute; reflexivity|vm_compute; reflexivity].
Qed.

(** Finding: the viewer joins the beginning of a reply that was broken off and the next reply.  Here the only reply, written
    after the third request, is shown right after the first, in front of two requests it follows. *)
Theorem C123_order_refuted :
  map vw_dir (snd (seen123 3)) = [0; 1; 0; 0]%N /\ map msg_Dir (crossed events122) = [0; 1; 0; 0; 1; 1; 1]%N
  /\ frames_shown 1 (snd (seen123 3)) = [inl (name_answer ++ repeat x00 7)].
Proof. split; [vm_compute; reflexivity|]. split; vm_compute; reflexivity. Qed.
Print Assumptions C123_order_refuted.

(** Finding: with no whole reply after it the viewer stops there: the accessory asks twice, both replies are broken off, and
    the second request, which is in the trace and was carried out, is not shown. *)
Theorem C123_rest_refuted :
  (exists st n, ran123 2 = done (st, (((0, 3), file123 2), n)))
  /\ (exists ms, trace_of (file123 2) EOF ms /\ map (fun m => (msg_Dir m, msg_Data m)) ms = [(0%N, fst asks); (1%N, report_bytes n1); (0%N, fst asks)])
  /\ map vw_dir (snd (seen123 2)) = [0%N] /\ map msg_Data (fst (seen123 2)) = [fst asks].
Proof.
  split; [eexists _, _; vm_compute; reflexivity|]. split; [|split; vm_compute; reflexivity].
  apply (C53_file [mkMsg DirIn 0 (fst asks); mkMsg DirOut 0 (report_bytes n1); mkMsg DirIn 0 (fst asks)]); [|vm_compute; reflexivity].
  repeat constructor; cbn; auto; try discriminate; vm_compute; discriminate.
Qed.
Print Assumptions C123_rest_refuted.

(** Finding: a device file that takes part of a report without an error, which the server counts as refused, is beyond this:
    the part is recorded.  Here the last report of the only reply is cut by a byte of padding; no reply was taken whole, and the
    viewer shows one. *)
Definition short_file : io_rw (nat * nat) := {|
  rw_read := rw_read choosy_file;
  rw_write := fun s p => ((fst s, Datatypes.S (snd s)), match snd s with 2 => (pred (List.length p), None) | _ => (List.length p, None) end) |}.
Definition short_run := processFrames 9 true std_registry clock_ticking DevGeneral_device
  (hid_transport 9 small (fun _ => []) (traced_read append_file short_file) (tracer_Write append_file short_file)) h0 (((1, 0), []), 0).
Definition short_trace : bytes := match short_run with Some (Ret (_, ((_, f), _))) => f | _ => [] end.

Theorem C123_short_refuted :
  (exists st n, short_run = done (st, (((0, 3), short_trace), n)))
  /\ happens (as_chooser short_file) (1, 0) [Read asks; Taken (report_bytes n1); Taken (report_bytes n2); Refused (report_bytes n3); Read ([], Some EOF)] (0, 3)
  /\ tries small [name_answer] [Taken (report_bytes n1); Taken (report_bytes n2); Refused (report_bytes n3)] []
  /\ exists q es, dumpTrace true std_registry small (fun _ => []) (NewReader short_trace EOF) = done (inl (q, es))
       /\ frames_shown 1 es = [inl (name_answer ++ repeat x00 6)].
Proof.
  split; [eexists _, _; vm_compute; reflexivity|]. split; [|split].
  - apply (hp_read (as_chooser short_file) (1, 0)). cbn [ch_sends as_chooser choosy_file short_file rw_read fst snd pred]. do 2 (apply hp_taken; [reflexivity|]).
    apply hp_refused; [vm_compute; discriminate|]. apply (hp_read (as_chooser short_file) (0, 3)). apply hp_end.
  - apply (tries_broken small name_answer [n1; n2] n3 []); [exact name_cut|constructor].
  - eexists _, _. split; vm_compute; reflexivity.
Qed.
Print Assumptions C123_short_refuted.
