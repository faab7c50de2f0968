(** Property C124: a recording that was cut short. *)
From Coq Require Import ZifyBool ZifyNat ZifyN Lia.
From Verif Require Import Base BaseFacts GoTypes Types Payload Lingo Command SpecPayload SpecCommand Handlers SpecHandlers HandlersThms
  SpecProtocol Packet SpecPacket PacketThms Hid SpecHid HidThms Trace SpecTrace TraceThms TraceSessions Server SpecServer ServerFacts ServerThms Send SpecSend SpecView ViewThms PropView
  SpecPlug SpecTransport TransportThms PropTransport SpecWire ProtocolProps PropProtocol
  SpecRetry RetryThms PropRetry SpecEdit EditThms PropEdit SpecRefuse RefuseThms PropRefuse SpecRefuseTrace RefuseTraceThms PropRefuseTrace SpecCut CutThms.
#[local] Opaque std_registry requests.

Lemma cut_lines ms file k :
  Forall readable ms -> write_msgs append_file [] ms = (file, map (fun _ => None) ms) -> k <= List.length file ->
  exists n extra lines, cut_after ms n extra
    /\ List.length (fst (write_msgs append_file [] (firstn n ms))) <= k
    /\ (n < List.length ms -> k < List.length (fst (write_msgs append_file [] (firstn (S n) ms))))
    /\ (k = List.length (fst (write_msgs append_file [] (firstn n ms))) -> extra = [])
    /\ is_text (firstn k file) lines /\ Forall (fun l => (len l <= 65535)%N) lines /\ incoming lines (ins (firstn n ms) ++ extra).
Proof.
  intros R W K. apply readable_split in R as [R Z]. destruct (lines_exist ms R) as (texts & F).
  pose proof (write_file ms texts F []) as Q. rewrite W in Q. injection Q as Q. cbn [app] in Q. subst file.
  assert (FN : forall n, fst (write_msgs append_file [] (firstn n ms)) = file_of (firstn n texts)).
  { intros n. rewrite (write_file _ _ (Forall2_firstn _ n _ _ F) []). reflexivity. }
  destruct (cut_text ms texts k F Z K) as (n & rest & lines & extra & C & _ & L & NX & T & SH & I & E).
  exists n, extra, lines. rewrite !FN. split; [exact C|]. split; [exact L|]. split; [exact NX|]. split; [intros X; apply E; exact X|]. auto.
Qed.

(** A trace file cut at any byte: with the messages whose lines are complete, and at most one more read, the replay does
    exactly what the server does on a device that gives these, and the send command writes these; a line left over that is no
    message makes the viewer refuse the file. *)
Theorem C124_file ms file k :
  Forall readable ms -> write_msgs append_file [] ms = (file, map (fun _ => None) ms) -> k <= List.length file ->
  exists n extra, cut_after ms n extra
    /\ List.length (fst (write_msgs append_file [] (firstn n ms))) <= k
    /\ (n < List.length ms -> k < List.length (fst (write_msgs append_file [] (firstn (S n) ms))))
    /\ (k = List.length (fst (write_msgs append_file [] (firstn n ms))) -> extra = [])
    /\ (forall S rt reg clock (g : DeviceGeneral S) defs spares h fuel fuel2, usable defs ->
          served (processFrames fuel rt reg clock g (hid_transport fuel2 defs spares replay_read discard) h (NewReader (firstn k file) EOF, 0))
          = served (processFrames fuel rt reg clock g (hid_transport fuel2 defs spares wire_read wire_write) h ((map as_read (ins (firstn n ms) ++ extra), []), 0)))
    /\ sendable_of (firstn k file) EOF (sent_of (ins (firstn n ms) ++ extra))
    /\ (extra = [None] -> forall rt defs spares, exists e, dumpTrace rt std_registry defs spares (NewReader (firstn k file) EOF) = done (inr e) /\ e <> EOF).
Proof.
  intros R W K. destruct (cut_lines ms file k R W K) as (n & extra & lines & C & L & NX & X & T & SH & I).
  exists n, extra. split; [exact C|]. split; [exact L|]. split; [exact NX|]. split; [exact X|]. split; [|split].
  - intros S rt reg clock g defs spares h fuel fuel2 U. exact (C108_replay rt reg clock g defs spares h fuel fuel2 _ _ _ U T SH I).
  - exact (C108_send _ _ _ T SH I).
  - intros -> rt defs spares. apply (C108_view rt defs spares _ _ _ T SH I). apply in_or_app. right. now left.
Qed.
Print Assumptions C124_file.

(** A session recorded with -w, the file being cut at any byte: the replay does what the server does on a device that gives
    the reads of the session up to some moment [e1], and at most one more. *)
Theorem C124_session {D S} (dev : io_rw D) rt clock (g : DeviceGeneral S) h defs spares s fuel fuel2 st s' file n :
  usable defs -> Forall (fun d => (def_Len d <= 21843)%Z) defs -> whole_or_error dev ->
  processFrames fuel rt std_registry clock g
    (hid_transport fuel2 defs spares (traced_read append_file dev) (tracer_Write append_file dev)) h ((s, []), 0) = done (st, ((s', file), n)) ->
  exists evs, happens (as_chooser dev) s evs s'
    /\ forall k, k <= List.length file -> exists e1 e2 extra,
         evs = e1 ++ e2 /\ cut_after (crossed evs) (List.length (crossed e1)) extra
         /\ List.length (fst (write_msgs append_file [] (crossed e1))) <= k
         /\ (k = List.length (fst (write_msgs append_file [] (crossed e1))) -> extra = [])
         /\ forall fuel' fuel2',
              served (processFrames fuel' rt std_registry clock g (hid_transport fuel2' defs spares replay_read discard) h (NewReader (firstn k file) EOF, 0))
              = served (processFrames fuel' rt std_registry clock g (hid_transport fuel2' defs spares wire_read wire_write) h ((map as_read (ins (crossed e1) ++ extra), []), 0)).
Proof.
  intros U LN W RUN. destruct (C123_recorded dev rt clock g h defs spares s fuel fuel2 U W) as [N|(evs & s2 & H & B)].
  { cbv zeta in N. rewrite RUN in N. discriminate N. }
  cbv zeta in B. rewrite RUN in B. unfold done in B. destruct B as (-> & WM & outs & fs & whole & _ & _ & T). exists evs. split; [exact H|]. intros k K.
  pose proof (session_readable dev s evs s2 defs fs whole W LN H T) as R.
  destruct (C124_file _ _ k R WM K) as (m & extra & C & L & _ & X & P & _). destruct C as [CL CX].
  destruct (crossed_split evs m CL) as (e1 & e2 & E & F). rewrite F in *. assert (ML : List.length (crossed e1) = m) by (rewrite <- F, firstn_length; lia).
  exists e1, e2, extra. rewrite ML. split; [exact E|]. split; [split; assumption|]. split; [exact L|]. split; [exact X|].
  intros fuel' fuel2'. exact (P S rt std_registry clock g defs spares h fuel' fuel2' U).
Qed.
Print Assumptions C124_session.

(** If the reads up to then gave data and no errors, these are the reads themselves: cut behind a line, the replay is in the
    state the server was in, with all it had answered, when it had read so much (C121, C122). *)
Theorem C124_moment {S} e1 rt clock (g : DeviceGeneral S) h defs spares fuel fuel2 :
  Forall (fun x => snd x = None /\ fst x <> [] /\ List.length (fst x) <= maxRawSize) (reads e1) -> Forall readable (crossed e1) -> usable defs ->
  served (processFrames fuel rt std_registry clock g (hid_transport fuel2 defs spares replay_read discard) h (NewReader (fst (write_msgs append_file [] (crossed e1))) EOF, 0))
  = served (processFrames fuel rt std_registry clock g (hid_transport fuel2 defs spares wire_read wire_write) h ((reads e1, []), 0)).
Proof.
  intros CL R U. rewrite <- (clean_ins e1 CL).
  destruct (file_roundtrip (crossed e1) EOF 0 R) as (file & W & _). rewrite W. cbn [fst].
  destruct (C124_file _ _ (List.length file) R W ltac:(lia)) as (n & extra & [NL CX] & L & NX & X & P & _). rewrite firstn_all in P.
  assert (n = List.length (crossed e1)) as ->.
  { destruct (Nat.eq_dec n (List.length (crossed e1))) as [E|E]; [exact E|]. specialize (NX ltac:(lia)). exfalso.
    apply readable_split in R as [R Z]. destruct (lines_exist _ R) as (texts & F). pose proof (write_file _ _ F []) as Q. rewrite W in Q. injection Q as Q. cbn [app] in Q.
    rewrite (write_file _ _ (Forall2_firstn _ (Datatypes.S n) _ _ F) []) in NX. cbn [fst app] in NX. subst file.
    rewrite <- (firstn_skipn (Datatypes.S n) texts) in NX at 1. unfold file_of in NX. rewrite map_app, concat_app, app_length in NX. lia. }
  rewrite firstn_all in *. rewrite W in X. cbn [fst] in X. rewrite (X eq_refl), app_nil_r in P. apply P. exact U.
Qed.
Print Assumptions C124_moment.

(** The session of C123, whose file has lines of 29 and 32 bytes: cut in the third line behind six of its bytes, and behind the second
    line. *)
Definition replay124 k := served (processFrames 9 true std_registry clock_ticking DevGeneral_device
  (hid_transport 9 small (fun _ => []) replay_read discard) h0 (NewReader (firstn k (file123 3)) EOF, 0)).

Example C124_case :
  usable small /\ Forall (fun d => (def_Len d <= 21843)%Z) small /\ whole_or_error choosy_file
  /\ (exists st n, ran123 3 = done (st, (((0, 6), file123 3), n)))
  /\ Forall readable (crossed events122) /\ write_msgs append_file [] (crossed events122) = (file123 3, map (fun _ => None) (crossed events122))
  /\ cut_after (crossed events122) 2 [Some [x01; x00; x00; x55; x02; x00]]
  /\ List.length (fst (write_msgs append_file [] (firstn 2 (crossed events122)))) = 61
  /\ (exists n, read_msgs 4 (NewReader (firstn 80 (file123 3)) EOF)
        = [(mkMsg 0 0 (fst asks), None); (mkMsg 1 1 (report_bytes n1), None); (mkMsg 0 n [x01; x00; x00; x55; x02; x00], None); failed EOF])
  /\ (let e1 := firstn 3 events122 in
      Forall (fun x => snd x = None /\ fst x <> [] /\ List.length (fst x) <= maxRawSize) (reads e1) /\ Forall readable (crossed e1) /\ crossed e1 = firstn 2 (crossed events122)).
Proof.
  assert (R : Forall readable (crossed events122)).
  { repeat (apply Forall_cons; [split; [split; [cbn; auto|discriminate]|vm_compute; discriminate]|]). apply Forall_nil. }
  split; [exact small_usable|]. split; [repeat constructor; cbn; lia|]. split; [apply C123_case|]. split; [eexists _, _; vm_compute; reflexivity|].
  split; [exact R|]. split; [apply C123_case|]. split.
  { split; [vm_compute; lia|]. right. exists (mkMsg DirIn 0 (fst asks)). split; [reflexivity|]. apply rest_start with [x07; xf7; x00]; [reflexivity|discriminate|vm_compute; reflexivity]. }
  split; [vm_compute; reflexivity|]. split; [eexists; vm_compute; reflexivity|]. cbv zeta. split; [|split].
  - repeat (apply Forall_cons || apply Forall_nil). split; [reflexivity|]. split; [discriminate|]. apply Nat.leb_le. vm_compute. reflexivity.
  - replace (crossed (firstn 3 events122)) with (firstn 2 (crossed events122)) by reflexivity. now apply Forall_firstn.
  - reflexivity.
Qed.

(** Finding: the replay of a recording cut within a request can crash, although the session did not; with one byte more of the request it does not. *)
Theorem C124_crash_refuted :
  (exists st n, ran123 3 = done (st, (((0, 6), file123 3), n))) /\ replay124 22 = Some Panic /\ exists st, replay124 24 = done st.
Proof. split; [eexists _, _; vm_compute; reflexivity|]. split; [vm_compute; reflexivity|]. eexists. vm_compute. reflexivity. Qed.
Print Assumptions C124_crash_refuted.

(** Finding: where a line is left that is no message, the viewer shows nothing of the lines before, which the replay repeats. *)
Theorem C124_view_refuted :
  (exists e, dumpTrace true std_registry small (fun _ => []) (NewReader (firstn 30 (file123 3)) EOF) = done (inr e))
  /\ (exists q es, dumpTrace true std_registry small (fun _ => []) (NewReader (firstn 29 (file123 3)) EOF) = done (inl (q, es)) /\ List.length es = 1)
  /\ exists st, replay124 30 = done st /\ replay124 29 = done st /\ List.length (h_log (sv_h st)) = 2.
Proof.
  split; [eexists; vm_compute; reflexivity|]. split; [eexists _, _; split; vm_compute; reflexivity|]. eexists. split; [vm_compute; reflexivity|]. split; vm_compute; reflexivity.
Qed.
Print Assumptions C124_view_refuted.
