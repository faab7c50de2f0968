(** C53: the trace viewer. *)
From Verif Require Import Base GoTypes Types Payload Lingo Command SpecPayload SpecCommand
  Packet SpecPacket Hid SpecHid HidThms Trace SpecTrace TraceSessions Server SpecServer SpecView ViewThms.

(** ** C53 *)

(** For every file the viewer ends: it shows the messages of the file ([shows]: frame after frame,
    each in the direction of the first message left, from the next messages of that direction), or
    a frame of the file crashes it, or the file has an unreadable line or does not end properly and
    nothing is shown. *)
Theorem C53_view rt defs spares content fin :
  Forall (fun d => (1 <= def_Len d)%Z) defs ->
  (exists q es ms, dumpTrace rt std_registry defs spares (NewReader content fin) = done (inl (q, es))
     /\ trace_of content fin ms /\ Forall (fun m => valid_dir (msg_Dir m)) ms
     /\ shows rt defs spares 0 false ms es (qlist q))
  \/ (exists ms, dumpTrace rt std_registry defs spares (NewReader content fin) = Some Panic
     /\ trace_of content fin ms /\ Forall (fun m => valid_dir (msg_Dir m)) ms
     /\ view_crashes rt defs spares 0 false ms)
  \/ (exists ms e, dumpTrace rt std_registry defs spares (NewReader content fin) = done (inr e)
     /\ bad_trace content fin ms e).
Proof. exact (dump_cases rt defs spares content fin). Qed.
Print Assumptions C53_view.

(** The three cases are decided by the file. *)
Theorem C53_shows rt defs spares content fin ms :
  Forall (fun d => (1 <= def_Len d)%Z) defs ->
  trace_of content fin ms -> ~ view_crashes rt defs spares 0 false ms ->
  exists q es, dumpTrace rt std_registry defs spares (NewReader content fin) = done (inl (q, es))
    /\ Forall (fun m => valid_dir (msg_Dir m)) ms /\ shows rt defs spares 0 false ms es (qlist q).
Proof. exact (dump_shows rt defs spares content fin ms). Qed.
Print Assumptions C53_shows.

Theorem C53_crash rt defs spares content fin :
  Forall (fun d => (1 <= def_Len d)%Z) defs ->
  (dumpTrace rt std_registry defs spares (NewReader content fin) = Some Panic
   <-> exists ms, trace_of content fin ms /\ view_crashes rt defs spares 0 false ms).
Proof. exact (dump_crash_iff rt defs spares content fin). Qed.
Print Assumptions C53_crash.

Theorem C53_fatal rt defs spares content fin e :
  Forall (fun d => (1 <= def_Len d)%Z) defs ->
  (dumpTrace rt std_registry defs spares (NewReader content fin) = done (inr e)
   <-> exists ms, bad_trace content fin ms e).
Proof. exact (dump_fatal_iff rt defs spares content fin e). Qed.
Print Assumptions C53_fatal.

(** What is shown is determined by the messages, and every entry takes at least one message. *)
Theorem C53_determined rt defs spares n m ms es left es' left' :
  shows rt defs spares n m ms es left -> shows rt defs spares n m ms es' left' ->
  List.length es + List.length left <= List.length ms
  /\ left' = left /\ es' = es.
Proof.
  intros S S'. split; [exact (shows_length _ _ _ _ _ _ _ _ S)|]. exact (shows_messages _ _ _ _ _ _ _ _ S _ _ S').
Qed.
Print Assumptions C53_determined.

(** If the last message of either direction ends a frame or is an error, all messages are viewed,
    and the frames shown in each direction are those of its messages, in order. *)
Theorem C53_complete rt defs spares n m ms es left :
  shows rt defs spares n m ms es left -> Forall (fun x => valid_dir (msg_Dir x)) ms ->
  closed defs 0 ms -> closed defs 1 ms ->
  left = [] /\ forall d, frames_read defs (map report_of (of_dir d ms)) (frames_shown d es).
Proof.
  intros S V C0 C1. pose proof (closed_complete _ _ _ _ _ _ _ _ S V C0 C1) as ->.
  split; [reflexivity|]. exact (shows_dir _ _ _ _ _ _ _ S V C0 C1).
Qed.
Print Assumptions C53_complete.

(** A file written by the trace writer holds its messages, numbered. *)
Theorem C53_file ms file :
  Forall readable ms -> write_msgs append_file [] ms = (file, map (fun _ => None) ms) ->
  exists ms', trace_of file EOF ms'
    /\ map (fun m => (msg_Dir m, msg_Data m)) ms' = map (fun m => (msg_Dir m, msg_Data m)) ms.
Proof. exact (file_trace ms file). Qed.
Print Assumptions C53_file.

(** A complete report with a request, one with a reply, and one to be continued. *)
Definition request_report : bytes := [x05; x00; x55; x02; x00; x07; xf7; x00; x00].
Definition reply_report : bytes := [x06; x00; x55; x04; x00; x02; x00; x07; xf3; x00; x00].
Definition half_report : bytes := [x05; x02; x55; x02; x00; x07; xf7; x00; x00].

Lemma request_known : known DefaultReportDefs (mkReport x05 x00 [x55; x02; x00; x07; xf7; x00; x00]) (mkDef 5 8 0).
Proof.
  exists (firstn 4 DefaultReportDefs), (skipn 5 DefaultReportDefs). split; [reflexivity|]. split; [reflexivity|].
  repeat (apply Forall_cons; [vm_compute; discriminate|]). apply Forall_nil.
Qed.

(** Finding: messages are lost.  When the frame of one direction is not finished, the view ends,
    and the complete frames of the other direction are not shown. *)
Theorem C53_all_shown_refuted :
  exists ms file q f,
    Forall readable ms /\ write_msgs append_file [] ms = (file, map (fun _ => None) ms)
    /\ frames_read DefaultReportDefs (map report_of (of_dir 0 ms)) [inl f]
    /\ dumpTrace true std_registry DefaultReportDefs (fun _ => []) (NewReader file EOF) = done (inl (q, [])).
Proof.
  exists [mkMsg 1 0 half_report; mkMsg 0 1 request_report].
  eexists _, _, [x55; x02; x00; x07; xf7; x00; x00].
  split; [|split; [|split]].
  - repeat constructor; try discriminate; vm_compute; discriminate.
  - vm_compute. reflexivity.
  - change (map report_of _) with (map inl ([] ++ [mkReport x05 x00 [x55; x02; x00; x07; xf7; x00; x00]]) ++ @nil (Report + goerr)).
    apply read_ok; [| | | |apply read_none].
    + apply Forall_cons; [|apply Forall_nil]. exists (mkDef 5 8 0). split; [exact request_known|vm_compute; discriminate].
    + apply Forall_nil.
    + left. reflexivity.
    + eapply (frame_started _ _ _ [] _ [] [_]); [reflexivity|left; reflexivity|apply Forall_nil| |].
      * apply Forall2_cons; [|apply Forall2_nil]. exists (mkDef 5 8 0).
        split; [exact request_known|]. split; [vm_compute; discriminate|]. vm_compute. reflexivity.
      * reflexivity.
  - vm_compute. reflexivity.
Qed.
Print Assumptions C53_all_shown_refuted.

(** A trace of a request in two reports with its reply between them: both frames are shown, the
    request's first. *)
Definition case_trace : list Msg :=
  [mkMsg 0 0 half_report; mkMsg 1 1 reply_report; mkMsg 0 2 [x05; x01; x55; x02; x00; x07; xf7; x00; x00]].

Example C53_case :
  exists file q es,
    Forall readable case_trace /\ write_msgs append_file [] case_trace = (file, map (fun _ => None) case_trace)
    /\ dumpTrace true std_registry DefaultReportDefs (fun _ => []) (NewReader file EOF) = done (inl (q, es))
    /\ map (fun e => (vw_dir e, vw_frame e, map fst (shown (vw_packets e)))) es
       = [(0%N, inl ([x55; x02; x00; x07; xf7; x00; x00] ++ [x55; x02; x00; x07; xf7; x00; x00]), [[x00; x07]; [x00; x07]]);
          (1%N, inl [x55; x04; x00; x02; x00; x07; xf3; x00; x00], [[x00; x02; x00; x07]])]
    /\ Forall (fun d => (1 <= def_Len d)%Z) DefaultReportDefs
    /\ closed DefaultReportDefs 0 case_trace /\ closed DefaultReportDefs 1 case_trace.
Proof.
  eexists _, _, _. split; [|split; [vm_compute; reflexivity|split; [vm_compute; reflexivity|split; [vm_compute; reflexivity|split; [|split]]]]].
  - repeat constructor; try discriminate; vm_compute; discriminate.
  - repeat (apply Forall_cons; [vm_compute; discriminate|]). apply Forall_nil.
  - intros pre m E. change (of_dir 0 case_trace) with ([mkMsg 0 0 half_report] ++ [mkMsg 0 2 [x05; x01; x55; x02; x00; x07; xf7; x00; x00]]) in E.
    apply app_inj_tail in E as [_ <-]. left. right. reflexivity.
  - intros pre m E. change (of_dir 1 case_trace) with ([] ++ [mkMsg 1 1 reply_report]) in E.
    apply app_inj_tail in E as [_ <-]. left. left. reflexivity.
Qed.
