(** Properties C85-C88: the report on an accessory, the viewer's log and the server's log. *)
From Coq Require Import Ascii.
From Verif Require Import Base Text SpecText GoTypes Types Payload Lingo Command SpecPayload SpecCommand Handlers SpecHandlers HandlersThms
  Packet SpecPacket Hid SpecHid Trace SpecTrace TraceSessions Server SpecServer ServerThms PropServer SpecView ViewThms PropView SpecSession PropSession Log SpecLog LogThms AgreeThms SpecReadable ReadableThms ViewSafe.
Local Open Scope string_scope.

(** ** C85 *)

(** Handling any requests never fails and logs exactly what [said] says: at the end of an
    identification the report on the tokens received since its start, after the last section of a
    certificate the certificate received, and a warning for each simple remote command. *)
Theorem C85_said sdump certLog clock reqs (h : hstate DevGeneral) :
  Forall request_ok reqs ->
  exists h' l, handle_all_log sdump certLog std_registry clock reqs h = Ret (h', l)
    /\ handle_all std_registry clock DevGeneral_device reqs h = Ret (h', tt)
    /\ said sdump certLog (dg_tokens (h_dev h)) (h_cert h) reqs l
    /\ (forall l', said sdump certLog (dg_tokens (h_dev h)) (h_cert h) reqs l' -> l' = l).
Proof.
  intros F. destruct (handle_all_said sdump certLog clock reqs h F) as (h' & l & A & B & C).
  exists h', l. split; [exact A|]. split; [exact B|]. split; [exact C|]. intros l' C'. symmetry. exact (said_unique _ _ _ _ _ _ C _ C').
Qed.
Print Assumptions C85_said.

(** The report can always be written, and shows the tokens and nothing else. *)
Theorem C85_report sdump tokens :
  exists s, EndIDPS_report sdump tokens = Ret s /\ report sdump tokens s /\ (forall s', report sdump tokens s' -> s' = s).
Proof.
  destruct (EndIDPS_report_ok sdump tokens) as (s & A & B). exists s. split; [exact A|]. split; [exact B|].
  intros s' B'. exact (report_unique _ _ _ _ B' B).
Qed.
Print Assumptions C85_report.

(** Every request that comes from a packet is as [C85_said] asks. *)
Theorem C85_decoded rt e pkt e' c x : UnmarshalCmd rt std_registry e pkt = Ret (e', c, x) -> request_ok c.
Proof. intros H. exact (proj1 (decoded_from_wire _ _ _ _ _ _ H)). Qed.
Print Assumptions C85_decoded.

Definition caps_token : token_value := mkTV 0 1 (TokStruct general_FIDAccCapsToken [VU 529]).
Definition name_token : token_value := mkTV 0 2 (TokAccInfo 1 (Some [x61; x62])).
Definition reqs85 : list command :=
  [mkCmd 56 (Some 1%N) (Some (Pst general_StartIDPS [])); mkCmd 57 (Some 2%N) (Some (PTokens [caps_token; name_token]));
   mkCmd 131073 None (Some (PUnknown [x00])); mkCmd 59 (Some 3%N) (Some (Pst general_EndIDPS [VU 0]))].

Example C85_case :
  (exists h, handle_all_log (fun _ => "(2) ab") (fun _ => []) std_registry clock0 reqs85 (mkH DevGeneral_init [] 0 0 [])
     = Ret (h, [mkRec 3 "Lingo SimpleRemote is not supported yet" [];
                mkRec 4 ("Tokens:" ++ nl ++ "* Token: *general.FIDAccCapsToken" ++ nl ++ "Capability: AccCapAnalogLineOut" ++ nl
                         ++ "Capability: AccCapUSBAudio" ++ nl ++ "Capability: AccCapAppComm" ++ nl
                         ++ "* Token: *general.FIDAccInfoToken" ++ nl ++ "AccInfoName: (2) ab" ++ nl) []]))
  /\ Forall request_ok reqs85.
Proof.
  split; [eexists; vm_compute; reflexivity|].
  repeat (apply Forall_cons; [vm_compute; auto|]). apply Forall_nil.
Qed.

(** ** C86 *)

(** The viewer's log has an entry for every frame, packet and command it shows, in order, with
    its direction, length, id, transaction, type and error, a warning where a packet switches
    transaction numbers on or off, and ends with EOF; and nothing else. *)
Theorem C86_viewer errText rt defs spares content fin q es :
  Forall (fun d => (1 <= def_Len d)%Z) defs ->
  dumpTrace rt std_registry defs spares (NewReader content fin) = done (inl (q, es)) ->
  exists ms, trace_of content fin ms /\ shows rt defs spares 0 false ms es (qlist q)
    /\ view_entries errText false es (dump_log errText es)
    /\ (forall l, view_entries errText false es l -> l = dump_log errText es).
Proof.
  intros D E. destruct (C53_view rt defs spares content fin D) as [(q2 & es2 & ms & E2 & T & V & S)|[(ms & E2 & _)|(ms & e & E2 & _)]];
    rewrite E in E2; try discriminate. injection E2 as <- <-. exists ms. split; [exact T|]. split; [exact S|].
  destruct (shows_valid _ _ _ _ _ _ _ _ S V) as [A B].
  pose proof (dump_log_entries errText es A B) as P. split; [exact P|].
  intros l P'. exact (view_entries_unique _ _ _ _ P' _ P).
Qed.
Print Assumptions C86_viewer.

(** Every entry is one line of text, if the texts of errors are. *)
Theorem C86_lines errText m es l runes colored t :
  (forall e, one_line (errText e)) -> view_entries errText m es l ->
  Forall (fun r => exists body, Format runes field_text colored (mkEntry (lr_Level r) (Z.of_N t) (lr_Message r) (lr_Data r)) = Ret (body ++ nl)
                     /\ one_line body) l.
Proof.
  intros HE V. eapply Forall_impl; [|exact (view_plain _ _ _ _ HE V)]. intros r P. exact (plain_line runes colored t r P).
Qed.
Print Assumptions C86_lines.

Definition errText0 (e : goerr) : string := match e with ErrMsg s => s | EOF => "EOF" | UnexpectedEOF => "unexpected EOF" | NoProgress => "no progress" end.

Example C86_case :
  exists file q es,
    write_msgs append_file [] case_trace = (file, map (fun _ => None) case_trace)
    /\ dumpTrace true std_registry DefaultReportDefs (fun _ => []) (NewReader file EOF) = done (inl (q, es))
    /\ dump_log errText0 es
       = [mkRec 4 "<< FRAME" [("len", "14")];
          mkRec 4 "<< PACKET" [("len", "2")]; mkRec 4 "<< CMD" [("id", "0x00,0x07"); ("trx", "<nil>"); ("type", "*general.RequestiPodName")];
          mkRec 4 "<< PACKET" [("len", "2")]; mkRec 4 "<< CMD" [("id", "0x00,0x07"); ("trx", "<nil>"); ("type", "*general.RequestiPodName")];
          mkRec 4 ">> FRAME" [("len", "9")];
          mkRec 4 ">> PACKET" [("len", "4")]; mkRec 4 ">> CMD" [("id", "0x00,0x02"); ("trx", "<nil>"); ("type", "*general.ACK")];
          mkRec 3 "EOF" []].
Proof. eexists _, _, _. split; [vm_compute; reflexivity|]. split; vm_compute; reflexivity. Qed.

(** ** C87 *)

(** Logging does not change what the server does: without its log, the run is the server's. *)
Theorem C87_same_run {W} errText sdump certLog rt reg clock (tp : transport W) fuel st w :
  (go (st', w', _) <- processFrames_log fuel errText sdump certLog rt reg clock tp st w; done (st', w'))
  = processFrames_loop fuel rt reg clock DevGeneral_device tp st w.
Proof. exact (log_erase errText sdump certLog rt reg clock tp fuel st w). Qed.
Print Assumptions C87_same_run.

(** The log of a run that ends tells the run, and nothing else. *)
Theorem C87_transcript {W} errText sdump certLog rt clock (tp : transport W) fuel st w st' w' l :
  sound st -> processFrames_log fuel errText sdump certLog rt std_registry clock tp st w = done (st', w', l) ->
  transcript errText sdump certLog rt clock tp st w l st' w'
  /\ (forall l2 st2 w2, transcript errText sdump certLog rt clock tp st w l2 st2 w2 -> l2 = l /\ st2 = st' /\ w2 = w').
Proof.
  intros S E. pose proof (log_transcript _ _ _ _ _ _ _ _ _ _ _ _ S E) as T. split; [exact T|].
  intros l2 st2 w2 T2. exact (transcript_unique _ _ _ _ _ _ _ _ _ _ _ T2 _ _ _ T).
Qed.
Print Assumptions C87_transcript.

(** A frame with a name request, garbage, a corrupt packet, and a request whose reply cannot be
    marshalled; then a failing read. *)
Definition session87 : list (slice + goerr) :=
  [inl (mkSlice (vis (frame_with [name_request; [x00; x65]]) ++ [x55; x02; x00; x07; xf6]) []); inr NoProgress].

Example C87_case :
  (exists st w, processFrames_log 3 errText0 (fun _ => "") (fun _ => []) true std_registry clock0 script (st0 false) (session87, [])
     = done (st, w,
         [mkRec 4 "<< FRAME" [("len", "18")];
          mkRec 4 "<< PACKET" [("len", "2")]; mkRec 4 "<< CMD" [("id", "0x00,0x07"); ("trx", "<nil>"); ("type", "*general.RequestiPodName")];
          mkRec 4 "<< PACKET" [("len", "2")]; mkRec 4 "<< CMD" [("id", "0x00,0x65"); ("trx", "<nil>"); ("type", "*general.GetNowPlayingFocusApp")];
          mkRec 2 "<< PACKET" [("len", "0"); ("error", "invalid checksum")];
          mkRec 4 ">> CMD" [("id", "0x00,0x08"); ("trx", "<nil>"); ("type", "*general.ReturniPodName")];
          mkRec 4 ">> PACKET" [("len", "14")]; mkRec 4 ">> FRAME" [("len", "17")];
          mkRec 4 ">> CMD" [("id", "0x00,0x66"); ("trx", "<nil>"); ("type", "*general.RetNowPlayingFocusApp")];
          mkRec 2 ">> PACKET" [("len", "0"); ("error", "ipod.Command marshal: binary.Write: binary.Write: invalid type *general.RetNowPlayingFocusApp")];
          mkRec 4 ">> FRAME" [("len", "0")];
          mkRec 2 "<< FRAME" [("len", "0"); ("error", "no progress")];
          mkRec 3 "EOF" []]))
  /\ sound (st0 false)
  /\ (exists st w, processFrames_log 3 errText0 (fun _ => "") (fun _ => []) true std_registry clock0 script (st0 false)
                     ([inl (frame_with [[x00; x38; x00; x01]; [x00; x38; x00; x02]; [x00; x00; x00]])], [])
     = done (st, w,
         [mkRec 4 "<< FRAME" [("len", "24")];
          mkRec 4 "<< PACKET" [("len", "4")]; mkRec 3 "Enabling transaction support" [];
          mkRec 4 "<< CMD" [("id", "0x00,0x38"); ("trx", "0x0001"); ("type", "*general.StartIDPS")];
          mkRec 4 "<< PACKET" [("len", "4")];
          mkRec 4 "<< CMD" [("id", "0x00,0x38"); ("trx", "0x0002"); ("type", "*general.StartIDPS")];
          mkRec 4 "<< PACKET" [("len", "3")]; mkRec 3 "Disabling transaction support" [];
          mkRec 4 "<< CMD" [("id", "0x00,0x00"); ("trx", "<nil>"); ("type", "*general.RequestIdentify")];
          mkRec 4 ">> CMD" [("id", "0x00,0x02"); ("trx", "0x0001"); ("type", "*general.ACK")];
          mkRec 4 ">> PACKET" [("len", "4")]; mkRec 4 ">> FRAME" [("len", "7")];
          mkRec 4 ">> CMD" [("id", "0x00,0x02"); ("trx", "0x0002"); ("type", "*general.ACK")];
          mkRec 4 ">> PACKET" [("len", "4")]; mkRec 4 ">> FRAME" [("len", "7")];
          mkRec 3 "EOF" []])).
Proof. split; [eexists _, _; vm_compute; reflexivity|]. split; [exact sound_init|]. eexists _, _. vm_compute. reflexivity. Qed.

(** ** C88 *)

(** A session recorded on a device that takes all writes and whose reads do not fail, and its
    trace viewed with the same table and Go version: the viewer logs of what the accessory sent,
    and of transaction numbers being switched on and off, exactly what the server logged, entry by
    entry; and of the replies sent the same ids and packet lengths.  Every frame sent must be a packet
    (see [C88_unreadable_reply_refuted]; [C88_agree_log] and [C88_agree_tokenless] say when); [certLog]
    must log nothing of the kind. *)
Theorem C88_agree {S} errText sdump certLog rt clock h (dev : io_rw S) s fuel fuel2 defs spares st s' file n hs l spares' :
  usable defs -> Forall (fun d => (1 <= def_Len d <= 1023)%Z) defs -> honest dev -> obliging dev -> clean dev ->
  (forall b, Forall quiet (certLog b)) -> sound (mkServer false h) ->
  processFrames_log fuel errText sdump certLog rt std_registry clock
    (watched (hid_transport fuel2 defs spares (traced_read append_file dev) (tracer_Write append_file dev)))
    (mkServer false h) (((s, []), 0), []) = done (st, (((s', file), n), hs), l) ->
  Forall readable hs ->
  dumpTrace rt std_registry defs spares' (NewReader file EOF) <> Some Panic ->
  exists q es, dumpTrace rt std_registry defs spares' (NewReader file EOF) = done (inl (q, es))
    /\ filter incoming (dump_log errText es) = filter incoming l
    /\ replies_viewed (dump_log errText es) = replies_sent l.
Proof. exact (logs_agree errText sdump certLog rt clock h dev s fuel fuel2 defs spares st s' file n hs l spares'). Qed.
Print Assumptions C88_agree.

(** The same for every session whose log shows no packet of 256 bytes sent, *)
Theorem C88_agree_log {S} errText sdump certLog rt clock h (dev : io_rw S) s fuel fuel2 defs spares st s' file n hs l spares' :
  usable defs -> Forall (fun d => (1 <= def_Len d <= 1023)%Z) defs -> honest dev -> obliging dev -> clean dev ->
  (forall b, Forall quiet (certLog b)) -> sound (mkServer false h) ->
  processFrames_log fuel errText sdump certLog rt std_registry clock
    (watched (hid_transport fuel2 defs spares (traced_read append_file dev) (tracer_Write append_file dev)))
    (mkServer false h) (((s, []), 0), []) = done (st, (((s', file), n), hs), l) ->
  (forall r, In r l -> lr_Message r = ">> PACKET" -> field "len" r <> Some "256") ->
  dumpTrace rt std_registry defs spares' (NewReader file EOF) <> Some Panic ->
  exists q es, dumpTrace rt std_registry defs spares' (NewReader file EOF) = done (inl (q, es))
    /\ filter incoming (dump_log errText es) = filter incoming l
    /\ replies_viewed (dump_log errText es) = replies_sent l.
Proof.
  intros U L HO OB C Q SO PL N. apply (C88_agree errText sdump certLog rt clock h dev s fuel fuel2 defs spares st s' file n hs l); auto.
  apply (session_readable _ _ _ _ _ _ _ _ _ _ _ _ _ Q SO PL). left. apply Forall_forall. exact N.
Qed.
Print Assumptions C88_agree_log.

(** and for every session in which no identification tokens were received. *)
Theorem C88_agree_tokenless {S} errText sdump certLog rt clock h (dev : io_rw S) s fuel fuel2 defs spares st s' file n hs l spares' :
  usable defs -> Forall (fun d => (1 <= def_Len d <= 1023)%Z) defs -> honest dev -> obliging dev -> clean dev ->
  (forall b, Forall quiet (certLog b)) -> sound (mkServer false h) ->
  processFrames_log fuel errText sdump certLog rt std_registry clock
    (watched (hid_transport fuel2 defs spares (traced_read append_file dev) (tracer_Write append_file dev)))
    (mkServer false h) (((s, []), 0), []) = done (st, (((s', file), n), hs), l) ->
  Forall tokenless hs ->
  dumpTrace rt std_registry defs spares' (NewReader file EOF) <> Some Panic ->
  exists q es, dumpTrace rt std_registry defs spares' (NewReader file EOF) = done (inl (q, es))
    /\ filter incoming (dump_log errText es) = filter incoming l
    /\ replies_viewed (dump_log errText es) = replies_sent l.
Proof.
  intros U L HO OB C Q SO PL N. apply (C88_agree errText sdump certLog rt clock h dev s fuel fuel2 defs spares st s' file n hs l); auto.
  apply (session_readable _ _ _ _ _ _ _ _ _ _ _ _ _ Q SO PL). right. exact N.
Qed.
Print Assumptions C88_agree_tokenless.

(** Finding: identifying with 63 tokens the server can be made to send a reply of 256 bytes, which
    is not a packet (see C03). *)
Definition long_identification : bytes :=
  [x00; x39; x3f] ++ List.concat (repeat [x0a; x00; x01; x00; x00; x00; x00; x00; x00; x00; x01] 62) ++ [x05; x00; x03; x01; x02; x03].
Theorem C88_unreadable_reply_refuted :
  exists st f, processFrames 3 true std_registry clock0 DevGeneral_device script h0 ([inl (frame_with [long_identification])], [])
                 = done (st, ([], [f]))
    /\ f <> [] /\ ~ readable (Sent f).
Proof.
  eexists _, _. split; [vm_compute; reflexivity|]. split; [discriminate|].
  intros [X|(p & IP)]; [discriminate|].
  pose proof (PacketFacts.ReadPacket_packet [] p _ [] [] (fun x => x) IP) as R.
  vm_compute in R. discriminate.
Qed.
Print Assumptions C88_unreadable_reply_refuted.

Definition agreeing :=
  processFrames_log 9 errText0 (fun _ => "") (fun _ => []) true std_registry clock0
    (watched (hid_transport 9 DefaultReportDefs (fun _ => []) (traced_read append_file good_host) (tracer_Write append_file good_host)))
    (st0 false) ((([[x05; x02; x55; x02; x00; x07; xf7; x55; x01]; [x05; x01; x00; x00; x00; x00; x00; x00; x00]], []), 0), []).

Example C88_case :
  sound (st0 false)
  /\ exists st s' file n hs l, agreeing = done (st, (((s', file), n), hs), l) /\ Forall readable hs
     /\ filter incoming l
        = [mkRec 4 "<< FRAME" [("len", "14")];
           mkRec 4 "<< PACKET" [("len", "2")]; mkRec 4 "<< CMD" [("id", "0x00,0x07"); ("trx", "<nil>"); ("type", "*general.RequestiPodName")];
           mkRec 2 "<< PACKET" [("len", "0"); ("error", "invalid checksum")]]
     /\ replies_sent l = [(Some "0x00,0x08", Some "14")]
     /\ dumpTrace true std_registry DefaultReportDefs (fun _ => []) (NewReader file EOF) <> Some Panic.
Proof.
  split; [exact sound_init|]. eexists _, _, _, _, _, _. split; [vm_compute; reflexivity|].
  split.
  { apply Forall_cons; [exact I|]. apply Forall_cons; [|apply Forall_nil]. right. exists name_reply.
    eexists [_], _. split; [reflexivity|]. split; [apply header_small; [reflexivity|discriminate]|vm_compute; reflexivity]. }
  split; [vm_compute; reflexivity|]. split; [vm_compute; reflexivity|]. vm_compute. discriminate.
Qed.

(** The same session shows no packet of 256 bytes sent and no tokens received. *)
Lemma held_incl sp d ps r p : parses sp d ps r -> In p ps -> incl p d.
Proof.
  induction 1 as [d|f w q d ps r _ (h & c & -> & _) _ IH|f d ps r _ _ _ _ IH]; intros I.
  - destruct I.
  - destruct I as [<-|I]; intros b B.
    + apply in_or_app. right. apply in_or_app. left. right. apply in_or_app. right. apply in_or_app. now left.
    + apply in_or_app. right. apply in_or_app. right. exact (IH I b B).
  - intros b B. apply in_or_app. right. right. exact (IH I b B).
Qed.
Example C88_agree_case :
  exists st s' file n hs l, agreeing = done (st, (((s', file), n), hs), l)
    /\ (forall r, In r l -> lr_Message r = ">> PACKET" -> field "len" r <> Some "256")
    /\ Forall tokenless hs.
Proof.
  eexists _, _, _, _, _, _. split; [vm_compute; reflexivity|]. split.
  - intros r H. repeat (destruct H as [<-|H]; [discriminate || (intros _; discriminate)|]). destruct H.
  - apply Forall_cons; [|apply Forall_cons; [exact I|apply Forall_nil]]. intros sp ps (r & P & _).
    apply Forall_forall. intros p J (b & ->). assert (X := held_incl _ _ _ _ _ P J x39 (or_intror (or_introl eq_refl))).
    cbn in X. repeat (destruct X as [X|X]; [discriminate|]). exact X.
Qed.


(** The viewer crashes on the trace of such a session only if the accessory sent a frame that holds a packet
    in part, and the viewer looks for the rest of it behind the frame. *)
Theorem C88_crash {S} errText sdump certLog rt clock h (dev : io_rw S) s fuel fuel2 defs spares st s' file n hs l spares' :
  usable defs -> Forall (fun d => (1 <= def_Len d <= 1023)%Z) defs -> honest dev -> obliging dev -> clean dev ->
  (forall b, Forall quiet (certLog b)) -> sound (mkServer false h) ->
  processFrames_log fuel errText sdump certLog rt std_registry clock
    (watched (hid_transport fuel2 defs spares (traced_read append_file dev) (tracer_Write append_file dev)))
    (mkServer false h) (((s, []), 0), []) = done (st, (((s', file), n), hs), l) ->
  Forall readable hs ->
  dumpTrace rt std_registry defs spares' (NewReader file EOF) = Some Panic ->
  exists f k, In (Received (inl f)) hs /\ cut_off (spares' k) f.
Proof. exact (view_crash errText sdump certLog rt clock h dev s fuel fuel2 defs spares st s' file n hs l spares'). Qed.
Print Assumptions C88_crash.

Example C88_crash_case :
  sound (st0 false)
  /\ exists st s' file n hs l,
      processFrames_log 9 errText0 (fun _ => "") (fun _ => []) true std_registry clock0
        (watched (hid_transport 9 DefaultReportDefs (fun _ => repeat x00 40) (traced_read append_file good_host) (tracer_Write append_file good_host)))
        (st0 false) ((([[x05; x00; x55; x20; x00; x07; x00; x00; x00]], []), 0), []) = done (st, (((s', file), n), hs), l)
      /\ Forall readable hs
      /\ dumpTrace true std_registry DefaultReportDefs (fun _ => []) (NewReader file EOF) = Some Panic.
Proof.
  split; [exact sound_init|]. eexists _, _, _, _, _, _. split; [vm_compute; reflexivity|].
  split; [apply Forall_cons; [exact I|apply Forall_nil]|]. vm_compute. reflexivity.
Qed.
