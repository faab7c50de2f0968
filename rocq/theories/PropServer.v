(** Properties C64-C68, C72: the server's loop on frames, transports, HID devices and replays. *)
From Coq Require Import ZifyBool ZifyNat ZifyN Lia.
From Verif Require Import Base GoTypes Types Payload Lingo Command SpecPayload SpecCommand Handlers SpecHandlers
  Packet SpecPacket Hid SpecHid HidThms Trace SpecTrace CommandThms Server SpecServer ServerFacts ServerThms SessionThms ServerProps Mem.

(** ** Examples *)

Definition clock0 : nat -> datetime := fun _ => (2024, 5, 17, 12, 30)%N.
Definition h0 : hstate DevGeneral := mkH DevGeneral_init [] 0 0 [].
Definition st0 (m : bool) : server DevGeneral := mkServer m h0.

(** A frame holding given packets, and filler. *)
Definition frame_with (ps : list bytes) : slice :=
  mkSlice (flat_map (fun p => x00 :: fst (WritePacket [] p)) ps ++ [x00]) [].
Definition name_request : bytes := [x00; x07].
Definition name_reply : bytes := [x00; x08; x69; x70; x6f; x64; x2d; x67; x61; x64; x67; x65; x74; x00].

(** ** C64 *)

(** One frame on any transport: the server answers it or crashes on it.  See [answers]. *)
Theorem C64_frame {W} rt clock (tp : transport W) st w fr :
  sound st ->
  (exists fs st', answers rt clock DevGeneral_device st fr fs st' /\ sound st'
     /\ process_frame rt std_registry clock DevGeneral_device tp st w fr = (go w' <- feed tp w fs; done (st', w')))
  \/ (crashing_frame rt (sv_mode st) fr
      /\ process_frame rt std_registry clock DevGeneral_device tp st w fr = Some Panic).
Proof. exact (process_frame_run rt clock tp st w fr). Qed.
Print Assumptions C64_frame.

(** The answer is determined by the state and the frame. *)
Theorem C64_deterministic {S} rt clock (dev : DeviceGeneral S) st fr fs1 st1 fs2 st2 :
  answers rt clock dev st fr fs1 st1 -> answers rt clock dev st fr fs2 st2 -> fs1 = fs2 /\ st1 = st2.
Proof. exact (answers_unique rt clock dev st fr fs1 st1 fs2 st2). Qed.
Print Assumptions C64_deterministic.

(** The frames sent are those of the first command's replies, in the order it wrote them, then
    those of the second command's replies, and so on. *)
Theorem C64_order rt clock st ins o fr st' w' :
  sound st -> process_frame rt std_registry clock DevGeneral_device script st (ins, o) fr = done (st', w') ->
  exists ps cs outs fss, holds fr ps /\ decodes rt (sv_mode st) ps cs
    /\ in_turn clock DevGeneral_device (sv_h st) cs outs (sv_h st')
    /\ Forall2 (Forall2 (encoded rt (sv_mode st'))) outs fss /\ w' = (ins, o ++ List.concat fss)
    /\ sv_mode st' = mode_after (sv_mode st) (ids_of ps).
Proof. exact (script_in_turn rt clock st ins o fr st' w'). Qed.
Print Assumptions C64_order.

(** A reply's frame, padded by any filler, holds one packet, which decodes back to the reply; the
    transaction is lost in the mode without transactions. *)
Theorem C64_decodes_back rt m c f :
  controls (cmd_id c) = None -> encoded rt m c f -> survives rt m c ->
  exists b, WritePacket [] b = (f, None)
    /\ (writable b -> forall pad sp, filler pad -> holds (mkSlice (f ++ pad) sp) [b])
    /\ UnmarshalCmd rt std_registry m b
       = Ret (m, mkCmd (cmd_id c) (if m then cmd_trx c else None) (cmd_payload c), None).
Proof. exact (encoded_survives rt m c f). Qed.
Print Assumptions C64_decodes_back.

(** Whole runs on any transport, from the initial state: a run that ends has answered every frame
    before reading the next one; and every such run is one of the server's. *)
Theorem C64_runs {W} rt clock (tp : transport W) h w st' w' :
  (dg_uimode (h_dev h) <= 1)%N ->
  ((exists fuel, processFrames fuel rt std_registry clock DevGeneral_device tp h w = done (st', w'))
   <-> serves rt clock tp (mkServer false h) w st' w').
Proof.
  intros Hs. split.
  - intros (fuel & E). pose proof (serves_run rt clock tp fuel (mkServer false h) w Hs) as R.
    unfold processFrames in E. rewrite E in R. exact (proj1 R).
  - intros R. exact (run_serves _ _ _ _ _ _ _ R Hs).
Qed.
Print Assumptions C64_runs.

(** With frames and read errors from a list, the frames sent are those of [session]. *)
Theorem C64_session rt clock ins h fuel :
  (dg_uimode (h_dev h) <= 1)%N -> List.length ins < fuel ->
  (exists outs st' rest, session rt clock (mkServer false h) ins outs st'
     /\ processFrames fuel rt std_registry clock DevGeneral_device script h (ins, []) = done (st', (rest, outs)))
  \/ (crashes rt clock (mkServer false h) ins
      /\ processFrames fuel rt std_registry clock DevGeneral_device script h (ins, []) = Some Panic).
Proof.
  intros Hs L. destruct (script_run rt clock ins fuel (mkServer false h) [] Hs L) as [(outs & st' & rest & S & _ & E)|H];
    [left; exists outs, st', rest; auto|right; exact H].
Qed.
Print Assumptions C64_session.

(** An unsendable reply is an empty frame, and that sends no report on a HID transport. *)
Theorem C64_unsendable_silent {D} fuel defs spares (rd : D -> io (D * raw_read)) wd w fs :
  feed (hid_transport fuel defs spares rd wd) w fs
  = feed (hid_transport fuel defs spares rd wd) w (filter (fun f => negb (match f with [] => true | _ => false end)) fs).
Proof. exact (feed_nonempty fuel defs spares rd wd fs w). Qed.
Print Assumptions C64_unsendable_silent.

(** Two requests in a frame; the second reply cannot be marshalled and gives the empty frame. *)
Example C64_case :
  sound (st0 false)
  /\ holds (frame_with [name_request]) [name_request]
  /\ (exists st w, process_frame true std_registry clock0 DevGeneral_device script (st0 false) ([], [])
                     (frame_with [name_request; [x00; x65]; name_request]) = done (st, ([], w))
       /\ w = [fst (WritePacket [] name_reply); []; fst (WritePacket [] name_reply)])
  /\ (exists c, cmd_id c = 8%N /\ survives true false c
       /\ MarshalCmd true false c = Ret (false, Ok name_reply) /\ writable name_reply).
Proof.
  split; [exact sound_init|]. split; [|split].
  - exists [x00]. split; [|intros [H|[]]; discriminate].
    apply (parses_packet [] [x00] [x55; x02; x00; x07; xf7] name_request [x00] [] [x00]).
    + intros [H|[]]; discriminate.
    + exists [x02], xf7. split; [reflexivity|]. split; [|reflexivity]. apply header_small; [reflexivity|discriminate].
    + apply parses_here.
  - eexists _, _. split; vm_compute; reflexivity.
  - exists (mkCmd 8 None (Some (Pst general_ReturniPodName [VBytes (firstn 12 (skipn 2 name_reply))]))).
    split; [reflexivity|]. split; [|split; [vm_compute; reflexivity|split; [split|]; vm_compute; congruence]].
    split; [discriminate|]. right. eexists _, _. split; [reflexivity|]. split; [reflexivity|].
    split; [apply LingoFacts.id_of_in; reflexivity|].
    split; [apply sd_string; cbn; intuition discriminate|]. cbn. split; [intros H; now elim H|discriminate].
Qed.

(** ** C65 *)

(** A frame without packets (in particular one without a start byte) writes nothing and leaves the
    server's and the transport's state as they were, for any device and transport. *)
Theorem C65_frame {S W} rt clock (dev : DeviceGeneral S) (tp : transport W) st w fr :
  holds fr [] -> process_frame rt std_registry clock dev tp st w fr = done (st, w).
Proof. exact (garbage_run rt clock dev tp st w fr). Qed.
Print Assumptions C65_frame.

Theorem C65_no_start_byte {S W} rt clock (dev : DeviceGeneral S) (tp : transport W) st w f sp :
  ~ In x55 f -> process_frame rt std_registry clock dev tp st w (mkSlice f sp) = done (st, w).
Proof. exact (fun H => garbage_run rt clock dev tp st w (mkSlice f sp) (filler_holds f sp H)). Qed.
Print Assumptions C65_no_start_byte.

(** Leaving out any of the frames without packets, and any of the read errors other than io.EOF,
    changes neither the final state nor the frames written nor whether the server crashes. *)
Theorem C65_session {S} rt clock (dev : DeviceGeneral S) ins ins' h fuel fuel' :
  thinned ins ins' -> List.length ins < fuel -> List.length ins' < fuel' ->
  final (processFrames fuel rt std_registry clock dev script h (ins, []))
  = final (processFrames fuel' rt std_registry clock dev script h (ins', [])).
Proof. exact (fun T => thinned_run rt clock dev ins ins' T (mkServer false h) [] fuel fuel'). Qed.
Print Assumptions C65_session.

(** Filler, a cut-off start of a packet, a packet with a wrong check sum and a read error. *)
Example C65_case :
  holds (mkSlice [x00; x55; x02; x00; x07; xf8; x55] []) []
  /\ thinned [inr errReportID; inl (frame_with [name_request]); inl (mkSlice [x55; x02; x00; x07; xf8] [])]
             [inl (frame_with [name_request])]
  /\ final (processFrames 2 true std_registry clock0 DevGeneral_device script h0 ([inl (frame_with [name_request])], []))
     <> done (st0 false, []).
Proof.
  assert (X : holds (mkSlice [x00; x55; x02; x00; x07; xf8; x55] []) []
              /\ holds (mkSlice [x55; x02; x00; x07; xf8] []) [])
    by (split; (eapply holds_none; [vm_compute; reflexivity|reflexivity])).
  destruct X as [X Y]. split; [exact X|]. split; [|vm_compute; discriminate].
  apply thinned_drop; [discriminate|]. apply thinned_keep. apply thinned_drop; [exact Y|apply thinned_nil].
Qed.

(** ** C66 *)

(** All replies to a frame are encoded in the mode after its last packet: [outs] are the replies of
    each request, [fss] their frames, which is what the server adds to the frames sent before. *)
Theorem C66_frame_mode rt clock st ins o fr st' w' ps :
  sound st -> process_frame rt std_registry clock DevGeneral_device script st (ins, o) fr = done (st', w') -> holds fr ps ->
  exists cs outs fss, decodes rt (sv_mode st) ps cs
    /\ in_turn clock DevGeneral_device (sv_h st) cs outs (sv_h st')
    /\ Forall2 (Forall2 (encoded rt (mode_after (sv_mode st) (ids_of ps)))) outs fss /\ w' = (ins, o ++ List.concat fss).
Proof. exact (script_mode rt clock st ins o fr st' w' ps). Qed.
Print Assumptions C66_frame_mode.

(** So a reply to [p] is encoded in the mode [p] was decoded in if no later packet of the frame
    sets the mode; in particular if [p] is alone in its frame. *)
Theorem C66_mode_of_request rt clock st ins o fr st' w' before p after :
  sound st -> process_frame rt std_registry clock DevGeneral_device script st (ins, o) fr = done (st', w') ->
  holds fr (before ++ p :: after) -> Forall (fun id => controls id = None) (ids_of after) ->
  exists cs outs fss, decodes rt (sv_mode st) (before ++ p :: after) cs
    /\ in_turn clock DevGeneral_device (sv_h st) cs outs (sv_h st')
    /\ Forall2 (Forall2 (encoded rt (mode_after (sv_mode st) (ids_of (before ++ [p]))))) outs fss
    /\ w' = (ins, o ++ List.concat fss).
Proof. exact (script_mode_of_request rt clock st ins o fr st' w' before p after). Qed.
Print Assumptions C66_mode_of_request.

(** Finding: the reply to a request with a transaction goes without one when IdentifyDeviceLingoes
    follows in the same frame, and with it when that comes in the next frame. *)
Definition name_trx : bytes := [x00; x07; x00; x05].
Definition identify : bytes := [x00; x13; x00; x06; x00; x00; x00; x15; x00; x00; x00; x00; x00; x00; x00; x00].
Definition sent (ins : list (slice + goerr)) : io (list bytes) :=
  go (_, w) <- processFrames_loop 5 true std_registry clock0 DevGeneral_device script (st0 true) (ins, []);
  done (snd w).
Theorem C66_mode_of_request_refuted :
  exists p q r r' a, sent [inl (frame_with [p; q])] = done [r; a] /\ sent [inl (frame_with [p]); inl (frame_with [q])] = done [r'; a]
    /\ r = fst (WritePacket [] name_reply)
    /\ r' = fst (WritePacket [] ([x00; x08; x00; x05] ++ skipn 2 name_reply)) /\ r <> r'.
Proof.
  exists name_trx, identify, (fst (WritePacket [] name_reply)), (fst (WritePacket [] ([x00; x08; x00; x05] ++ skipn 2 name_reply))),
    (match sent [inl (frame_with [identify])] with Some (Ret [a]) => a | _ => [] end).
  split; [vm_compute; reflexivity|]. split; [vm_compute; reflexivity|]. split; [reflexivity|]. split; [reflexivity|].
  vm_compute. discriminate.
Qed.
Print Assumptions C66_mode_of_request_refuted.

Example C66_case :
  controls 7 = None /\ controls 19 = Some false /\ packet_id identify = Some 19%N /\ ids_of [name_trx] = [7%N].
Proof. repeat split. Qed.

(** ** C67 *)

(** On a transport that does not crash itself a frame crashes the server exactly when it is a
    crashing one. *)
Theorem C67_frame {W} rt clock (tp : transport W) st w fr :
  sound st -> sturdy tp ->
  (process_frame rt std_registry clock DevGeneral_device tp st w fr = Some Panic <-> crashing_frame rt (sv_mode st) fr)
  /\ process_frame rt std_registry clock DevGeneral_device tp st w fr <> None.
Proof. exact (frame_panic_iff rt clock tp st w fr). Qed.
Print Assumptions C67_frame.

(** Runs that crash are exactly those of [serves_crash], on any transport. *)
Theorem C67_runs {W} rt clock (tp : transport W) h w :
  (dg_uimode (h_dev h) <= 1)%N ->
  ((exists fuel, processFrames fuel rt std_registry clock DevGeneral_device tp h w = Some Panic)
   <-> serves_crash rt clock tp (mkServer false h) w).
Proof.
  intros Hs. split.
  - intros (fuel & E). pose proof (serves_run rt clock tp fuel (mkServer false h) w Hs) as R.
    unfold processFrames in E. now rewrite E in R.
  - intros R. exact (run_crash _ _ _ _ _ R Hs).
Qed.
Print Assumptions C67_runs.

(** Without crashing frames there is no crash. *)
Theorem C67_safe {W} rt clock (tp : transport W) fuel h w :
  (dg_uimode (h_dev h) <= 1)%N -> sturdy tp ->
  (forall m w0 w1 fr, tp_ReadFrame tp w0 = done (w1, inl fr) -> ~ crashing_frame rt m fr) ->
  processFrames fuel rt std_registry clock DevGeneral_device tp h w <> Some Panic.
Proof. exact (safe_run rt clock tp fuel h w). Qed.
Print Assumptions C67_safe.

(** HID transports do not crash, for any device that keeps to the io.Writer contract. *)
Theorem C67_hid_sturdy {D} fuel defs spares (rd : D -> io (D * raw_read)) wd :
  usable defs -> Forall (fun d => (1 <= def_Len d)%Z) defs -> (forall d, rd d <> Some Panic) -> writes_ok wd ->
  sturdy (hid_transport fuel defs spares rd wd).
Proof. exact (hid_sturdy fuel defs spares rd wd). Qed.
Print Assumptions C67_hid_sturdy.

(** Finding: one HID report crashes the server, on every Go version: a packet cut off by the end
    of the report, an empty RequestApplicationLaunch, an EA-protocol token without contents.  The
    transport is that of [Mem], with the decoder's real buffer behind the frame. *)
Definition on_reports (rt : bool) (reports : list bytes) : io (server DevGeneral * (mem * list raw_read)) :=
  processFrames 5 rt std_registry clock0 DevGeneral_device
    (mem_transport 5 DefaultReportDefs go_growth list_read discard) h0 (new_mem, map good_data reports).
Theorem C67_no_crash_refuted :
  exists r1 r2 r3, forall rt,
    on_reports rt [r1] = Some Panic /\ on_reports rt [r2] = Some Panic /\ on_reports rt [r3] = Some Panic.
Proof.
  exists [x05; x00; x55; x80; x00; x00; x00; x00; x00],
         [x05; x00; x55; x02; x00; x64; x9a; x00; x00],
         [x06; x00; x55; x06; x00; x39; x01; x02; x00; x04; xba].
  intros []; vm_compute; auto.
Qed.
Print Assumptions C67_no_crash_refuted.

Example C67_case :
  sturdy (hid_transport 5 DefaultReportDefs (fun _ => []) list_read discard)
  /\ crashing_frame true false (mkSlice [x00; x55; x05; x00; x00; x00; x00; x00] [xfb])
  /\ (exists x, on_reports true [[x05; x00; x55; x02; x00; x07; xf7; x00; x00]] = done x).
Proof.
  split; [|split].
  - apply hid_sturdy; [exact default_usable| |intros [|x l]; discriminate|exact discard_ok].
    repeat (apply Forall_cons; [vm_compute; discriminate|]). apply Forall_nil.
  - exists [], [x00; x55; x05; x00; x00; x00; x00; x00]. split; [apply parses_here|]. right.
    exists [x00], [x05; x00; x00; x00; x00; x00]. split; [reflexivity|]. split; [intros [H|[]]; discriminate|].
    exists [x05], 5%N, [x00; x00; x00; x00; x00]. split; [reflexivity|].
    split; [apply header_small; [reflexivity|discriminate]|]. split; [cbn; lia|]. split; [reflexivity|].
    right. vm_compute. reflexivity.
  - eexists. vm_compute. reflexivity.
Qed.

(** ** C68 *)

(** A session of the server on a device whose report reads do not fail, recorded by a tracer, and
    the server on the replay of the recorded file, end in the same state, having sent the same
    frames.  The limit on reports is that of the trace reader (C47). *)
Theorem C68_replay {S DS} rt reg clock (g : DeviceGeneral DS) h (dev : io_rw S) s fuel fuel2 defs spares st s' file n out :
  usable defs -> Forall (fun d => (def_Len d <= 21843)%Z) defs -> honest dev -> clean dev ->
  processFrames fuel rt reg clock g (traced fuel2 defs spares dev) h (((s, []), 0), [])
    = Some (Ret (st, (((s', file), n), out))) ->
  exists r, processFrames fuel rt reg clock g (replayed fuel2 defs spares) h ((NewReader file EOF, 0), [])
            = Some (Ret (st, ((r, n), out))).
Proof. exact (replay_same rt reg clock g h dev s fuel fuel2 defs spares st s' file n out). Qed.
Print Assumptions C68_replay.

(** A device with given reports to read (or errors), that takes all writes. *)
Definition host : io_rw (list (bytes + goerr)) :=
  mkRW (fun l n => match l with
                   | inl (b :: d) :: l' => (l', (firstn n (b :: d), None))
                   | inr e :: l' => (l', ([], Some e))
                   | _ => (l, ([], Some EOF))
                   end)
       (fun l p => (l, (List.length p, None))).
(** The same without errors. *)
Definition good_host : io_rw (list bytes) :=
  mkRW (fun l n => match l with
                   | (b :: d) :: l' => (l', (firstn n (b :: d), None))
                   | _ => (l, ([], Some EOF))
                   end)
       (fun l p => (l, (List.length p, None))).
Definition host_out {S} (dev : io_rw S) (s : S) : io (list bytes) :=
  go (_, w) <- processFrames 9 true std_registry clock0 DevGeneral_device (traced 9 DefaultReportDefs (fun _ => []) dev)
                 h0 (((s, []), 0), []);
  done (snd w).
Definition replay_out {S} (dev : io_rw S) (s : S) : io (list bytes) :=
  go (_, w) <- processFrames 9 true std_registry clock0 DevGeneral_device (traced 9 DefaultReportDefs (fun _ => []) dev)
                 h0 (((s, []), 0), []);
  go (_, w') <- processFrames 9 true std_registry clock0 DevGeneral_device (replayed 9 DefaultReportDefs (fun _ => []))
                 h0 ((NewReader (snd (fst (fst w))) EOF, 0), []);
  done (snd w').

(** Finding: read errors are not recorded, so the parts of a frame cut short by one are joined to
    the next frame's in the replay. *)
Theorem C68_errors_refuted :
  exists reads, honest host /\ host_out host reads = done [] /\ replay_out host reads <> done [].
Proof.
  exists [inl [x05; x02; x55; x02; x00; x07; xf7; x00; x00]; inr errShortWrite; inl [x05; x01; x00; x00; x00; x00; x00; x00; x00]].
  split; [|split; [vm_compute; reflexivity|vm_compute; discriminate]].
  split.
  - intros l n l' got. cbn [rw_read host]. destruct l as [|[[|b d]|e] l]; intros H; try discriminate.
    injection H as _ <-. rewrite firstn_length. lia.
  - intros l p l' n H. cbn [rw_write host] in H. injection H as _ <-. lia.
Qed.
Print Assumptions C68_errors_refuted.

Example C68_case :
  honest good_host /\ clean good_host
  /\ host_out good_host [[x05; x02; x55; x02; x00; x07; xf7; x00; x00]; [x05; x01; x00; x00; x00; x00; x00; x00; x00]]
     = done [fst (WritePacket [] name_reply)].
Proof.
  split; [|split; [|vm_compute; reflexivity]].
  - split.
    + intros l n l' got. cbn [rw_read good_host]. destruct l as [|[|b d] l]; intros H; try discriminate.
      injection H as _ <-. rewrite firstn_length. lia.
    + intros l p l' n H. cbn [rw_write good_host] in H. injection H as _ <-. lia.
  - intros l l' got e. cbn [rw_read good_host]. unfold maxRawSize. destruct l as [|[|b d] l]; intros H.
    + left. congruence.
    + left. congruence.
    + right. destruct (N.to_nat 1024) eqn:E; [discriminate|]. cbn [firstn] in H. injection H as _ <- <-.
      split; [reflexivity|discriminate].
Qed.

(** ** C72 *)

(** Finding: the server ends only at io.EOF.  While reading frames fails with other errors, as it
    does once the device is lost, the loop goes on for ever. *)
Theorem C72_lost_device {S W} rt clock (dev : DeviceGeneral S) (tp : transport W) (P : W -> Prop) :
  (forall w, P w -> exists w' e, tp_ReadFrame tp w = done (w', inr e) /\ e <> EOF /\ P w') ->
  forall fuel h w, P w -> processFrames fuel rt std_registry clock dev tp h w = None.
Proof. exact (fun H fuel h w => lost_device rt clock dev tp P H fuel (mkServer false h) w). Qed.
Print Assumptions C72_lost_device.

Theorem C72_lost_hid_device {S D} rt clock (dev : DeviceGeneral S) fuel2 defs spares (rd : D -> io (D * raw_read)) wd (P : D -> Prop) :
  (forall d, P d -> exists d' got e, rd d = done (d', (got, Some e)) /\ e <> EOF /\ P d') ->
  forall fuel h d n, P d ->
  processFrames fuel rt std_registry clock dev (hid_transport (Datatypes.S fuel2) defs spares rd wd) h (d, n) = None.
Proof. exact (lost_hid rt clock dev fuel2 defs spares rd wd P). Qed.
Print Assumptions C72_lost_hid_device.

(** By contrast: input that is a list of frames and errors is processed to the end (C64_session). *)
Example C72_case :
  forall d : unit, exists d' got e,
    (fun _ : unit => done (tt, ([] : bytes, Some (ErrMsg "no such device")))) d = done (d', (got, Some e)) /\ e <> EOF /\ True.
Proof. intros []. do 3 eexists. split; [reflexivity|]. split; [discriminate|exact I]. Qed.
