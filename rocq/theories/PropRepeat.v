(** Property C102: a recorded session repeated with the send command. *)
From Coq Require Import ZifyBool ZifyNat ZifyN Lia.
From Verif Require Import Base GoTypes Types Payload Lingo Command Handlers SpecHandlers Packet Hid SpecHid HidThms Trace SpecTrace
  Server SpecServer PropServer PropTrace Send SpecSend SendThms SpecWire SpecSession CrashThms PropSend PropSession SpecRepeat RepeatThms.

(** ** C102 *)

(** A server is run on a device through the tracer.  Whenever the send command has sent all of the
    trace, to whatever device [wd] and in whatever order of its two goroutines' steps, a server of
    the same kind that is given what was written ends in the same state, and has read as many frames
    and sent the same frames as in the recorded session. *)
Theorem C102_repeated {S DS D A} rt reg clock (g : DeviceGeneral DS) h (dev : io_rw S) s fuel fuel2 defs spares st s' file n out
  rt2 reg2 clock2 (g2 : DeviceGeneral A) defs2 spares2 h2 (rd : D -> io (D * raw_read)) wd d sx :
  usable defs -> Forall (fun d => (def_Len d <= 21843)%Z) defs -> honest dev -> clean dev -> reporting dev ->
  processFrames fuel rt reg clock g (traced fuel2 defs spares dev) h (((s, []), 0), []) = done (st, (((s', file), n), out)) ->
  send_steps rt2 reg2 clock2 g2 defs2 spares2 h2 (noting_read rd) (noting wd) (send_start file EOF (d, [])) sx ->
  sn_sending sx = false ->
  exists w, processFrames fuel rt reg clock g (listening fuel2 defs spares) h (((as_reads (snd (sn_dev sx)), []), 0), [])
            = done (st, ((w, n), out)).
Proof.
  intros U N HO C RP E SX Q.
  destruct (repeated rt reg clock g h dev s fuel fuel2 defs spares st s' file n out U N HO C RP E) as (sent & SO & w & R).
  now rewrite (all_sent rt2 reg2 clock2 g2 defs2 spares2 h2 rd wd file EOF d sent sx SO SX Q); exists w.
Qed.
Print Assumptions C102_repeated.

(** A session that crashed the server crashes the other one too, after as many frames and with the
    same frames sent. *)
Theorem C102_crash {S DS D A} rt reg clock (g : DeviceGeneral DS) h (dev : io_rw S) s fuel2 defs spares s' file n out
  rt2 reg2 clock2 (g2 : DeviceGeneral A) defs2 spares2 h2 (rd : D -> io (D * raw_read)) wd d sx :
  usable defs -> Forall (fun d => (def_Len d <= 21843)%Z) defs -> honest dev -> counting dev -> clean dev -> reporting dev ->
  crashes_at rt reg clock g (traced fuel2 defs spares dev) h (((s, []), 0), []) (((s', file), n), out) ->
  send_steps rt2 reg2 clock2 g2 defs2 spares2 h2 (noting_read rd) (noting wd) (send_start file EOF (d, [])) sx ->
  sn_sending sx = false ->
  (exists w, crashes_at rt reg clock g (listening fuel2 defs spares) h (((as_reads (snd (sn_dev sx)), []), 0), []) ((w, n), out))
  /\ exists fuel, processFrames fuel rt reg clock g (listening fuel2 defs spares) h (((as_reads (snd (sn_dev sx)), []), 0), [])
                  = Some Panic.
Proof.
  intros U N HO CO C RP E SX Q.
  destruct (crash_repeated rt reg clock g h dev s fuel2 defs spares s' file n out U N HO CO C RP E) as (sent & SO & w & R).
  rewrite (all_sent rt2 reg2 clock2 g2 defs2 spares2 h2 rd wd file EOF d sent sx SO SX Q). split; [exists w; exact R|].
  exact (crash_at_loop _ _ _ _ _ _ _ _ R).
Qed.
Print Assumptions C102_crash.

(** Finding: with one read of fewer than three bytes in the session, nothing after it is sent, and
    the other server does not answer what this one answered (C78_all_sent_refuted). *)
Definition short_session : list bytes :=
  [[x05]; [x05; x02; x55; x02; x00; x07; xf7; x00; x00]; [x05; x01; x00; x00; x00; x00; x00; x00; x00]].
Theorem C102_short_refuted :
  honest good_host /\ clean good_host /\ host_out good_host short_session = done [fst (WritePacket [] name_reply)]
  /\ exists st s' file n out,
       processFrames 9 true std_registry clock0 DevGeneral_device (traced 9 DefaultReportDefs (fun _ => []) good_host)
         h0 (((short_session, []), 0), []) = done (st, (((s', file), n), out))
       /\ sendable_of file EOF [].
Proof.
  destruct C68_case as (A & B & _). split; [exact A|]. split; [exact B|]. split; [vm_compute; reflexivity|].
  eexists _, _, _, _, _. split; [vm_compute; reflexivity|]. exists 1. vm_compute. apply send_short; [reflexivity|cbn; lia].
Qed.
Print Assumptions C102_short_refuted.

(** A device of whole reports, with a request in two reports: it is answered, and the file is sent
    to a device that refuses the first write. *)
Definition talker : io_rw (list bytes) :=
  mkRW (fun l n => match l with
                   | (a :: b :: c :: d) :: l' => (l', (firstn n (a :: b :: c :: d), None))
                   | _ => (l, ([], Some EOF))
                   end)
       (fun l p => (l, (List.length p, None))).
Definition name_session : list bytes :=
  [[x05; x02; x55; x02; x00; x07; xf7; x00; x00]; [x05; x01; x00; x00; x00; x00; x00; x00; x00]].

Example C102_case :
  honest talker /\ counting talker /\ clean talker /\ reporting talker
  /\ exists st file n,
       processFrames 9 true std_registry clock0 DevGeneral_device (traced 9 DefaultReportDefs (fun _ => []) talker)
         h0 (((name_session, []), 0), []) = done (st, ((([], file), n), [fst (WritePacket [] name_reply)]))
  /\ exists sx, send_steps true std_registry clock0 DevGeneral_device DefaultReportDefs (fun _ => []) h0
       (noting_read answering) (noting picky) (send_start file EOF (0, [])) sx
     /\ sn_sending sx = false /\ snd (sn_dev sx) = name_session.
Proof.
  split. { split.
    - intros l n l' got. cbn [rw_read talker]. destruct l as [|[|a [|b [|c d]]] l]; intros H; try discriminate.
      injection H as _ <-. rewrite firstn_length. lia.
    - intros l p l' n H. cbn [rw_write talker] in H. injection H as _ <-. lia. }
  split. { intros l p l' n e H. cbn [rw_write talker] in H. injection H as _ <- _. lia. }
  assert (FL : forall a b c (d : bytes), 3 <= List.length (firstn maxRawSize (a :: b :: c :: d))).
  { intros a b c d. rewrite firstn_length. cbn [List.length]. unfold maxRawSize. lia. }
  split. { intros l l' got e. cbn [rw_read talker]. destruct l as [|[|a [|b [|c d]]] l]; intros H; try (left; congruence).
    right. specialize (FL a b c d). revert H FL. generalize (firstn maxRawSize (a :: b :: c :: d)). intros f H FL.
    injection H as _ <- <-. split; [reflexivity|]. intros ->. cbn in FL. lia. }
  split. { intros l l' got. cbn [rw_read talker]. destruct l as [|[|a [|b [|c d]]] l]; intros H; try discriminate.
    specialize (FL a b c d). revert H FL. generalize (firstn maxRawSize (a :: b :: c :: d)). intros f H FL.
    injection H as _ <-. exact FL. }
  eexists _, _, _. split; [vm_compute; reflexivity|].
  eexists (mkSend _ false (2, _) []). split.
  - eapply send_more; [eapply send_more; [eapply send_more; [apply send_refl|]|]|].
    + eapply (step_send _ _ _ _ _ _ _ _ _ (NewReader _ EOF) (0, [])); [vm_compute; discriminate|vm_compute; reflexivity].
    + eapply step_send; [vm_compute; discriminate|vm_compute; reflexivity].
    + eapply step_send; [vm_compute; discriminate|vm_compute; reflexivity].
  - split; reflexivity.
Qed.

(** A request that is answered, then a malformed identification that crashes the server (see
    C79_crash_point for [crashes_at]). *)
Example C102_crash_case :
  processFrames 9 true std_registry clock0 DevGeneral_device (traced 9 DefaultReportDefs (fun _ => []) talker) h0
    (((name_session ++ [[x05; x02; x55; x07; x00; x39; x01; x03; x00]; [x05; x01; x06; xaa; x0c; x00; x00; x00; x00]], []), 0), [])
  = Some Panic.
Proof. vm_compute. reflexivity. Qed.
