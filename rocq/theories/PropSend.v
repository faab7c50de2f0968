(** C78: the send mode, in which the tool plays an accessory from a trace. *)
From Coq Require Import Lia.
From Verif Require Import Base GoTypes Types Payload Lingo Command Handlers SpecHandlers Packet Hid SpecHid HidThms Trace SpecTrace Server
  SpecServer PropServer PropTrace Send SpecSend SendThms.

(** ** C78 *)

(** For every trace file, device and order of the two goroutines' steps: what was written to the
    device so far is the beginning of what the file says is to be sent, and all of it once the
    loop has ended.  Nothing else is ever written to the device: not the replies of the receiving
    goroutine, and nothing after the loop. *)
Theorem C78_sent {S D} rt reg clock (g : DeviceGeneral S) defs spares h (rd : D -> io (D * raw_read)) wd content fin d :
  exists out, sendable_of content fin out
    /\ forall s, send_steps rt reg clock g defs spares h (noting_read rd) (noting wd) (send_start content fin (d, [])) s ->
         exists later, out = snd (sn_dev s) ++ later /\ (sn_sending s = false -> later = []).
Proof. exact (send_prefix rt reg clock g defs spares h rd wd content fin d). Qed.
Print Assumptions C78_sent.

(** What is to be sent is determined by the file. *)
Theorem C78_determined content fin out out' : sendable_of content fin out -> sendable_of content fin out' -> out = out'.
Proof. exact (to_send_from_fun (NewReader content fin) out out'). Qed.
Print Assumptions C78_determined.

(** Sending is never stuck: unless the receiver has crashed, the loop can be run to its end from
    any state, whatever errors the writes give. *)
Theorem C78_completes {S D} rt reg clock (g : DeviceGeneral S) defs spares h (rd : D -> io (D * raw_read)) wd s :
  orderly wd -> receiver rt reg clock g defs spares h (sn_got s) <> Some Panic ->
  exists s', send_steps rt reg clock g defs spares h (noting_read rd) (noting wd) s s'
    /\ sn_sending s' = false /\ sn_got s' = sn_got s.
Proof. exact (send_completes rt reg clock g defs spares h rd wd s). Qed.
Print Assumptions C78_completes.

(** A recorded session whose reads were of three to 1024 bytes is sent again read for read. *)
Theorem C78_recorded {S} (dev : io_rw S) s ops s' rs :
  honest dev -> Forall (fun o => (N.of_nat (op_size o) <= 21844)%N) ops -> run_dev dev s ops = (s', rs) ->
  Forall (fun d => 3 <= List.length d <= 1024) (read_data rs) ->
  exists file, run_tracer append_file dev (s, []) ops = Ret ((s', file), rs) /\ sendable_of file EOF (read_data rs).
Proof. exact (send_recorded dev s ops s' rs). Qed.
Print Assumptions C78_recorded.

(** The fuel in [receiver] does not matter. *)
Theorem C78_receiver {S} rt reg clock (g : DeviceGeneral S) defs spares h got fuel fuel2 :
  usable defs -> List.length got < fuel -> List.length got < fuel2 ->
  receiver rt reg clock g defs spares h got
  = go (st, _) <- processFrames fuel rt reg clock g (hid_transport fuel2 defs spares wait_read discard) h (got, 0); done st.
Proof.
  intros U F F2. unfold receiver, processFrames.
  now rewrite (receiver_fuel rt reg clock g defs spares U (Datatypes.S (List.length got)) fuel
                 (Datatypes.S (List.length got)) fuel2) by lia.
Qed.
Print Assumptions C78_receiver.

(** Finding: one recorded read of fewer than three bytes, which a replay passes over, ends the
    sending without a word; the rest of the trace is not sent. *)
Theorem C78_all_sent_refuted :
  exists ms file m, Forall readable ms /\ write_msgs append_file [] ms = (file, map (fun _ => None) ms)
    /\ In m ms /\ msg_Dir m = 0%N /\ 3 <= List.length (msg_Data m) <= 1024
    /\ replay 2 0 (NewReader file EOF) 1024 = Some (map (fun m => (msg_Data m, None)) ms)
    /\ sendable_of file EOF [].
Proof.
  exists [mkMsg 0 0 [x05]; mkMsg 0 1 [x05; x00; x55]]. eexists _, (mkMsg 0 1 [x05; x00; x55]).
  split; [repeat constructor; try discriminate; vm_compute; discriminate|].
  split; [vm_compute; reflexivity|]. split; [right; left; reflexivity|]. split; [reflexivity|].
  split; [cbn [msg_Data List.length]; lia|]. split; [vm_compute; reflexivity|].
  exists 1. vm_compute. apply send_short; [reflexivity|cbn; lia].
Qed.
Print Assumptions C78_all_sent_refuted.

(** Two received messages with a sent one between them: both are sent to a device that refuses the
    first write, while the receiver reads a frame. *)
Definition send_file : bytes :=
  fst (write_msgs append_file [] [mkMsg 0 0 [x05; x00; x55]; mkMsg 1 0 [x06; x00; x55]; mkMsg 0 0 [x07; x00; x56]]).
Definition picky : nat -> bytes -> outcome (nat * (nat * option goerr)) :=
  fun d p => Ret (Datatypes.S d, match d with O => (0, Some errShortWrite) | _ => (List.length p, None) end).
Definition answering : nat -> io (nat * raw_read) :=
  fun d => done (d, ([x05; x00; x55; x02; x00; x07; xf7; x00; x00], None)).

Example C78_case : orderly picky
  /\ exists s, send_steps true std_registry clock0 DevGeneral_device DefaultReportDefs (fun _ => []) h0
        (noting_read answering) (noting picky) (send_start send_file EOF (0, [])) s
     /\ sn_sending s = false /\ sn_dev s = (2, [[x05; x00; x55]; [x07; x00; x56]]) /\ List.length (sn_got s) = 1
     /\ receiver true std_registry clock0 DevGeneral_device DefaultReportDefs (fun _ => []) h0 (sn_got s) = None.
Proof.
  split.
  - intros d p. exists (Datatypes.S d). destruct d; [exists 0, (Some errShortWrite)|exists (List.length p), None]; (split; [reflexivity|lia]).
  - eexists (mkSend _ false (2, _) [_]). split.
    + eapply send_more; [eapply send_more; [eapply send_more; [eapply send_more; [apply send_refl|]|]|]|].
      * eapply (step_send _ _ _ _ _ _ _ _ _ (NewReader send_file EOF) (0, [])); [vm_compute; discriminate|vm_compute; reflexivity].
      * eapply step_receive; vm_compute; reflexivity.
      * eapply step_send; [vm_compute; discriminate|vm_compute; reflexivity].
      * eapply step_send; [vm_compute; discriminate|vm_compute; reflexivity].
    + repeat split.
Qed.

Example C78_recorded_case : honest echo
  /\ Forall (fun o => (N.of_nat (op_size o) <= 21844)%N) [OpWrite [x05; x00; x55]; OpRead 9]
  /\ run_dev echo [] [OpWrite [x05; x00; x55]; OpRead 9] = ([], [ResWrite 3 None; ResRead [x05; x00; x55] None])
  /\ Forall (fun d => 3 <= List.length d <= 1024) (read_data [ResWrite 3 None; ResRead [x05; x00; x55] None]).
Proof.
  split; [exact echo_honest|]. split; [repeat (apply Forall_cons; [vm_compute; discriminate|]); apply Forall_nil|].
  split; [reflexivity|]. apply Forall_cons; [cbn [List.length]; lia|apply Forall_nil].
Qed.
