(** C107: how the send mode comes to rest. *)
From Coq Require Import Lia.
From Verif Require Import Base GoTypes Types Payload Lingo Command Handlers SpecHandlers Packet Hid SpecHid HidThms Trace SpecTrace Server
  SpecServer PropServer PropTrace Send SpecSend SendThms PropSend SendEndThms.

(** ** C107 *)

(** When nothing can happen any more, on a device that keeps the contract of io.Writer: exactly
    when the receiver has crashed the process, or the sending is over and the receiver has ended,
    or the sending is over, the receiver waits, and the device gives no read. *)
Theorem C107_rest {S D} rt clock (g : DeviceGeneral S) defs spares h (rd : D -> io (D * raw_read)) wd s :
  orderly wd ->
  (forall s', ~ send_step rt std_registry clock g defs spares h rd wd s s') <->
  receiver rt std_registry clock g defs spares h (sn_got s) = Some Panic
  \/ sn_sending s = false /\ (exists st, receiver rt std_registry clock g defs spares h (sn_got s) = done st)
  \/ sn_sending s = false /\ receiver rt std_registry clock g defs spares h (sn_got s) = None
     /\ (forall r, rd (sn_dev s) <> done r).
Proof. exact (rest_iff rt clock g defs spares h rd wd s). Qed.
Print Assumptions C107_rest.

(** In every state of every run: the receiver has ended exactly when a read of the device told its
    end, and that read was the last one.  No other error and no data ends it. *)
Theorem C107_receiver {S D} rt clock (g : DeviceGeneral S) defs spares h (rd : D -> io (D * raw_read)) wd content fin d s :
  usable defs -> send_steps rt std_registry clock g defs spares h rd wd (send_start content fin d) s ->
  ((exists st, receiver rt std_registry clock g defs spares h (sn_got s) = done st)
     <-> exists x, In x (sn_got s) /\ ends_device x)
  /\ (forall x a b, sn_got s = a ++ x :: b -> ends_device x -> b = []).
Proof. intros U. exact (ended_iff rt clock g defs spares U h rd wd content fin d s). Qed.
Print Assumptions C107_receiver.

(** If the device gives finitely many reads, no order of the steps goes on for ever. *)
Theorem C107_ends {S D} rt clock (g : DeviceGeneral S) defs spares h (rd : D -> io (D * raw_read)) wd left s :
  limited left rd wd -> Acc (fun after before => send_step rt std_registry clock g defs spares h rd wd before after) s.
Proof. intros L. exact (steps_end rt clock g defs spares h rd wd left L s). Qed.
Print Assumptions C107_ends.

(** At rest, unless the receiver has crashed the process, all that the file says was sent. *)
Theorem C107_sent {S D} rt clock (g : DeviceGeneral S) defs spares h (rd : D -> io (D * raw_read)) wd content fin d out s :
  orderly wd -> sendable_of content fin out ->
  send_steps rt std_registry clock g defs spares h (noting_read rd) (noting wd) (send_start content fin (d, [])) s ->
  (forall s', ~ send_step rt std_registry clock g defs spares h (noting_read rd) (noting wd) s s') ->
  receiver rt std_registry clock g defs spares h (sn_got s) <> Some Panic ->
  snd (sn_dev s) = out.
Proof.
  intros O Q H R NP.
  assert (O2 : orderly (noting wd)).
  { intros [d0 l] p. destruct (O d0 p) as (d' & n & e & W & LE). exists (d', l ++ [p]), n, e. unfold noting. cbn [fst snd].
    rewrite W. split; [reflexivity|exact LE]. }
  destruct (C78_sent rt std_registry clock g defs spares h rd wd content fin d) as (out' & Q' & P).
  rewrite (C78_determined content fin out out' Q Q'). destruct (P s H) as (later & -> & E).
  apply (rest_iff rt clock g defs spares h (noting_read rd) (noting wd) s O2) in R.
  rewrite E by (destruct R as [R|[[R _]|[R _]]]; [contradiction|exact R|exact R]). now rewrite app_nil_r.
Qed.
Print Assumptions C107_sent.

(** A device that gives a frame, an error and its end, in the middle of the sending. *)
Definition listed_dev : Type := list raw_read.
Definition dev_reads (d : listed_dev) : io (listed_dev * raw_read) := match d with [] => None | x :: d' => done (d', x) end.
Definition dev_takes (d : listed_dev) (p : bytes) : outcome (listed_dev * (nat * option goerr)) := Ret (d, (List.length p, None)).
Definition three_reads : listed_dev :=
  [([x05; x00; x55; x02; x00; x07; xf7; x00; x00], None); ([], Some NoProgress); ([x01], Some EOF)].

Example C107_case : orderly dev_takes /\ limited (@List.length raw_read) dev_reads dev_takes /\ usable DefaultReportDefs
  /\ exists s, send_steps true std_registry clock0 DevGeneral_device DefaultReportDefs (fun _ => []) h0
        (noting_read dev_reads) (noting dev_takes) (send_start send_file EOF (three_reads, [])) s
     /\ (forall s', ~ send_step true std_registry clock0 DevGeneral_device DefaultReportDefs (fun _ => []) h0
            (noting_read dev_reads) (noting dev_takes) s s')
     /\ receiver true std_registry clock0 DevGeneral_device DefaultReportDefs (fun _ => []) h0 (sn_got s) <> Some Panic
     /\ sn_got s = three_reads /\ sn_sending s = false.
Proof.
  assert (OT : orderly dev_takes) by (intros d p; exists d, (List.length p), None; split; [reflexivity|lia]).
  split; [exact OT|]. split.
  { split.
    - intros [|x d] d' y E; [discriminate|]. injection E as <- <-. cbn [List.length]. lia.
    - intros d p d' x E. injection E as <- _. lia. }
  split; [exact default_usable|].
  eexists (mkSend _ false ([], _) three_reads).
  assert (R : exists st, receiver true std_registry clock0 DevGeneral_device DefaultReportDefs (fun _ => []) h0 three_reads = done st)
    by (eexists; vm_compute; reflexivity).
  split; [|split; [|split; [|split; reflexivity]]].
  - eapply send_more; [eapply send_more; [eapply send_more; [eapply send_more; [eapply send_more; [eapply send_more; [apply send_refl|]|]|]|]|]|].
    + eapply (step_send _ _ _ _ _ _ _ _ _ (NewReader send_file EOF) (three_reads, [])); [vm_compute; discriminate|vm_compute; reflexivity].
    + eapply step_receive; vm_compute; reflexivity.
    + eapply step_receive; vm_compute; reflexivity.
    + eapply step_send; [vm_compute; discriminate|vm_compute; reflexivity].
    + eapply step_receive; vm_compute; reflexivity.
    + eapply step_send; [vm_compute; discriminate|vm_compute; reflexivity].
  - apply C107_rest.
    + intros [d l] p. exists (d, l ++ [p]), (List.length p), None. split; [reflexivity|lia].
    + right. left. split; [reflexivity|exact R].
  - destruct R as (st & R). cbn [sn_got]. rewrite R. discriminate.
Qed.
