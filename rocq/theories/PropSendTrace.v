(** Property C126: the send mode with a recording, step by step. *)
From Coq Require Import ZifyBool ZifyNat ZifyN Lia.
From Verif Require Import Base BaseFacts GoTypes Types Payload Lingo Command SpecPayload SpecCommand Handlers SpecHandlers HandlersThms
  SpecProtocol Packet SpecPacket PacketThms Hid SpecHid HidThms Trace SpecTrace TraceThms TraceSessions Server SpecServer ServerFacts ServerThms Send SpecSend SendThms PropSend SpecView ViewThms PropView
  SpecPlug SpecTransport TransportThms PropTransport SpecWire ProtocolProps PropProtocol RecordAnyThms
  SpecRetry RetryThms PropRetry SpecEdit EditThms PropEdit SpecRefuse RefuseThms PropRefuse SpecCut CutThms SendEndThms SendTrace SpecSendTrace SendTraceThms.
#[local] Opaque std_registry requests.

(** Whatever the trace file does, and however the steps of the two goroutines are interleaved: what is offered to the device
    is what the trace to send says, in order, and all of it once the loop has ended; and the receiver is given what the device
    gave, in order, but for at most one read that is just being recorded. *)
Theorem C126_sent {S D T} rt reg clock (g : DeviceGeneral S) defs spares h (tw : io_write T) (dev : io_rw D) content fin d f out s :
  sendable_of content fin out ->
  fine_steps rt reg clock g defs spares h tw (witnessed dev) (fine_start content fin (d, []) f) s ->
  (exists later, out = offered (snd (fn_dev s)) ++ later /\ (fn_sending s = false -> later = []))
  /\ exists late, given (snd (fn_dev s)) = fn_got s ++ late /\ List.length late <= 1 /\ (fn_in s = None -> late = []).
Proof.
  intros Q H. destruct (finv_steps rt reg clock g defs spares h tw dev content fin d f out s Q H) as [(later & O & L) G]. split.
  - exists later. split; [exact O|]. intros E. now rewrite E in L.
  - exists (last_read (fn_in s)). split; [exact G|]. destruct (fn_in s); cbn [last_read List.length]; split; auto; discriminate.
Qed.
Print Assumptions C126_sent.

(** At every moment the file consists of whole lines that can be read back: of each direction, what passed over the device
    without an error, in order, but for at most one transfer that is just being recorded. *)
Theorem C126_file {S D} rt reg clock (g : DeviceGeneral S) defs spares h (dev : io_rw D) content fin d s :
  fine_steps rt reg clock g defs spares h append_file (witnessed dev) (fine_start content fin (d, []) []) s ->
  exists ms, Forall readable ms /\ write_msgs append_file [] ms = (fn_file s, map (fun _ => None) ms)
    /\ (exists late, some_bytes (went (snd (fn_dev s))) = out_data ms ++ late /\ List.length late <= 1 /\ (fn_out s = None -> late = []))
    /\ (exists late, some_bytes (came (snd (fn_dev s))) = in_data ms ++ late /\ List.length late <= 1 /\ (fn_in s = None -> late = [])).
Proof.
  intros H. destruct (linv_steps rt reg clock g defs spares h dev content fin d s H) as (P & Q & ms & texts & F & SM & E & O & I & G).
  assert (ONE : forall l : list bytes, List.length l <= 1 -> List.length (some_bytes l) <= 1).
  { intros [|b [|c l]] L; cbn [List.length] in L; [cbn; lia|destruct b; cbn; lia|lia]. }
  exists ms. split; [|split; [|split]].
  - clear -F SM. induction F as [|m t ms texts L F IH]; constructor; inversion SM as [|? ? [DM LM] SM']; subst; [|now apply IH].
    split; [|unfold len; lia]. split; [exact DM|]. intros X. destruct L as (c & t' & _ & L & _). rewrite X in L. inversion L.
  - rewrite (write_file _ _ F []). now rewrite E.
  - exists (some_bytes (pend_out (fn_out s))). split; [exact O|]. split; [apply ONE; destruct (fn_out s); cbn; lia|]. intros ->. reflexivity.
  - exists (some_bytes (clean_data (last_read (fn_in s)))). split; [exact I|]. split; [|intros ->; reflexivity].
    apply ONE. destruct (fn_in s) as [[b [e|]]|]; cbn; lia.
Qed.
Print Assumptions C126_file.

(** Replaying the recording, made so far, does what the receiver would do if the device ended here. *)
Theorem C126_replay {S D} rt clock (g : DeviceGeneral S) defs spares h (dev : io_rw D) content fin d s st fuel fuel2 :
  usable defs ->
  fine_steps rt std_registry clock g defs spares h append_file (witnessed dev) (fine_start content fin (d, []) []) s ->
  Forall (fun x => snd x = None /\ fst x <> []) (fn_got s) ->
  receiver rt std_registry clock g defs spares h (fn_got s ++ [([], Some EOF)]) = done st ->
  Datatypes.S (List.length (fn_got s)) < fuel -> Datatypes.S (List.length (fn_got s)) < fuel2 ->
  served (processFrames fuel rt std_registry clock g (hid_transport fuel2 defs spares replay_read discard) h (NewReader (fn_file s) EOF, 0)) = done st.
Proof.
  intros U H CL R L L2.
  destruct (linv_steps rt std_registry clock g defs spares h dev content fin d s H) as (_ & _ & ms & texts & F & SM & E & _ & _ & G).
  destruct (recording_text ms texts F SM) as (TX & SH & I). rewrite <- E in TX.
  rewrite (C108_replay rt std_registry clock g defs spares h fuel fuel2 _ _ _ U TX SH I).
  rewrite (clean_got ms (fn_got s) SM CL G).
  rewrite (C78_receiver rt std_registry clock g defs spares h (fn_got s ++ [([], Some EOF)]) fuel fuel2 U) in R by (rewrite app_length; cbn [List.length]; lia).
  destruct (processFrames fuel rt std_registry clock g (hid_transport fuel2 defs spares wait_read discard) h _) as [[[st1 w]|]|] eqn:P; cbn [io_bind done] in R; try discriminate.
  injection R as <-. unfold processFrames in P. destruct (wait_loop rt clock g defs spares U fuel fuel2 _ _ _ [] _ _ P) as (w2 & P2).
  pose proof (C118_same rt clock g _ _ _ h ((fn_got s ++ [([], Some EOF)], []), 0) ((fn_got s, []), 0) fuel
    (related_carries ended_list wire_read wire_read wire_write wire_write ended_reads ended_writes fuel2 defs spares)
    (conj (or_introl (conj eq_refl eq_refl)) eq_refl)) as X.
  lazymatch type of X with compare ?a ?b _ =>
    assert (P3 : a = done (st1, w2)) by exact P2; assert (Y : served b = done st1); [|exact Y];
    rewrite P3 in X; destruct b as [[[st2 w3]|]|]; try contradiction
  end.
  destruct X as [X _]. cbn [fst] in X. subst st2. reflexivity.
Qed.
Print Assumptions C126_replay.

(** If the receiver crashes the process, the read that made it crash is in the recording: its replay crashes too. *)
Theorem C126_crash {S D} rt clock (g : DeviceGeneral S) defs spares h (dev : io_rw D) content fin d s fuel fuel2 :
  usable defs ->
  fine_steps rt std_registry clock g defs spares h append_file (witnessed dev) (fine_start content fin (d, []) []) s ->
  Forall (fun x => snd x = None /\ fst x <> []) (fn_got s) ->
  receiver rt std_registry clock g defs spares h (fn_got s) = Some Panic ->
  List.length (fn_got s) < fuel -> List.length (fn_got s) < fuel2 ->
  served (processFrames fuel rt std_registry clock g (hid_transport fuel2 defs spares replay_read discard) h (NewReader (fn_file s) EOF, 0)) = Some Panic.
Proof.
  intros U H CL R L L2.
  destruct (linv_steps rt std_registry clock g defs spares h dev content fin d s H) as (_ & _ & ms & texts & F & SM & E & _ & _ & G).
  destruct (recording_text ms texts F SM) as (TX & SH & I). rewrite <- E in TX.
  rewrite (C108_replay rt std_registry clock g defs spares h fuel fuel2 _ _ _ U TX SH I).
  rewrite (clean_got ms (fn_got s) SM CL G).
  rewrite (C78_receiver rt std_registry clock g defs spares h (fn_got s) fuel fuel2 U L L2) in R.
  destruct (processFrames fuel rt std_registry clock g (hid_transport fuel2 defs spares wait_read discard) h _) as [[[st1 w]|]|] eqn:P; cbn [io_bind done] in R; try discriminate.
  unfold processFrames in P. pose proof (wait_loop_crash rt clock g defs spares U fuel fuel2 _ _ _ [] P) as P2.
  unfold processFrames, served. lazymatch goal with |- io_bind ?a _ = _ => assert (X : a = Some Panic) by exact P2; rewrite X end. reflexivity.
Qed.
Print Assumptions C126_crash.

(** Finding: to send the recording is not to repeat the session: it offers the device its own answers. *)
Theorem C126_resend {S D} rt reg clock (g : DeviceGeneral S) defs spares h (dev : io_rw D) content fin d s :
  fine_steps rt reg clock g defs spares h append_file (witnessed dev) (fine_start content fin (d, []) []) s ->
  Forall (fun x => snd x = None /\ 3 <= List.length (fst x)) (fn_got s) ->
  sendable_of (fn_file s) EOF (map fst (fn_got s)).
Proof.
  intros H CL. destruct (linv_steps rt reg clock g defs spares h dev content fin d s H) as (_ & _ & ms & texts & F & SM & E & _ & _ & G).
  destruct (recording_text ms texts F SM) as (TX & SH & I). rewrite <- E in TX.
  pose proof (C108_send _ _ _ TX SH I) as Q.
  assert (CL2 : Forall (fun x => snd x = None /\ fst x <> []) (fn_got s)).
  { eapply Forall_impl; [|exact CL]. intros [b e] [A B]. split; [exact A|]. cbn [fst] in *. destruct b; [cbn in B; lia|discriminate]. }
  assert (X : sent_of (ins ms) = map fst (fn_got s)); [|now rewrite <- X].
  rewrite (clean_all _ CL2) in G. clear -G SM CL. unfold ins. unfold in_data in G. revert G CL. generalize (fn_got s) as got.
  assert (SO : Forall small_msg (of_dir 0 ms)) by (apply Forall_filter; exact SM).
  clear SM. induction SO as [|m ms0 [_ LM] SO IH]; intros [|x got] G CL; cbn [map sent_of] in *; try discriminate; [reflexivity|].
  injection G as G1 G2. inversion CL as [|? ? [A B] CL']; subst. rewrite G1 in *.
  destruct (3 <=? List.length (fst x)) eqn:T3; [|apply Nat.leb_gt in T3; lia]. rewrite firstn_all2 by exact LM. f_equal. now apply IH.
Qed.
Print Assumptions C126_resend.

(** The executions in which nothing comes between a transfer and its line (C78, C107, with the tracer before the device) are
    among these. *)
Theorem C126_rounds {S D T} rt reg clock (g : DeviceGeneral S) defs spares h (tw : io_write T) (dev : io_rw D) content fin d f s :
  send_steps rt reg clock g defs spares h (traced_read tw dev) (tracer_Write tw dev) (send_start content fin (d, f)) s ->
  fine_steps rt reg clock g defs spares h tw dev (fine_start content fin d f)
    (mkFine (sn_trace s) (sn_sending s) (fst (sn_dev s)) (snd (sn_dev s)) None None (sn_got s)).
Proof. exact (atomic_steps rt reg clock g defs spares h tw dev (send_start content fin (d, f)) s). Qed.
Print Assumptions C126_rounds.

(** Neither the trace file nor the receiver can hold up the sending: from any state it can be run to its end, with nothing
    left to be recorded, while the receiver stands still. *)
Theorem C126_completes {S D T} rt reg clock (g : DeviceGeneral S) defs spares h (tw : io_write T) (dev : io_rw D) s :
  (forall d p, fst (snd (rw_write dev d p)) <= List.length p) ->
  exists s', fine_steps rt reg clock g defs spares h tw dev s s'
    /\ fn_sending s' = false /\ fn_out s' = None /\ fn_in s' = fn_in s /\ fn_got s' = fn_got s.
Proof.
  intros OK. destruct s as [r b d f o i got].
  destruct (fine_completes rt reg clock g defs spares h tw dev OK _ r b d f o i got (Nat.lt_succ_diag_r _)) as (r' & d' & f' & ST).
  eexists. split; [exact ST|]. repeat split.
Qed.
Print Assumptions C126_completes.

(** A device that takes every write whole and always gives the same answer; a trace with one request to send. *)
Definition answers : io_rw unit := mkRW (fun _ _ => (tt, asks)) (fun _ p => (tt, (List.length p, None))).
Definition request : bytes := report_bytes (mkReport x02 x00 (frame_with [[x00; x08]])).
Definition file126 : bytes := fst (write_msgs append_file [] [mkMsg 0 0 request]).
Definition steps126 := fine_steps true std_registry clock_ticking DevGeneral_device small (fun _ => []) h0 append_file (witnessed answers)
  (fine_start file126 EOF (tt, []) []).

Lemma reached126 : exists s, steps126 s
  /\ fn_sending s = false /\ fn_out s = None /\ fn_in s = None /\ fn_got s = [asks]
  /\ snd (fn_dev s) = [Went request (List.length request) None; Came asks]
  /\ read_msgs 3 (NewReader (fn_file s) EOF) = [(mkMsg 0 0 (fst asks), None); (mkMsg 1 1 request, None); failed EOF].
Proof.
  eexists (mkFine _ false (tt, _) _ None None [_]). split.
  - unfold steps126, fine_start.
    eapply fine_more; [eapply fine_more; [eapply fine_more; [eapply fine_more; [eapply fine_more; [apply fine_refl|]|]|]|]|].
    + eapply fine_write; [vm_compute; reflexivity|vm_compute; reflexivity|vm_compute; reflexivity|apply Nat.leb_le; vm_compute; reflexivity].
    + eapply (fine_read _ _ _ _ _ _ _ _ _ _ _ _ _ _ _ _ asks); [vm_compute; reflexivity|reflexivity|intros _; apply Nat.leb_le; vm_compute; reflexivity].
    + apply fine_was_read.
    + apply fine_wrote.
    + eapply fine_stop; vm_compute; reflexivity.
  - cbn [fn_sending fn_out fn_in fn_got fn_dev fn_file snd]. repeat (split; [vm_compute; reflexivity|]). vm_compute. reflexivity.
Qed.

(** Finding: the answer can come before the request in the file, though it came behind it on the device. *)
Theorem C126_order_refuted : exists s, steps126 s /\ fn_out s = None /\ fn_in s = None
  /\ snd (fn_dev s) = [Went request (List.length request) None; Came asks]
  /\ read_msgs 3 (NewReader (fn_file s) EOF) = [(mkMsg 0 0 (fst asks), None); (mkMsg 1 1 request, None); failed EOF].
Proof. destruct reached126 as (s & A & _ & B & C & _ & E & F). exists s. auto. Qed.
Print Assumptions C126_order_refuted.

Example C126_case :
  usable small /\ sendable_of file126 EOF [request]
  /\ (forall d p, fst (snd (rw_write answers d p)) <= List.length p)
  /\ exists s, steps126 s /\ fn_sending s = false /\ fn_got s = [asks]
       /\ offered (snd (fn_dev s)) = [request] /\ went (snd (fn_dev s)) = [request] /\ came (snd (fn_dev s)) = [fst asks]
       /\ Forall (fun x => snd x = None /\ fst x <> [] /\ 3 <= List.length (fst x)) (fn_got s)
       /\ (exists st, receiver true std_registry clock_ticking DevGeneral_device small (fun _ => []) h0 (fn_got s ++ [([], Some EOF)]) = done st
             /\ List.length (h_log (sv_h st)) = 2)
       /\ sendable_of (fn_file s) EOF [fst asks].
Proof.
  split; [exact small_usable|]. split.
  { exists 2. vm_compute. eapply (send_data (mkMsg 0 0 request)); [reflexivity|apply Nat.leb_le; vm_compute; reflexivity|]. apply send_error. }
  split; [intros d p; reflexivity|].
  destruct reached126 as (s & A & B & _ & _ & C & E & _). exists s. rewrite E, C. split; [exact A|]. split; [exact B|]. split; [reflexivity|].
  split; [reflexivity|]. split; [vm_compute; reflexivity|]. split; [reflexivity|].
  assert (X : 3 <= List.length (fst asks)) by (apply Nat.leb_le; vm_compute; reflexivity).
  split; [constructor; [|constructor]; split; [reflexivity|split; [discriminate|exact X]]|]. split.
  - eexists. split; vm_compute; reflexivity.
  - pose proof (C126_resend _ _ _ _ _ _ _ _ _ _ _ s A) as R. rewrite C in R. apply R. constructor; [split; [reflexivity|exact X]|constructor].
Qed.

(** A device that gives a packet without its check sum, which crashes the receiver; the sending goroutine may still write the
    request before the process ends. *)
Definition broken : raw_read := ([x01; x00; x00; x55; x02; x00; x07], None).
Definition breaks : io_rw unit := mkRW (fun _ _ => (tt, broken)) (fun _ p => (tt, (List.length p, None))).
Example C126_crash_case :
  exists s, fine_steps true std_registry clock_ticking DevGeneral_device small (fun _ => []) h0 append_file (witnessed breaks)
              (fine_start file126 EOF (tt, []) []) s
    /\ fn_got s = [broken] /\ Forall (fun x => snd x = None /\ fst x <> []) (fn_got s)
    /\ receiver true std_registry clock_ticking DevGeneral_device small (fun _ => []) h0 (fn_got s) = Some Panic
    /\ snd (fn_dev s) = [Came broken; Went request (List.length request) None]
    /\ fn_file s = fst (write_msgs append_file [] [mkMsg 0 0 (fst broken); mkMsg 1 0 request]).
Proof.
  eexists (mkFine _ true (tt, _) _ None None [_]). split.
  - unfold fine_start. eapply fine_more; [eapply fine_more; [eapply fine_more; [eapply fine_more; [apply fine_refl|]|]|]|].
    + eapply (fine_read _ _ _ _ _ _ _ _ _ _ _ _ _ _ _ _ broken); [vm_compute; reflexivity|reflexivity|intros _; apply Nat.leb_le; vm_compute; reflexivity].
    + apply fine_was_read.
    + eapply fine_write; [vm_compute; reflexivity|vm_compute; reflexivity|vm_compute; reflexivity|apply Nat.leb_le; vm_compute; reflexivity].
    + apply fine_wrote.
  - cbn [fn_got fn_dev fn_file snd app]. split; [reflexivity|]. split; [repeat constructor; discriminate|].
    split; [vm_compute; reflexivity|]. split; vm_compute; reflexivity.
Qed.
