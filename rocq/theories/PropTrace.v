(** Properties C45-C52, C54, C55: trace files, tracers, replay and the trace queue. *)
From Verif Require Import Base Trace SpecTrace TraceFacts TraceThms TraceSessions.
From Coq Require Import Lia.

(** ** C45 *)

(** Marshalling gives exactly the text of the message, and refuses the other messages. *)
Theorem C45_marshal m :
  (forall t, Msg_MarshalText m = inl t <-> line_of m t)
  /\ ((exists t, line_of m t) <-> recordable m)
  /\ ((exists e, Msg_MarshalText m = inr e) <-> ~ recordable m).
Proof.
  split; [exact (marshal_line m)|]. split; [|exact (marshal_refuses m)]. split.
  - intros (t & L). destruct (recordable_dec m) as [R|N]; [exact R|].
    apply marshal_refuses in N as (e & E). apply marshal_line in L. congruence.
  - intros R. apply recordable_line in R as (t & T). apply marshal_line in T. eauto.
Qed.
Print Assumptions C45_marshal.

(** The text is one line, and unmarshalling it into any message gives direction and data back. *)
Theorem C45_roundtrip m t m0 :
  Msg_MarshalText m = inl t ->
  ~ In x0a t /\ Msg_UnmarshalText m0 t = (mkMsg (msg_Dir m) (msg_TS m0) (msg_Data m), None).
Proof.
  intros H. apply marshal_line in H. split; [|now apply line_unmarshal].
  now destruct (line_no_nl m t H) as [N _].
Qed.
Print Assumptions C45_roundtrip.

(** The texts accepted by unmarshalling, and what they are read as. *)
Theorem C45_accepted m text d data :
  Msg_UnmarshalText m text = (mkMsg d (msg_TS m) data, None) <-> accepts text d data.
Proof. exact (unmarshal_ok m text d data). Qed.
Print Assumptions C45_accepted.

Example C45_case :
  recordable (mkMsg 1 0 [xff; x00; x5a])
  /\ Msg_MarshalText (mkMsg 1 0 [xff; x00; x5a]) = inl [x3e; x20; x46; x46; x20; x30; x30; x20; x35; x41].
Proof. split; [split; [right; reflexivity|discriminate]|reflexivity]. Qed.

Example C45_refused_case : ~ recordable (mkMsg 2 0 [xff]) /\ ~ recordable (mkMsg 0 0 []).
Proof. split; intros [[H|H] N]; try discriminate; now apply N. Qed.

Example C45_accepted_case : accepts [x3c; x78; x61; x20; x62; x7a] 0 [xab].
Proof. apply (unmarshal_ok (mkMsg 0 0 [])). reflexivity. Qed.

(** ** C46 *)

Theorem C46_roundtrip ms fin k :
  Forall readable ms ->
  exists file, write_msgs append_file [] ms = (file, map (fun _ => None) ms)
    /\ read_msgs (List.length ms + k) (NewReader file fin) = stamped 0 ms ++ repeat (failed fin) k.
Proof. exact (file_roundtrip ms fin k). Qed.
Print Assumptions C46_roundtrip.

(** The first message that is too long stops the reader for good, whatever follows. *)
Theorem C46_too_long ms m more fin k :
  Forall readable ms -> recordable m -> (21844 < len (msg_Data m))%N -> Forall recordable more ->
  exists file, write_msgs append_file [] (ms ++ m :: more) = (file, map (fun _ => None) (ms ++ m :: more))
    /\ read_msgs (List.length ms + k) (NewReader file fin) = stamped 0 ms ++ repeat (failed errTooLong) k.
Proof. exact (file_roundtrip_long ms m more fin k). Qed.
Print Assumptions C46_too_long.

Example C46_case : Forall readable [mkMsg 0 7 [x01; x02]; mkMsg 1 9 [x03]].
Proof. repeat constructor; try discriminate; vm_compute; discriminate. Qed.

Example C46_long_case : (21844 < len (msg_Data (mkMsg 0 0 (repeat x00 (N.to_nat 21845)))))%N.
Proof. unfold len. cbn [msg_Data]. rewrite repeat_length, Nnat.N2Nat.id. reflexivity. Qed.

(** ** C47 *)

(** Any file of newline-terminated lines of at most 65535 bytes gives the results that [reads]
    describes: blank lines nothing, accepted lines their message with the next timestamp, the
    other lines one error each; then the file's end forever. *)
Theorem C47_mixed lines fin :
  Forall (fun l => ~ In x0a l) lines -> Forall (fun l => (len l <= 65535)%N) lines ->
  exists rs, reads 0 lines rs
    /\ forall k, read_msgs (List.length rs + k) (NewReader (file_of lines) fin) = rs ++ repeat (failed fin) k.
Proof. exact (mixed_file lines fin). Qed.
Print Assumptions C47_mixed.

(** The results described are unique up to the texts of the errors. *)
Theorem C47_unique lines rs rs' :
  reads 0 lines rs -> reads 0 lines rs' ->
  Forall2 (fun a b => snd a = None <-> snd b = None) rs rs'
  /\ map fst (filter (fun x => match snd x with None => true | _ => false end) rs)
     = map fst (filter (fun x => match snd x with None => true | _ => false end) rs').
Proof. intros R R'. exact (reads_length_fun 0 lines rs R rs' R'). Qed.
Print Assumptions C47_unique.

Definition mixed_lines : list bytes :=
  [[x3c; x20; x30; x31]; []; [x23; x23]; [x0d]; [x3e; x20; x61; x62; x0d]].

Example C47_case : exists m e,
  read_msgs 4 (NewReader (file_of mixed_lines) EOF)
  = [(mkMsg 0 0 [x01], None); (m, Some e); (mkMsg 1 1 [xab], None); failed EOF].
Proof. eexists _, _. vm_compute. reflexivity. Qed.

(** ** C48 *)

(** A file cut after [k] bytes: the [n] messages whose lines are whole are read back, and at most
    one more result comes before the end: an error, or a non-empty beginning of message [n]. *)
Theorem C48_crash ms k fin e :
  Forall readable ms ->
  exists texts, Forall2 line_of ms texts
  /\ write_msgs append_file [] ms = (file_of texts, map (fun _ => None) ms)
  /\ (k <= List.length (file_of texts) ->
      exists n extra, n <= List.length ms
        /\ List.length (file_of (firstn n texts)) <= k
        /\ (n < List.length ms -> k < List.length (file_of (firstn (S n) texts)))
        /\ (extra = [] \/ exists m, nth_error ms n = Some m
              /\ ((exists x er, extra = [(x, Some er)])
                  \/ exists p q, p <> [] /\ msg_Data m = p ++ q
                       /\ extra = [(mkMsg (msg_Dir m) (N.of_nat n mod 2 ^ 64)%N p, None)]))
        /\ read_msgs (n + List.length extra + e) (NewReader (firstn k (file_of texts)) fin)
           = stamped 0 (firstn n ms) ++ extra ++ repeat (failed fin) e).
Proof.
  intros R. apply readable_split in R as [R S]. destruct (lines_exist ms R) as (texts & F).
  exists texts. split; [exact F|]. split; [exact (write_file ms texts F [])|].
  intros K. exact (crash ms texts k fin e F S K).
Qed.
Print Assumptions C48_crash.

(** All three outcomes of a cut happen: an error, a shortened message, nothing more. *)
Example C48_case :
  exists file, write_msgs append_file [] [mkMsg 0 0 [x01; x02]] = (file, [None])
  /\ (exists x er, read_msgs 2 (NewReader (firstn 3 file) EOF) = [(x, Some er); failed EOF])
  /\ read_msgs 2 (NewReader (firstn 5 file) EOF) = [(mkMsg 0 0 [x01], None); failed EOF]
  /\ read_msgs 1 (NewReader (firstn 0 file) EOF) = [failed EOF].
Proof.
  eexists. split; [reflexivity|]. split; [eexists _, _; vm_compute; reflexivity|].
  split; vm_compute; reflexivity.
Qed.

(** ** C49 *)

(** For every device within the io contract and every trace writer (failing or not), a session
    through the tracer leaves the device in the same state with the same results, and hands the
    trace writer exactly the successful non-empty transfers in order. *)
Theorem C49_transparent {S T} (tw : io_write T) (dev : io_rw S) ops s t s' rs :
  honest dev -> run_dev dev s ops = (s', rs) ->
  run_tracer tw dev (s, t) ops = Ret ((s', fst (write_msgs tw t (recorded ops rs))), rs).
Proof. intros H. exact (tracer_transparent tw dev H ops s t s' rs). Qed.
Print Assumptions C49_transparent.

(** A device that echoes what is written, reads it whole or fails when there is nothing. *)
Definition echo : io_rw bytes :=
  mkRW (fun s n => (skipn n s, match s with [] => ([], Some EOF) | _ => (firstn n s, None) end))
       (fun s p => (s ++ p, (List.length p, None))).

Lemma echo_honest : honest echo.
Proof.
  split; cbn; intros s p s' x H; injection H as <-.
  - destruct s; [discriminate|]. injection H as <-. rewrite firstn_length. lia.
  - lia.
Qed.

(** A trace writer that always fails. *)
Definition broken : io_write unit := fun s _ => (s, (0, Some (ErrMsg "disk full"))).

Example C49_case :
  run_tracer append_file echo ([], []) [OpWrite [x01; x02; x03]; OpRead 2; OpWrite []; OpRead 5; OpRead 1]
  = Ret (([], [x3e; x20; x30; x31; x20; x30; x32; x20; x30; x33; x0a;
               x3c; x20; x30; x31; x20; x30; x32; x0a; x3c; x20; x30; x33; x0a]),
         [ResWrite 3 None; ResRead [x01; x02] None; ResWrite 0 None; ResRead [x03] None; ResRead [] (Some EOF)])
  /\ run_tracer broken echo ([], tt) [OpWrite [x01]; OpRead 1]
     = Ret (([], tt), [ResWrite 1 None; ResRead [x01] None]).
Proof. split; vm_compute; reflexivity. Qed.

(** ** C50 *)

Theorem C50_replay {S} (dev : io_rw S) s ops n k :
  honest dev -> Forall (fun o => (N.of_nat (op_size o) <= 21844)%N) ops ->
  Forall (fun o => op_size o <= n) (filter is_read ops) ->
  exists s' file rs,
    run_dev dev s ops = (s', rs)
    /\ run_tracer append_file dev (s, []) ops = Ret ((s', file), rs)
    /\ replay (List.length (read_data rs) + k) 0 (NewReader file EOF) n
       = Some (map (fun d => (d, None)) (read_data rs) ++ repeat ([], Some EOF) k).
Proof. exact (replay_session dev s ops n k). Qed.
Print Assumptions C50_replay.

Example C50_case :
  honest echo
  /\ Forall (fun o => (N.of_nat (op_size o) <= 21844)%N) [OpWrite [x01; x02; x03]; OpRead 2; OpRead 2]
  /\ read_data (snd (run_dev echo [] [OpWrite [x01; x02; x03]; OpRead 2; OpRead 2])) = [[x01; x02]; [x03]].
Proof.
  split; [exact echo_honest|]. split; [|reflexivity].
  repeat constructor; vm_compute; discriminate.
Qed.

(** ** C51 *)

Theorem C51_fifo os :
  Forall valid_qop os -> queue_run NewQueue os = map Ret (list_run [] os).
Proof. intros V. exact (queue_list os NewQueue inv_new ltac:(constructor) V). Qed.
Print Assumptions C51_fifo.

Definition q_ops : list qop :=
  [QEnqueue (mkMsg 0 0 [x01]); QEnqueue (mkMsg 1 1 [x02]); QEnqueue (mkMsg 1 2 [x03]); QDequeueDir 1; QHead;
   QDequeue; QDequeueDir 0; QDequeue].

Example C51_case :
  Forall valid_qop q_ops
  /\ list_run [] q_ops = [None; None; None; Some (mkMsg 1 1 [x02]); Some (mkMsg 0 0 [x01]);
                          Some (mkMsg 0 0 [x01]); None; Some (mkMsg 1 2 [x03])].
Proof.
  split; [|reflexivity].
  repeat (apply Forall_cons; [first [exact I|left; reflexivity|right; reflexivity]|]). constructor.
Qed.

(** ** C52 *)

(** After any history: a message of a bad direction makes Enqueue panic and stays at the back;
    once the messages before it are gone, Head returns it and Dequeue panics and removes it. *)
Theorem C52_bad_enqueue os m q :
  ~ valid_dir (msg_Dir m) -> q = queue_after NewQueue os ->
  exists q', Enqueue q m = (q', Panic)
    /\ (Head q = None -> Head q' = Some m)
    /\ (forall x, Head q = Some x -> Head q' = Some x)
    /\ forall n, n = List.length (q_all q) ->
         let q1 := queue_after q' (repeat QDequeue n) in
         Head q1 = Some m /\ exists q2, Dequeue q1 = (q2, Panic) /\ Head q2 = None.
Proof. exact (bad_enqueue os m q). Qed.
Print Assumptions C52_bad_enqueue.

(** DequeueDir only returns messages of the direction asked, which is a known one. *)
Theorem C52_never_returned os d m q' :
  DequeueDir (queue_after NewQueue os) d = (q', Ret (Some m)) -> valid_dir (msg_Dir m) /\ msg_Dir m = d.
Proof. exact (dequeue_dir_valid os d m q'). Qed.
Print Assumptions C52_never_returned.

(** All operations in any order with any directions, panics included. *)
Theorem C52_any_history os : queue_run NewQueue os = any_run [] os.
Proof. exact (queue_any os NewQueue inv_new). Qed.
Print Assumptions C52_any_history.

Example C52_case :
  queue_run NewQueue [QEnqueue (mkMsg 7 0 [x01]); QEnqueue (mkMsg 0 0 [x02]); QHead; QDequeueDir 0; QDequeueDir 7;
                      QDequeue; QHead]
  = [Panic; Ret None; Ret (Some (mkMsg 7 0 [x01])); Ret (Some (mkMsg 0 0 [x02])); Panic; Panic; Ret None]
  /\ ~ valid_dir 7.
Proof. split; [reflexivity|]. intros [H|H]; discriminate. Qed.

(** ** C54 *)

(** The recorded file is the session alone exactly when the old file was not longer. *)
Theorem C54_overwrite old new : overwrite old new = new <-> List.length old <= List.length new.
Proof. exact (overwrite_exact old new). Qed.
Print Assumptions C54_overwrite.

(** Two recordable sessions, the second recorded over the first: reading gives a message of the
    first after those of the second. *)
Theorem C54_refuted :
  exists old new f1 f2,
    Forall readable old /\ Forall readable new
    /\ write_msgs append_file [] old = (f1, map (fun _ => None) old)
    /\ write_msgs append_file [] new = (f2, map (fun _ => None) new)
    /\ exists m, In m old /\ ~ In m new
         /\ read_msgs (S (List.length new)) (NewReader (overwrite f1 f2) EOF) = stamped 0 (new ++ [m]).
Proof.
  exists [mkMsg 0 0 [x01]; mkMsg 1 1 [x03]], [mkMsg 0 0 [x05]]. eexists _, _.
  split; [repeat constructor; try discriminate; vm_compute; discriminate|].
  split; [repeat constructor; try discriminate; vm_compute; discriminate|].
  split; [reflexivity|]. split; [reflexivity|]. exists (mkMsg 1 1 [x03]).
  split; [right; left; reflexivity|]. split; [|vm_compute; reflexivity].
  intros [H|[]]. discriminate.
Qed.
Print Assumptions C54_refuted.

(** ** C55 *)

(** From any reachable state of one reading and one writing goroutine: the file is made of whole
    lines of messages, those of each goroutine in its own order (its pending and future transfers
    being the rest). *)
Theorem C55_whole_lines ins outs s :
  Forall (fun m => recordable m /\ msg_Dir m = 0%N) ins ->
  Forall (fun m => recordable m /\ msg_Dir m = 1%N) outs ->
  tsteps (mkT (mkThread None ins) (mkThread None outs) [] []) s ->
  exists ms texts,
    Forall2 line_of ms texts /\ t_file s = file_of texts
    /\ (exists later, ins = filter (fun m => (msg_Dir m =? 0)%N) ms ++ later)
    /\ (exists later, outs = filter (fun m => (msg_Dir m =? 1)%N) ms ++ later).
Proof.
  intros FI FO ST. destruct (tinv_steps ins outs _ _ FI FO ST [] (tinv_start ins outs)) as (ms & [(texts & F & T) I O]).
  exists ms, texts. repeat split; eauto.
Qed.
Print Assumptions C55_whole_lines.

(** When both are done, the file holds all the messages of both. *)
Theorem C55_complete ins outs s k :
  Forall (fun m => readable m /\ msg_Dir m = 0%N) ins ->
  Forall (fun m => readable m /\ msg_Dir m = 1%N) outs ->
  tsteps (mkT (mkThread None ins) (mkThread None outs) [] []) s -> t_in s = idle -> t_out s = idle ->
  exists ms,
    filter (fun m => (msg_Dir m =? 0)%N) ms = ins /\ filter (fun m => (msg_Dir m =? 1)%N) ms = outs
    /\ List.length ms = List.length ins + List.length outs
    /\ read_msgs (List.length ms + k) (NewReader (t_file s) EOF) = stamped 0 ms ++ repeat (failed EOF) k.
Proof. exact (threads_complete ins outs s k). Qed.
Print Assumptions C55_complete.

(** The order of the two directions in the file may differ from the order of the transfers. *)
Theorem C55_order_refuted :
  exists m1 m2 s, readable m1 /\ readable m2
    /\ tsteps (mkT (mkThread None [m1]) (mkThread None [m2]) [] []) s
    /\ t_in s = idle /\ t_out s = idle
    /\ t_dev s = [m1; m2]
    /\ read_msgs 2 (NewReader (t_file s) EOF) = stamped 0 [m2; m1].
Proof.
  exists (mkMsg 0 0 [x01]), (mkMsg 1 0 [x02]). eexists.
  split; [repeat constructor; try discriminate; vm_compute; discriminate|].
  split; [split; [split; [right; reflexivity|discriminate]|vm_compute; discriminate]|].
  split.
  - eapply tsteps_step; [apply tstep_in, step_transfer|].
    eapply tsteps_step; [apply tstep_out, step_transfer|].
    eapply tsteps_step; [eapply tstep_out, step_record; reflexivity|].
    eapply tsteps_step; [eapply tstep_in, step_record; reflexivity|].
    apply tsteps_refl.
  - repeat split. 
Qed.
Print Assumptions C55_order_refuted.

Example C55_case :
  Forall (fun m => readable m /\ msg_Dir m = 0%N) [mkMsg 0 0 [x01]; mkMsg 0 0 [x02]]
  /\ Forall (fun m => readable m /\ msg_Dir m = 1%N) [mkMsg 1 0 [x03]].
Proof.
  split; repeat (apply Forall_cons; [split; [split; [split; [auto|discriminate]|vm_compute; discriminate]|reflexivity]|]);
    constructor.
Qed.
