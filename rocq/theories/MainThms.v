(** The tool's commands: what they change, how they stop, and what they start. *)
From Coq Require Import Ascii ZifyBool ZifyNat ZifyN Lia.
From Verif Require Import Base BaseFacts Text SpecText TextFacts GoTypes Types Payload Lingo Command SpecPayload SpecCommand
  Handlers SpecHandlers Packet SpecPacket Hid SpecHid HidFacts HidThms Trace SpecTrace TraceFacts TraceThms
  TraceSessions Server SpecServer SessionThms ServerThms SpecSession RecordThms Log SpecLog LogThms AgreeThms Main SpecMain ToolThms.
Local Open Scope string_scope.
#[local] Opaque std_registry.

Lemma arg_nth args k : arg args k = "" -> unnamed args k.
Proof.
  unfold arg, unnamed. intros H. destruct (nth_error args k) as [p|] eqn:E; [right|left; reflexivity].
  rewrite (nth_error_nth _ _ "" E) in H. congruence.
Qed.
Lemma nth_arg args k : unnamed args k -> arg args k = "".
Proof.
  unfold arg, unnamed. intros [H|H]; [|exact (nth_error_nth _ _ _ H)]. apply nth_error_None in H. apply nth_overflow. exact H.
Qed.
Lemma arg_some args k : arg args k <> "" -> nth_error args k = Some (arg args k).
Proof.
  unfold arg. intros H. destruct (nth_error args k) as [p|] eqn:E; [rewrite (nth_error_nth _ _ "" E); reflexivity|].
  apply nth_error_None in E. rewrite nth_overflow in H by exact E. contradiction.
Qed.
Lemma some_arg args k p : nth_error args k = Some p -> arg args k = p.
Proof. intros H. exact (nth_error_nth _ _ _ H). Qed.

Section Tool.
  Context {D : Type} (devs : io_rw D) (os : os_errors)
          (errText : goerr -> string) (sdump : option bytes -> string) (certLog : bytes -> list log_rec)
          (rt : bool) (clock : nat -> datetime) (mapOrder : list N) (spares : nat -> bytes) (fuel fuel2 : nat).
  Local Notation run_tool := (run_tool devs os errText sdump certLog rt clock mapOrder spares fuel fuel2).

  (** *** Opening *)

  Lemma device_cases (args : list string) (w : world D) :
    (exists p d, device_at os w args p d /\ arg args 0 = p /\ openDevice os p w = inl d)
    \/ (arg args 0 = "" /\ device_problem os w args (Missing "device path is missing"))
    \/ (exists e, arg args 0 <> "" /\ openDevice os (arg args 0) w = inr e
          /\ device_problem os w args (Unopenable (arg args 0) "could not open the device" e)).
  Proof.
    destruct (string_dec (arg args 0) "") as [E|N].
    - right. left. split; [exact E|]. apply dp_missing. apply arg_nth. exact E.
    - pose proof (arg_some _ _ N) as A. unfold openDevice, os_open.
      destruct (os_denies os ORdWr (arg args 0)) as [e|] eqn:OD.
      + right. right. exists e. split; [exact N|]. split; [reflexivity|]. now apply dp_denied.
      + destruct (w_nodes w (arg args 0)) as [[c f|d]|] eqn:WN; cbn [snd].
        * right. right. eexists. split; [exact N|]. split; [reflexivity|]. now apply (dp_file os w args (arg args 0) c f).
        * left. exists (arg args 0), d. split; [|split; [reflexivity|]].
          { repeat split; assumption. }
          rewrite OD, WN. reflexivity.
        * right. right. eexists. split; [exact N|]. split; [reflexivity|]. now apply dp_absent.
  Qed.

  Lemma trace_cases (args : list string) k (w : world D) :
    (exists p n, trace_at os w args k p n /\ arg args k = p /\ openTraceFile os p w = inl n)
    \/ (arg args k = "" /\ trace_problem os w args k (Missing "trace file path is missing"))
    \/ (exists e, arg args k <> "" /\ openTraceFile os (arg args k) w = inr e
          /\ trace_problem os w args k (Unopenable (arg args k) "could not open the trace file" e)).
  Proof.
    destruct (string_dec (arg args k) "") as [E|N].
    - right. left. split; [exact E|]. apply tp_missing. apply arg_nth. exact E.
    - pose proof (arg_some _ _ N) as A. unfold openTraceFile, os_open.
      destruct (os_denies os ORdOnly (arg args k)) as [e|] eqn:OD.
      + right. right. exists e. split; [exact N|]. split; [reflexivity|]. now apply tp_denied.
      + destruct (w_nodes w (arg args k)) as [n|] eqn:WN; cbn [snd].
        * left. exists (arg args k), n. split; [|split; [reflexivity|]].
          { repeat split; assumption. }
          rewrite OD, WN. reflexivity.
        * right. right. eexists. split; [exact N|]. split; [reflexivity|]. now apply tp_absent.
  Qed.

  Lemma print_nodes (w : world D) l p : w_nodes (print w l) p = w_nodes w p. Proof. reflexivity. Qed.
  Lemma trace_at_print (w : world D) l args k p n : trace_at os (print w l) args k p n <-> trace_at os w args k p n.
  Proof. reflexivity. Qed.
  Lemma trace_problem_print (w : world D) l args k pb : trace_problem os (print w l) args k pb -> trace_problem os w args k pb.
  Proof. destruct 1; [apply tp_missing|apply tp_denied|apply tp_absent]; assumption. Qed.

  Lemma prepare_cases (p : string) (w : world D) :
    (p = "" /\ prepare_trace os errText p w = (w, inl None))
    \/ (exists e, recording_problem os p (Unopenable p "could not create a trace file" e)
          /\ prepare_trace os errText p w = (print w [log_path_error errText p e "could not create a trace file"], inr e))
    \/ (p <> "" /\ os_denies os OCreate p = None /\ exists w1 n,
          prepare_trace os errText p w = (print w1 [log_path p WarnLevel "writing trace"], inl (Some n))
          /\ w_nodes w1 p = Some n /\ (forall q, q <> p -> w_nodes w1 q = w_nodes w q)
          /\ w_stdout w1 = w_stdout w /\ w_stderr w1 = w_stderr w
          /\ (w_nodes w p = Some n \/ w_nodes w p = None /\ n = Regular [] EOF)).
  Proof.
    unfold prepare_trace. destruct (String.eqb_spec p "") as [->|N]; [left; auto|right].
    unfold newTraceFile, os_open. destruct (os_denies os OCreate p) as [e|] eqn:OD.
    - left. exists e. split; [now apply rp_denied|reflexivity].
    - right. split; [exact N|]. split; [reflexivity|]. destruct (w_nodes w p) as [n|] eqn:WN.
      + exists w, n. rewrite WN. repeat split; auto.
      + eexists (set_node w p (Regular [] EOF)), _. split; [reflexivity|]. cbn [set_node w_nodes w_stdout w_stderr].
        rewrite String.eqb_refl. split; [reflexivity|]. split; [|auto].
        intros q Q. destruct (String.eqb_spec q p); [contradiction|reflexivity].
  Qed.

  (** *** Stopping *)

  Definition stopped (w : world D) (inv : invocation) (l : list output) (pb : problem) : world D * finish :=
    (mkWorld (w_nodes w) (w_stdout w ++ l ++ [told_stdout errText (iv_cmd inv) pb])%list (w_stderr w ++ told_stderr errText pb)%string,
     Exited 1).

  Lemma missing_stopped (w : world D) inv l msg c : c = command_text (iv_cmd inv) ->
    usage_error c msg (print w l) = done (stopped w inv l (Missing msg)).
  Proof. intros ->. unfold usage_error, stopped, print, print_err. cbn. rewrite <- app_assoc. reflexivity. Qed.
  Lemma unopenable_stopped (w : world D) inv l p msg e :
    other_error errText e (print w (l ++ [log_path_error errText p e msg])) = done (stopped w inv l (Unopenable p msg e)).
  Proof. reflexivity. Qed.
  Lemma print_print (w : world D) a b : print (print w a) b = print w (a ++ b).
  Proof. unfold print. cbn. rewrite app_assoc. reflexivity. Qed.
  Lemma open_print p (w : world D) l : openTraceFile os p (print w l) = openTraceFile os p w.
  Proof. unfold openTraceFile, os_open. rewrite print_nodes. destruct (os_denies os ORdOnly p); [reflexivity|]. destruct (w_nodes w p); reflexivity. Qed.
  Lemma print_nil (w : world D) : print w [] = w.
  Proof. destruct w. unfold print. cbn. rewrite app_nil_r. reflexivity. Qed.

  Lemma problem_device_at (w : world D) args p d pb : device_at os w args p d -> ~ device_problem os w args pb.
  Proof.
    intros (A & N & O & W) H.
    destruct H as [[H|H]|q e H|q H|q c f H]; try congruence; rewrite A in H; injection H as <-; congruence.
  Qed.
  Lemma problem_trace_at (w : world D) args k p n pb : trace_at os w args k p n -> ~ trace_problem os w args k pb.
  Proof.
    intros (A & N & O & W) H.
    destruct H as [[H|H]|q e H|q H]; try congruence; rewrite A in H; injection H as <-; congruence.
  Qed.
  Lemma device_problem_eq (w : world D) args pb : device_problem os w args pb ->
    pb = Missing "device path is missing" /\ arg args 0 = ""
    \/ exists e, arg args 0 <> "" /\ openDevice os (arg args 0) w = inr e /\ pb = Unopenable (arg args 0) "could not open the device" e.
  Proof.
    destruct 1 as [H|p e H N O|p H N O W|p c f H N O W].
    - left. split; [reflexivity|]. exact (nth_arg _ _ H).
    - right. rewrite (some_arg _ _ _ H). exists e. split; [exact N|]. unfold openDevice, os_open. rewrite O. split; reflexivity.
    - right. rewrite (some_arg _ _ _ H). eexists. split; [exact N|]. unfold openDevice, os_open. rewrite O, W. split; reflexivity.
    - right. rewrite (some_arg _ _ _ H). eexists. split; [exact N|]. unfold openDevice, os_open. rewrite O, W. split; reflexivity.
  Qed.
  Lemma trace_problem_eq (w : world D) args k pb : trace_problem os w args k pb ->
    pb = Missing "trace file path is missing" /\ arg args k = ""
    \/ exists e, arg args k <> "" /\ openTraceFile os (arg args k) w = inr e /\ pb = Unopenable (arg args k) "could not open the trace file" e.
  Proof.
    destruct 1 as [H|p e H N O|p H N O W].
    - left. split; [reflexivity|]. exact (nth_arg _ _ H).
    - right. rewrite (some_arg _ _ _ H). exists e. split; [exact N|]. unfold openTraceFile, os_open. rewrite O. split; reflexivity.
    - right. rewrite (some_arg _ _ _ H). eexists. split; [exact N|]. unfold openTraceFile, os_open. rewrite O, W. split; reflexivity.
  Qed.
  Lemma device_at_eq (w : world D) args p d : device_at os w args p d -> arg args 0 = p /\ p <> "" /\ openDevice os p w = inl d.
  Proof.
    intros (A & N & O & W). split; [exact (some_arg _ _ _ A)|]. split; [exact N|]. unfold openDevice, os_open. rewrite O, W. reflexivity.
  Qed.
  Lemma trace_at_eq (w : world D) args k p n : trace_at os w args k p n -> arg args k = p /\ p <> "" /\ openTraceFile os p w = inl n.
  Proof.
    intros (A & N & O & W). split; [exact (some_arg _ _ _ A)|]. split; [exact N|]. unfold openTraceFile, os_open. rewrite O, W. reflexivity.
  Qed.
  Lemma neq_eqb (p : string) : p <> "" -> (p =? "") = false.
  Proof. intros H. apply String.eqb_neq. exact H. Qed.

  Lemma prepare_problem p (w : world D) pb : recording_problem os p pb ->
    exists e, pb = Unopenable p "could not create a trace file" e
      /\ prepare_trace os errText p w = (print w [log_path_error errText p e "could not create a trace file"], inr e).
  Proof.
    intros [e N O]. exists e. split; [reflexivity|]. unfold prepare_trace, newTraceFile, os_open. rewrite (neq_eqb _ N), O. reflexivity.
  Qed.

  Lemma stops_stopped inv (w : world D) l pb : stops os w inv l pb -> run_tool inv w = done (stopped w inv l pb).
  Proof.
    destruct 1 as [inv pb C P|inv pb C P|inv p d pb C A P|inv p d pb C A P|inv p d t n pb C A T NC P].
    - destruct (device_problem_eq _ _ _ P) as [[-> E]|(e & N & O & ->)]; unfold Main.run_tool; destruct C as [C|C]; rewrite C;
        unfold serve_action, send_action.
      1,2: rewrite E; cbn [String.eqb]; rewrite <- (print_nil w) at 1; apply missing_stopped; rewrite C; reflexivity.
      1,2: rewrite (neq_eqb _ N), O; apply (unopenable_stopped w inv []).
    - destruct (trace_problem_eq _ _ _ _ P) as [[-> E]|(e & N & O & ->)]; unfold Main.run_tool; destruct C as [C|C]; rewrite C;
        unfold replay_action, view_action, with_trace.
      1,2: rewrite E; cbn [String.eqb]; rewrite <- (print_nil w) at 1; apply missing_stopped; rewrite C; reflexivity.
      1,2: rewrite (neq_eqb _ N), O; apply (unopenable_stopped w inv []).
    - destruct (device_at_eq _ _ _ _ A) as (E & N & O). unfold Main.run_tool. rewrite C. unfold serve_action.
      rewrite E, (neq_eqb _ N), O.
      destruct (prepare_problem _ (print w [log_path p InfoLevel "device opened"]) _ P) as (e & -> & X). cbv zeta. rewrite X.
      rewrite print_print. apply (unopenable_stopped w inv [device_opened p]).
    - destruct (device_at_eq _ _ _ _ A) as (E & N & O). unfold Main.run_tool. rewrite C. unfold send_action.
      rewrite E, (neq_eqb _ N), O. cbv zeta.
      destruct (trace_problem_eq _ _ _ _ P) as [[-> E1]|(e & N1 & O1 & ->)].
      + rewrite E1. cbn [String.eqb]. apply (missing_stopped w inv [device_opened p]). rewrite C. reflexivity.
      + rewrite (neq_eqb _ N1).
        rewrite open_print, O1, print_print. apply (unopenable_stopped w inv [device_opened p]).
    - destruct (device_at_eq _ _ _ _ A) as (E & N & O). unfold Main.run_tool. rewrite C. unfold send_action.
      rewrite E, (neq_eqb _ N), O. cbv zeta.
      destruct (trace_at_eq _ _ _ _ _ T) as (E1 & N1 & O1). rewrite E1, (neq_eqb _ N1).
      rewrite open_print, O1.
      destruct n as [content fin|dv]; [|now destruct (NC dv)]. rewrite print_print.
      destruct (prepare_problem _ (print w [log_path p InfoLevel "device opened"; log_path t WarnLevel "trace file opened"]) _ P) as (e & -> & X).
      cbn [app]. rewrite X, print_print. apply (unopenable_stopped w inv [device_opened p; trace_opened t]).
  Qed.

  Lemma stops_or_starts inv (w : world D) : (exists l pb, stops os w inv l pb) \/ starts os w inv.
  Proof.
    destruct (iv_cmd inv) eqn:C.
    - right. apply starts_lingos. exact C.
    - destruct (device_cases (iv_args inv) w) as [(p & d & A & _)|[(_ & P)|(e & _ & _ & P)]]; [|left; eexists _, _; apply stops_device; eauto..].
      destruct (prepare_cases (iv_trace inv) w) as [[E _]|[(e & P & _)|(_ & O & _)]].
      + right. apply (starts_serve os w inv p d C A). left. exact E.
      + left. eexists _, _. apply (stops_recording os w inv p d _ C A P).
      + right. apply (starts_serve os w inv p d C A). right. exact O.
    - destruct (trace_cases (iv_args inv) 0 w) as [(p & n & A & _)|[(_ & P)|(e & _ & _ & P)]]; [|left; eexists _, _; apply stops_trace; eauto..].
      right. apply (starts_trace os w inv p n); auto.
    - destruct (trace_cases (iv_args inv) 0 w) as [(p & n & A & _)|[(_ & P)|(e & _ & _ & P)]]; [|left; eexists _, _; apply stops_trace; eauto..].
      right. apply (starts_trace os w inv p n); auto.
    - destruct (device_cases (iv_args inv) w) as [(p & d & A & _)|[(_ & P)|(e & _ & _ & P)]]; [|left; eexists _, _; apply stops_device; eauto..].
      destruct (trace_cases (iv_args inv) 1 w) as [(t & n & T & _)|[(_ & P)|(e & _ & _ & P)]];
        [|left; eexists _, _; eapply stops_send_trace; eauto..].
      destruct n as [c f|dv].
      + destruct (prepare_cases (iv_trace inv) w) as [[E _]|[(e & P & _)|(_ & O & _)]].
        * right. apply (starts_send os w inv p d t _ C A T). left. left. exact E.
        * left. eexists _, _. apply (stops_send_recording os w inv p d t _ _ C A T); [discriminate|exact P].
        * right. apply (starts_send os w inv p d t _ C A T). left. right. exact O.
      + right. apply (starts_send os w inv p d t _ C A T). right. eauto.
  Qed.

  Lemma starts_not_stops inv (w : world D) l pb : starts os w inv -> ~ stops os w inv l pb.
  Proof.
    intros ST SP.
    destruct ST as [inv C|inv p d C A R|inv p n C A|inv p d t n C A T R];
      destruct SP as [inv pb C2 P|inv pb C2 P|inv p2 d2 pb C2 A2 P|inv p2 d2 pb C2 A2 P|inv p2 d2 t2 n2 pb C2 A2 T2 NC P];
      try (destruct C2 as [C2|C2]; congruence); try congruence;
      try (destruct C as [C|C]; destruct C2 as [C2|C2]; congruence); try (destruct C as [C|C]; congruence);
      try (now apply (problem_device_at _ _ _ _ _ A P)); try (now apply (problem_trace_at _ _ _ _ _ _ A P));
      try (now apply (problem_trace_at _ _ _ _ _ _ T P)).
    - destruct P as [e N O]. destruct R as [R|R]; congruence.
    - destruct P as [e N O]. destruct R as [[R|R]|(dv & ->)]; try congruence.
      destruct T as (X & _ & _ & W). destruct T2 as (X2 & _ & _ & W2). rewrite X in X2. injection X2 as <-.
      rewrite W in W2. injection W2 as <-. now destruct (NC dv).
  Qed.

  (** *** Running *)

  Lemma set_other (w : world D) p n q : q <> p -> w_nodes (set_node w p n) q = w_nodes w q.
  Proof. intros H. cbn [set_node w_nodes]. destruct (String.eqb_spec q p); [contradiction|reflexivity]. Qed.
  Lemma set_this (w : world D) p n : w_nodes (set_node w p n) p = Some n.
  Proof. cbn [set_node w_nodes]. rewrite String.eqb_refl. reflexivity. Qed.

  (** [serve] that started. *)
  Lemma serve_run inv (w w' : world D) x p d : iv_cmd inv = Serve -> device_at os w (iv_args inv) p d -> recording_at os (iv_trace inv) ->
    run_tool inv w = done (w', x) ->
    x = Exited 0 /\ w_stderr w' = w_stderr w
    /\ (exists l d', w_stdout w' = (w_stdout w ++ device_opened p :: recording_opened (iv_trace inv) ++ map Logged l)%list
       /\ w_nodes w' p = Some (CharDevice d')
       /\ (forall q, q <> p -> q <> iv_trace inv \/ iv_trace inv = "" -> w_nodes w' q = w_nodes w q)
       /\ (iv_trace inv = "" /\ (exists st n, processFrames_log fuel errText sdump certLog rt std_registry clock
                (hid_transport fuel2 (table (iv_legacy inv)) spares (plain_read devs) (plain_write devs)) start (d, 0) = done (st, (d', n), l))
           \/ iv_trace inv <> "" /\ p <> iv_trace inv /\ exists st file n old fin, processFrames_log fuel errText sdump certLog rt std_registry clock
                (traced_tp fuel2 (table (iv_legacy inv)) spares devs) start ((d, []), 0) = done (st, ((d', file), n), l)
                /\ w_nodes w' (iv_trace inv) = Some (Regular (overwrite old file) fin)
                /\ (w_nodes w (iv_trace inv) = Some (Regular old fin) \/ w_nodes w (iv_trace inv) = None /\ old = [] /\ fin = EOF))).
  Proof.
    intros C A R E. destruct (device_at_eq _ _ _ _ A) as (EA & N & O). unfold Main.run_tool in E. rewrite C in E. unfold serve_action in E.
    rewrite EA, (neq_eqb _ N), O in E. cbv zeta in E.
    destruct (prepare_cases (iv_trace inv) (print w [log_path p InfoLevel "device opened"])) as [[T X]|[(e & P & _)|(T & OD & w1 & n & X & WN & WO & S1 & S2 & OLD)]].
    - rewrite X in E. unfold serve_plain in E.
      destruct (processFrames_log _ _ _ _ _ _ _ _ _ _) as [[[[st [d' n]] l]|]|] eqn:PL; cbn [io_bind done fst] in E; try discriminate.
      injection E as <- <-. split; [reflexivity|]. split; [reflexivity|]. exists l, d'. split.
      { cbn [print set_node w_stdout]. rewrite T. cbn [recording_opened String.eqb app]. rewrite <- app_assoc. reflexivity. }
      split; [rewrite print_nodes; apply set_this|]. split; [intros q Q _; rewrite print_nodes, set_other by exact Q; reflexivity|].
      left. split; [exact T|]. exists st, n. first [exact PL|reflexivity].
    - exfalso. inversion P. destruct R as [R|R]; congruence.
    - rewrite X in E. destruct n as [old fin|dv]; [|discriminate]. unfold serve_traced in E.
      destruct (processFrames_log _ _ _ _ _ _ _ _ _ _) as [[[[st [[d' file] n]] l]|]|] eqn:PL; cbn [io_bind done fst] in E; try discriminate.
      injection E as <- <-.
      assert (PT : p <> iv_trace inv).
      { intros PT. destruct A as (_ & _ & _ & A). destruct OLD as [OLD|[OLD _]]; rewrite print_nodes, <- PT, A in OLD; discriminate. }
      split; [reflexivity|]. split; [exact S2|]. exists l, d'. split.
      { cbn [print set_node w_stdout]. rewrite S1. unfold recording_opened. rewrite (neq_eqb _ T). cbn [print w_stdout app]. rewrite <- !app_assoc. reflexivity. }
      split. { rewrite print_nodes, set_other by exact PT. apply set_this. }
      split. { intros q Q [QT|QT]; [|contradiction]. rewrite print_nodes, set_other by exact QT. rewrite set_other by exact Q. rewrite print_nodes. apply WO. exact QT. }
      right. split; [exact T|]. split; [exact PT|]. exists st, file, n, old, fin. split; [first [exact PL|reflexivity]|].
      split; [rewrite print_nodes; apply set_this|]. rewrite print_nodes in OLD. destruct OLD as [OLD|[OLD G]]; [left; exact OLD|right].
      injection G as -> ->. auto.
  Qed.

  Lemma serve_runs inv (w : world D) p d st d' n l : iv_cmd inv = Serve -> device_at os w (iv_args inv) p d -> iv_trace inv = "" ->
    processFrames_log fuel errText sdump certLog rt std_registry clock
      (hid_transport fuel2 (table (iv_legacy inv)) spares (plain_read devs) (plain_write devs)) start (d, 0) = done (st, (d', n), l) ->
    exists w', run_tool inv w = done (w', Exited 0).
  Proof.
    intros C A T PL. destruct (device_at_eq _ _ _ _ A) as (EA & N & O). unfold Main.run_tool. rewrite C. unfold serve_action.
    rewrite EA, (neq_eqb _ N), O. cbv zeta. unfold prepare_trace. rewrite T. cbn [String.eqb]. unfold serve_plain.
    fold (table (iv_legacy inv)). change (hidReportDefs inv) with (table (iv_legacy inv)). rewrite PL. cbn [io_bind done fst]. eexists. reflexivity.
  Qed.

  Lemma serve_traced_runs inv (w : world D) p d st d' n file l : iv_cmd inv = Serve -> device_at os w (iv_args inv) p d ->
    iv_trace inv <> "" -> os_denies os OCreate (iv_trace inv) = None -> (forall dv, w_nodes w (iv_trace inv) <> Some (CharDevice dv)) ->
    processFrames_log fuel errText sdump certLog rt std_registry clock
      (traced_tp fuel2 (table (iv_legacy inv)) spares devs) start ((d, []), 0) = done (st, ((d', file), n), l) ->
    exists w', run_tool inv w = done (w', Exited 0).
  Proof.
    intros C A T OC ND PL. destruct (device_at_eq _ _ _ _ A) as (EA & N & O). unfold Main.run_tool. rewrite C. unfold serve_action.
    rewrite EA, (neq_eqb _ N), O. cbv zeta.
    destruct (prepare_cases (iv_trace inv) (print w [log_path p InfoLevel "device opened"])) as [[T' X]|[(e & P & _)|(_ & OD & w1 & nd & X & WN & WO & S1 & S2 & OLD)]].
    - contradiction.
    - inversion P. congruence.
    - rewrite X. rewrite print_nodes in OLD. destruct nd as [old fin|dv].
      + unfold serve_traced. change (hidReportDefs inv) with (table (iv_legacy inv)). unfold traced_tp in PL. rewrite PL. cbn [io_bind done fst]. eexists. reflexivity.
      + destruct OLD as [OLD|[_ G]]; [|discriminate]. now destruct (ND dv).
  Qed.

  Lemma trace_run inv (w : world D) p content fin c k : iv_args inv = iv_args inv -> trace_at os w (iv_args inv) 0 p (Regular content fin) ->
    with_trace os errText c inv w k = k content fin (print w [trace_opened p]).
  Proof.
    intros _ A. destruct (trace_at_eq _ _ _ _ _ A) as (E & N & O). unfold with_trace. cbv zeta. rewrite E, (neq_eqb _ N), O. reflexivity.
  Qed.

  Lemma replay_run inv (w w' : world D) x p n : iv_cmd inv = Replay -> trace_at os w (iv_args inv) 0 p n ->
    run_tool inv w = done (w', x) ->
    exists content fin l st r k, n = Regular content fin /\ x = Exited 0
      /\ processFrames_log fuel errText sdump certLog rt std_registry clock (replayed_tp fuel2 (table (iv_legacy inv)) spares) start (NewReader content fin, 0)
         = done (st, (r, k), l)
      /\ w' = print w (trace_opened p :: map Logged l).
  Proof.
    intros C A E. unfold Main.run_tool in E. rewrite C in E. unfold replay_action in E. destruct n as [content fin|dv].
    - rewrite (trace_run inv w p content fin _ _ eq_refl A) in E.
      destruct (processFrames_log _ _ _ _ _ _ _ _ _ _) as [[[[st [r k]] l]|]|] eqn:PL; cbn [io_bind done] in E; try discriminate.
      injection E as <- <-. exists content, fin, l, st, r, k. repeat split; [first [exact PL|reflexivity]|]. rewrite print_print. reflexivity.
    - destruct (trace_at_eq _ _ _ _ _ A) as (EA & N & O). unfold with_trace in E. cbv zeta in E. rewrite EA, (neq_eqb _ N), O in E. discriminate.
  Qed.
  Lemma replay_runs inv (w : world D) p content fin l st r k : iv_cmd inv = Replay -> trace_at os w (iv_args inv) 0 p (Regular content fin) ->
    processFrames_log fuel errText sdump certLog rt std_registry clock (replayed_tp fuel2 (table (iv_legacy inv)) spares) start (NewReader content fin, 0)
       = done (st, (r, k), l) ->
    run_tool inv w = done (print w (trace_opened p :: map Logged l), Exited 0).
  Proof.
    intros C A PL. unfold Main.run_tool. rewrite C. unfold replay_action. rewrite (trace_run inv w p content fin _ _ eq_refl A).
    change (hidReportDefs inv) with (table (iv_legacy inv)). unfold replayed_tp in PL. rewrite PL. cbn [io_bind done]. rewrite print_print. reflexivity.
  Qed.

  Lemma view_run inv (w w' : world D) x p n : iv_cmd inv = View -> trace_at os w (iv_args inv) 0 p n ->
    run_tool inv w = done (w', x) ->
    exists content fin, n = Regular content fin
      /\ ((exists q es, dumpTrace rt std_registry (table (iv_legacy inv)) spares (NewReader content fin) = done (inl (q, es))
             /\ x = Exited 0 /\ w' = print w (trace_opened p :: map Logged (dump_log errText es)))
          \/ (exists e, dumpTrace rt std_registry (table (iv_legacy inv)) spares (NewReader content fin) = done (inr e)
             /\ x = Exited 1 /\ w' = print w [trace_opened p; Logged (mkRec 1 (errText e) [])])).
  Proof.
    intros C A E. unfold Main.run_tool in E. rewrite C in E. unfold view_action in E. destruct n as [content fin|dv].
    - exists content, fin. split; [reflexivity|]. rewrite (trace_run inv w p content fin _ _ eq_refl A) in E.
      change (hidReportDefs inv) with (table (iv_legacy inv)) in E.
      destruct (dumpTrace _ _ _ _ _) as [[[[q es]|e]|]|] eqn:PL; cbn [io_bind done] in E; try discriminate; injection E as <- <-.
      + left. exists q, es. split; [reflexivity|]. split; [reflexivity|]. rewrite print_print. reflexivity.
      + right. exists e. split; [reflexivity|]. split; [reflexivity|]. rewrite print_print. reflexivity.
    - destruct (trace_at_eq _ _ _ _ _ A) as (EA & N & O). unfold with_trace in E. cbv zeta in E. rewrite EA, (neq_eqb _ N), O in E. discriminate.
  Qed.
  Lemma view_runs inv (w : world D) p content fin q es : iv_cmd inv = View -> trace_at os w (iv_args inv) 0 p (Regular content fin) ->
    dumpTrace rt std_registry (table (iv_legacy inv)) spares (NewReader content fin) = done (inl (q, es)) ->
    run_tool inv w = done (print w (trace_opened p :: map Logged (dump_log errText es)), Exited 0).
  Proof.
    intros C A PL. unfold Main.run_tool. rewrite C. unfold view_action. rewrite (trace_run inv w p content fin _ _ eq_refl A).
    change (hidReportDefs inv) with (table (iv_legacy inv)). rewrite PL. cbn [io_bind done]. rewrite print_print. reflexivity.
  Qed.

  Lemma send_run inv (w w' : world D) x p d t n : iv_cmd inv = SendCmd -> device_at os w (iv_args inv) p d ->
    trace_at os w (iv_args inv) 1 t n -> recording_at os (iv_trace inv) -> run_tool inv w = done (w', x) ->
    exists content fin, n = Regular content fin
      /\ x = Sending p content fin (if iv_trace inv =? "" then None else Some (iv_trace inv))
      /\ w_stderr w' = w_stderr w
      /\ w_stdout w' = (w_stdout w ++ device_opened p :: trace_opened t :: recording_opened (iv_trace inv))%list
      /\ forall q, w_nodes w' q = w_nodes w q
                   \/ q = iv_trace inv /\ q <> "" /\ w_nodes w q = None /\ w_nodes w' q = Some (Regular [] EOF).
  Proof.
    intros C A TA R E. destruct (device_at_eq _ _ _ _ A) as (EA & N & O). destruct (trace_at_eq _ _ _ _ _ TA) as (E1 & N1 & O1).
    unfold Main.run_tool in E. rewrite C in E. unfold send_action in E. rewrite EA, (neq_eqb _ N), O in E. cbv zeta in E.
    rewrite E1, (neq_eqb _ N1), open_print, O1 in E. destruct n as [content fin|dv]; [|discriminate].
    exists content, fin. split; [reflexivity|]. rewrite print_print in E.
    destruct (prepare_cases (iv_trace inv) (print w [log_path p InfoLevel "device opened"; log_path t WarnLevel "trace file opened"]))
      as [[T X]|[(e & P & _)|(T & OD & w1 & nd & X & WN & WO & S1 & S2 & OLD)]].
    - cbn [app] in E. rewrite X in E. injection E as <- <-. rewrite T. cbn [String.eqb recording_opened]. split; [reflexivity|].
      split; [reflexivity|]. split; [reflexivity|]. intros q. left. reflexivity.
    - exfalso. inversion P. destruct R as [R|R]; congruence.
    - cbn [app] in E. rewrite X in E. destruct nd as [old f2|dv]; [|discriminate].
      destruct (t =? iv_trace inv) eqn:TT; [discriminate|]. injection E as <- <-. rewrite (neq_eqb _ T). split; [reflexivity|].
      split; [exact S2|]. split. { cbn [print w_stdout]. rewrite S1. unfold recording_opened. rewrite (neq_eqb _ T). cbn [print w_stdout]. rewrite <- app_assoc. reflexivity. }
      intros q. rewrite print_nodes. destruct (string_dec q (iv_trace inv)) as [->|Q]; [|left; rewrite (WO _ Q); reflexivity].
      rewrite print_nodes in OLD. destruct OLD as [OLD|[OLD G]]; [left; congruence|]. right. injection G as -> ->. auto.
  Qed.

  Lemma untouched inv (w w' : world D) x q : run_tool inv w = done (w', x) -> ~ may_change inv q -> w_nodes w' q = w_nodes w q.
  Proof.
    intros E M. destruct (stops_or_starts inv w) as [(l & pb & S)|S].
    - rewrite (stops_stopped _ _ _ _ S) in E. injection E as <- _. reflexivity.
    - destruct S as [inv C|inv p d C A R|inv p n [C|C] A|inv p d t n C A T R].
      + unfold Main.run_tool in E. rewrite C in E. injection E as <- _. reflexivity.
      + destruct (serve_run _ _ _ _ _ _ C A R E) as (_ & _ & l & d' & _ & _ & H & _). apply H.
        * intros ->. apply M. split; [left; exact C|]. left. apply A.
        * destruct (string_dec (iv_trace inv) "") as [T|T]; [right; exact T|left]. intros ->. apply M. split; [left; exact C|]. right. auto.
      + destruct (replay_run _ _ _ _ _ _ C A E) as (content & fin & l & st & r & k & _ & _ & _ & ->). reflexivity.
      + destruct (view_run _ _ _ _ _ _ C A E) as (content & fin & _ & [(q0 & es & _ & _ & ->)|(e & _ & _ & ->)]); reflexivity.
      + destruct R as [R|(dv & ->)].
        * destruct (send_run _ _ _ _ _ _ _ _ C A T R E) as (content & fin & _ & _ & _ & _ & H). destruct (H q) as [H1|(H1 & H2 & _)]; [exact H1|].
          exfalso. apply M. split; [right; exact C|]. right. split; [symmetry; exact H1|exact H2].
        * exfalso. destruct (device_at_eq _ _ _ _ A) as (EA & N & O). destruct (trace_at_eq _ _ _ _ _ T) as (E1 & N1 & O1).
          unfold Main.run_tool in E. rewrite C in E. unfold send_action in E. rewrite EA, (neq_eqb _ N), O in E. cbv zeta in E.
          rewrite E1, (neq_eqb _ N1), open_print, O1 in E. discriminate.
  Qed.
End Tool.

(** ** Sessions *)

Lemma offer_none {S} (dev : io_rw S) rs : obliging dev -> forall d d' e,
  offer (dev_WriteReport (tracer_Write append_file dev)) (Ret d) rs = (Ret d', e) -> e = None.
Proof.
  intros OB. induction rs as [|r rs IH]; intros d d' e E; cbn [offer] in E; [congruence|].
  unfold dev_WriteReport at 1 in E. unfold WriteReport, raw_Write in E. cbn [bind] in E. fold (raw r) in E.
  destruct d as [s t]. destruct (OB s (raw r)) as (s1 & W). unfold tracer_Write in E at 1. rewrite W in E. rewrite Nat.ltb_irrefl in E.
  destruct (WriteMsg append_file t (mkMsg DirOut 0 (firstn (List.length (raw r)) (raw r)))) as [t1 e1].
  rewrite Nat.ltb_irrefl, Nat.eqb_refl in E. exact (IH _ _ _ E).
Qed.
Lemma write_none {S} (dev : io_rw S) defs d f d' e : usable defs -> obliging dev ->
  WriteFrame_dev defs (tracer_Write append_file dev) d f = done (d', e) -> e = None.
Proof.
  intros (_ & _ & x & LO & L) OB E. destruct (write_dev defs x (tracer_Write append_file dev) f LO L) as (rs & _ & H).
  rewrite H in E. destruct (offer _ _ rs) as [o e1] eqn:OF. destruct o as [d1|]; cbn [io_bind done] in E; [|discriminate].
  injection E as <- <-. exact (offer_none dev rs OB _ _ _ OF).
Qed.

Lemma table_usable b : usable (table b).
Proof. destruct b; [exact legacy_usable|exact default_usable]. Qed.
Lemma table_small b : Forall (fun d => (1 <= def_Len d <= 1023)%Z) (table b).
Proof. destruct b; repeat (apply Forall_cons; [cbn; lia|]); apply Forall_nil. Qed.
Lemma table_narrow b : narrow (table b).
Proof. eapply Forall_impl; [|exact (table_small b)]. cbn beta. lia. Qed.

Lemma watched_log {W} errText sdump certLog rt reg clock (tp : transport W) fuel st w hs st' w' l :
  processFrames_log fuel errText sdump certLog rt reg clock tp st w = done (st', w', l) ->
  exists hs', processFrames_log fuel errText sdump certLog rt reg clock (watched tp) st (w, hs) = done (st', (w', hs'), l).
Proof.
  intros E. pose (R := fun (w1 : W) (w2 : W * list happening) => fst w2 = w1).
  destruct (processFrames_log_sim tp (watched tp) R (fun e => e = None) errText sdump certLog)
    with (RO := R) (rt := rt) (reg := reg) (clock := clock) (fuel := fuel) (st := st) (w1 := w) (w2 := (w, hs)) (st' := st')
         (w1' := w') (l := l) as ([w2 hs2] & l2 & E2 & HR & A).
  - intros w1 [w2 h2] f w1' e H F. unfold R in H. cbn [fst] in H. subst w2. cbn [watched tp_WriteFrame fst snd]. rewrite F. cbn [io_bind done].
    eexists _, _. split; [reflexivity|]. split; [reflexivity|left; reflexivity].
  - intros w1 [w2 h2] w1' r H F. unfold R in H. cbn [fst] in H. subst w2. cbn [watched tp_ReadFrame fst snd]. rewrite F. cbn [io_bind done].
    eexists. split; [reflexivity|]. right. reflexivity.
  - intros w1 [w2 h2] w1' w2' H F. unfold R in H. cbn [fst] in H. subst w2. cbn [watched tp_ReadFrame fst snd]. rewrite F. cbn [io_bind done].
    intros X. injection X as <-. reflexivity.
  - reflexivity.
  - exact E.
  - apply alike_eq in A as <-. unfold R in HR. cbn [fst] in HR. subst w2. exists hs2. exact E2.
Qed.

Lemma alike_same errText a b : Forall2 (alike errText (fun _ => True)) a b -> Forall2 same_entry a b.
Proof.
  induction 1 as [|x y l l' H _ IH]; [apply Forall2_nil|]. apply Forall2_cons; [|exact IH].
  destruct H as [->|(f & e & _ & -> & ->)]; [left; reflexivity|right]. eexists _, _. split; reflexivity.
Qed.
