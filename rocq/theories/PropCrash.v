(** More on property C79: at which read a session crashes. *)
From Coq Require Import ZifyBool ZifyNat ZifyN Lia.
From Verif Require Import Base BaseFacts GoTypes Types Payload Lingo Command SpecPayload SpecCommand Handlers SpecHandlers HandlersThms
  SpecProtocol Packet SpecPacket PacketThms Hid SpecHid HidThms Trace SpecTrace TraceThms TraceSessions Server SpecServer ServerFacts ServerThms Send SpecSend SpecView ViewThms PropView
  SpecPlug SpecTransport TransportThms PropTransport SpecWire ProtocolProps PropProtocol
  SpecRetry RetryThms PropRetry SpecEdit EditThms PropEdit SpecRefuse RefuseThms PropRefuse SpecRefuseTrace RefuseTraceThms PropRefuseTrace SpecCut CutThms PropCut.
#[local] Opaque std_registry requests.

Lemma last_of_reads evs : reads evs <> [] -> exists e1 x e2, evs = e1 ++ Read x :: e2 /\ reads e2 = [].
Proof.
  unfold reads. induction evs as [|e evs IH]; intros N; [now elim N|].
  destruct (flat_map (fun e => match e with Read x => [x] | _ => [] end) evs) as [|y ys] eqn:Q.
  - destruct e as [x|p|p]; cbn [flat_map app] in N; try (rewrite Q in N; now elim N). exists [], x, evs. auto.
  - destruct (IH ltac:(discriminate)) as (e1 & x & e2 & -> & E). exists (e :: e1), x, e2. auto.
Qed.

Lemma happens_first {D} (a : chooser D) d evs d' : happens a d evs d' -> forall e1 e2, evs = e1 ++ e2 -> exists dm, happens a d e1 dm.
Proof.
  induction 1 as [d|d evs d' H IH|d p evs d' T H IH|d p evs d' T H IH]; intros [|e e1] e2 E; try (eexists; constructor; fail);
    cbn [app] in E; try discriminate; injection E as <- E; destruct (IH _ _ E) as (dm & X); exists dm; constructor; assumption.
Qed.

Lemma recording_replayed {S} ms rt clock (g : DeviceGeneral S) h defs spares fuel fuel2 : Forall readable ms -> usable defs ->
  served (processFrames fuel rt std_registry clock g (hid_transport fuel2 defs spares replay_read discard) h (NewReader (fst (write_msgs append_file [] ms)) EOF, 0))
  = served (processFrames fuel rt std_registry clock g (hid_transport fuel2 defs spares wire_read wire_write) h ((map as_read (ins ms), []), 0)).
Proof.
  intros R U. apply readable_split in R as [R Z]. destruct (lines_exist _ R) as (texts & F). rewrite (write_file _ _ F []). cbn [fst app].
  apply (C108_replay rt std_registry clock g defs spares h fuel fuel2 _ texts _ U).
  - split; [exact (Forall2_line_no_nl _ _ F)|now left].
  - clear -F Z. induction F as [|m t ms texts L F IH]; constructor; inversion Z; subst; auto. now apply (line_short m t L).
  - exact (lines_incoming ms texts F).
Qed.

(** A session recorded with -w that crashes: it crashes at some read [x].  If it and the reads before gave data and no errors,
    the replay of what was recorded before [x] runs to its end, and the replay of what was recorded with [x] crashes, whatever
    replies were recorded after it. *)
Theorem C79_at_read {D S} (dev : io_rw D) rt clock (g : DeviceGeneral S) h defs spares s fuel fuel2 :
  usable defs -> Forall (fun d => (def_Len d <= 21843)%Z) defs -> whole_or_error dev ->
  processFrames fuel rt std_registry clock g
    (hid_transport fuel2 defs spares (traced_read append_file dev) (tracer_Write append_file dev)) h ((s, []), 0) = Some Panic ->
  exists e1 x s', happens (as_chooser dev) s (e1 ++ [Read x]) s'
    /\ (Forall (fun y => snd y = None /\ fst y <> []) (reads e1 ++ [x]) ->
        let replayed ms := served (processFrames fuel rt std_registry clock g (hid_transport fuel2 defs spares replay_read discard) h
                                     (NewReader (fst (write_msgs append_file [] ms)) EOF, 0)) in
        (exists st, replayed (crossed e1) = done st)
        /\ forall more, Forall (fun m => readable m /\ msg_Dir m = DirOut) more -> replayed (crossed (e1 ++ [Read x]) ++ more) = Some Panic).
Proof.
  intros U LN W RUN.
  pose proof (C118_same rt clock g eq _ _ h ((s, []), 0) ((s, []), 0) fuel
    (transport_same fuel2 defs spares _ _ _ _ (behind_read dev W) (behind_write dev W)) eq_refl) as K.
  rewrite RUN in K. unfold compare in K.
  destruct (C122_server (behind dev) rt clock g h defs spares (s, []) fuel fuel2 U (behind_plausible dev W)) as [N|(evs & s' & H & R & PRE)].
  { cbv zeta in N. rewrite N in K. contradiction. }
  cbv zeta in R, PRE. destruct (behind_happens dev W _ _ _ H) as [H1 _]. cbn [fst snd] in H1. clear H.
  destruct (processFrames fuel rt std_registry clock g (hid_transport fuel2 defs spares (ch_read (behind dev)) (ch_write (behind dev))) h (s, [], 0)) as [[?|]|]; try contradiction.
  destruct R as [_ R].
  assert (NE : reads evs <> []).
  { intros E. rewrite E in R. unfold processFrames in R. destruct fuel as [|fuel]; [discriminate R|]. cbn [processFrames_loop tp_ReadFrame hid_transport fst snd] in R.
    destruct fuel2 as [|fuel2]; [discriminate R|]. cbn in R. discriminate R. }
  destruct (last_of_reads evs NE) as (e1 & x & e2 & E & E2).
  destruct (PRE e1 x e2 E) as (st & n & outs & fs & whole & P1 & _ & T).
  assert (SP : evs = (e1 ++ [Read x]) ++ e2) by (rewrite <- app_assoc; exact E).
  destruct (happens_first _ _ _ _ H1 _ _ SP) as (sm & HM). exists e1, x, sm. split; [exact HM|]. intros CL. cbv zeta.
  destruct (happens_first _ _ _ _ HM e1 [Read x] eq_refl) as (s1 & HE1).
  assert (RX : reads (e1 ++ [Read x]) = reads e1 ++ [x]) by (unfold reads; now rewrite flat_map_app).
  assert (RD : reads evs = reads (e1 ++ [Read x])) by (rewrite SP; unfold reads in *; rewrite flat_map_app, E2, app_nil_r; reflexivity).
  assert (SZ : Forall (fun y => snd y = None -> List.length (fst y) <= maxRawSize) (reads (e1 ++ [Read x]))).
  { clear -HM W. revert HM. generalize (e1 ++ [Read x]) as l. intros l H. destruct W as [WR _].
    induction H as [d|d evs d' H IH|d p evs d' T H IH|d p evs d' T H IH]; unfold reads in *; cbn [flat_map app]; try assumption; constructor; [|exact IH].
    cbn [as_chooser ch_sends] in *. destruct (rw_read dev d maxRawSize) as [d1 [b e]] eqn:Q. cbn [fst snd]. intros ->. exact (WR _ _ _ Q). }
  assert (CL3 : Forall (fun y => snd y = None /\ fst y <> [] /\ List.length (fst y) <= maxRawSize) (reads (e1 ++ [Read x]))).
  { rewrite RX in *. clear -CL SZ. induction CL as [|y l [A B] CL IH]; constructor; inversion SZ; subst; auto. }
  assert (CL4 : Forall (fun y => snd y = None /\ fst y <> [] /\ List.length (fst y) <= maxRawSize) (reads e1)).
  { rewrite RX in CL3. apply Forall_app in CL3. apply CL3. }
  pose proof (session_readable dev s e1 s1 defs fs whole W LN HE1 T) as RE1.
  split.
  - rewrite (recording_replayed _ rt clock g h defs spares fuel fuel2 RE1 U), (clean_ins e1 CL4), P1. exists st. reflexivity.
  - intros more MORE.
    assert (RM : Forall readable (crossed (e1 ++ [Read x]) ++ more)).
    { apply Forall_app. split; [|eapply Forall_impl; [|exact MORE]; intros m [A _]; exact A].
      unfold crossed. rewrite flat_map_app. apply Forall_app. split; [exact RE1|].
      rewrite RX in CL3. apply Forall_app in CL3 as [_ CX]. inversion CX as [|? ? (A & B & C) _]; subst.
      destruct x as [[|b bs] [e|]]; cbn [fst snd] in *; try congruence. cbn [flat_map app]. repeat constructor; [discriminate|].
      cbn [msg_Data]. unfold len, maxRawSize in *. lia. }
    rewrite (recording_replayed _ rt clock g h defs spares fuel fuel2 RM U).
    assert (IM : ins (crossed (e1 ++ [Read x]) ++ more) = ins (crossed (e1 ++ [Read x]))).
    { unfold ins, of_dir. rewrite filter_app. assert (Q : filter (fun m => (msg_Dir m =? 0)%N) more = []).
      { clear -MORE. induction MORE as [|m more [_ A] _ IH]; [reflexivity|]. cbn [filter]. rewrite A. exact IH. }
      rewrite Q, app_nil_r. reflexivity. }
    rewrite IM, (clean_ins _ CL3), <- RD, R. reflexivity.
Qed.
Print Assumptions C79_at_read.

(** An accessory that takes what it is sent, asks for a name, and then sends a packet without its check sum. *)
Definition gives (l : list raw_read) : io_rw nat :=
  mkRW (fun k _ => (Datatypes.S k, nth k l ([], Some EOF))) (fun k p => (k, (List.length p, None))).
Definition cut_packet : raw_read := ([x01; x00; x00; x55; x02; x00; x07], None).
Definition ran79 l := processFrames 9 true std_registry clock_ticking DevGeneral_device
  (hid_transport 9 small (fun _ => []) (traced_read append_file (gives l)) (tracer_Write append_file (gives l))) h0 ((0, []), 0).
Definition replay79 ms := served (processFrames 9 true std_registry clock_ticking DevGeneral_device
  (hid_transport 9 small (fun _ => []) replay_read discard) h0 (NewReader (fst (write_msgs append_file [] ms)) EOF, 0)).

Lemma gives_whole l : Forall (fun x => List.length (fst x) <= maxRawSize) l -> whole_or_error (gives l).
Proof.
  intros F. split; cbn [gives rw_read rw_write].
  - intros k k' b E. injection E as <- E. destruct (Nat.lt_ge_cases k (List.length l)) as [L|L].
    + rewrite Forall_forall in F. exact (F _ (eq_ind _ (fun z => In z l) (nth_In l ([], Some EOF) L) _ E)).
    + pose proof (eq_trans (eq_sym E) (nth_overflow l ([], Some EOF) L)) as X. discriminate X.
  - intros k p k' n e E. injection E as <- <- <-. auto.
Qed.

Example C79_at_read_case :
  usable small /\ Forall (fun d => (def_Len d <= 21843)%Z) small /\ whole_or_error (gives [asks; cut_packet])
  /\ ran79 [asks; cut_packet] = Some Panic
  /\ (let e1 := [Read asks; Taken (report_bytes n1); Taken (report_bytes n2); Taken (report_bytes n3)] in
      happens (as_chooser (gives [asks; cut_packet])) 0 (e1 ++ [Read cut_packet]) 2
      /\ Forall (fun y => snd y = None /\ fst y <> []) (reads e1 ++ [cut_packet])
      /\ (exists st, replay79 (crossed e1) = done st /\ List.length (h_log (sv_h st)) = 2)
      /\ replay79 (crossed (e1 ++ [Read cut_packet])) = Some Panic).
Proof.
  split; [exact small_usable|]. split; [repeat constructor; cbn; lia|].
  split; [apply gives_whole; repeat constructor; apply Nat.leb_le; vm_compute; reflexivity|].
  split; [vm_compute; reflexivity|]. cbv zeta. split; [|split; [|split]].
  - cbn [app]. set (a := as_chooser (gives [asks; cut_packet])).
    change (Read asks) with (Read (snd (ch_sends a 0))). apply hp_read. cbn [a as_chooser gives ch_sends rw_read fst].
    repeat (apply hp_taken; [reflexivity|]). change (Read cut_packet) with (Read (snd (ch_sends a 1))). apply hp_read. apply hp_end.
  - cbn [reads flat_map app]. repeat constructor; discriminate.
  - eexists. split; vm_compute; reflexivity.
  - vm_compute. reflexivity.
Qed.

(** Finding: if a read fails, the crash may not be repeated.  A frame comes in two reports with a failed read between them, so
    that the second is taken for a frame of its own, and crashes the server; the failed read is not in the recording, and the
    replay reads the whole frame. *)
Definition half1 : raw_read := ([x01; x02; x00; x55; x05; x00; x07], None).
Definition half2 : raw_read := ([x01; x01; x55; x02; x00; x9d], None).
Definition failed_read : raw_read := ([], Some (ErrMsg "timeout")).
Theorem C79_repeated_refuted :
  exists evs, happens (as_chooser (gives [half1; failed_read; half2])) 0 evs 3
    /\ ran79 [half1; failed_read; half2] = Some Panic
    /\ (forall k, exists st, replay79 (firstn k (crossed evs)) = done st).
Proof.
  exists [Read half1; Read failed_read; Read half2]. split; [|split].
  - set (a := as_chooser (gives [half1; failed_read; half2])).
    change (Read half1) with (Read (snd (ch_sends a 0))). apply hp_read.
    change (Read failed_read) with (Read (snd (ch_sends a 1))). apply hp_read.
    change (Read half2) with (Read (snd (ch_sends a 2))). apply hp_read. apply hp_end.
  - vm_compute. reflexivity.
  - intros [|[|k]]; [eexists; vm_compute; reflexivity..|].
    rewrite firstn_all2 by (cbn; lia). eexists. vm_compute. reflexivity.
Qed.
Print Assumptions C79_repeated_refuted.
