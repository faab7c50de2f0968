(** More on property C108: replaying any text file with the buffers the program has. *)
From Coq Require Import ZifyBool ZifyNat ZifyN Lia.
From Verif Require Import Mem SpecMem MemFacts MemThms MemServer Base BaseFacts GoTypes Types Payload Lingo Command SpecPayload SpecCommand Handlers SpecHandlers HandlersThms
  SpecProtocol Packet SpecPacket PacketThms Hid SpecHid HidThms Trace SpecTrace TraceThms TraceSessions Server SpecServer ServerFacts ServerThms SpecView ViewThms PropView
  SpecPlug SpecTransport TransportThms PropTransport SpecWire ProtocolProps PropProtocol SpecRecord RecordAnyThms SpecRetry RetryThms PropRetry
  SpecEdit EditThms PropEdit SpecRefuse RefuseThms PropRefuse SpecRefuseTrace RefuseTraceThms PropRefuseTrace SpecCut CutThms PropCut PropCrash SpecRealReplay RealReplayThms.
#[local] Opaque std_registry requests.

(** A device that gives these reads, and the reader of a file with these lines. *)
Definition edit_reads (w : wire) (r : Reader) : Prop :=
  (exists xs ls i, fst w = map as_read xs /\ r = at_line ls i /\ incoming ls xs) \/ (fst w = [] /\ rd_err r = Some EOF).

(** The same data, and errors that are both the end or both not. *)
Definition raw_alike (x y : raw_read) : Prop :=
  fst x = fst y /\ match snd x, snd y with None, None => True | Some a, Some b => a = EOF <-> b = EOF | _, _ => False end.

Lemma edit_read w r : edit_reads w r -> compare (wire_read w) (replay_read r) (fun x y => edit_reads (fst x) (fst y) /\ raw_alike (snd x) (snd y)).
Proof.
  destruct w as [l o]. intros [(xs & ls & i & E & -> & I)|[E R]]; cbn [fst] in E; subst l.
  - pose proof (replay_next ls xs I i) as NX. destruct xs as [|[d|] xs]; cbn [next_read map as_read] in *.
    + destruct NX as (r' & Q). pose proof (replay_ended _ _ _ Q) as EN. rewrite Q. cbn [wire_read fst snd compare done]. split; [right; auto|split; [reflexivity|split; auto]].
    + destruct NX as (ls' & i' & Q & I'). rewrite Q. cbn [wire_read fst snd compare done]. split; [left; exists xs, ls', i'; auto|split; [reflexivity|exact Logic.I]].
    + destruct NX as (ls' & i' & e & Q & NE & I'). rewrite Q. cbn [wire_read fst snd compare done]. split; [left; exists xs, ls', i'; auto|].
      split; [reflexivity|]. cbn [snd]. split; [discriminate|intros X; now elim NE].
  - rewrite (replay_after r R). cbn [wire_read fst snd compare done]. split; [right; auto|split; [reflexivity|split; auto]].
Qed.

Definition frame_alike (a b : ref + goerr) : Prop :=
  match a, b with inl x, inl y => x = y | inr e, inr e' => e = EOF <-> e' = EOF | _, _ => False end.

Lemma edit_frame defs pol : forall fuel m w r, edit_reads w r ->
  compare (ReadFrame_mem_loop fuel defs pol wire_read m w) (ReadFrame_mem_loop fuel defs pol replay_read m r)
    (fun x y => (fst (fst x) = fst (fst y) /\ edit_reads (snd (fst x)) (snd (fst y))) /\ frame_alike (snd x) (snd y)).
Proof.
  induction fuel as [|fuel IH]; intros m w r q; [exact I|]. cbn [ReadFrame_mem_loop]. pose proof (edit_read w r q) as RD. unfold compare in RD.
  destruct (wire_read w) as [[[w1 g1]|]|], (replay_read r) as [[[r2 g2]|]|]; try contradiction; try exact I. cbn [io_bind fst snd] in *. destruct RD as [q' G]. clear q.
  destruct g1 as [b1 e1], g2 as [b2 e2]. destruct G as [G1 G2]. cbn [fst snd] in G1, G2. subst b2. unfold ReadReport_mem. cbn [fst snd].
  destruct e1 as [e1|], e2 as [e2|]; try contradiction; [cbn; auto|].
  destruct (Nat.ltb _ 3); [cbn; split; [auto|tauto]|]. destruct (Find defs _) as [rdf|e]; [|cbn; split; [auto|tauto]]. cbv zeta.
  destruct (_ <? 0)%Z; [exact I|]. destruct (_ =? LinkControlDone)%N; [cbn; auto|]. destruct (_ =? LinkControlMoreToFollow)%N; [now apply IH|].
  destruct (_ =? N.lor LinkControlContinue LinkControlMoreToFollow)%N; [now apply IH|]. destruct (_ =? LinkControlContinue)%N; [cbn; auto|now apply IH].
Qed.

Lemma edit_carries fuel defs pol : carry_alike (fun w1 w2 => fst w1 = fst w2 /\ edit_reads (snd w1) (snd w2))
  (mem_transport fuel defs pol wire_read wire_write) (mem_transport fuel defs pol replay_read discard).
Proof.
  constructor.
  - intros [m w] [m2 r] [N q]. cbn [fst snd] in *. subst m2. cbn [mem_transport tp_ReadFrame fst snd]. unfold ReadFrame_mem.
    pose proof (edit_frame defs pol fuel (mkMem (m_heap m) (buf_Reset (m_buf m)) (m_raw m) (m_cert m)) w r q) as K. unfold compare in K.
    destruct (ReadFrame_mem_loop fuel defs pol wire_read _ w) as [[[[m1 e1] r1]|]|], (ReadFrame_mem_loop fuel defs pol replay_read _ r) as [[[[m2 e2] r2]|]|]; try contradiction; try exact I.
    cbn in *. destruct K as [[<- q'] F]. split; [auto|]. destruct r1, r2; cbn [frame_alike] in F; try contradiction; [left; now rewrite F|exact F].
  - intros [m w] [m2 r] f [N q]. cbn [fst snd] in *. subst m2. cbn [mem_transport tp_WriteFrame fst snd]. unfold WriteFrame_dev, WriteFrame.
    assert (WD : forall (d1 : wire) (d2 : Reader) p, edit_reads d1 d2 -> compare (Some (wire_write d1 p)) (Some (discard d2 p)) (fun x y => edit_reads (fst x) (fst y) /\ snd x = snd y)).
    { intros d1 d2 p A. cbn [wire_write discard compare fst snd]. split; [exact A|reflexivity]. }
    pose proof (WriteFrame_related edit_reads wire_write discard WD defs f (List.length f) (Ret w) (Ret r) 0%Z (Z.of_nat (List.length f)) q) as K. unfold compare in K.
    destruct (WriteFrame_loop (List.length f) defs (dev_WriteReport wire_write) (Ret w) f 0 _) as [[[o1 e1]|]|],
      (WriteFrame_loop (List.length f) defs (dev_WriteReport discard) (Ret r) f 0 _) as [[[o2 e2]|]|]; try contradiction; try exact I.
    cbn [fst snd] in K. destruct K as [K <-]. destruct o1 as [o1|], o2 as [o2|]; try contradiction; cbn in *; auto.
Qed.

(** C108_replay with the program's own buffers, in whatever state they are: replaying a text file does what the server does on a
    device that reads its incoming messages, and fails where there is none. *)
Theorem C108_memory {S} rt clock (g : DeviceGeneral S) defs pol mm h fuel fuel2 content lines xs :
  is_text content lines -> Forall (fun l => (len l <= 65535)%N) lines -> incoming lines xs ->
  served (processFrames fuel rt std_registry clock g (mem_transport fuel2 defs pol replay_read discard) h (mm, NewReader content EOF))
  = served (processFrames fuel rt std_registry clock g (mem_transport fuel2 defs pol wire_read wire_write) h (mm, (map as_read xs, []))).
Proof.
  intros T L I. rewrite (text_reader _ _ EOF T L).
  assert (Q : edit_reads (map as_read xs, []) (mkReader (map dropCR lines) EOF None 0)) by (left; exists xs, lines, 0%N; auto).
  pose proof (C118_same rt clock g _ _ _ h (mm, (map as_read xs, [])) (mm, mkReader (map dropCR lines) EOF None 0) fuel (edit_carries fuel2 defs pol) (conj eq_refl Q)) as K.
  unfold compare in K. lazymatch type of K with match ?a with _ => _ end => set (run_on := a) in * end.
  match goal with |- _ = served ?b => change b with run_on end.
  match goal with |- served ?a = _ => destruct a as [[[st1 w1]|]|] end; destruct run_on as [[[st2 w2]|]|]; try contradiction; try reflexivity.
  cbn [fst snd] in K. destruct K as [-> _]. reflexivity.
Qed.
Print Assumptions C108_memory.

(** The file of [C108_case], whose first line is a comment: with new buffers its replay answers the question. *)
Example C108_memory_case :
  is_text hand_file hand_lines /\ Forall (fun l => (len l <= 65535)%N) hand_lines
  /\ exists xs st, incoming hand_lines xs /\ In None xs
     /\ served (processFrames 9 true std_registry clock0 DevGeneral_device (mem_transport 9 DefaultReportDefs go_growth replay_read discard) h0 (new_mem, NewReader hand_file EOF)) = done st
     /\ List.length (h_log (sv_h st)) = 2.
Proof.
  destruct C108_case as (T & L & xs & I & _ & N & _). split; [exact T|]. split; [exact L|]. exists xs. eexists. split; [exact I|]. split; [exact N|]. split; vm_compute; reflexivity.
Qed.

(** C124_file with the program's own buffers: the replay of a trace file cut at any byte does what the server does, with buffers
    in the same state, on a device that gives the messages whose lines are complete and at most one more read. *)
Theorem C124_memory ms file k :
  Forall readable ms -> write_msgs append_file [] ms = (file, map (fun _ => None) ms) -> k <= List.length file ->
  exists n extra, cut_after ms n extra
    /\ List.length (fst (write_msgs append_file [] (firstn n ms))) <= k
    /\ (n < List.length ms -> k < List.length (fst (write_msgs append_file [] (firstn (Datatypes.S n) ms))))
    /\ (k = List.length (fst (write_msgs append_file [] (firstn n ms))) -> extra = [])
    /\ (forall S rt clock (g : DeviceGeneral S) defs pol mm h fuel fuel2,
          served (processFrames fuel rt std_registry clock g (mem_transport fuel2 defs pol replay_read discard) h (mm, NewReader (firstn k file) EOF))
          = served (processFrames fuel rt std_registry clock g (mem_transport fuel2 defs pol wire_read wire_write) h (mm, (map as_read (ins (firstn n ms) ++ extra), [])))).
Proof.
  intros R W K. destruct (cut_lines ms file k R W K) as (n & extra & lines & C & L & NX & X & T & SH & I).
  exists n, extra. split; [exact C|]. split; [exact L|]. split; [exact NX|]. split; [exact X|].
  intros S rt clock g defs pol mm h fuel fuel2. exact (C108_memory rt clock g defs pol mm h fuel fuel2 _ _ _ T SH I).
Qed.
Print Assumptions C124_memory.

Definition cut_replay k := served (processFrames 9 true std_registry clock_ticking DevGeneral_device (mem_transport 9 small go_growth replay_read discard) h0
  (new_mem, NewReader (firstn k (file123 3)) EOF)).

Example C124_memory_case :
  Forall readable (crossed events122) /\ write_msgs append_file [] (crossed events122) = (file123 3, map (fun _ => None) (crossed events122))
  /\ (exists st, cut_replay 80 = done st /\ List.length (h_log (sv_h st)) = 2) /\ (exists st, cut_replay 86 = done st /\ List.length (h_log (sv_h st)) = 4).
Proof.
  destruct C124_case as (_ & _ & _ & _ & R & W & _). split; [exact R|]. split; [exact W|]. split; eexists; (split; [vm_compute; reflexivity|reflexivity]).
Qed.

(** Finding: with the program's own buffers too, the replay of a recording cut within a request can crash, although the session
    did not: the check sum that was cut off is still in the buffer from the request before. *)
Theorem C124_memory_refuted :
  (exists st m s, processFrames 9 true std_registry clock_ticking DevGeneral_device
     (mem_transport 9 small go_growth (traced_read append_file choosy_file) (tracer_Write append_file choosy_file)) h0 (new_mem, ((3, 0), [])) = done (st, (m, (s, file123 3))))
  /\ exists k, k < List.length (file123 3) /\ cut_replay k = Some Panic.
Proof.
  split; [eexists _, _, _; vm_compute; reflexivity|]. exists 83. split; [apply Nat.ltb_lt; vm_compute; reflexivity|vm_compute; reflexivity].
Qed.
Print Assumptions C124_memory_refuted.
