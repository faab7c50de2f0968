(** Property C127: replaying a recording with the buffers the program has. *)
From Coq Require Import ZifyBool ZifyNat ZifyN Lia.
From Verif Require Import Mem SpecMem MemFacts MemThms MemServer Base BaseFacts GoTypes Types Payload Lingo Command SpecPayload SpecCommand Handlers SpecHandlers HandlersThms
  SpecProtocol Packet SpecPacket PacketThms Hid SpecHid HidThms Trace SpecTrace TraceThms TraceSessions Server SpecServer ServerFacts ServerThms SpecView ViewThms PropView
  SpecPlug SpecTransport TransportThms PropTransport SpecWire ProtocolProps PropProtocol SpecRecord RecordAnyThms SpecRetry RetryThms PropRetry
  SpecEdit EditThms PropEdit SpecRefuse RefuseThms PropRefuse SpecRefuseTrace RefuseTraceThms PropRefuseTrace SpecCut CutThms PropCut PropCrash SpecRealReplay RealReplayThms.
#[local] Opaque std_registry requests.

Lemma ins_reads evs : ins (crossed evs) = flat_map (fun x => match x with (b :: bs, None) => [Some (b :: bs)] | _ => [] end) (reads evs).
Proof.
  unfold reads, crossed, ins, of_dir. induction evs as [|[[[|b bs] [e|]]|[|p ps]|p] evs IH]; cbn [flat_map app filter map msg_Dir]; auto.
  cbn [N.eqb DirIn map msg_Data app]. now rewrite IH.
Qed.

Lemma clean_data datas : Forall (fun d : bytes => d <> []) datas ->
  flat_map (fun x : raw_read => match x with (b :: bs, None) => [Some (b :: bs)] | _ => [] end) (map (fun d => (d, None)) datas) = map Some datas.
Proof. induction 1 as [|[|b d] datas N _ IH]; [reflexivity|now elim N|]. cbn [map flat_map app]. now rewrite IH. Qed.

Lemma session_sizes {D} (dev : io_rw D) s evs s' : whole_or_error dev -> happens (as_chooser dev) s evs s' ->
  Forall (fun y => snd y = None -> List.length (fst y) <= maxRawSize) (reads evs).
Proof.
  intros [WR _] H. induction H as [d|d evs d' H IH|d p evs d' T H IH|d p evs d' T H IH]; unfold reads in *; cbn [flat_map app]; try assumption; constructor; [|exact IH].
  cbn [as_chooser ch_sends] in *. destruct (rw_read dev d maxRawSize) as [d1 [b e]] eqn:Q. cbn [fst snd]. intros ->. exact (WR _ _ _ Q).
Qed.

(** With its own buffers too, the server is determined by what it reads: whatever a device makes of the writes, the run is that
    on a device that gives the same reads and takes every write - same state, same replies, same memory, same crash. *)
Theorem C127_reads {D S} (a : chooser D) rt reg clock (g : DeviceGeneral S) h defs pol mm d fuel fuel2 :
  usable defs -> plausible a ->
  let run_on := processFrames fuel rt reg clock g (mem_transport fuel2 defs pol (ch_read a) (ch_write a)) h (mm, d) in
  let run_fixed l := processFrames fuel rt reg clock g (mem_transport fuel2 defs pol wire_read wire_write) h (mm, (l, [])) in
  run_on = None
  \/ exists evs d', happens a d evs d'
     /\ match run_on with
        | Some (Ret (st, (m, d1))) => d1 = d' /\ exists written, run_fixed (reads evs) = done (st, (m, ([], written)))
        | _ => run_on = Some Panic /\ run_fixed (reads evs) = Some Panic
        end.
Proof.
  intros U P. cbv zeta. unfold processFrames. pose proof (server_reads a P defs U rt reg clock g pol fuel2 fuel (mkServer false h) mm d) as R.
  destruct (processFrames_loop fuel rt reg clock g (mem_transport fuel2 defs pol (ch_read a) (ch_write a)) (mkServer false h) (mm, d)) as [r|]; [right|now left].
  destruct R as (evs & d1 & E & _ & K). exists evs, d1. split; [exact E|]. destruct r as [[st [m d2]]|].
  - destruct K as [-> K]. split; [reflexivity|]. destruct (K [] []) as (o & Q). rewrite app_nil_r in Q. exists o. exact Q.
  - split; [reflexivity|]. specialize (K [] []). rewrite app_nil_r in K. exact K.
Qed.
Print Assumptions C127_reads.

(** A session recorded with -w, with the decoder's and the reader's own buffers, in whatever state they are.  It reads and
    writes [evs], and what it has recorded when it ends, or crashes, is what got across.  If its reads were clean, the replay of
    that recording, with buffers in the same state at first, leaves the server in the same state with the same replies, or
    crashes too - also where packets are read with bytes left over from earlier frames. *)
Theorem C127_same {D S} (dev : io_rw D) rt clock (g : DeviceGeneral S) h defs pol mm s fuel fuel2 :
  usable defs -> Forall (fun d => (def_Len d <= 21843)%Z) defs -> whole_or_error dev ->
  let session := processFrames fuel rt std_registry clock g
    (mem_transport fuel2 defs pol (traced_read append_file dev) (tracer_Write append_file dev)) h (mm, (s, [])) in
  session = None
  \/ exists evs s', happens (as_chooser dev) s evs s'
     /\ match session with
        | Some (Ret (_, (_, (s1, file)))) => s1 = s' /\ file = fst (write_msgs append_file [] (crossed evs))
        | _ => session = Some Panic
        end
     /\ (clean_session (reads evs) ->
         served (processFrames fuel rt std_registry clock g (mem_transport fuel2 defs pol replay_read discard) h
                   (mm, NewReader (fst (write_msgs append_file [] (crossed evs))) EOF))
         = served session).
Proof.
  intros U LN W. cbv zeta.
  assert (CA : carry_alike (fun w1 w2 => fst w1 = fst w2 /\ snd w1 = snd w2)
    (mem_transport fuel2 defs pol (traced_read append_file dev) (tracer_Write append_file dev)) (mem_transport fuel2 defs pol (ch_read (behind dev)) (ch_write (behind dev)))).
  { apply (related_carries_mem eq).
    - intros d1 d2 <-. rewrite (behind_read dev W d1). unfold ch_read. cbn [compare done]. auto.
    - intros d1 d2 p <-. rewrite (behind_write dev W d1 p). unfold ch_write. cbn [compare]. auto. }
  pose proof (C118_same rt clock g _ _ _ h (mm, (s, [])) (mm, (s, [])) fuel CA (conj eq_refl eq_refl)) as K. clear CA. unfold compare in K.
  pose proof (server_reads (behind dev) (behind_plausible dev W) defs U rt std_registry clock g pol fuel2 fuel (mkServer false h) mm (s, [])) as R.
  change (processFrames_loop fuel rt std_registry clock g (mem_transport fuel2 defs pol (ch_read (behind dev)) (ch_write (behind dev))) (mkServer false h) (mm, (s, [])))
    with (processFrames fuel rt std_registry clock g (mem_transport fuel2 defs pol (ch_read (behind dev)) (ch_write (behind dev))) h (mm, (s, []))) in R.
  set (session := processFrames fuel rt std_registry clock g (mem_transport fuel2 defs pol (traced_read append_file dev) (tracer_Write append_file dev)) h (mm, (s, []))) in *.
  destruct (processFrames fuel rt std_registry clock g (mem_transport fuel2 defs pol (ch_read (behind dev)) (ch_write (behind dev))) h (mm, (s, []))) as [r|].
  2:{ left. destruct session as [[[? ?]|]|]; [contradiction..|reflexivity]. }
  right. destruct R as (evs & d1 & H & (fs & whole & T) & G). destruct (behind_happens dev W _ _ _ H) as [H1 FI]. cbn [fst snd] in H1, FI. clear H.
  exists evs, (fst d1). split; [exact H1|]. split.
  { destruct session as [[[st [m [s1 file]]]|]|]; destruct r as [[st2 [m2 [s2 file2]]]|]; try contradiction; try reflexivity.
    cbn [fst snd] in K. destruct K as [_ [_ K]]. injection K as -> ->. destruct G as [<- _]. cbn [fst snd] in *. auto. }
  intros (datas & ND & CL).
  pose proof (session_readable dev s evs (fst d1) defs fs whole W LN H1 T) as RE. apply readable_split in RE as [RE Z].
  destruct (lines_exist _ RE) as (texts & F). rewrite (write_file _ _ F []). cbn [fst app].
  assert (TR : NewReader (file_of texts) EOF = at_line texts 0).
  { apply text_reader; [split; [exact (Forall2_line_no_nl _ _ F)|now left]|].
    clear -F Z. induction F as [|m t ms texts L F IH]; constructor; inversion Z; subst; auto. now apply (line_short m t L). }
  assert (XS : ins (crossed evs) = map Some datas).
  { rewrite ins_reads. destruct CL as [->| ->]; [exact (clean_data datas ND)|]. rewrite flat_map_app. cbn [flat_map app]. rewrite app_nil_r. exact (clean_data datas ND). }
  assert (AS : map as_read (ins (crossed evs)) = map (fun d => (d, None)) datas).
  { rewrite XS, map_map. pose proof (session_sizes dev s evs _ W H1) as SZ.
    assert (SZ2 : Forall (fun y : raw_read => snd y = None -> List.length (fst y) <= maxRawSize) (map (fun d => (d, None)) datas)).
    { destruct CL as [E|E]; rewrite E in SZ; [exact SZ|]. apply Forall_app in SZ. apply SZ. }
    clear -SZ2. induction datas as [|d datas IH]; [reflexivity|]. cbn [map] in *. inversion SZ2 as [|? ? A B]; subst. rewrite (IH B).
    unfold as_read. rewrite firstn_all2; [reflexivity|]. exact (A eq_refl). }
  assert (AL : alike_reads (reads evs, []) (NewReader (file_of texts) EOF)).
  { left. assert (FN : exists fin, (fin = [] \/ fin = [([], Some EOF)]) /\ reads evs = map (fun d => (d, None)) datas ++ fin).
    { destruct CL as [E|E]; [exists []; rewrite app_nil_r; auto|exists [([], Some EOF)]; auto]. }
    destruct FN as (fin & FN & E). exists (ins (crossed evs)), fin, texts, 0%N.
    split; [|split; [|split; [|split]]].
    - cbn [fst]. now rewrite AS.
    - exact FN.
    - rewrite XS. intros X. apply in_map_iff in X as (d & X & _). discriminate X.
    - exact TR.
    - exact (lines_incoming _ _ F). }
  pose proof (C118_same rt clock g _ _ _ h (mm, (reads evs, [])) (mm, NewReader (file_of texts) EOF) fuel
    (related_carries_mem alike_reads wire_read replay_read wire_write discard alike_read (fun w r p => alike_write w r p) fuel2 defs pol) (conj eq_refl AL)) as K2.
  unfold compare in K2.
  destruct r as [[st2 [m2 d2]]|].
  - destruct G as [_ G]. destruct (G [] []) as (o' & Q). rewrite app_nil_r in Q.
    change (processFrames fuel rt std_registry clock g (mem_transport fuel2 defs pol wire_read wire_write) h (mm, (reads evs, [])) = done (st2, (m2, ([], o')))) in Q.
    lazymatch type of K2 with match ?a with _ => _ end => assert (E : a = done (st2, (m2, ([], o')))) by exact Q; rewrite E in K2 end.
    match goal with |- served ?x = _ => destruct x as [[[st3 w3]|]|] end; try contradiction.
    destruct session as [[[st [m w]]|]|]; try contradiction. cbn [fst snd done] in K, K2. destruct K as [-> _]. destruct K2 as [<- _]. reflexivity.
  - specialize (G [] []). rewrite app_nil_r in G.
    lazymatch type of K2 with match ?a with _ => _ end => assert (E : a = Some Panic) by exact G; rewrite E in K2 end.
    match goal with |- served ?x = _ => destruct x as [[[st3 w3]|]|] end; try contradiction.
    destruct session as [[[st [m w]]|]|]; try contradiction. reflexivity.
Qed.
Print Assumptions C127_same.

(** An accessory asks for a name, and then sends the same packet without its check sum: the check sum of the first one is still
    in the buffer, and the session crashes.  So does the replay.  If the second packet comes one byte earlier in the frame, the byte left over is not its check
    sum, and session and replay go on. *)
Definition run127 l := processFrames 9 true std_registry clock_ticking DevGeneral_device
  (mem_transport 9 small go_growth (traced_read append_file (gives l)) (tracer_Write append_file (gives l))) h0 (new_mem, (0, [])).
Definition replay127 ms := served (processFrames 9 true std_registry clock_ticking DevGeneral_device
  (mem_transport 9 small go_growth replay_read discard) h0 (new_mem, NewReader (fst (write_msgs append_file [] ms)) EOF)).
Definition asked127 : list happened := [Read asks; Taken (report_bytes n1); Taken (report_bytes n2); Taken (report_bytes n3)].
Definition early_packet : raw_read := ([x01; x00; x55; x02; x00; x07], None).

Example C127_case :
  usable small /\ Forall (fun d => (def_Len d <= 21843)%Z) small /\ whole_or_error (gives [asks; cut_packet]) /\ whole_or_error (gives [asks; early_packet])
  /\ run127 [asks; cut_packet] = Some Panic
  /\ happens (as_chooser (gives [asks; cut_packet])) 0 (asked127 ++ [Read cut_packet]) 2
  /\ clean_session (reads (asked127 ++ [Read cut_packet]))
  /\ replay127 (crossed (asked127 ++ [Read cut_packet])) = Some Panic
  /\ clean_session (reads (asked127 ++ [Read early_packet; Read ([], Some EOF)]))
  /\ exists st, served (run127 [asks; early_packet]) = done st /\ replay127 (crossed (asked127 ++ [Read early_packet; Read ([], Some EOF)])) = done st
       /\ List.length (h_log (sv_h st)) = 2.
Proof.
  split; [exact small_usable|]. split; [repeat constructor; cbn; lia|].
  split; [apply gives_whole; repeat constructor; apply Nat.leb_le; vm_compute; reflexivity|].
  split; [apply gives_whole; repeat constructor; apply Nat.leb_le; vm_compute; reflexivity|].
  split; [vm_compute; reflexivity|]. split; [|split; [|split; [vm_compute; reflexivity|split]]].
  - unfold asked127. cbn [app]. set (a := as_chooser (gives [asks; cut_packet])).
    change (Read asks) with (Read (snd (ch_sends a 0))). apply hp_read. cbn [a as_chooser gives ch_sends rw_read fst].
    repeat (apply hp_taken; [reflexivity|]). change (Read cut_packet) with (Read (snd (ch_sends a 1))). apply hp_read. apply hp_end.
  - exists [fst asks; fst cut_packet]. split; [repeat constructor; discriminate|]. left. reflexivity.
  - exists [fst asks; fst early_packet]. split; [repeat constructor; discriminate|]. right. reflexivity.
  - eexists. split; [|split]; vm_compute; reflexivity.
Qed.

(** Finding: the read that makes the program crash need not do so by itself: what came before is in the buffer, and is needed. *)
Theorem C127_alone_refuted :
  run127 [asks; cut_packet] = Some Panic
  /\ (exists st, served (run127 [asks]) = done st) /\ (exists st, served (run127 [cut_packet]) = done st)
  /\ exists st, replay127 (crossed [Read cut_packet]) = done st.
Proof. split; [vm_compute; reflexivity|]. repeat split; eexists; vm_compute; reflexivity. Qed.
Print Assumptions C127_alone_refuted.

(** The choosy accessory of C122 refuses some reports. *)
Example C127_reads_case :
  usable small /\ plausible choosy
  /\ exists st m d w, let run_on := processFrames 9 true std_registry clock_ticking DevGeneral_device (mem_transport 9 small go_growth (ch_read choosy) (ch_write choosy)) h0 (new_mem, (3, 0)) in
       let run_fixed := processFrames 9 true std_registry clock_ticking DevGeneral_device (mem_transport 9 small go_growth wire_read wire_write) h0 (new_mem, ([asks; asks; asks; ([], Some EOF)], [])) in
       run_on = done (st, (m, d)) /\ run_fixed = done (st, (m, ([], w))) /\ List.length w = 9 /\ snd d < 9.
Proof.
  split; [exact small_usable|]. split.
  - intros [k n] p. cbn [choosy ch_takes fst snd]. destruct n as [|[|[|n]]]; cbn; lia.
  - eexists _, _, _, _. cbv zeta. split; [vm_compute; reflexivity|]. split; [vm_compute; reflexivity|]. split; [vm_compute; reflexivity|]. cbn. lia.
Qed.
