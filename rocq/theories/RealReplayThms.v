(** Lemmas on replaying a recording with the buffers the program has. *)
From Coq Require Import ZifyBool ZifyNat ZifyN Lia.
From Verif Require Import Mem SpecMem MemFacts MemThms MemServer Base BaseFacts GoTypes Types Payload Lingo Command SpecPayload SpecCommand Handlers SpecHandlers HandlersThms
  SpecProtocol Packet SpecPacket PacketThms Hid SpecHid HidThms Trace SpecTrace TraceThms TraceSessions Server SpecServer ServerFacts ServerThms
  SpecPlug SpecTransport TransportThms SpecWire ProtocolProps SpecRecord RecordAnyThms
  SpecEdit EditThms SpecRefuse RefuseThms SpecRefuseTrace RefuseTraceThms SpecCut CutThms SpecRealReplay.
#[local] Opaque std_registry requests.

Lemma happens_app {D} (a : chooser D) d e1 d1 : happens a d e1 d1 -> forall e2 d2, happens a d1 e2 d2 -> happens a d (e1 ++ e2) d2.
Proof. induction 1; intros e2 d2 H2; cbn [app]; [exact H2|..]; constructor; auto. Qed.

Lemma reads_app e1 e2 : reads (e1 ++ e2) = reads e1 ++ reads e2. Proof. unfold reads. apply flat_map_app. Qed.
Lemma writes_app e1 e2 : writes (e1 ++ e2) = writes e1 ++ writes e2. Proof. unfold writes. apply filter_app. Qed.

Lemma tries_app defs fs1 ws1 w1 : tries defs fs1 ws1 w1 -> forall fs2 ws2 w2, tries defs fs2 ws2 w2 -> tries defs (fs1 ++ fs2) (ws1 ++ ws2) (w1 ++ w2).
Proof.
  induction 1 as [|fs ws whole _ IH|f rs fs ws whole S _ IH|f a r b fs ws whole S _ IH]; intros fs2 ws2 w2 H; cbn [app].
  - exact H.
  - constructor. now apply IH.
  - rewrite <- app_assoc. constructor; auto.
  - rewrite <- app_assoc. cbn [app]. econstructor; eauto.
Qed.

Section Reads.
  Context {D : Type} (a : chooser D) (P : plausible a) (defs : list ReportDef) (U : usable defs).

  Definition tried (evs : list happened) : Prop := exists fs whole, tries defs fs (writes evs) whole.

  Lemma tried_app e1 e2 : tried e1 -> tried e2 -> tried (e1 ++ e2).
  Proof. intros (f1 & w1 & T1) (f2 & w2 & T2). exists (f1 ++ f2), (w1 ++ w2). rewrite writes_app. now apply tries_app. Qed.

  Lemma tried_reads xs : tried (map Read xs).
  Proof. exists [], []. replace (writes (map Read xs)) with (@nil happened); [constructor|]. unfold writes. induction xs; auto. Qed.

  Lemma reads_map xs : reads (map Read xs) = xs.
  Proof. unfold reads. induction xs as [|x xs IH]; [reflexivity|]. cbn [map flat_map app]. now rewrite IH. Qed.

  (** What a frame read with the real buffers depends on is the reads it took. *)
  Lemma mem_read_list pol fuel : forall m d,
    match ReadFrame_mem_loop fuel defs pol (ch_read a) m d with
    | None => True
    | Some r => exists xs d1, happens a d (map Read xs) d1
        /\ (forall rest o, ReadFrame_mem_loop fuel defs pol wire_read m (xs ++ rest, o)
              = match r with Ret (m', _, x) => done (m', (rest, o), x) | Panic => Some Panic end)
        /\ match r with Ret (_, d', _) => d' = d1 | Panic => True end
    end.
  Proof.
    induction fuel as [|fuel IH]; intros m d; [exact I|]. cbn [ReadFrame_mem_loop]. unfold ch_read at 1. cbn [io_bind done].
    pose proof (hp_read a d) as HR. destruct (ch_sends a d) as [d' x]. cbn [fst snd] in HR. cbn [io_bind].
    destruct (ReadReport_mem (m_heap m) (m_raw m) x) as [h1 rep] eqn:X.
    assert (ONE : forall r : outcome (mem * D * (ref + goerr)),
      (forall rest o, ReadFrame_mem_loop (S fuel) defs pol wire_read m (x :: rest, o) = match r with Ret (m', _, y) => done (m', (rest, o), y) | Panic => Some Panic end) ->
      match r with Ret (_, e, _) => e = d' | Panic => True end ->
      exists xs d1, happens a d (map Read xs) d1
        /\ (forall rest o, ReadFrame_mem_loop (S fuel) defs pol wire_read m (xs ++ rest, o)
              = match r with Ret (m', _, x) => done (m', (rest, o), x) | Panic => Some Panic end)
        /\ match r with Ret (_, e, _) => e = d1 | Panic => True end).
    { intros r H1 H2. exists [x], d'. split; [apply HR; constructor|]. split; [exact H1|exact H2]. }
    assert (MORE : forall m2, (forall w, ReadFrame_mem_loop (S fuel) defs pol wire_read m (x :: fst w, snd w) = ReadFrame_mem_loop fuel defs pol wire_read m2 w) ->
      match ReadFrame_mem_loop fuel defs pol (ch_read a) m2 d' with
      | None => True
      | Some r => exists xs d1, happens a d (map Read xs) d1
        /\ (forall rest o, ReadFrame_mem_loop (S fuel) defs pol wire_read m (xs ++ rest, o)
              = match r with Ret (m', _, x) => done (m', (rest, o), x) | Panic => Some Panic end)
        /\ match r with Ret (_, d', _) => d' = d1 | Panic => True end
      end).
    { intros m2 H. specialize (IH m2 d'). destruct (ReadFrame_mem_loop fuel defs pol (ch_read a) m2 d') as [r|]; [|exact I].
      destruct IH as (xs & d1 & E & K & L). exists (x :: xs), d1. split; [apply HR; exact E|]. split; [|exact L].
      intros rest o. cbn [app]. exact (eq_trans (H (xs ++ rest, o)) (K rest o)). }
    assert (Z : forall w, ReadFrame_mem_loop (S fuel) defs pol wire_read m (x :: fst w, snd w)
      = let m1 := mkMem h1 (m_buf m) (m_raw m) (m_cert m) in
        match rep with
        | inr e => done (m1, w, inr e)
        | inl report =>
          match Find defs (Z.of_N (b2n (rr_ID report))) with
          | inr e => done (m1, w, inr e)
          | inl reportDef =>
              let n := Z.min (Z.of_nat (rf_len (rr_Data report))) (MaxPayload reportDef) in
              if (n <? 0)%Z then Some Panic
              else
                let reportData := load h1 (mkRef (rf_arr (rr_Data report)) (rf_off (rr_Data report)) (Z.to_nat n)) in
                let write b := let '(h2, b2) := buf_Write pol h1 b reportData in
                               mkMem h2 b2 (m_raw m) (m_cert m) in
                let finish m2 := done (m2, w, inl (buf_Bytes (m_buf m2))) in
                let lc := b2n (rr_LinkControl report) in
                if (lc =? LinkControlDone)%N
                then finish (write (buf_Reset (m_buf m)))
                else if (lc =? LinkControlMoreToFollow)%N
                then ReadFrame_mem_loop fuel defs pol wire_read (write (buf_Reset (m_buf m))) w
                else if (lc =? N.lor LinkControlContinue LinkControlMoreToFollow)%N
                then ReadFrame_mem_loop fuel defs pol wire_read (write (m_buf m)) w
                else if (lc =? LinkControlContinue)%N
                then finish (write (m_buf m))
                else ReadFrame_mem_loop fuel defs pol wire_read m1 w
          end
        end).
    { intros [l o]. cbn [ReadFrame_mem_loop wire_read fst snd io_bind done]. rewrite X. reflexivity. }
    cbv zeta in Z |- *.
    destruct rep as [report|e]; [|apply ONE; [intros rest o; exact (Z (rest, o))|reflexivity]].
    destruct (Find defs _) as [rd|e]; [|apply ONE; [intros rest o; exact (Z (rest, o))|reflexivity]].
    destruct (_ <? 0)%Z; [exact (ONE Panic (fun rest o => Z (rest, o)) I)|].
    destruct (_ =? LinkControlDone)%N; [apply ONE; [intros rest o; exact (Z (rest, o))|reflexivity]|].
    destruct (_ =? LinkControlMoreToFollow)%N; [apply MORE; exact Z|].
    destruct (_ =? N.lor LinkControlContinue LinkControlMoreToFollow)%N; [apply MORE; exact Z|].
    destruct (_ =? LinkControlContinue)%N; [apply ONE; [intros rest o; exact (Z (rest, o))|reflexivity]|apply MORE; exact Z].
  Qed.

  Lemma offer_events rs : forall d, exists evs d' e, happens a d evs d' /\ offer (dev_WriteReport (ch_write a)) (Ret d) rs = (Ret d', e) /\ reads evs = []
    /\ (evs = map (fun r => Taken (report_bytes r)) rs \/ exists x r y, rs = x ++ r :: y /\ evs = map (fun r => Taken (report_bytes r)) x ++ [Refused (report_bytes r)]).
  Proof.
    induction rs as [|r rs IH]; intros d.
    - exists [], d, None. split; [constructor|]. split; [reflexivity|]. split; [reflexivity|now left].
    - destruct (offer_takes a P d r) as (e & O & T). cbn [offer]. rewrite O. destruct e as [e|].
      + exists [Refused (report_bytes r)]. eexists _, (Some e). split; [|split; [reflexivity|split; [reflexivity|right; exists [], r, rs; auto]]].
        apply hp_refused; [|constructor]. intros K. apply tookb_took, T in K. discriminate K.
      + destruct (IH (fst (ch_takes a d (report_bytes r)))) as (evs & d' & e & H & Q & R & S). exists (Taken (report_bytes r) :: evs), d', e.
        split; [apply hp_taken; [apply tookb_took, T; reflexivity|exact H]|]. split; [exact Q|]. split; [exact R|].
        destruct S as [->|(x & r' & y & -> & ->)]; [now left|right]. exists (r :: x), r', y. auto.
  Qed.

  Lemma write_events d f : exists evs d' e, happens a d evs d' /\ WriteFrame_dev defs (ch_write a) d f = done (d', e) /\ reads evs = [] /\ tried evs.
  Proof.
    destruct U as (_ & _ & rd & LO & R). unfold WriteFrame_dev. destruct f as [|b f].
    - rewrite HidThms.write_empty. exists [], d, None. split; [constructor|]. split; [reflexivity|]. split; [reflexivity|]. exists [], []. constructor.
    - destruct (write_segments defs (b :: f) rd (List.length (b :: f)) LO R ltac:(discriminate) ltac:(lia)) as (rs & S & _ & H).
      destruct (offer_events rs d) as (evs & d' & e & E & O & N & C). exists evs, d', e. split; [exact E|]. rewrite H, O. split; [reflexivity|]. split; [exact N|].
      assert (W : forall l, writes (map (fun r => Taken (report_bytes r)) l) = map (fun r => Taken (report_bytes r)) l) by (intros l; unfold writes; induction l as [|r l IH]; [reflexivity|]; cbn [map filter]; now rewrite IH).
      destruct C as [->|(x & r & y & -> & ->)]; unfold tried.
      + exists [b :: f], [b :: f]. rewrite W. rewrite <- (app_nil_r (map _ rs)). apply tries_whole; [exact S|constructor].
      + exists [b :: f], []. rewrite writes_app, W. exact (tries_broken defs (b :: f) x r y [] [] [] S (tries_end defs)).
  Qed.

  Lemma wire_writes f l o : exists o', WriteFrame_dev defs wire_write (l, o) f = done ((l, o'), None).
  Proof.
    destruct U as (_ & _ & rd & LO & R). unfold WriteFrame_dev. destruct f as [|b f].
    - rewrite HidThms.write_empty. eexists. reflexivity.
    - destruct (write_segments defs (b :: f) rd (List.length (b :: f)) LO R ltac:(discriminate) ltac:(lia)) as (rs & _ & _ & H).
      rewrite H, wire_offer. eexists. reflexivity.
  Qed.

  Context {S : Type} (rt : bool) (reg : registry) (clock : nat -> datetime) (dev : DeviceGeneral S) (pol : nat -> nat -> nat -> nat) (fuel2 : nat).
  Notation atp := (mem_transport fuel2 defs pol (ch_read a) (ch_write a)).
  Notation wtp := (mem_transport fuel2 defs pol wire_read wire_write).

  Lemma replies_events cmds : forall mode m d,
    exists evs d1, happens a d evs d1 /\ reads evs = [] /\ tried evs /\
    match write_replies rt atp mode cmds (m, d) with
    | None => False
    | Some Panic => forall l o, write_replies rt wtp mode cmds (m, (l, o)) = Some Panic
    | Some (Ret (mode', (m', d'))) => d' = d1 /\ m' = m /\ forall l o, exists o', write_replies rt wtp mode cmds (m, (l, o)) = done (mode', (m, (l, o')))
    end.
  Proof.
    induction cmds as [|c cmds IH]; intros mode m d; cbn [write_replies].
    - exists [], d. split; [constructor|]. split; [reflexivity|]. split; [exists [], []; constructor|]. repeat split. intros l o. exists o. reflexivity.
    - destruct (MarshalCmd rt mode c) as [[mode' res]|]; cbn [io_bind].
      2:{ exists [], d. split; [constructor|]. split; [reflexivity|]. split; [exists [], []; constructor|]. reflexivity. }
      cbv zeta. destruct (WritePacket _ _) as [f x]. destruct (write_events d f) as (evs & d1 & e & E & W & N & T).
      cbn [mem_transport tp_WriteFrame fst snd]. rewrite W. cbn [io_bind done].
      destruct (IH mode' m d1) as (evs2 & d2 & E2 & N2 & T2 & K). exists (evs ++ evs2), d2. split; [exact (happens_app a _ _ _ E _ _ E2)|].
      split; [rewrite reads_app, N, N2; reflexivity|]. split; [exact (tried_app _ _ T T2)|].
      assert (Z : forall l o, exists o', (go (w', _) <- (go (d', e) <- WriteFrame_dev defs wire_write (l, o) f; done (m, d', e)); write_replies rt wtp mode' cmds w')
                    = write_replies rt wtp mode' cmds (m, (l, o'))).
      { intros l o. destruct (wire_writes f l o) as (o' & Q). exists o'. rewrite Q. reflexivity. }
      destruct (write_replies rt atp mode' cmds (m, d1)) as [[[m2 [m' d']]|]|]; [| |exact K].
      + destruct K as (-> & -> & K). repeat split. intros l o. destruct (Z l o) as (o' & Q). destruct (K l o') as (o2 & Q2). exists o2. exact (eq_trans Q Q2).
      + intros l o. destruct (Z l o) as (o' & Q). exact (eq_trans Q (K l o')).
  Qed.

  Lemma server_reads fuel : forall st m d,
    match processFrames_loop fuel rt reg clock dev atp st (m, d) with
    | None => True
    | Some r => exists evs d1, happens a d evs d1 /\ tried evs
        /\ match r with
           | Panic => forall rest o, processFrames_loop fuel rt reg clock dev wtp st (m, (reads evs ++ rest, o)) = Some Panic
           | Ret (st', (m', d')) => d' = d1 /\ forall rest o, exists o', processFrames_loop fuel rt reg clock dev wtp st (m, (reads evs ++ rest, o)) = done (st', (m', (rest, o')))
           end
    end.
  Proof.
    induction fuel as [|fuel IH]; intros st m d; [exact I|].
    cbn [processFrames_loop mem_transport tp_ReadFrame fst snd]. unfold ReadFrame_mem.
    set (m0 := mkMem (m_heap m) (buf_Reset (m_buf m)) (m_raw m) (m_cert m)).
    pose proof (mem_read_list pol fuel2 m0 d) as R.
    destruct (ReadFrame_mem_loop fuel2 defs pol (ch_read a) m0 d) as [r|]; [|exact I].
    destruct R as (xs & d1 & E & K & L). destruct r as [[[m' d'] r]|]; cbn [io_bind done].
    2:{ exists (map Read xs), d1. split; [exact E|]. split; [apply tried_reads|]. intros rest o. rewrite reads_map.
        exact (f_equal (fun z => io_bind (io_bind z _) _) (K rest o)). }
    subst d'.
    assert (T : forall l o, tp_ReadFrame wtp (m, (xs ++ l, o)) = done ((m', (l, o)), match r with inl s => inl (as_slice (m_heap m') s) | inr e => inr e end)).
    { intros l o. cbn [mem_transport tp_ReadFrame fst snd]. unfold ReadFrame_mem. fold m0. exact (f_equal (fun z => io_bind z _) (K l o)). }
    destruct r as [s|e].
    - set (f := as_slice (m_heap m') s) in *. 
      assert (ZF : forall l o, processFrames_loop (Datatypes.S fuel) rt reg clock dev wtp st (m, (xs ++ l, o))
                 = (go (st', w2) <- process_frame rt reg clock dev wtp st (m', (l, o)) f; processFrames_loop fuel rt reg clock dev wtp st' w2)).
      { intros l o. cbn [processFrames_loop]. rewrite T. reflexivity. }
      unfold process_frame at 1.
      destruct (frame_packets rt reg (sv_mode st) f) as [[[m1 pe]|]|] eqn:FP; cbn [io_bind].
      3: exact I.
      2:{ exists (map Read xs), d1. split; [exact E|]. split; [apply tried_reads|]. intros rest o. rewrite reads_map.
          refine (eq_trans (ZF rest o) _). unfold process_frame. rewrite FP. reflexivity. }
      destruct (handle_all reg clock dev (inCmds pe) (sv_h st)) as [[h1 u]|] eqn:HA; cbn [io_bind].
      2:{ exists (map Read xs), d1. split; [exact E|]. split; [apply tried_reads|]. intros rest o. rewrite reads_map.
          refine (eq_trans (ZF rest o) _). unfold process_frame. rewrite FP. cbn [io_bind]. rewrite HA. reflexivity. }
      destruct (replies_events (outCmds (h_log (sv_h st)) (h_log h1)) m1 m' d1) as (ev2 & d2 & E2 & N2 & T2 & W).
      assert (Z : forall l o, processFrames_loop (Datatypes.S fuel) rt reg clock dev wtp st (m, (xs ++ l, o))
                 = (go (m2, w') <- write_replies rt wtp m1 (outCmds (h_log (sv_h st)) (h_log h1)) (m', (l, o));
                    processFrames_loop fuel rt reg clock dev wtp (mkServer m2 h1) w')).
      { intros l o. cbn [processFrames_loop]. rewrite T. cbn [io_bind done]. unfold process_frame. rewrite FP. cbn [io_bind]. rewrite HA. cbn [io_bind].
        destruct (write_replies rt wtp m1 (outCmds (h_log (sv_h st)) (h_log h1)) (m', (l, o))) as [[[m2 w']|]|]; reflexivity. }
      cbn [processFrames_loop] in Z.
      destruct (write_replies rt atp m1 _ (m', d1)) as [[[m2 [m3 d3]]|]|]; cbn [io_bind done].
      3: contradiction.
      2:{ exists (map Read xs ++ ev2), d2. split; [exact (happens_app a _ _ _ E _ _ E2)|]. split; [exact (tried_app _ _ (tried_reads xs) T2)|].
          intros rest o. rewrite reads_app, reads_map, N2, app_nil_r. refine (eq_trans (Z rest o) _). rewrite W. reflexivity. }
      destruct W as (-> & -> & W). specialize (IH (mkServer m2 h1) m' d2).
      destruct (processFrames_loop fuel rt reg clock dev atp (mkServer m2 h1) (m', d2)) as [r|]; [|exact I].
      destruct IH as (evs & d4 & E4 & T4 & G). exists (map Read xs ++ ev2 ++ evs), d4.
      split; [exact (happens_app a _ _ _ E _ _ (happens_app a _ _ _ E2 _ _ E4))|]. split; [exact (tried_app _ _ (tried_reads xs) (tried_app _ _ T2 T4))|].
      rewrite !reads_app, reads_map, N2. cbn [app].
      destruct r as [[st' [m5 d5]]|].
      + destruct G as (-> & G). split; [reflexivity|]. intros rest o. rewrite <- app_assoc. destruct (W (reads evs ++ rest) o) as (o1 & Q1). destruct (G rest o1) as (o2 & Q2).
        exists o2. refine (eq_trans (Z _ o) _). rewrite Q1. exact Q2.
      + intros rest o. rewrite <- app_assoc. destruct (W (reads evs ++ rest) o) as (o1 & Q1). refine (eq_trans (Z _ o) _). rewrite Q1. exact (G rest o1).
    - assert (Z : forall l o, (go (w1, r) <- tp_ReadFrame wtp (m, (xs ++ l, o));
                      match r with inl inFrame => go (st', w2) <- process_frame rt reg clock dev wtp st w1 inFrame; processFrames_loop fuel rt reg clock dev wtp st' w2
                                 | inr EOF => done (st, w1) | inr _ => processFrames_loop fuel rt reg clock dev wtp st w1 end)
                    = match e with EOF => done (st, (m', (l, o))) | _ => processFrames_loop fuel rt reg clock dev wtp st (m', (l, o)) end).
      { intros l o. rewrite T. reflexivity. }
      assert (NX : match processFrames_loop fuel rt reg clock dev atp st (m', d1) with
          | None => True
          | Some r => e <> EOF -> exists evs d2, happens a d evs d2 /\ tried evs
             /\ match r with
                | Panic => forall rest o, processFrames_loop (Datatypes.S fuel) rt reg clock dev wtp st (m, (reads evs ++ rest, o)) = Some Panic
                | Ret (st', (m', d')) => d' = d2 /\ forall rest o, exists o', processFrames_loop (Datatypes.S fuel) rt reg clock dev wtp st (m, (reads evs ++ rest, o)) = done (st', (m', (rest, o')))
                end end).
      { specialize (IH st m' d1). destruct (processFrames_loop fuel rt reg clock dev atp st (m', d1)) as [r|]; [|exact I]. intros NE.
        destruct IH as (evs & d2 & E2 & T2 & G). exists (map Read xs ++ evs), d2. split; [exact (happens_app a _ _ _ E _ _ E2)|]. split; [exact (tried_app _ _ (tried_reads xs) T2)|].
        assert (Y : forall rest o, processFrames_loop (Datatypes.S fuel) rt reg clock dev wtp st (m, (reads (map Read xs ++ evs) ++ rest, o)) = processFrames_loop fuel rt reg clock dev wtp st (m', (reads evs ++ rest, o))).
        { intros rest o. rewrite reads_app, reads_map, <- app_assoc. refine (eq_trans (Z _ o) _). destruct e; try reflexivity. now elim NE. }
        destruct r as [[st' [m5 d5]]|].
        - destruct G as (-> & G). split; [reflexivity|]. intros rest o. destruct (G rest o) as (o' & Q). exists o'. exact (eq_trans (Y rest o) Q).
        - intros rest o. exact (eq_trans (Y rest o) (G rest o)). }
      destruct e; try (destruct (processFrames_loop fuel rt reg clock dev atp st (m', d1)) as [r|]; [exact (NX ltac:(discriminate))|exact I]).
      exists (map Read xs), d1. split; [exact E|]. split; [apply tried_reads|]. split; [reflexivity|]. intros rest o. exists o. rewrite reads_map. exact (Z rest o).
  Qed.
End Reads.

(** ** The end of a recording *)

Lemma readmsg_end r m r' m' : ReadMsg r m = (r', m', Some EOF) -> rd_err r' = Some EOF.
Proof.
  unfold ReadMsg. destruct (rd_err r) as [e|] eqn:E.
  - intros H. injection H as <- <- ->. exact E.
  - generalize (rd_tokens r) as l. induction l as [|t l IH]; cbn [ReadMsg_loop].
    + intros H. injection H as <- <- ->. reflexivity.
    + destruct t as [|b t]; [exact IH|]. destruct (Msg_UnmarshalText m (b :: t)) as [m1 [e|]] eqn:Q; intros H; [|discriminate H].
      injection H as <- <- ->. now elim (unmarshal_not_end _ _ _ _ Q).
Qed.

Lemma replay_ended r r' b : replay_read r = done (r', (b, Some EOF)) -> rd_err r' = Some EOF.
Proof.
  unfold replay_read, dir_Read. generalize (Datatypes.S (List.length (rd_tokens r))) as fuel. intros fuel. revert r.
  induction fuel as [|fuel IH]; intros r; cbn [dir_Read_loop]; [discriminate|].
  destruct (ReadMsg r (mkMsg 0 0 [])) as [[r1 m1] [e|]] eqn:Q.
  - intros H. injection H as <- <- ->. exact (readmsg_end _ _ _ _ Q).
  - destruct (negb _); [apply IH|]. intros H. discriminate H.
Qed.

Lemma replay_after r : rd_err r = Some EOF -> replay_read r = done (r, ([], Some EOF)).
Proof. intros E. unfold replay_read, dir_Read. cbn [dir_Read_loop]. unfold ReadMsg. rewrite E. reflexivity. Qed.

(** A device that gives these reads, and the reader of the recording. *)
Definition alike_reads (w : wire) (r : Reader) : Prop :=
  (exists xs fin ls i, fst w = map as_read xs ++ fin /\ (fin = [] \/ fin = [([], Some EOF)]) /\ ~ In None xs /\ r = at_line ls i /\ incoming ls xs)
  \/ (fst w = [] /\ rd_err r = Some EOF).

Lemma alike_read w r : alike_reads w r -> compare (wire_read w) (replay_read r) (fun x y => alike_reads (fst x) (fst y) /\ snd x = snd y).
Proof.
  destruct w as [l o]. intros [(xs & fin & ls & i & E & F & N & -> & I)|[E R]]; cbn [fst] in E; subst l.
  - pose proof (replay_next ls xs I i) as NX. destruct xs as [|[d|] xs]; cbn [next_read map app] in *.
    + destruct NX as (r' & Q). pose proof (replay_ended _ _ _ Q) as EN. rewrite Q. destruct F as [->| ->]; cbn [wire_read fst snd compare done]; (split; [right; auto|reflexivity]).
    + destruct NX as (ls' & i' & Q & I'). rewrite Q. cbn [wire_read fst snd compare done]. split; [|reflexivity]. left. exists xs, fin, ls', i'. split; [reflexivity|].
      split; [exact F|]. split; [intros X; apply N; now right|]. auto.
    + elim N. now left.
  - rewrite (replay_after r R). cbn [wire_read fst snd compare done]. split; [right; auto|reflexivity].
Qed.

Lemma alike_write w r p : alike_reads w r -> compare (Some (wire_write w p)) (Some (discard r p)) (fun x y => alike_reads (fst x) (fst y) /\ snd x = snd y).
Proof. intros A. cbn [wire_write discard compare fst snd]. split; [exact A|reflexivity]. Qed.
