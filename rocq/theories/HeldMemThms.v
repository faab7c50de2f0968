(** Lemmas on the capacity of the decoder's buffer. *)
From Coq Require Import ZifyBool ZifyNat ZifyN Lia.
From Verif Require Import Mem MemFacts SpecMem MemThms MemServer Base BaseFacts GoTypes Types Payload Lingo Command Handlers Packet Hid SpecHid Server SpecHeldMem SpecWire.

Section Grow.
  Context (pol : nat -> nat -> nat -> nat) (a : nat) (A1 : 1 <= a) (G : forall c l n, pol c l n <= Nat.max 64 (a * (c + n))).
  Context (B K : nat) (KB : Nat.max 64 (2 * a * B) <= K).

  Lemma write_capacity h b p h' b' : buf_ok h b -> bf_len b + List.length p <= B -> List.length (array h (bf_arr b)) <= K ->
    buf_Write pol h b p = (h', b') -> List.length (array h (bf_arr b)) <= List.length (array h' (bf_arr b')) <= K.
  Proof using A1 G KB.
    intros [O1 O2] L C W. unfold buf_Write in W.
    destruct (Nat.leb_spec (bf_len b + List.length p) (List.length (array h (bf_arr b)))) as [F|F]; injection W as <- <-; cbn [bf_arr].
    - rewrite array_store_same by exact O1. rewrite overwrite_length by exact F. split; [lia|exact C].
    - rewrite array_new, !app_length, firstn_length, repeat_length.
      specialize (G (List.length (array h (bf_arr b))) (bf_len b) (List.length p)).
      assert (a * (List.length (array h (bf_arr b)) + List.length p) <= 2 * a * B) by nia. assert (B <= 2 * a * B) by nia. lia.
  Qed.

  Lemma read_capacity defs : forall fuel m ins outs m' ins' outs' r cur,
    mem_ok m -> bf_len (m_buf m) <= cur -> within B cur ins -> capacity m <= K ->
    ReadFrame_mem_loop fuel defs pol wire_read m (ins, outs) = done (m', (ins', outs'), r) ->
    capacity m <= capacity m' <= K /\ exists cur', within B cur' ins'.
  Proof using A1 G KB.
    induction fuel as [|fuel IH]; intros m ins outs m' ins' outs' r cur M L W C; [discriminate|]. cbn [ReadFrame_mem_loop].
    pose proof M as ((B1 & B2) & (C1 & C2) & R1 & R2 & D1 & D2 & D3).
    destruct ins as [|got ins].
    { cbn. intros E. injection E as <- <- <- <-. split; [|exists 0; exact I]. unfold capacity in *. cbn [m_heap m_buf]. rewrite array_store_other by congruence. split; [lia|exact C]. }
    cbn [wire_read fst snd io_bind done].
    destruct (ReadReport_mem_eq (m_heap m) (m_raw m) got R1 R2) as (h1 & rep & E & L1 & O & A & R). rewrite E.
    assert (CE : capacity (mkMem h1 (m_buf m) (m_raw m) (m_cert m)) = capacity m) by (unfold capacity; cbn [m_heap m_buf]; now rewrite O by congruence).
    assert (C' : capacity m <= capacity (mkMem h1 (m_buf m) (m_raw m) (m_cert m)) <= K) by lia.
    cbn [within] in W. destruct W as [WB W].
    assert (M1 : mem_ok (mkMem h1 (m_buf m) (m_raw m) (m_cert m))).
    { unfold mem_ok, buf_ok. cbn [m_heap m_buf m_raw m_cert]. rewrite L1, !O by congruence. auto 10. }
    destruct rep as [p|e], (ReadReport got) as [q|e'] eqn:RR; try contradiction.
    2:{ intros X. injection X as <- <- <- <-. split; [exact C'|]. eexists. exact W. }
    destruct R as (E1 & E2 & E3 & E4 & E5 & E6).
    destruct (Find defs (Z.of_N (b2n (rr_ID p)))) as [def|e]; [|intros X; injection X as <- <- <- <-; split; [exact C'|eexists; exact W]].
    cbv zeta. destruct (Z.min (Z.of_nat (rf_len (rr_Data p))) (MaxPayload def) <? 0)%Z eqn:N; [discriminate|].
    match goal with |- context [load h1 ?x] => set (reportData := load h1 x) end.
    assert (SZ : List.length reportData + 2 <= List.length (fst got) /\ ends_frame got = ((b2n (rr_LinkControl p) =? 0) || (b2n (rr_LinkControl p) =? 1))%N%bool).
    { destruct got as [g [e|]]; [discriminate RR|]. unfold ReadReport in RR. assert (FL : List.length (firstn maxRawSize g) <= List.length g) by (rewrite firstn_length; lia).
      pose proof (firstn_skipn maxRawSize g) as FS.
      destruct (firstn maxRawSize g) as [|x0 [|x1 [|x2 g']]] eqn:FG; try discriminate RR. injection RR as <-. cbn [rep_ID rep_LinkControl rep_Data] in *.
      split.
      - cbn [fst]. assert (List.length reportData <= rf_len (rr_Data p)).
        { unfold reportData, load. cbn [rf_arr rf_off rf_len]. rewrite firstn_length. lia. }
        rewrite E5 in H. cbn [List.length] in *. set (k := List.length reportData) in *. clearbody k. lia.
      - rewrite E2. rewrite <- FS. cbn [app ends_frame]. destruct x1; reflexivity. }
    destruct SZ as [SZ EF]. clearbody reportData.
    assert (WR : forall b, b = m_buf m \/ b = buf_Reset (m_buf m) ->
            let m2 := (let '(h2, b2) := buf_Write pol h1 b reportData in mkMem h2 b2 (m_raw m) (m_cert m)) in
            mem_ok m2 /\ capacity m <= capacity m2 <= K /\ bf_len (m_buf m2) <= cur + List.length (fst got)).
    { intros b Hb. destruct (buf_Write pol h1 b reportData) as [h2 b2] eqn:WB2. cbv zeta.
      assert (Bo : buf_ok h1 b) by (destruct Hb as [-> | ->]; [|apply buf_Reset_ok]; exact (proj1 M1)).
      assert (bf_len b <= cur) by (destruct Hb as [-> | ->]; cbn; lia).
      split; [exact (proj1 (write_step pol m h1 b reportData h2 b2 M L1 O A Hb WB2))|]. split.
      - assert (BA : bf_arr b = bf_arr (m_buf m)) by (destruct Hb as [-> | ->]; reflexivity).
        pose proof (write_capacity h1 b reportData h2 b2 Bo ltac:(lia)) as Z. rewrite BA in Z. change (List.length (array h1 (bf_arr (m_buf m)))) with (capacity (mkMem h1 (m_buf m) (m_raw m) (m_cert m))) in Z.
        specialize (Z ltac:(lia) WB2). unfold capacity in *. cbn [m_heap m_buf] in *. lia.
      - cbn [m_buf]. destruct (buf_Write_spec pol h1 b reportData h2 b2 Bo WB2) as (_ & _ & -> & _). lia. }
    destruct (WR (m_buf m) (or_introl eq_refl)) as (P1 & P2 & P3). destruct (WR (buf_Reset (m_buf m)) (or_intror eq_refl)) as (Q1 & Q2 & Q3). clear WR.
    unfold LinkControlDone, LinkControlContinue, LinkControlMoreToFollow in *.
    destruct (b2n (rr_LinkControl p) =? 0)%N eqn:LC0.
    { intros X. injection X as <- <- <- <-. split; [exact Q2|]. eexists. exact W. }
    destruct (b2n (rr_LinkControl p) =? 2)%N eqn:LC2.
    { assert (EF' : ends_frame got = false) by (rewrite EF; lia). rewrite EF' in W. intros X. destruct (IH _ _ _ _ _ _ _ _ Q1 Q3 W (proj2 Q2) X) as [Y Z]. split; [lia|exact Z]. }
    destruct (b2n (rr_LinkControl p) =? N.lor 1 2)%N eqn:LC3.
    { assert (EF' : ends_frame got = false) by (rewrite EF; change (N.lor 1 2) with 3%N in LC3; lia). rewrite EF' in W. intros X. destruct (IH _ _ _ _ _ _ _ _ P1 P3 W (proj2 P2) X) as [Y Z]. split; [lia|exact Z]. }
    destruct (b2n (rr_LinkControl p) =? 1)%N eqn:LC1.
    { intros X. injection X as <- <- <- <-. split; [exact P2|]. eexists. exact W. }
    assert (EF' : ends_frame got = false) by (rewrite EF; lia). rewrite EF' in W. intros X. destruct (IH _ _ _ _ _ _ _ (cur + List.length (fst got)) M1 ltac:(cbn [m_buf]; lia) W (proj2 C') X) as [Y Z]. split; [lia|exact Z].
  Qed.

  Context {S : Type} (rt : bool) (reg : registry) (clock : nat -> datetime) (dev : DeviceGeneral S) (fuel2 : nat) (defs : list ReportDef).

  Lemma write_keeps data : forall fuel d o n d' e,
    WriteFrame_loop fuel defs (dev_WriteReport wire_write) (Ret d) data o n = Some (Ret (d', e)) -> exists d1, d' = Ret d1 /\ fst d1 = fst d.
  Proof using.
    induction fuel as [|fuel IH]; intros d o n d' e; cbn [WriteFrame_loop]; (destruct (n <=? 0)%Z; [intros E; injection E as <- <-; eauto|]); [discriminate|].
    destruct (Pick defs n ReportDirAccIn) as [rdf|x]; [|intros E; injection E as <- <-; eauto]. cbv zeta. destruct (_ <? 0)%Z; [discriminate|].
    match goal with |- context [dev_WriteReport wire_write (Ret d) ?r] => assert (X : dev_WriteReport wire_write (Ret d) r = (Ret (fst d, snd d ++ [rep_ID r :: rep_LinkControl r :: rep_Data r]), None)) end.
    { unfold dev_WriteReport, WriteReport, raw_Write, wire_write. cbn [bind]. rewrite Nat.ltb_irrefl, Nat.eqb_refl. reflexivity. }
    rewrite X. intros E. apply IH in E. destruct E as (d1 & -> & F). exists d1. split; [reflexivity|exact F].
  Qed.

  Lemma replies_keep cmds : forall mode m ins outs mode' m' ins' outs',
    write_replies rt (mem_transport fuel2 defs pol wire_read wire_write) mode cmds (m, (ins, outs)) = done (mode', (m', (ins', outs'))) -> m' = m /\ ins' = ins.
  Proof using.
    induction cmds as [|c cmds IH]; intros mode m ins outs mode' m' ins' outs'; cbn [write_replies].
    - unfold done. intros E. injection E as <- <- <- <-. auto.
    - destruct (MarshalCmd rt mode c) as [[mode1 res]|]; cbn [io_bind]; [|discriminate].
      destruct (WritePacket NewPacketWriter (match res with Ok b => b | Err _ => [] end)) as [outFrame ?].
      cbn [mem_transport tp_WriteFrame fst snd]. unfold WriteFrame_dev, WriteFrame.
      match goal with |- context [@WriteFrame_loop ?T ?f ?a ?w ?s ?d ?o ?n] => destruct (@WriteFrame_loop T f a w s d o n) as [[[o1 e1]|]|] eqn:WF end; cbn [io_bind]; try discriminate.
      apply write_keeps in WF. destruct WF as ([ins1 outs1] & -> & F). cbn [fst] in F. subst ins1. cbn [io_bind done]. intros E. exact (IH _ _ _ _ _ _ _ _ E).
  Qed.

  Lemma session_capacity : forall fuel st m ins outs st' m' d' cur,
    mem_ok m -> within B cur ins -> capacity m <= K ->
    processFrames_loop fuel rt reg clock dev (mem_transport fuel2 defs pol wire_read wire_write) st (m, (ins, outs)) = done (st', (m', d')) ->
    capacity m <= capacity m' <= K.
  Proof using A1 G KB.
    induction fuel as [|fuel IH]; intros st m ins outs st' m' d' cur M W C; [discriminate|]. cbn [processFrames_loop].
    cbn [mem_transport tp_ReadFrame fst snd]. fold (mem_transport fuel2 defs pol wire_read wire_write).
    pose proof (ReadFrame_mem_ok fuel2 defs pol wire_read m (ins, outs) M) as F.
    destruct (ReadFrame_mem fuel2 defs pol wire_read m (ins, outs)) as [[[[m1 [ins1 outs1]] r]|]|] eqn:RF; cbn [io_bind done]; try discriminate.
    assert (M1 : mem_ok m1).
    { unfold frame_result in F. destruct (ReadFrame_dev fuel2 defs wire_read [] (ins, outs)) as [[[d1 r1]|]|]; try discriminate F. destruct F as (x & y & X & MX & _). unfold done in X. injection X as <- _ _. exact MX. }
    unfold ReadFrame_mem in RF.
    destruct (read_capacity defs fuel2 (mkMem (m_heap m) (buf_Reset (m_buf m)) (m_raw m) (m_cert m)) ins outs m1 ins1 outs1 r cur) as [C1 [cur1 W1]]; [|cbn; lia|exact W|exact C|exact RF|change (capacity m <= capacity m1 <= K) in C1].
    { destruct M as (Bo & Z). unfold mem_ok. cbn [m_heap m_buf m_raw m_cert]. split; [exact (buf_Reset_ok _ _ Bo)|exact Z]. }
    destruct r as [s|e].
    - unfold process_frame. destruct (frame_packets rt reg (sv_mode st) _) as [[[mode1 evs]|]|]; cbn [io_bind]; try discriminate.
      destruct (handle_all reg clock dev (inCmds evs) (sv_h st)) as [[h1 u]|]; cbn [io_bind]; [|discriminate].
      match goal with |- context [write_replies rt ?t mode1 ?c ?w] => destruct (write_replies rt t mode1 c w) as [[[mode2 [m2 [ins2 outs2]]]|]|] eqn:WR end; cbn [io_bind done]; try discriminate.
      apply replies_keep in WR. destruct WR as [-> ->]. intros E. pose proof (IH _ _ _ _ _ _ _ cur1 M1 W1 (proj2 C1) E). lia.
    - destruct e; try (intros E; pose proof (IH _ _ _ _ _ _ _ cur1 M1 W1 (proj2 C1) E); lia). unfold done. intros E. injection E as _ <- _. exact C1.
  Qed.
End Grow.
