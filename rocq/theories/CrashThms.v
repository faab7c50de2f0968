(** Crashes of recorded sessions. *)
From Coq Require Import ZifyBool ZifyNat ZifyN Lia.
From Verif Require Import Base BaseFacts GoTypes Types Payload Lingo Command SpecPayload SpecCommand
  Handlers SpecHandlers Packet SpecPacket Hid SpecHid HidFacts HidThms Trace SpecTrace TraceFacts TraceThms
  TraceSessions Server SpecServer SessionThms ServerThms ServerProps SpecSession.
#[local] Opaque std_registry.

(** ** Rounds and the loop *)

Lemma rounds_loop {S W} rt reg clock (g : DeviceGeneral S) (tp : transport W) st w st' w' :
  rounds rt reg clock g tp st w st' w' ->
  exists k, forall fuel, processFrames_loop (k + fuel) rt reg clock g tp st w = processFrames_loop fuel rt reg clock g tp st' w'.
Proof.
  induction 1 as [st w|st w st1 w1 w2 e _ IH R N|st w st1 w1 w2 fr st2 w3 _ IH R P].
  - exists 0. reflexivity.
  - destruct IH as (k & IH). exists (Datatypes.S k). intros fuel.
    replace (Datatypes.S k + fuel) with (k + Datatypes.S fuel) by lia. rewrite IH. cbn [processFrames_loop]. rewrite R.
    cbn [io_bind done]. destruct e; congruence.
  - destruct IH as (k & IH). exists (Datatypes.S k). intros fuel.
    replace (Datatypes.S k + fuel) with (k + Datatypes.S fuel) by lia. rewrite IH. cbn [processFrames_loop]. rewrite R.
    cbn [io_bind done]. rewrite P. reflexivity.
Qed.

Lemma rounds_trans {S W} rt reg clock (g : DeviceGeneral S) (tp : transport W) st w st1 w1 st' w' :
  rounds rt reg clock g tp st w st1 w1 -> rounds rt reg clock g tp st1 w1 st' w' -> rounds rt reg clock g tp st w st' w'.
Proof.
  intros A B. induction B as [st1 w1|st1 w1 st2 w2 w3 e _ IH R N|st1 w1 st2 w2 w3 fr st3 w4 _ IH R P]; [exact A|..].
  - eapply rounds_error; [exact (IH A)|exact R|exact N].
  - eapply rounds_frame; [exact (IH A)|exact R|exact P].
Qed.

Lemma crash_at_loop {S W} rt reg clock (g : DeviceGeneral S) (tp : transport W) h w w' :
  crashes_at rt reg clock g tp h w w' -> exists fuel, processFrames fuel rt reg clock g tp h w = Some Panic.
Proof.
  intros (st & w1 & fr & R & RF & P). destruct (rounds_loop _ _ _ _ _ _ _ _ _ R) as (k & E).
  exists (k + 1). unfold processFrames. rewrite E. cbn [processFrames_loop]. rewrite RF. cbn [io_bind done]. now rewrite P.
Qed.

Lemma loop_crash_at {S W} rt reg clock (g : DeviceGeneral S) (tp : transport W) : (forall w, tp_ReadFrame tp w <> Some Panic) ->
  forall fuel st w, processFrames_loop fuel rt reg clock g tp st w = Some Panic ->
  exists st' w1 fr w', rounds rt reg clock g tp st w st' w1
    /\ tp_ReadFrame tp w1 = done (w', inl fr) /\ process_frame rt reg clock g tp st' w' fr = Some Panic.
Proof.
  intros NP. induction fuel as [|fuel IH]; intros st w E; [discriminate|]. cbn [processFrames_loop] in E.
  destruct (tp_ReadFrame tp w) as [[[w1 r]|]|] eqn:R; cbn [io_bind] in E; [|now apply NP in R|discriminate].
  destruct r as [fr|e].
  - destruct (process_frame rt reg clock g tp st w1 fr) as [[[st1 w2]|]|] eqn:P; cbn [io_bind] in E; [| |discriminate].
    + destruct (IH _ _ E) as (st' & wa & fa & wb & A & B & C). exists st', wa, fa, wb. split; [|auto].
      eapply rounds_trans; [|exact A]. eapply rounds_frame; [apply rounds_none|exact R|exact P].
    + exists st, w, fr, w1. split; [apply rounds_none|]. split; [exact R|exact P].
  - assert (X : e = EOF \/ e <> EOF) by (destruct e; [left; reflexivity|right; discriminate..]).
    destruct X as [-> |N]; [discriminate|].
    assert (E' : processFrames_loop fuel rt reg clock g tp st w1 = Some Panic) by (destruct e; congruence).
    destruct (IH _ _ E') as (st' & wa & fa & wb & A & B & C). exists st', wa, fa, wb. split; [|auto].
    eapply rounds_trans; [|exact A]. eapply rounds_error; [apply rounds_none|exact R|exact N].
Qed.

(** ** Transports that do the same *)

Lemma inr_eof (e : goerr) : e <> EOF -> (inr e : slice + goerr) <> inr EOF.
Proof. congruence. Qed.

Section Sim.
  Context {S W1 W2 : Type}.
  Context (tp1 : transport W1) (tp2 : transport W2) (R : W1 -> W2 -> Prop).
  Context (HW : forall w1 w2 f w1' e, R w1 w2 -> tp_WriteFrame tp1 w1 f = Some (Ret (w1', e)) ->
                  exists w2' e', tp_WriteFrame tp2 w2 f = Some (Ret (w2', e')) /\ R w1' w2').

  Lemma write_replies_panic rt cs : (forall w f, tp_WriteFrame tp1 w f <> Some Panic) -> forall m w1 w2, R w1 w2 ->
    write_replies rt tp1 m cs w1 = Some Panic -> write_replies rt tp2 m cs w2 = Some Panic.
  Proof.
    intros NP. induction cs as [|c cs IH]; intros m w1 w2 H E; cbn [write_replies] in *; [discriminate|].
    destruct (MarshalCmd rt m c) as [[m1 res]|]; cbn [io_bind] in *; [|reflexivity].
    destruct (WritePacket NewPacketWriter match res with Ok b => b | Err _ => [] end) as [fr er].
    destruct (tp_WriteFrame tp1 w1 fr) as [[[wa ea]|]|] eqn:F; cbn [io_bind] in E; [|now apply NP in F|discriminate].
    destruct (HW _ _ _ _ _ H F) as (wb & eb & F2 & H2). rewrite F2. cbn [io_bind]. exact (IH _ _ _ H2 E).
  Qed.

  Lemma process_frame_panic rt reg clock (dev : DeviceGeneral S) st fr w1 w2 : (forall w f, tp_WriteFrame tp1 w f <> Some Panic) ->
    R w1 w2 -> process_frame rt reg clock dev tp1 st w1 fr = Some Panic -> process_frame rt reg clock dev tp2 st w2 fr = Some Panic.
  Proof.
    intros NP H E. unfold process_frame in *.
    destruct (frame_packets rt reg (sv_mode st) fr) as [[[m1 evs]|]|]; cbn [io_bind] in *; [|reflexivity|discriminate].
    destruct (handle_all reg clock dev (inCmds evs) (sv_h st)) as [[h1 u]|]; cbn [io_bind] in *; [|reflexivity].
    destruct (write_replies rt tp1 m1 (outCmds (h_log (sv_h st)) (h_log h1)) w1) as [[[m2 wa]|]|] eqn:F;
      cbn [io_bind done] in E; [discriminate| |discriminate].
    rewrite (write_replies_panic rt _ NP m1 w1 w2 H F). reflexivity.
  Qed.

  Context (HR : forall w1 w2 w1' r, R w1 w2 -> r <> inr EOF -> tp_ReadFrame tp1 w1 = Some (Ret (w1', r)) ->
                  exists w2', tp_ReadFrame tp2 w2 = Some (Ret (w2', r)) /\ R w1' w2').

  Lemma rounds_sim rt reg clock (dev : DeviceGeneral S) st w1 st' w1' : rounds rt reg clock dev tp1 st w1 st' w1' ->
    forall w2, R w1 w2 -> exists w2', rounds rt reg clock dev tp2 st w2 st' w2' /\ R w1' w2'.
  Proof.
    induction 1 as [st w|st w sta wa wb e _ IH RF N|st w sta wa wb fr stb wc _ IH RF P]; intros w2 H.
    - exists w2. split; [apply rounds_none|exact H].
    - destruct (IH w2 H) as (wx & RX & HX).
      destruct (HR _ _ _ (inr e) HX (inr_eof e N) RF) as (wy & RY & HY). exists wy. split; [|exact HY].
      eapply rounds_error; [exact RX|exact RY|exact N].
    - destruct (IH w2 H) as (wx & RX & HX).
      destruct (HR _ _ _ (inl fr) HX ltac:(discriminate) RF) as (wy & RY & HY).
      destruct (process_frame_sim tp1 tp2 R HW _ _ _ _ _ _ _ _ _ _ HY P) as (wz & PZ & HZ).
      exists wz. split; [|exact HZ]. eapply rounds_frame; [exact RX|exact RY|exact PZ].
  Qed.
End Sim.

(** ** The traced rounds and the list of their reads *)

(** Writes of the traced transport, as operations on the device. *)
Definition wrote {S} (dev : io_rw S) (d d' : S * bytes) : Prop :=
  exists ops rs, run_tracer append_file dev d ops = Ret (d', rs) /\ to_reads rs = [] /\ Forall fit ops.

Lemma wrote_refl {S} (dev : io_rw S) d : wrote dev d d.
Proof. exists [], []. repeat split; apply Forall_nil. Qed.

(** One answered frame. *)
Lemma frame_listed {S DS} rt reg clock (g : DeviceGeneral DS) (dev : io_rw S) fuel2 defs spares st d n out fr st1 w2 :
  usable defs -> narrow defs ->
  process_frame rt reg clock g (traced fuel2 defs spares dev) st ((d, n), out) fr = Some (Ret (st1, w2)) ->
  exists d2 out2, w2 = ((d2, n), out2) /\ wrote dev d d2
    /\ forall l, process_frame rt reg clock g (listed fuel2 defs spares) st ((l, n), out) fr = Some (Ret (st1, ((l, n), out2))).
Proof.
  intros U NR PF. destruct w2 as [[d2 n2] out2].
  pose (R := fun (l : list raw_read) (w1 : ((S * bytes) * nat) * list bytes) (w2 : (list raw_read * nat) * list bytes) =>
               wrote dev d (fst (fst w1)) /\ snd (fst w1) = n /\ w2 = ((l, n), snd w1)).
  assert (SIM : forall l, exists w2', process_frame rt reg clock g (listed fuel2 defs spares) st ((l, n), out) fr
                    = Some (Ret (st1, w2')) /\ R l ((d2, n2), out2) w2').
  { intros l. eapply (process_frame_sim (traced fuel2 defs spares dev) (listed fuel2 defs spares) (R l)); [| |exact PF].
    - intros [[da na] oa] w2 f w1' e ((ops1 & rs1 & R1 & T1 & F1) & Hn & ->) W. cbn [fst snd] in *. subst na.
      unfold traced in W. cbn [recording tp_WriteFrame hid_transport fst snd] in W.
      destruct (WriteFrame_dev defs (tracer_Write append_file dev) da f) as [[[db eb]|]|] eqn:WF;
        cbn [io_bind done] in W; try discriminate. injection W as <- <-.
      destruct (write_traced dev defs da f db eb U NR WF) as (ops3 & rs3 & R3 & T3 & F3).
      exists ((l, n), oa ++ [f]), None. split.
      + unfold listed. cbn [recording tp_WriteFrame hid_transport fst snd]. rewrite (write_discard defs l f U). reflexivity.
      + unfold R. cbn [fst snd]. split; [|split; reflexivity].
        exists (ops1 ++ ops3), (rs1 ++ rs3). split; [exact (run_tracer_join _ _ _ _ _ _ _ _ _ R1 R3)|].
        split; [rewrite to_reads_app, T1, T3; reflexivity|]. apply Forall_app. split; assumption.
    - unfold R. cbn [fst snd]. split; [apply wrote_refl|split; reflexivity]. }
  destruct (SIM []) as (_ & _ & (W & Hn & _)). cbn [fst snd] in W, Hn. subst n2.
  exists d2, out2. split; [reflexivity|]. split; [exact W|].
  intros l. destruct (SIM l) as (w2' & P & (_ & _ & ->)). exact P.
Qed.

(** One frame read. *)
Lemma read_listed {S} (dev : io_rw S) fuel2 defs spares d n out w2 r : clean dev -> r <> inr EOF ->
  tp_ReadFrame (traced fuel2 defs spares dev) ((d, n), out) = Some (Ret (w2, r)) ->
  exists d2 ops rs ds, w2 = ((d2, Datatypes.S n), out)
    /\ run_tracer append_file dev d ops = Ret (d2, rs) /\ Forall fit ops /\ Forall (fun x => x <> []) ds
    /\ to_reads rs = map good_data ds
    /\ forall rest, tp_ReadFrame (listed fuel2 defs spares) ((to_reads rs ++ rest, n), out) = Some (Ret (((rest, Datatypes.S n), out), r)).
Proof.
  intros C NE RF. unfold traced in RF. cbn [recording tp_ReadFrame hid_transport fst snd] in RF.
  destruct (ReadFrame_dev fuel2 defs (traced_read append_file dev) [] d) as [[[d1 r1]|]|] eqn:E; cbn [io_bind done] in RF;
    try discriminate.
  destruct (read_traced dev defs fuel2 C [] d d1 r1 E) as (k & rs & ds & RT & ND & RL & Q).
  injection RF as <- <-.
  exists d1, (repeat (OpRead maxRawSize) k), rs, ds. split; [reflexivity|]. split; [exact RT|]. split; [apply fit_reads|].
  split; [exact ND|]. split.
  - destruct Q as [[_ Q]|[-> _]]; [exact Q|congruence].
  - intros rest. unfold listed. cbn [recording tp_ReadFrame hid_transport fst snd]. rewrite RL. reflexivity.
Qed.

Lemma rounds_listed {S DS} rt reg clock (g : DeviceGeneral DS) (dev : io_rw S) fuel2 defs spares st0 d0 n0 out0 st w :
  usable defs -> narrow defs -> clean dev ->
  rounds rt reg clock g (traced fuel2 defs spares dev) st0 ((d0, n0), out0) st w ->
  exists d n out ops rs ds, w = ((d, n), out)
    /\ run_tracer append_file dev d0 ops = Ret (d, rs) /\ Forall fit ops /\ Forall (fun b => b <> []) ds
    /\ to_reads rs = map good_data ds
    /\ forall rest, rounds rt reg clock g (listed fuel2 defs spares) st0 ((to_reads rs ++ rest, n0), out0) st ((rest, n), out).
Proof.
  intros U NR C H. remember ((d0, n0), out0) as w0 eqn:E0.
  induction H as [st w|st w st1 w1 w2 e _ IH RF N|st w st1 w1 w2 fr st2 w3 _ IH RF P].
  - exists d0, n0, out0, [], [], []. split; [exact E0|]. split; [reflexivity|]. split; [apply Forall_nil|].
    split; [apply Forall_nil|]. split; [reflexivity|]. intros rest. apply rounds_none.
  - destruct (IH E0) as (d & n & out & ops & rs & ds & -> & RT & F & ND & TR & RL).
    destruct (read_listed dev fuel2 defs spares d n out w2 (inr e) C (inr_eof e N) RF)
      as (d2 & ops2 & rs2 & ds2 & -> & RT2 & F2 & ND2 & TR2 & RL2).
    exists d2, (Datatypes.S n), out, (ops ++ ops2), (rs ++ rs2), (ds ++ ds2). split; [reflexivity|].
    split; [exact (run_tracer_join _ _ _ _ _ _ _ _ _ RT RT2)|]. split; [apply Forall_app; split; assumption|].
    split; [apply Forall_app; split; assumption|]. split; [now rewrite to_reads_app, map_app, TR, TR2|].
    intros rest. rewrite to_reads_app, <- app_assoc. eapply rounds_error; [apply RL|apply RL2|exact N].
  - destruct (IH E0) as (d & n & out & ops & rs & ds & -> & RT & F & ND & TR & RL).
    destruct (read_listed dev fuel2 defs spares d n out w2 (inl fr) C ltac:(discriminate) RF)
      as (d2 & ops2 & rs2 & ds2 & -> & RT2 & F2 & ND2 & TR2 & RL2).
    destruct (frame_listed _ _ _ _ _ _ _ _ _ _ _ _ _ _ _ U NR P) as (d3 & out3 & -> & (ops3 & rs3 & RT3 & TR3 & F3) & PL).
    exists d3, (Datatypes.S n), out3, (ops ++ ops2 ++ ops3), (rs ++ rs2 ++ rs3), (ds ++ ds2). split; [reflexivity|].
    split; [exact (run_tracer_join _ _ _ _ _ _ _ _ _ RT (run_tracer_join _ _ _ _ _ _ _ _ _ RT2 RT3))|].
    split; [repeat (apply Forall_app; split); assumption|].
    split; [apply Forall_app; split; assumption|]. split; [now rewrite !to_reads_app, map_app, TR, TR2, TR3, app_nil_r|].
    intros rest. rewrite !to_reads_app, TR3, app_nil_r, <- app_assoc.
    eapply rounds_frame; [apply RL|apply RL2|apply PL].
Qed.

(** ** The list of reads and the replay *)

Definition same_input (w1 : (list raw_read * nat) * list bytes) (w2 : (Reader * nat) * list bytes) : Prop :=
  (exists ds0, fst (fst w1) = map good_data ds0 ++ [([], Some EOF)] /\ replays (fst (fst w2)) ds0)
  /\ snd (fst w1) = snd (fst w2) /\ snd w1 = snd w2.

Lemma same_write fuel2 defs spares : usable defs -> forall w1 w2 f w1' e, same_input w1 w2 ->
  tp_WriteFrame (listed fuel2 defs spares) w1 f = Some (Ret (w1', e)) ->
  exists w2' e', tp_WriteFrame (replayed fuel2 defs spares) w2 f = Some (Ret (w2', e')) /\ same_input w1' w2'.
Proof.
  intros U [[l a] o] [[q b] p] f w1' e ((ds0 & X & Y) & P & Q) W. cbn [fst snd] in *. subst b p.
  unfold listed in W. cbn [recording tp_WriteFrame hid_transport fst snd] in W.
  rewrite (write_discard defs l f U) in W. cbn [io_bind done] in W. injection W as <- <-.
  unfold replayed. cbn [recording tp_WriteFrame hid_transport fst snd]. rewrite (write_discard defs q f U).
  cbn [io_bind done]. eexists _, _. split; [reflexivity|]. unfold same_input. cbn [fst snd]. split; [exists ds0; auto|auto].
Qed.

Lemma same_read fuel2 defs spares : forall w1 w2 w1' r, same_input w1 w2 -> r <> inr EOF ->
  tp_ReadFrame (listed fuel2 defs spares) w1 = Some (Ret (w1', r)) ->
  exists w2', tp_ReadFrame (replayed fuel2 defs spares) w2 = Some (Ret (w2', r)) /\ same_input w1' w2'.
Proof.
  intros [[l a] o] [[q b] p] w1' res ((ds0 & X & Y) & P & Q) NE W. cbn [fst snd] in *. subst b p l.
  unfold listed in W. cbn [recording tp_ReadFrame hid_transport fst snd] in W.
  destruct (ReadFrame_dev fuel2 defs list_read [] _) as [[[l1 r1]|]|] eqn:RF; cbn [io_bind done] in W; try discriminate.
  destruct (read_replayed _ _ _ _ _ _ _ _ Y RF) as (q' & RQ & D). injection W as <- <-.
  unfold replayed. cbn [recording tp_ReadFrame hid_transport fst snd]. rewrite RQ. cbn [io_bind done].
  eexists. split; [reflexivity|].
  destruct D as [-> |(ds' & -> & H2)]; [congruence|]. unfold same_input. cbn [fst snd].
  split; [exists ds'; auto|auto].
Qed.

Lemma read_good ds rs : Forall (fun b => b <> []) ds -> to_reads rs = map good_data ds -> read_data rs = ds.
Proof.
  intros ND H. pose proof (read_data_reads ds [] (rs ++ [ResRead [] (Some EOF)]) ND) as Q.
  rewrite to_reads_app, H in Q. specialize (Q eq_refl). unfold read_data in *. rewrite flat_map_app in Q.
  cbn [flat_map] in Q. rewrite !app_nil_r in Q. exact Q.
Qed.

Lemma tracer_writes {S} (dev : io_rw S) : counting dev -> writes_ok (tracer_Write append_file dev).
Proof.
  intros C [s t] p. unfold tracer_Write. destruct (rw_write dev s p) as [s' [n err]] eqn:W. apply C in W. destruct err as [e|].
  - eexists _, n, (Some e). split; [reflexivity|exact W].
  - destruct (Nat.ltb_spec (List.length p) n); [lia|]. destruct (WriteMsg _ _ _) as [t' e'].
    eexists _, n, None. split; [reflexivity|exact W].
Qed.

Lemma traced_reads {S} (dev : io_rw S) : honest dev -> forall d, traced_read append_file dev d <> Some Panic.
Proof.
  intros [H _] [s t]. unfold traced_read, tracer_Read. destruct (rw_read dev s maxRawSize) as [s' [got err]] eqn:R.
  destruct err as [e|]; [discriminate|]. apply H in R.
  destruct (Nat.ltb_spec maxRawSize (List.length got)); [lia|]. destruct (WriteMsg _ _ _) as [t' e']. discriminate.
Qed.

(** A crash of a recorded session is reproduced by the replay of the file. *)
Lemma crash_replayed {S DS} rt reg clock (g : DeviceGeneral DS) h (dev : io_rw S) s fuel2 defs spares s' file n out :
  usable defs -> narrow defs -> honest dev -> counting dev -> clean dev ->
  crashes_at rt reg clock g (traced fuel2 defs spares dev) h (((s, []), 0), []) (((s', file), n), out) ->
  exists r, crashes_at rt reg clock g (replayed fuel2 defs spares) h ((NewReader file EOF, 0), []) ((r, n), out).
Proof.
  intros U NR HO CO C (st & w1 & fr & R & RF & P).
  destruct (rounds_listed rt reg clock g dev fuel2 defs spares _ _ _ _ _ _ U NR C R)
    as (d & n1 & out1 & ops & rs & ds & -> & RT & F & ND & TR & RL).
  destruct (read_listed dev fuel2 defs spares d n1 out1 _ (inl fr) C ltac:(discriminate) RF)
    as (d2 & ops2 & rs2 & ds2 & EW & RT2 & F2 & ND2 & TR2 & RL2).
  injection EW as <- -> ->.
  pose proof (run_tracer_join _ _ _ _ _ _ _ _ _ RT RT2) as RTJ.
  assert (RP : replays (NewReader file EOF) (ds ++ ds2)).
  { intros k. destruct (replay_session dev s (ops ++ ops2) maxRawSize k HO) as (s1 & file1 & rs1 & _ & RT1 & RP).
    - apply Forall_app. split; (eapply Forall_impl; [|eassumption]); intros o []; assumption.
    - apply Forall_forall. intros o I. apply filter_In in I as [I1 I2].
      assert (FF : Forall fit (ops ++ ops2)) by (apply Forall_app; split; assumption). rewrite Forall_forall in FF.
      exact (Nat.eq_le_incl _ _ (proj2 (FF _ I1) I2)).
    - rewrite RTJ in RT1. injection RT1 as <- <- <-.
      rewrite (read_good (ds ++ ds2) (rs ++ rs2)) in RP; [exact RP| |].
      + apply Forall_app. split; assumption.
      + now rewrite to_reads_app, map_app, TR, TR2. }
  specialize (RL (to_reads rs2 ++ [([], Some EOF)])). specialize (RL2 [([], Some EOF)]).
  assert (I0 : same_input ((to_reads rs ++ to_reads rs2 ++ [([], Some EOF)], 0), []) ((NewReader file EOF, 0), [])).
  { split; [|split; reflexivity]. exists (ds ++ ds2). cbn [fst snd]. split; [|exact RP].
    now rewrite map_app, TR, TR2, <- app_assoc. }
  destruct (rounds_sim (listed fuel2 defs spares) (replayed fuel2 defs spares) same_input (same_write fuel2 defs spares U)
              (same_read fuel2 defs spares) rt reg clock g _ _ _ _ RL _ I0) as (wa & RA & IA).
  destruct (same_read fuel2 defs spares _ _ _ (inl fr) IA ltac:(discriminate) RL2) as ([[r nb] ob] & RB & IB).
  pose proof IB as (_ & X & Y). cbn [fst snd] in X, Y. subst nb ob. exists r, st, wa, fr.
  split; [exact RA|]. split; [exact RB|].
  apply (process_frame_panic (traced fuel2 defs spares dev) (replayed fuel2 defs spares)
           (fun _ w2 => True)) with (w1 := (((s', file), Datatypes.S n1), out1)); [| |exact I|exact P].
  - intros w w2 f w' e _ _. destruct w2 as [[q b] p]. unfold replayed. cbn [recording tp_WriteFrame hid_transport fst snd].
    rewrite (write_discard defs q f U). cbn [io_bind done]. eexists _, _. split; [reflexivity|exact I].
  - intros [[da na] oa] f. unfold traced. cbn [recording tp_WriteFrame hid_transport fst snd].
    destruct (write_dev_ok defs (tracer_Write append_file dev) da f U (tracer_writes dev CO)) as (db & eb & ->).
    cbn [io_bind done]. discriminate.
Qed.

(** When the traced transport's server crashes, it crashes on a frame. *)
Lemma traced_crash {S DS} rt reg clock (g : DeviceGeneral DS) h (dev : io_rw S) w fuel2 defs spares fuel :
  Forall (fun d => (1 <= def_Len d)%Z) defs -> usable defs -> honest dev -> counting dev ->
  processFrames fuel rt reg clock g (traced fuel2 defs spares dev) h w = Some Panic ->
  exists w', crashes_at rt reg clock g (traced fuel2 defs spares dev) h w w'.
Proof.
  intros L U HO CO E. apply loop_crash_at in E.
  - destruct E as (st & w1 & fr & w' & A & B & C). exists w', st, w1, fr. auto.
  - intros [[d n] out]. unfold traced. cbn [recording tp_ReadFrame].
    destruct (hid_sturdy fuel2 defs spares (traced_read append_file dev) (tracer_Write append_file dev) U L
                (traced_reads dev HO) (tracer_writes dev CO)) as [X _].
    specialize (X (d, n)). cbn [fst snd].
    destruct (tp_ReadFrame _ (d, n)) as [[[w2 r]|]|]; cbn [io_bind done]; [discriminate| |discriminate].
    intros _. now apply X.
Qed.
