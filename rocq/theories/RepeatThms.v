(** Lemmas for C102: a recorded session repeated with the send command. *)
From Coq Require Import ZifyBool ZifyNat ZifyN Lia.
From Verif Require Import Base BaseFacts GoTypes Types Payload Lingo Command SpecPayload SpecCommand
  Handlers SpecHandlers Packet SpecPacket Hid SpecHid HidFacts HidThms Trace SpecTrace TraceFacts TraceThms
  TraceSessions Server SpecServer SessionThms Send SpecSend SendThms SpecWire ProtocolProps SpecRepeat CrashThms SpecSession.
#[local] Opaque std_registry.

(** ** The list of reads and the wire *)

Lemma read_wired defs x fuel : forall buf ds o l' res,
  ReadFrame_dev fuel defs list_read buf (map good_data ds ++ [(x, Some EOF)]) = Some (Ret (l', res)) ->
  exists ds', ReadFrame_dev fuel defs wire_read buf (as_reads ds, o) = Some (Ret ((as_reads ds', o), res))
    /\ (res = inr EOF \/ l' = map good_data ds' ++ [(x, Some EOF)]).
Proof.
  induction fuel as [|fuel IH]; intros buf ds o l' res E; [discriminate|]. cbn [ReadFrame_dev] in *.
  destruct ds as [|d ds].
  - cbn [map app list_read io_bind done ReadReport as_reads] in *. unfold wire_read at 1. cbn [fst snd io_bind done ReadReport].
    injection E as <- <-. exists []. split; [reflexivity|]. left. reflexivity.
  - cbn [map app list_read io_bind done as_reads] in *. unfold wire_read at 1. cbn [fst snd io_bind done]. unfold good_data at 1 in E.
    fold (as_reads ds).
    assert (STOP : forall r0, Some (Ret (map good_data ds ++ [(x, Some EOF)], r0)) = Some (Ret (l', res)) ->
              exists ds', Some (Ret ((as_reads ds, o), r0)) = Some (Ret ((as_reads ds', o), res))
              /\ (res = inr EOF \/ l' = map good_data ds' ++ [(x, Some EOF)])).
    { intros r0 X. injection X as <- <-. exists ds. split; [reflexivity|]. right. reflexivity. }
    destruct (ReadReport (d, None)) as [report|er]; [|apply STOP; exact E].
    destruct (Find defs _) as [def|er]; [|apply STOP; exact E]. cbv zeta in *.
    destruct (Z.min _ _ <? 0)%Z; [discriminate|].
    destruct (_ =? LinkControlDone)%N; [apply STOP; exact E|].
    destruct (_ =? LinkControlMoreToFollow)%N; [exact (IH _ _ _ _ _ E)|].
    destruct (_ =? N.lor _ _)%N; [exact (IH _ _ _ _ _ E)|].
    destruct (_ =? LinkControlContinue)%N; [apply STOP; exact E|exact (IH _ _ _ _ _ E)].
Qed.

Lemma wire_writes : writes_ok wire_write.
Proof. intros d p. unfold wire_write. eexists _, _, _. split; [reflexivity|lia]. Qed.

Section Repeat.
  Context (fuel2 : nat) (defs : list ReportDef) (spares : nat -> bytes) (U : usable defs) (x : bytes).

  Definition same_wire (w1 : (list raw_read * nat) * list bytes) (w2 : (wire * nat) * list bytes) : Prop :=
    (exists ds0, fst (fst w1) = map good_data ds0 ++ [(x, Some EOF)] /\ fst (fst (fst w2)) = as_reads ds0)
    /\ snd (fst w1) = snd (fst w2) /\ snd w1 = snd w2.

  Lemma wire_same_write : forall w1 w2 f w1' e, same_wire w1 w2 ->
    tp_WriteFrame (listed fuel2 defs spares) w1 f = Some (Ret (w1', e)) ->
    exists w2' e', tp_WriteFrame (listening fuel2 defs spares) w2 f = Some (Ret (w2', e')) /\ same_wire w1' w2'.
  Proof.
    intros [[l a] o] [[[q sent] b] p] f w1' e ((ds0 & X & Y) & P & Q) W. cbn [fst snd] in *. subst b p.
    unfold listed in W. cbn [recording tp_WriteFrame hid_transport fst snd] in W.
    rewrite (write_discard defs l f U) in W. cbn [io_bind done] in W. injection W as <- <-.
    unfold listening. cbn [recording tp_WriteFrame hid_transport fst snd].
    destruct (wire_sent defs q sent f U) as (outs & E & _). rewrite E.
    cbn [io_bind done]. eexists _, _. split; [reflexivity|]. unfold same_wire. cbn [fst snd]. split; [exists ds0; auto|auto].
  Qed.

  Lemma wire_same_read : forall w1 w2 w1' r, same_wire w1 w2 ->
    tp_ReadFrame (listed fuel2 defs spares) w1 = Some (Ret (w1', r)) ->
    exists w2', tp_ReadFrame (listening fuel2 defs spares) w2 = Some (Ret (w2', r))
      /\ (r = inr EOF \/ same_wire w1' w2') /\ snd (fst w1') = snd (fst w2') /\ snd w1' = snd w2'.
  Proof.
    intros [[l a] o] [[[q sent] b] p] w1' res ((ds0 & X & Y) & P & Q) W. cbn [fst snd] in *. subst b p l q.
    unfold listed in W. cbn [recording tp_ReadFrame hid_transport fst snd] in W.
    destruct (ReadFrame_dev fuel2 defs list_read [] _) as [[[l1 r1]|]|] eqn:RF; cbn [io_bind done] in W; try discriminate.
    destruct (read_wired _ _ _ _ _ sent _ _ RF) as (ds' & RQ & D). injection W as <- <-.
    unfold listening. cbn [recording tp_ReadFrame hid_transport fst snd]. rewrite RQ. cbn [io_bind done].
    eexists. split; [reflexivity|]. split; [|split; reflexivity].
    destruct D as [-> | ->]; [left; reflexivity|right]. unfold same_wire. cbn [fst snd].
    split; [exists ds'; auto|auto].
  Qed.

  Lemma listed_wired {DS} rt reg clock (g : DeviceGeneral DS) fuel st ds n o out st' l' n' out' :
    processFrames_loop fuel rt reg clock g (listed fuel2 defs spares) st
      ((map good_data ds ++ [(x, Some EOF)], n), out) = Some (Ret (st', ((l', n'), out'))) ->
    exists d', processFrames_loop fuel rt reg clock g (listening fuel2 defs spares) st (((as_reads ds, o), n), out)
               = Some (Ret (st', ((d', n'), out'))).
  Proof.
    intros E.
    pose (RO := fun (w1 : (list raw_read * nat) * list bytes) (w2 : (wire * nat) * list bytes) =>
                 snd (fst w1) = snd (fst w2) /\ snd w1 = snd w2).
    assert (G : exists w2', processFrames_loop fuel rt reg clock g (listening fuel2 defs spares) st (((as_reads ds, o), n), out)
                  = Some (Ret (st', w2')) /\ RO ((l', n'), out') w2').
    { refine (processFrames_sim (listed fuel2 defs spares) (listening fuel2 defs spares) same_wire wire_same_write _ RO _
                rt reg clock g fuel st _ _ st' _ _ E).
      - intros w1 w2 w1' res X Y. destruct (wire_same_read _ _ _ _ X Y) as (w2' & A & B & _). eauto.
      - intros w1 w2 w1' w2' X Y Z. destruct (wire_same_read _ _ _ _ X Y) as (w2'' & A & _ & B).
        rewrite A in Z. injection Z as <-. exact B.
      - unfold same_wire. cbn [fst snd]. split; [exists ds; auto|auto]. }
    destruct G as ([[d' b] p] & E2 & (P & Q)). cbn [fst snd] in P, Q. subst b p. exists d'. exact E2.
  Qed.
End Repeat.

(** ** What the file says is to be sent *)

Lemma all_sent {S D} rt reg clock (g : DeviceGeneral S) defs spares h (rd : D -> io (D * raw_read)) wd content fin d sent s :
  sendable_of content fin sent ->
  send_steps rt reg clock g defs spares h (noting_read rd) (noting wd) (send_start content fin (d, [])) s ->
  sn_sending s = false -> snd (sn_dev s) = sent.
Proof.
  intros SO SX Q. destruct (send_prefix rt reg clock g defs spares h rd wd content fin d) as (out & SO2 & H).
  destruct (H s SX) as (later & E & L). rewrite (L Q), app_nil_r in E.
  now rewrite <- E, (to_send_from_fun (NewReader content fin) out sent SO2 SO).
Qed.

Lemma reported {S} (dev : io_rw S) ops : honest dev -> reporting dev -> Forall fit ops -> forall s s' rs,
  run_dev dev s ops = (s', rs) -> Forall (fun d => 3 <= List.length d <= 1024) (read_data rs).
Proof.
  intros [HR _] RP. induction 1 as [|o ops F _ IH]; intros s s' rs H.
  - cbn in H. injection H as <- <-. apply Forall_nil.
  - destruct o as [n|p]; cbn [run_dev] in H.
    + destruct F as [_ F]. specialize (F eq_refl). cbn [op_size] in F. subst n.
      destruct (rw_read dev s maxRawSize) as [s1 [got e]] eqn:E. destruct (run_dev dev s1 ops) as [s2 rs2] eqn:E2.
      injection H as <- <-. specialize (IH _ _ _ E2). unfold read_data in *. cbn [flat_map].
      destruct got as [|b got]; [destruct e; exact IH|]. destruct e as [e|]; [exact IH|]. cbn [app].
      apply Forall_cons; [|exact IH]. split; [exact (RP _ _ _ E)|]. change 1024 with maxRawSize. exact (HR _ _ _ _ E).
    + destruct (rw_write dev s p) as [s1 [n e]]. destruct (run_dev dev s1 ops) as [s2 rs2] eqn:E2.
      injection H as <- <-. exact (IH _ _ _ E2).
Qed.

Lemma repeat_sendable {S} (dev : io_rw S) s ops s' file rs : honest dev -> reporting dev -> Forall fit ops ->
  run_tracer append_file dev (s, []) ops = Ret ((s', file), rs) -> sendable_of file EOF (read_data rs).
Proof.
  intros HO RP F RT. destruct (run_dev dev s ops) as [s1 rs1] eqn:E.
  destruct (send_recorded dev s ops s1 rs1 HO) as (file1 & RT1 & SO).
  - eapply Forall_impl; [|exact F]. intros o []; assumption.
  - exact E.
  - exact (reported dev ops HO RP F _ _ _ E).
  - rewrite RT in RT1. injection RT1 as <- <- <-. exact SO.
Qed.

Lemma repeated {S DS} rt reg clock (g : DeviceGeneral DS) h (dev : io_rw S) s fuel fuel2 defs spares st s' file n out :
  usable defs -> narrow defs -> honest dev -> clean dev -> reporting dev ->
  processFrames fuel rt reg clock g (traced fuel2 defs spares dev) h (((s, []), 0), [])
    = Some (Ret (st, (((s', file), n), out))) ->
  exists sent, sendable_of file EOF sent
    /\ exists w, processFrames fuel rt reg clock g (listening fuel2 defs spares) h (((as_reads sent, []), 0), [])
                 = Some (Ret (st, ((w, n), out))).
Proof.
  intros U NR HO C RP E. unfold processFrames in *.
  destruct (live_listed rt reg clock g dev fuel2 defs spares U NR C _ _ _ _ _ _ _ _ _ E)
    as (ops & rs & ds & x & RT & F & ND & TR & L).
  specialize (L []). rewrite app_nil_r, TR in L. exists ds. split.
  - rewrite <- (read_data_reads ds x rs ND TR). exact (repeat_sendable dev s ops s' file rs HO RP F RT).
  - exact (listed_wired fuel2 defs spares U x rt reg clock g _ _ _ _ [] _ _ _ _ _ L).
Qed.

(** ** Crashes *)

Lemma crash_repeated {S DS} rt reg clock (g : DeviceGeneral DS) h (dev : io_rw S) s fuel2 defs spares s' file n out :
  usable defs -> narrow defs -> honest dev -> counting dev -> clean dev -> reporting dev ->
  crashes_at rt reg clock g (traced fuel2 defs spares dev) h (((s, []), 0), []) (((s', file), n), out) ->
  exists sent, sendable_of file EOF sent
    /\ exists w, crashes_at rt reg clock g (listening fuel2 defs spares) h (((as_reads sent, []), 0), []) ((w, n), out).
Proof.
  intros U NR HO CO C RP (st & w1 & fr & R & RF & P).
  destruct (rounds_listed rt reg clock g dev fuel2 defs spares _ _ _ _ _ _ U NR C R)
    as (d & n1 & out1 & ops & rs & ds & -> & RT & F & ND & TR & RL).
  destruct (read_listed dev fuel2 defs spares d n1 out1 _ (inl fr) C ltac:(discriminate) RF)
    as (d2 & ops2 & rs2 & ds2 & EW & RT2 & F2 & ND2 & TR2 & RL2).
  injection EW as <- -> ->.
  pose proof (run_tracer_join _ _ _ _ _ _ _ _ _ RT RT2) as RTJ.
  exists (ds ++ ds2). split.
  { rewrite <- (read_good (ds ++ ds2) (rs ++ rs2)).
    - apply (repeat_sendable dev s (ops ++ ops2) s' file (rs ++ rs2) HO RP); [|exact RTJ]. apply Forall_app. split; assumption.
    - apply Forall_app. split; assumption.
    - now rewrite to_reads_app, map_app, TR, TR2. }
  specialize (RL (to_reads rs2 ++ [([], Some EOF)])). specialize (RL2 [([], Some EOF)]).
  assert (I0 : same_wire [] ((to_reads rs ++ to_reads rs2 ++ [([], Some EOF)], 0), []) (((as_reads (ds ++ ds2), []), 0), [])).
  { split; [|split; reflexivity]. exists (ds ++ ds2). cbn [fst snd]. split; [|reflexivity].
    now rewrite map_app, TR, TR2, <- app_assoc. }
  assert (HR : forall w1 w2 w1' r, same_wire [] w1 w2 -> r <> inr EOF ->
     tp_ReadFrame (listed fuel2 defs spares) w1 = Some (Ret (w1', r)) ->
     exists w2', tp_ReadFrame (listening fuel2 defs spares) w2 = Some (Ret (w2', r)) /\ same_wire [] w1' w2').
  { intros wa wb wc r X NE Y. destruct (wire_same_read fuel2 defs spares [] _ _ _ _ X Y) as (wd & A & [B|B] & _);
      [contradiction|eauto]. }
  destruct (rounds_sim (listed fuel2 defs spares) (listening fuel2 defs spares) (same_wire [])
              (wire_same_write fuel2 defs spares U []) HR rt reg clock g _ _ _ _ RL _ I0) as (wa & RA & IA).
  destruct (HR _ _ _ (inl fr) IA ltac:(discriminate) RL2) as ([[r nb] ob] & RB & IB).
  pose proof IB as (_ & X & Y). cbn [fst snd] in X, Y. subst nb ob. exists r, st, wa, fr.
  split; [exact RA|]. split; [exact RB|].
  apply (process_frame_panic (traced fuel2 defs spares dev) (listening fuel2 defs spares)
           (fun _ w2 => True)) with (w1 := (((s', file), Datatypes.S n1), out1)); [| |exact I|exact P].
  - intros w w2 f w' e _ _. destruct w2 as [[[q sent] b] p]. unfold listening. cbn [recording tp_WriteFrame hid_transport fst snd].
    destruct (wire_sent defs q sent f U) as (outs & E & _). rewrite E. cbn [io_bind done]. eexists _, _. split; [reflexivity|exact I].
  - intros [[da na] oa] f. unfold traced. cbn [recording tp_WriteFrame hid_transport fst snd].
    destruct (write_dev_ok defs (tracer_Write append_file dev) da f U (tracer_writes dev CO)) as (db & eb & ->).
    cbn [io_bind done]. discriminate.
Qed.
