(** The server over HID devices, traced and replayed. *)
From Coq Require Import ZifyBool ZifyNat ZifyN.
From Verif Require Import Base BaseFacts GoTypes Types Payload Lingo Command SpecPayload SpecCommand
  Handlers SpecHandlers Packet SpecPacket Hid SpecHid HidFacts HidThms Trace SpecTrace TraceFacts TraceThms
  TraceSessions Server SpecServer.
Ltac Zify.zify_post_hook ::= Z.div_mod_to_equations.
#[local] Opaque std_registry.

(** ** Transports that do the same *)

Section Sim.
  Context {S W1 W2 : Type}.
  Context (tp1 : transport W1) (tp2 : transport W2) (R : W1 -> W2 -> Prop).
  Context (HW : forall w1 w2 f w1' e, R w1 w2 -> tp_WriteFrame tp1 w1 f = Some (Ret (w1', e)) ->
                  exists w2' e', tp_WriteFrame tp2 w2 f = Some (Ret (w2', e')) /\ R w1' w2').

  Lemma write_replies_sim rt cs : forall m w1 w2 m' w1', R w1 w2 ->
    write_replies rt tp1 m cs w1 = Some (Ret (m', w1')) ->
    exists w2', write_replies rt tp2 m cs w2 = Some (Ret (m', w2')) /\ R w1' w2'.
  Proof.
    induction cs as [|c cs IH]; intros m w1 w2 m' w1' H E; cbn [write_replies] in *.
    - injection E as <- <-. exists w2. split; [reflexivity|exact H].
    - destruct (MarshalCmd rt m c) as [[m1 res]|]; cbn [io_bind] in *; [|discriminate].
      destruct (WritePacket NewPacketWriter match res with Ok b => b | Err _ => [] end) as [fr er].
      destruct (tp_WriteFrame tp1 w1 fr) as [[[wa ea]|]|] eqn:F; cbn [io_bind] in E; try discriminate.
      destruct (HW _ _ _ _ _ H F) as (wb & eb & F2 & H2). rewrite F2. cbn [io_bind].
      exact (IH _ _ _ _ _ H2 E).
  Qed.

  Lemma process_frame_sim rt reg clock (dev : DeviceGeneral S) st fr w1 w2 st' w1' : R w1 w2 ->
    process_frame rt reg clock dev tp1 st w1 fr = Some (Ret (st', w1')) ->
    exists w2', process_frame rt reg clock dev tp2 st w2 fr = Some (Ret (st', w2')) /\ R w1' w2'.
  Proof.
    intros H E. unfold process_frame in *.
    destruct (frame_packets rt reg (sv_mode st) fr) as [[[m1 evs]|]|]; cbn [io_bind] in *; try discriminate.
    destruct (handle_all reg clock dev (inCmds evs) (sv_h st)) as [[h1 u]|]; cbn [io_bind] in *; [|discriminate].
    destruct (write_replies rt tp1 m1 _ w1) as [[[m2 wa]|]|] eqn:F; cbn [io_bind] in *; try discriminate.
    injection E as <- <-. destruct (write_replies_sim _ _ _ _ _ _ _ H F) as (wb & F2 & H2).
    rewrite F2. cbn [io_bind]. exists wb. split; [reflexivity|exact H2].
  Qed.

  Context (HR : forall w1 w2 w1' r, R w1 w2 -> tp_ReadFrame tp1 w1 = Some (Ret (w1', r)) ->
                  exists w2', tp_ReadFrame tp2 w2 = Some (Ret (w2', r)) /\ (r = inr EOF \/ R w1' w2')).
  Context (RO : W1 -> W2 -> Prop) (HO : forall w1 w2, R w1 w2 -> RO w1 w2)
          (HEOF : forall w1 w2 w1' w2', R w1 w2 -> tp_ReadFrame tp1 w1 = Some (Ret (w1', inr EOF)) ->
                    tp_ReadFrame tp2 w2 = Some (Ret (w2', inr EOF)) -> RO w1' w2').

  Lemma processFrames_sim rt reg clock (dev : DeviceGeneral S) fuel : forall st w1 w2 st' w1', R w1 w2 ->
    processFrames_loop fuel rt reg clock dev tp1 st w1 = Some (Ret (st', w1')) ->
    exists w2', processFrames_loop fuel rt reg clock dev tp2 st w2 = Some (Ret (st', w2')) /\ RO w1' w2'.
  Proof.
    induction fuel as [|fuel IH]; intros st w1 w2 st' w1' H E; cbn [processFrames_loop] in *; [discriminate|].
    destruct (tp_ReadFrame tp1 w1) as [[[wa r]|]|] eqn:F; cbn [io_bind] in E; try discriminate.
    destruct (HR _ _ _ _ H F) as (wb & F2 & D). rewrite F2. cbn [io_bind].
    destruct r as [fr|e].
    - destruct D as [D|D]; [discriminate|].
      destruct (process_frame rt reg clock dev tp1 st wa fr) as [[[st1 wc]|]|] eqn:G; cbn [io_bind] in E; try discriminate.
      destruct (process_frame_sim _ _ _ _ _ _ _ _ _ _ D G) as (wd & G2 & H2). rewrite G2. cbn [io_bind].
      exact (IH _ _ _ _ _ H2 E).
    - destruct e.
      + injection E as <- <-. exists wb. split; [reflexivity|]. exact (HEOF _ _ _ _ H F F2).
      + destruct D as [D|D]; [discriminate|]. exact (IH _ _ _ _ _ D E).
      + destruct D as [D|D]; [discriminate|]. exact (IH _ _ _ _ _ D E).
      + destruct D as [D|D]; [discriminate|]. exact (IH _ _ _ _ _ D E).
  Qed.
End Sim.

(** ** Writing frames on a device *)

(** A frame is written as reports offered one after the other. *)
Lemma write_dev {D} defs f (wd : D -> bytes -> outcome (D * (nat * option goerr))) data :
  last_of defs 0 f -> (2 <= def_Len f)%Z ->
  exists rs, Forall (fun r => exists d, In d defs /\ List.length (rep_Data r) = room d) rs
    /\ forall d, WriteFrame_dev defs wd d data
       = (let '(o, e) := offer (dev_WriteReport wd) (Ret d) rs in go d' <- Some o; done (d', e)).
Proof.
  intros LO L. destruct data as [|b data].
  - exists []. split; [apply Forall_nil|]. intros d. unfold WriteFrame_dev. rewrite write_empty. reflexivity.
  - destruct (write_segments defs (b :: data) f (List.length (b :: data)) LO L ltac:(discriminate) ltac:(lia))
      as (rs & G & _ & H).
    exists rs. split.
    + apply segments_shape in G as (_ & G & _). eapply Forall_impl; [|exact G].
      intros r (d & I & _ & _ & E & _). eauto.
    + intros d. unfold WriteFrame_dev. rewrite H. destruct (offer _ _ _) as [o e]. reflexivity.
Qed.

(** A device whose writes return possible counts. *)
Definition writes_ok {D} (wd : D -> bytes -> outcome (D * (nat * option goerr))) : Prop :=
  forall d p, exists d' n e, wd d p = Ret (d', (n, e)) /\ n <= List.length p.

Lemma offer_ok {D} (wd : D -> bytes -> outcome (D * (nat * option goerr))) rs : writes_ok wd -> forall d,
  exists d' e, offer (dev_WriteReport wd) (Ret d) rs = (Ret d', e).
Proof.
  intros H. induction rs as [|r rs IH]; intros d; cbn [offer]; [eauto|].
  unfold dev_WriteReport at 1. unfold WriteReport, raw_Write. cbn [bind].
  destruct (H d (rep_ID r :: rep_LinkControl r :: rep_Data r)) as (d' & n & e & E & Hn). rewrite E.
  destruct (Nat.ltb_spec (List.length (rep_ID r :: rep_LinkControl r :: rep_Data r)) n); [lia|].
  destruct e as [e|]; [eauto|]. destruct (Nat.eqb n _); [apply IH|eauto].
Qed.

Lemma write_dev_ok {D} defs (wd : D -> bytes -> outcome (D * (nat * option goerr))) d data :
  usable defs -> writes_ok wd -> exists d' e, WriteFrame_dev defs wd d data = Some (Ret (d', e)).
Proof.
  intros (_ & _ & f & LO & L) H. destruct (write_dev defs f wd data LO L) as (rs & _ & E). rewrite E.
  destruct (offer_ok wd rs H d) as (d' & e & X). rewrite X. cbn [io_bind]. unfold done. eauto.
Qed.

Lemma discard_ok {D} : writes_ok (@discard D).
Proof. intros d p. exists d, (List.length p), None. split; [reflexivity|lia]. Qed.

Lemma offer_discard {D} rs (d : D) : offer (dev_WriteReport discard) (Ret d) rs = (Ret d, None).
Proof.
  induction rs as [|r rs IH]; [reflexivity|]. cbn [offer]. unfold dev_WriteReport at 1. unfold WriteReport, raw_Write, discard.
  cbn [bind]. rewrite Nat.ltb_irrefl, Nat.eqb_refl. exact IH.
Qed.

Lemma write_discard {D} defs (d : D) data : usable defs -> WriteFrame_dev defs discard d data = Some (Ret (d, None)).
Proof.
  intros (_ & _ & f & LO & L). destruct (@write_dev D defs f discard data LO L) as (rs & _ & E).
  rewrite E, offer_discard. reflexivity.
Qed.

(** ** Runs through a tracer *)

Lemma run_tracer_app {S T} (tw : io_write T) (dev : io_rw S) a : forall b st,
  run_tracer tw dev st (a ++ b)
  = do r <- run_tracer tw dev st a;
    let '(st', rs) := r in do r2 <- run_tracer tw dev st' b; let '(st'', rs2) := r2 in Ret (st'', rs ++ rs2).
Proof.
  induction a as [|o a IH]; intros b st; cbn [app run_tracer bind].
  - destruct (run_tracer tw dev st b) as [[st'' rs2]|]; reflexivity.
  - destruct o as [n|p].
    + destruct (tracer_Read tw dev st n) as [[st' [got e]]|]; cbn [bind]; [|reflexivity].
      rewrite IH. destruct (run_tracer tw dev st' a) as [[st1 rs]|]; cbn [bind]; [|reflexivity].
      destruct (run_tracer tw dev st1 b) as [[st2 rs2]|]; reflexivity.
    + destruct (tracer_Write tw dev st p) as [[st' [n e]]|]; cbn [bind]; [|reflexivity].
      rewrite IH. destruct (run_tracer tw dev st' a) as [[st1 rs]|]; cbn [bind]; [|reflexivity].
      destruct (run_tracer tw dev st1 b) as [[st2 rs2]|]; reflexivity.
Qed.

Lemma run_tracer_join {S T} (tw : io_write T) (dev : io_rw S) st a st1 r1 b st2 r2 :
  run_tracer tw dev st a = Ret (st1, r1) -> run_tracer tw dev st1 b = Ret (st2, r2) ->
  run_tracer tw dev st (a ++ b) = Ret (st2, r1 ++ r2).
Proof. intros A B. rewrite run_tracer_app, A. cbn [bind]. rewrite B. reflexivity. Qed.

(** The results of reads. *)
Definition to_reads (rs : list opres) : list raw_read :=
  flat_map (fun r => match r with ResRead got e => [(got, e)] | ResWrite _ _ => [] end) rs.

Lemma to_reads_app a b : to_reads (a ++ b) = to_reads a ++ to_reads b.
Proof. apply flat_map_app. Qed.

(** A device that is a list of reads. *)
Definition list_read (l : list raw_read) : io (list raw_read * raw_read) :=
  match l with [] => done ([], ([], Some EOF)) | x :: l' => done (l', x) end.

Definition good_data (d : bytes) : raw_read := (d, None).

Definition small (k : nat) (o : op) : Prop := op_size o <= k.
Definition raw_op (o : op) : Prop := is_read o = true -> op_size o = maxRawSize.

Lemma find_err defs id e : Find defs id = inr e -> e = errReportID.
Proof.
  induction defs as [|d defs IH]; cbn [Find]; [congruence|]. destruct (_ =? _)%Z; [discriminate|exact IH].
Qed.

(** One frame read through the tracer. *)
Lemma read_traced {S} (dev : io_rw S) defs fuel : clean dev -> forall buf d d' r,
  ReadFrame_dev fuel defs (traced_read append_file dev) buf d = Some (Ret (d', r)) ->
  exists k rs ds, run_tracer append_file dev d (repeat (OpRead maxRawSize) k) = Ret (d', rs)
    /\ Forall (fun x => x <> []) ds
    /\ (forall rest, ReadFrame_dev fuel defs list_read buf (to_reads rs ++ rest) = Some (Ret (rest, r)))
    /\ ((r <> inr EOF /\ to_reads rs = map good_data ds)
        \/ (r = inr EOF /\ exists x, to_reads rs = map good_data ds ++ [(x, Some EOF)])).
Proof.
  intros C. induction fuel as [|fuel IH]; intros buf d d' r E; [discriminate|]. cbn [ReadFrame_dev] in E.
  unfold traced_read in E at 1. destruct (tracer_Read append_file dev d maxRawSize) as [[d1 [got e]]|] eqn:T;
    cbn [io_bind] in E; [|discriminate].
  assert (CL : e = Some EOF \/ (e = None /\ got <> [])).
  { unfold tracer_Read in T. destruct d as [s t]. destruct (rw_read dev s maxRawSize) as [s' [g er]] eqn:RD.
    specialize (C _ _ _ _ RD). destruct er as [er|].
    - injection T as <- <- <-. exact C.
    - destruct (Nat.ltb _ _); [discriminate|]. destruct (WriteMsg _ _ _). injection T as <- <- <-. exact C. }
  assert (STOP : forall r0, (r0 <> inr EOF) -> e = None ->
            (forall rest, ReadFrame_dev (Datatypes.S fuel) defs list_read buf ((got, e) :: rest) = Some (Ret (rest, r0))) ->
            d1 = d' -> r0 = r ->
            exists k rs ds, run_tracer append_file dev d (repeat (OpRead maxRawSize) k) = Ret (d', rs)
            /\ Forall (fun x => x <> []) ds
            /\ (forall rest, ReadFrame_dev (Datatypes.S fuel) defs list_read buf (to_reads rs ++ rest) = Some (Ret (rest, r)))
            /\ ((r <> inr EOF /\ to_reads rs = map good_data ds)
                \/ (r = inr EOF /\ exists x, to_reads rs = map good_data ds ++ [(x, Some EOF)]))).
  { intros r0 Hr0 He Hl <- <-. exists 1, [ResRead got e], [got]. split.
    { cbn [repeat run_tracer]. rewrite T. reflexivity. }
    split. { apply Forall_cons; [|apply Forall_nil]. destruct CL as [X|[_ X]]; [congruence|exact X]. }
    split. { intros rest. cbn [to_reads flat_map app]. apply Hl. }
    left. split; [exact Hr0|]. rewrite He. reflexivity. }
  assert (GO : forall buf', e = None ->
            (forall l, ReadFrame_dev (Datatypes.S fuel) defs list_read buf ((got, e) :: l) = ReadFrame_dev fuel defs list_read buf' l) ->
            ReadFrame_dev fuel defs (traced_read append_file dev) buf' d1 = Some (Ret (d', r)) ->
            exists k rs ds, run_tracer append_file dev d (repeat (OpRead maxRawSize) k) = Ret (d', rs)
            /\ Forall (fun x => x <> []) ds
            /\ (forall rest, ReadFrame_dev (Datatypes.S fuel) defs list_read buf (to_reads rs ++ rest) = Some (Ret (rest, r)))
            /\ ((r <> inr EOF /\ to_reads rs = map good_data ds)
                \/ (r = inr EOF /\ exists x, to_reads rs = map good_data ds ++ [(x, Some EOF)]))).
  { intros buf' He Hl HE. destruct (IH _ _ _ _ HE) as (k & rs & ds & RT & ND & RL & Q).
    exists (Datatypes.S k), (ResRead got e :: rs), (got :: ds). split.
    { cbn [repeat run_tracer]. rewrite T. cbn [bind]. rewrite RT. reflexivity. }
    split. { apply Forall_cons; [|exact ND]. destruct CL as [X|[_ X]]; [congruence|exact X]. }
    split. { intros rest. cbn [to_reads flat_map app]. rewrite Hl. apply RL. }
    subst e. destruct Q as [[Q1 Q2]|[Q1 (x & Q2)]]; [left|right]; (split; [exact Q1|]).
    - cbn [to_reads flat_map app map]. f_equal. exact Q2.
    - exists x. cbn [to_reads flat_map app map]. f_equal. exact Q2. }
  destruct CL as [-> |[He Hg]].
  - cbn [ReadReport] in E. injection E as <- <-. exists 1, [ResRead got (Some EOF)], [].
    split. { cbn [repeat run_tracer]. rewrite T. reflexivity. }
    split; [apply Forall_nil|]. split; [intros rest; reflexivity|]. right. split; [reflexivity|]. exists got. reflexivity.
  - subst e. destruct (ReadReport (got, None)) as [report|er] eqn:RR.
    + destruct (Find defs (Z.of_N (b2n (rep_ID report)))) as [def|er] eqn:FD.
      * cbv zeta in E. destruct (Z.min _ _ <? 0)%Z eqn:N0; [discriminate|].
        destruct (b2n (rep_LinkControl report) =? LinkControlDone)%N eqn:L0.
        { injection E as <- <-. eapply STOP; [|reflexivity| |reflexivity|reflexivity]; [discriminate|].
          intros rest. cbn [ReadFrame_dev list_read io_bind done]. rewrite RR, FD. cbv zeta. rewrite N0, L0. reflexivity. }
        destruct (b2n (rep_LinkControl report) =? LinkControlMoreToFollow)%N eqn:L1.
        { eapply GO; [reflexivity| |exact E]. intros l. cbn [ReadFrame_dev list_read io_bind done].
          rewrite RR, FD. cbv zeta. rewrite N0, L0, L1. reflexivity. }
        destruct (b2n (rep_LinkControl report) =? N.lor LinkControlContinue LinkControlMoreToFollow)%N eqn:L2.
        { eapply GO; [reflexivity| |exact E]. intros l. cbn [ReadFrame_dev list_read io_bind done].
          rewrite RR, FD. cbv zeta. rewrite N0, L0, L1, L2. reflexivity. }
        destruct (b2n (rep_LinkControl report) =? LinkControlContinue)%N eqn:L3.
        { injection E as <- <-. eapply STOP; [|reflexivity| |reflexivity|reflexivity]; [discriminate|].
          intros rest. cbn [ReadFrame_dev list_read io_bind done]. rewrite RR, FD. cbv zeta.
          rewrite N0, L0, L1, L2, L3. reflexivity. }
        { eapply GO; [reflexivity| |exact E]. intros l. cbn [ReadFrame_dev list_read io_bind done].
          rewrite RR, FD. cbv zeta. rewrite N0, L0, L1, L2, L3. reflexivity. }
      * injection E as <- <-. eapply STOP; [|reflexivity| |reflexivity|reflexivity].
        -- rewrite (find_err _ _ _ FD). discriminate.
        -- intros rest. cbn [ReadFrame_dev list_read io_bind done]. rewrite RR, FD. reflexivity.
    + injection E as <- <-. eapply STOP; [|reflexivity| |reflexivity|reflexivity].
      * unfold ReadReport in RR. destruct (firstn maxRawSize got) as [|a [|b [|c x]]];
          injection RR as <- || discriminate; discriminate.
      * intros rest. cbn [ReadFrame_dev list_read io_bind done]. rewrite RR. reflexivity.
Qed.

(** ** Writes through the tracer *)

Definition fit (o : op) : Prop :=
  (N.of_nat (op_size o) <= 21844)%N /\ (is_read o = true -> op_size o = maxRawSize).

Lemma offer_traced {S} (dev : io_rw S) rs : 
  Forall (fun r => (N.of_nat (List.length (rep_Data r)) <= 21842)%N) rs -> forall d d' e,
  offer (dev_WriteReport (tracer_Write append_file dev)) (Ret d) rs = (Ret d', e) ->
  exists ops res, run_tracer append_file dev d ops = Ret (d', res) /\ to_reads res = [] /\ Forall fit ops.
Proof.
  induction 1 as [|r rs Hr Hrs IH]; intros d d' e E; cbn [offer] in E.
  - injection E as <- _. exists [], []. repeat split; apply Forall_nil.
  - unfold dev_WriteReport at 1 in E. unfold WriteReport, raw_Write in E. cbn [bind] in E.
    destruct (tracer_Write append_file dev d (rep_ID r :: rep_LinkControl r :: rep_Data r)) as [[d1 [n err]]|] eqn:T.
    2:{ destruct (Nat.ltb _ _); cbn in E; discriminate. }
    assert (OP : run_tracer append_file dev d [OpWrite (rep_ID r :: rep_LinkControl r :: rep_Data r)]
                 = Ret (d1, [ResWrite n err])).
    { cbn [run_tracer]. rewrite T. reflexivity. }
    assert (FT : fit (OpWrite (rep_ID r :: rep_LinkControl r :: rep_Data r))).
    { split; [|discriminate]. unfold op_size. cbn [List.length]. lia. }
    destruct (Nat.ltb _ n); [cbn in E; discriminate|].
    assert (D : d1 = d' \/ offer (dev_WriteReport (tracer_Write append_file dev)) (Ret d1) rs = (Ret d', e)).
    { destruct err as [err|]; [left; congruence|]. destruct (Nat.eqb n _); [right; exact E|left; congruence]. }
    destruct D as [<-|D].
    + exists [OpWrite (rep_ID r :: rep_LinkControl r :: rep_Data r)], [ResWrite n err].
      split; [exact OP|]. split; [reflexivity|]. apply Forall_cons; [exact FT|apply Forall_nil].
    + destruct (IH _ _ _ D) as (ops & res & R & T2 & F).
      exists (OpWrite (rep_ID r :: rep_LinkControl r :: rep_Data r) :: ops), (ResWrite n err :: res).
      split; [exact (run_tracer_join _ _ _ _ _ _ _ _ _ OP R)|]. split; [exact T2|].
      apply Forall_cons; assumption.
Qed.

Definition narrow (defs : list ReportDef) : Prop := Forall (fun d => (def_Len d <= 21843)%Z) defs.

Lemma write_traced {S} (dev : io_rw S) defs d data d' e : usable defs -> narrow defs ->
  WriteFrame_dev defs (tracer_Write append_file dev) d data = Some (Ret (d', e)) ->
  exists ops res, run_tracer append_file dev d ops = Ret (d', res) /\ to_reads res = [] /\ Forall fit ops.
Proof.
  intros (_ & _ & f & LO & L) N E.
  destruct (write_dev defs f (tracer_Write append_file dev) data LO L) as (rs & SH & H).
  rewrite H in E. destruct (offer _ _ rs) as [o e1] eqn:O. destruct o as [d1|]; cbn [io_bind] in E; [|discriminate].
  injection E as <- <-. eapply offer_traced; [|exact O]. eapply Forall_impl; [|exact SH].
  intros r (x & I & ->). unfold narrow in N. rewrite Forall_forall in N. specialize (N _ I). unfold room. lia.
Qed.

(** ** The traced run and the list of its reads *)

Definition listed (fuel : nat) (defs : list ReportDef) (spares : nat -> bytes)
  : transport ((list raw_read * nat) * list bytes) :=
  recording (hid_transport fuel defs spares list_read discard).

Lemma fit_reads k : Forall fit (repeat (OpRead maxRawSize) k).
Proof.
  apply Forall_forall. intros o I. apply repeat_spec in I as ->. split; cbn [op_size]; [|reflexivity].
  unfold maxRawSize. lia.
Qed.

Lemma live_listed {S DS} rt reg clock (g : DeviceGeneral DS) (dev : io_rw S) fuel2 defs spares :
  usable defs -> narrow defs -> clean dev ->
  forall fuel st d n out st' d' n' out',
  processFrames_loop fuel rt reg clock g (traced fuel2 defs spares dev) st ((d, n), out)
    = Some (Ret (st', ((d', n'), out'))) ->
  exists ops rs ds x, run_tracer append_file dev d ops = Ret (d', rs) /\ Forall fit ops
    /\ Forall (fun b => b <> []) ds
    /\ to_reads rs = map good_data ds ++ [(x, Some EOF)]
    /\ forall rest, processFrames_loop fuel rt reg clock g (listed fuel2 defs spares) st ((to_reads rs ++ rest, n), out)
                    = Some (Ret (st', ((rest, n'), out'))).
Proof.
  intros U NR C. induction fuel as [|fuel IH]; intros st d n out st' d' n' out' E; [discriminate|].
  cbn [processFrames_loop] in E. unfold traced in E at 1. cbn [recording tp_ReadFrame hid_transport fst snd] in E.
  destruct (ReadFrame_dev fuel2 defs (traced_read append_file dev) [] d) as [[[d1 r]|]|] eqn:RF; cbn [io_bind done] in E;
    try discriminate.
  destruct (read_traced dev defs fuel2 C [] d d1 r RF) as (k & rs & ds & RT & ND & RL & Q).
  assert (GO : forall st1 d2 out2, (exists ops1 rs1, run_tracer append_file dev d1 ops1 = Ret (d2, rs1)
                  /\ to_reads rs1 = [] /\ Forall fit ops1) ->
    to_reads rs = map good_data ds ->
    processFrames_loop fuel rt reg clock g (traced fuel2 defs spares dev) st1 ((d2, Datatypes.S n), out2)
      = Some (Ret (st', ((d', n'), out'))) ->
    (forall l, processFrames_loop (Datatypes.S fuel) rt reg clock g (listed fuel2 defs spares) st
                ((to_reads rs ++ l, n), out)
               = processFrames_loop fuel rt reg clock g (listed fuel2 defs spares) st1 ((l, Datatypes.S n), out2)) ->
    exists ops rs0 ds0 x, run_tracer append_file dev d ops = Ret (d', rs0) /\ Forall fit ops
    /\ Forall (fun b => b <> []) ds0
    /\ to_reads rs0 = map good_data ds0 ++ [(x, Some EOF)]
    /\ forall rest, processFrames_loop (Datatypes.S fuel) rt reg clock g (listed fuel2 defs spares) st
                      ((to_reads rs0 ++ rest, n), out) = Some (Ret (st', ((rest, n'), out')))).
  { intros st1 d2 out2 (ops1 & rs1 & R1 & T1 & F1) TR E2 HL.
    destruct (IH _ _ _ _ _ _ _ _ E2) as (ops2 & rs2 & ds2 & x & R2 & F2 & N2 & T2 & L2).
    exists (repeat (OpRead maxRawSize) k ++ ops1 ++ ops2), (rs ++ rs1 ++ rs2), (ds ++ ds2), x.
    split. { exact (run_tracer_join _ _ _ _ _ _ _ _ _ RT (run_tracer_join _ _ _ _ _ _ _ _ _ R1 R2)). }
    split. { apply Forall_app. split; [apply fit_reads|]. apply Forall_app. split; assumption. }
    split. { apply Forall_app. split; assumption. }
    split. { rewrite !to_reads_app, T1, TR, T2, map_app. cbn [app]. apply app_assoc. }
    intros rest. rewrite to_reads_app, to_reads_app, T1. cbn [app]. rewrite <- app_assoc. rewrite HL. apply L2. }
  destruct r as [fr|er].
  - destruct Q as [[_ TR]|[X _]]; [|discriminate].
    destruct (process_frame rt reg clock g (traced fuel2 defs spares dev) st ((d1, Datatypes.S n), out)
                (mkSlice fr (spares n))) as [[[st1 [[d2 n2] out2]]|]|] eqn:PF; cbn [io_bind] in E; try discriminate.
    pose (R := fun (l : list raw_read) (w1 : ((S * bytes) * nat) * list bytes) (w2 : (list raw_read * nat) * list bytes) =>
                 (exists ops1 rs1, run_tracer append_file dev d1 ops1 = Ret (fst (fst w1), rs1)
                    /\ to_reads rs1 = [] /\ Forall fit ops1)
                 /\ snd (fst w1) = Datatypes.S n /\ w2 = ((l, Datatypes.S n), snd w1)).
    assert (SIM : forall l, exists w2', process_frame rt reg clock g (listed fuel2 defs spares) st ((l, Datatypes.S n), out)
                      (mkSlice fr (spares n)) = Some (Ret (st1, w2')) /\ R l ((d2, n2), out2) w2').
    { intros l. eapply (process_frame_sim (traced fuel2 defs spares dev) (listed fuel2 defs spares) (R l)); [| |exact PF].
      - intros [[da na] oa] w2 f w1' e ((ops1 & rs1 & R1 & T1 & F1) & Hn & ->) W. cbn [fst snd] in *. subst na.
        unfold traced in W. cbn [recording tp_WriteFrame hid_transport fst snd] in W.
        destruct (WriteFrame_dev defs (tracer_Write append_file dev) da f) as [[[db eb]|]|] eqn:WF;
          cbn [io_bind done] in W; try discriminate. injection W as <- <-.
        destruct (write_traced dev defs da f db eb U NR WF) as (ops3 & rs3 & R3 & T3 & F3).
        exists ((l, Datatypes.S n), oa ++ [f]), None. split.
        + unfold listed. cbn [recording tp_WriteFrame hid_transport fst snd]. rewrite (write_discard defs l f U). reflexivity.
        + unfold R. cbn [fst snd]. split; [|split; reflexivity].
          exists (ops1 ++ ops3), (rs1 ++ rs3). split; [exact (run_tracer_join _ _ _ _ _ _ _ _ _ R1 R3)|].
          split; [rewrite to_reads_app, T1, T3; reflexivity|]. apply Forall_app. split; assumption.
      - unfold R. cbn [fst snd]. split; [|split; reflexivity]. exists [], []. repeat split; apply Forall_nil. }
    destruct (SIM []) as (_ & _ & (W & Hn & _)). cbn [fst snd] in W, Hn. subst n2.
    eapply GO; [exact W|exact TR|exact E|].
    intros l. cbn [processFrames_loop]. unfold listed at 1. cbn [recording tp_ReadFrame hid_transport fst snd].
    rewrite RL. cbn [io_bind done]. destruct (SIM l) as (w2' & PF2 & (_ & _ & ->)). cbn [snd] in PF2. cbn [fst snd].
    rewrite PF2. reflexivity.
  - assert (NE : er = EOF \/ er <> EOF) by (destruct er; [left; reflexivity|right; discriminate..]).
    destruct NE as [-> |NE].
    + injection E as <- <- <- <-. destruct Q as [[X _]|[_ (x & TR)]]; [congruence|].
      exists (repeat (OpRead maxRawSize) k), rs, ds, x. split; [exact RT|]. split; [apply fit_reads|].
      split; [exact ND|]. split; [exact TR|]. intros rest. cbn [processFrames_loop].
      unfold listed at 1. cbn [recording tp_ReadFrame hid_transport fst snd]. rewrite RL. reflexivity.
    + destruct Q as [[_ TR]|[X _]]; [|congruence].
      eapply (GO st d1 out); [exists [], []; repeat split; apply Forall_nil|exact TR| |].
      * destruct er; congruence.
      * intros l. cbn [processFrames_loop]. unfold listed at 1. cbn [recording tp_ReadFrame hid_transport fst snd].
        rewrite RL. cbn [io_bind done]. destruct er; congruence.
Qed.

(** ** The list of reads and the replay of the trace *)

Definition replays (r : Reader) (ds : list bytes) : Prop :=
  forall k, replay (List.length ds + k) 0 r maxRawSize
            = Some (map good_data ds ++ repeat ([], Some EOF) k).

Lemma replays_cons r d ds : replays r (d :: ds) ->
  exists r', replay_read r = Some (Ret (r', (d, None))) /\ replays r' ds.
Proof.
  intros H. pose proof (H 0) as H0. cbn [List.length Nat.add replay map app] in H0.
  unfold replay_read, DirIn. destruct (dir_Read 0 r maxRawSize) as [[r' x]|] eqn:E; [|discriminate].
  assert (X : x = good_data d).
  { destruct (replay (List.length ds + 0) 0 r' maxRawSize) as [l|]; [|discriminate].
    cbn [option_map] in H0. injection H0 as -> _. reflexivity. }
  exists r'. split; [rewrite X; reflexivity|]. intros k. specialize (H k).
  cbn [List.length Nat.add replay map app] in H. rewrite E in H.
  destruct (replay (List.length ds + k) 0 r' maxRawSize) as [l|]; [|discriminate].
  cbn [option_map] in H. injection H as _ ->. reflexivity.
Qed.

Lemma replays_nil r : replays r [] -> exists r', replay_read r = Some (Ret (r', ([], Some EOF))).
Proof.
  intros H. specialize (H 1). cbn [List.length Nat.add replay map app repeat] in H.
  unfold replay_read, DirIn. destruct (dir_Read 0 r maxRawSize) as [[r' x]|] eqn:E; [|discriminate].
  cbn [option_map] in H. exists r'. injection H as ->. reflexivity.
Qed.

Lemma read_replayed defs x fuel : forall buf ds r l' res, replays r ds ->
  ReadFrame_dev fuel defs list_read buf (map good_data ds ++ [(x, Some EOF)]) = Some (Ret (l', res)) ->
  exists r', ReadFrame_dev fuel defs replay_read buf r = Some (Ret (r', res))
    /\ (res = inr EOF \/ exists ds', l' = map good_data ds' ++ [(x, Some EOF)] /\ replays r' ds').
Proof.
  induction fuel as [|fuel IH]; intros buf ds r l' res H E; [discriminate|]. cbn [ReadFrame_dev] in *.
  destruct ds as [|d ds].
  - destruct (replays_nil r H) as (r' & RR). rewrite RR. cbn [map app list_read io_bind done ReadReport] in *.
    injection E as <- <-. exists r'. split; [reflexivity|]. left. reflexivity.
  - destruct (replays_cons r d ds H) as (r' & RR & H'). rewrite RR.
    cbn [map app list_read io_bind done] in *. unfold good_data at 1 in E.
    assert (STOP : forall r0, Some (Ret (map good_data ds ++ [(x, Some EOF)], r0)) = Some (Ret (l', res)) ->
              exists r'0, Some (Ret (r', r0)) = Some (Ret (r'0, res))
              /\ (res = inr EOF \/ exists ds', l' = map good_data ds' ++ [(x, Some EOF)] /\ replays r'0 ds')).
    { intros r0 X. injection X as <- <-. exists r'. split; [reflexivity|]. right. exists ds. split; [reflexivity|exact H']. }
    destruct (ReadReport (d, None)) as [report|er]; [|apply STOP; exact E].
    destruct (Find defs _) as [def|er]; [|apply STOP; exact E]. cbv zeta in *.
    destruct (Z.min _ _ <? 0)%Z; [discriminate|].
    destruct (_ =? LinkControlDone)%N; [apply STOP; exact E|].
    destruct (_ =? LinkControlMoreToFollow)%N; [exact (IH _ _ _ _ _ H' E)|].
    destruct (_ =? N.lor _ _)%N; [exact (IH _ _ _ _ _ H' E)|].
    destruct (_ =? LinkControlContinue)%N; [apply STOP; exact E|exact (IH _ _ _ _ _ H' E)].
Qed.

Lemma listed_replayed {DS} rt reg clock (g : DeviceGeneral DS) fuel2 defs spares : usable defs ->
  forall fuel st r ds x n out st' l' n' out', replays r ds ->
  processFrames_loop fuel rt reg clock g (listed fuel2 defs spares) st
    ((map good_data ds ++ [(x, Some EOF)], n), out) = Some (Ret (st', ((l', n'), out'))) ->
  exists r', processFrames_loop fuel rt reg clock g (replayed fuel2 defs spares) st ((r, n), out)
             = Some (Ret (st', ((r', n'), out'))).
Proof.
  intros U fuel st r ds x n out st' l' n' out' H E.
  pose (R := fun (w1 : (list raw_read * nat) * list bytes) (w2 : (Reader * nat) * list bytes) =>
               (exists ds0, fst (fst w1) = map good_data ds0 ++ [(x, Some EOF)] /\ replays (fst (fst w2)) ds0)
               /\ snd (fst w1) = snd (fst w2) /\ snd w1 = snd w2).
  pose (RO := fun (w1 : (list raw_read * nat) * list bytes) (w2 : (Reader * nat) * list bytes) =>
               snd (fst w1) = snd (fst w2) /\ snd w1 = snd w2).
  assert (HW : forall w1 w2 f w1' e, R w1 w2 -> tp_WriteFrame (listed fuel2 defs spares) w1 f = Some (Ret (w1', e)) ->
     exists w2' e', tp_WriteFrame (replayed fuel2 defs spares) w2 f = Some (Ret (w2', e')) /\ R w1' w2').
  { intros [[l a] o] [[q b] p] f w1' e ((ds0 & X & Y) & P & Q) W. cbn [fst snd] in *. subst b p.
    unfold listed in W. cbn [recording tp_WriteFrame hid_transport fst snd] in W.
    rewrite (write_discard defs l f U) in W. cbn [io_bind done] in W. injection W as <- <-.
    unfold replayed. cbn [recording tp_WriteFrame hid_transport fst snd]. rewrite (write_discard defs q f U).
    cbn [io_bind done]. eexists _, _. split; [reflexivity|]. unfold R. cbn [fst snd]. split; [exists ds0; auto|auto]. }
  assert (HR2 : forall w1 w2 w1' res, R w1 w2 -> tp_ReadFrame (listed fuel2 defs spares) w1 = Some (Ret (w1', res)) ->
     exists w2', tp_ReadFrame (replayed fuel2 defs spares) w2 = Some (Ret (w2', res))
       /\ (res = inr EOF \/ R w1' w2') /\ RO w1' w2').
  { intros [[l a] o] [[q b] p] w1' res ((ds0 & X & Y) & P & Q) W. cbn [fst snd] in *. subst b p l.
    unfold listed in W. cbn [recording tp_ReadFrame hid_transport fst snd] in W.
    destruct (ReadFrame_dev fuel2 defs list_read [] _) as [[[l1 r1]|]|] eqn:RF; cbn [io_bind done] in W; try discriminate.
    destruct (read_replayed _ _ _ _ _ _ _ _ Y RF) as (q' & RQ & D). injection W as <- <-.
    unfold replayed. cbn [recording tp_ReadFrame hid_transport fst snd]. rewrite RQ. cbn [io_bind done].
    eexists. split; [reflexivity|]. split; [|split; reflexivity].
    destruct D as [-> |(ds' & -> & H2)]; [left; reflexivity|right]. unfold R. cbn [fst snd].
    split; [exists ds'; auto|auto]. }
  assert (G : exists w2', processFrames_loop fuel rt reg clock g (replayed fuel2 defs spares) st ((r, n), out)
                = Some (Ret (st', w2')) /\ RO ((l', n'), out') w2').
  { refine (processFrames_sim (listed fuel2 defs spares) (replayed fuel2 defs spares) R HW _ RO _ rt reg clock g fuel st
              _ _ st' _ _ E).
    - intros w1 w2 w1' res X Y. destruct (HR2 _ _ _ _ X Y) as (w2' & A & B & _). eauto.
    - intros w1 w2 w1' w2' X Y Z. destruct (HR2 _ _ _ _ X Y) as (w2'' & A & _ & B).
      rewrite A in Z. injection Z as <-. exact B.
    - unfold R. cbn [fst snd]. split; [exists ds; auto|auto]. }
  destruct G as ([[r' b] p] & E2 & (P & Q)). cbn [fst snd] in P, Q. subst b p. exists r'. exact E2.
Qed.

Lemma read_data_reads ds x rs : Forall (fun b => b <> []) ds ->
  to_reads rs = map good_data ds ++ [(x, Some EOF)] -> read_data rs = ds.
Proof.
  intros ND H.
  assert (G : read_data rs = flat_map (fun r : raw_read => match r with (b :: got, None) => [b :: got] | _ => [] end) (to_reads rs)).
  { clear. induction rs as [|[got e|n e] rs IH]; [reflexivity| |exact IH].
    change (to_reads (ResRead got e :: rs)) with ((got, e) :: to_reads rs). cbn [flat_map]. rewrite <- IH.
    unfold read_data. cbn [flat_map]. destruct got, e; reflexivity. }
  rewrite G, H, flat_map_app. cbn [flat_map]. clear -ND. destruct x; rewrite ?app_nil_r;
    induction ND as [|d ds Hd ND IH]; cbn [map flat_map good_data]; try reflexivity;
    (destruct d; [congruence|]); cbn [good_data app]; f_equal; exact IH.
Qed.

(** A recorded session and its replay. *)
Lemma replay_same {S DS} rt reg clock (g : DeviceGeneral DS) h (dev : io_rw S) s fuel fuel2 defs spares st s' file n out :
  usable defs -> narrow defs -> honest dev -> clean dev ->
  processFrames fuel rt reg clock g (traced fuel2 defs spares dev) h (((s, []), 0), [])
    = Some (Ret (st, (((s', file), n), out))) ->
  exists r, processFrames fuel rt reg clock g (replayed fuel2 defs spares) h ((NewReader file EOF, 0), [])
            = Some (Ret (st, ((r, n), out))).
Proof.
  intros U NR HO C E. unfold processFrames in *.
  destruct (live_listed rt reg clock g dev fuel2 defs spares U NR C _ _ _ _ _ _ _ _ _ E)
    as (ops & rs & ds & x & RT & F & ND & TR & L).
  specialize (L []). rewrite app_nil_r, TR in L.
  eapply listed_replayed; [exact U| |exact L].
  intros k.
  destruct (replay_session dev s ops maxRawSize k HO) as (s1 & file1 & rs1 & _ & RT1 & RP).
  - eapply Forall_impl; [|exact F]. intros o []; assumption.
  - apply Forall_forall. intros o I. apply filter_In in I as [I1 I2]. rewrite Forall_forall in F.
    exact (Nat.eq_le_incl _ _ (proj2 (F _ I1) I2)).
  - rewrite RT in RT1. injection RT1 as <- <- <-. rewrite (read_data_reads ds x rs ND TR) in RP. exact RP.
Qed.
