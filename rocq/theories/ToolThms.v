(** The tool's commands: files, exits, and the logs of recording and replaying a session. *)
From Coq Require Import Ascii ZifyBool ZifyNat ZifyN Lia.
From Verif Require Import Base BaseFacts Text SpecText TextFacts GoTypes Types Payload Lingo Command SpecPayload SpecCommand
  Handlers SpecHandlers Packet SpecPacket Hid SpecHid HidFacts HidThms Trace SpecTrace TraceFacts TraceThms
  TraceSessions Server SpecServer SessionThms ServerThms SpecSession RecordThms Log SpecLog LogThms Main SpecMain.
Local Open Scope string_scope.
#[local] Opaque std_registry.

(** ** Logs on transports that do the same *)

(** Entries are equal, but for errors of writing a frame, which are of kind [P]. *)
Definition alike (errText : goerr -> string) (P : option goerr -> Prop) (r1 r2 : log_rec) : Prop :=
  r1 = r2 \/ exists f e, P (Some e) /\ r1 = logFrame errText f (Some e) ">> FRAME" /\ r2 = logFrame errText f None ">> FRAME".

Lemma alike_refl errText P l : Forall2 (alike errText P) l l.
Proof. induction l; [apply Forall2_nil|apply Forall2_cons; [left; reflexivity|assumption]]. Qed.
Lemma alike_app errText P a b a' b' : Forall2 (alike errText P) a a' -> Forall2 (alike errText P) b b' ->
  Forall2 (alike errText P) (a ++ b) (a' ++ b').
Proof. induction 1; cbn [app]; [trivial|]. intros X. apply Forall2_cons; auto. Qed.
Lemma alike_eq errText a b : Forall2 (alike errText (fun e => e = None)) a b -> a = b.
Proof. induction 1 as [|x y l l' H _ IH]; [reflexivity|]. destruct H as [->|(f & e & X & _)]; [congruence|discriminate]. Qed.
Lemma alike_trans errText P a b c : Forall2 (alike errText P) a b -> b = c -> Forall2 (alike errText P) a c.
Proof. intros H <-. exact H. Qed.

Section LogSim.
  Context {W1 W2 : Type} (tp1 : transport W1) (tp2 : transport W2) (R : W1 -> W2 -> Prop) (P : option goerr -> Prop).
  Context (errText : goerr -> string) (sdump : option bytes -> string) (certLog : bytes -> list log_rec).
  Context (HW : forall w1 w2 f w1' e, R w1 w2 -> tp_WriteFrame tp1 w1 f = done (w1', e) ->
                  exists w2' e', tp_WriteFrame tp2 w2 f = done (w2', e') /\ R w1' w2' /\ (e = e' \/ P e /\ e' = None)).

  Lemma write_replies_log_sim rt cs : forall m w1 w2 m' w1' l, R w1 w2 ->
    write_replies_log errText rt tp1 m cs w1 = done (m', w1', l) ->
    exists w2' l2, write_replies_log errText rt tp2 m cs w2 = done (m', w2', l2) /\ R w1' w2' /\ Forall2 (alike errText P) l l2.
  Proof.
    induction cs as [|c cs IH]; intros m w1 w2 m' w1' l H E; cbn [write_replies_log] in *.
    - injection E as <- <- <-. exists w2, []. split; [reflexivity|]. split; [exact H|apply Forall2_nil].
    - destruct (MarshalCmd rt m c) as [[m1 res]|]; cbn [io_bind] in *; [|discriminate]. cbv zeta in *.
      destruct (WritePacket NewPacketWriter match res with Ok b => b | Err _ => [] end) as [fr er].
      destruct (tp_WriteFrame tp1 w1 fr) as [[[wa ea]|]|] eqn:F; cbn [io_bind] in E; try discriminate.
      destruct (HW _ _ _ _ _ H F) as (wb & eb & F2 & H2 & PE). rewrite F2. unfold done at 1. cbn [io_bind].
      destruct (write_replies_log errText rt tp1 m1 cs wa) as [[[[m2 wc] l0]|]|] eqn:G; cbn [io_bind] in E; try discriminate.
      injection E as <- <- <-. destruct (IH _ _ _ _ _ _ H2 G) as (wd & l2 & G2 & H3 & A). rewrite G2. unfold done at 1. cbn [io_bind].
      eexists _, _. split; [reflexivity|]. split; [exact H3|].
      apply Forall2_cons; [left; reflexivity|]. apply alike_app; [apply alike_refl|].
      apply Forall2_cons; [left; reflexivity|]. apply Forall2_cons; [|exact A].
      destruct PE as [<-|[PE ->]]; [left; reflexivity|]. destruct ea as [ea|]; [|left; reflexivity].
      right. exists fr, ea. auto.
  Qed.

  Lemma process_frame_log_sim rt reg clock st fr w1 w2 st' w1' l : R w1 w2 ->
    process_frame_log errText sdump certLog rt reg clock tp1 st w1 fr = done (st', w1', l) ->
    exists w2' l2, process_frame_log errText sdump certLog rt reg clock tp2 st w2 fr = done (st', w2', l2)
      /\ R w1' w2' /\ Forall2 (alike errText P) l l2.
  Proof.
    intros H E. unfold process_frame_log in *. cbv zeta in *.
    destruct (frame_packets rt reg (sv_mode st) fr) as [[[m1 evs]|]|]; cbn [io_bind] in *; try discriminate.
    destruct (handle_all_log sdump certLog reg clock (inCmds evs) (sv_h st)) as [[h1 l1]|]; cbn [io_bind] in *; [|discriminate].
    destruct (write_replies_log errText rt tp1 m1 _ w1) as [[[[m2 wa] l3]|]|] eqn:F; cbn [io_bind] in *; try discriminate.
    injection E as <- <- <-. destruct (write_replies_log_sim _ _ _ _ _ _ _ _ H F) as (wb & l4 & F2 & H2 & A).
    rewrite F2. unfold done at 1. cbn [io_bind]. eexists _, _. split; [reflexivity|]. split; [exact H2|].
    apply Forall2_cons; [left; reflexivity|]. apply alike_app; [apply alike_refl|]. apply alike_app; [apply alike_refl|exact A].
  Qed.

  Context (HR : forall w1 w2 w1' r, R w1 w2 -> tp_ReadFrame tp1 w1 = done (w1', r) ->
                  exists w2', tp_ReadFrame tp2 w2 = done (w2', r) /\ (r = inr EOF \/ R w1' w2')).
  Context (RO : W1 -> W2 -> Prop)
          (HEOF : forall w1 w2 w1' w2', R w1 w2 -> tp_ReadFrame tp1 w1 = done (w1', inr EOF) ->
                    tp_ReadFrame tp2 w2 = done (w2', inr EOF) -> RO w1' w2').

  Lemma processFrames_log_sim rt reg clock fuel : forall st w1 w2 st' w1' l, R w1 w2 ->
    processFrames_log fuel errText sdump certLog rt reg clock tp1 st w1 = done (st', w1', l) ->
    exists w2' l2, processFrames_log fuel errText sdump certLog rt reg clock tp2 st w2 = done (st', w2', l2)
      /\ RO w1' w2' /\ Forall2 (alike errText P) l l2.
  Proof.
    induction fuel as [|fuel IH]; intros st w1 w2 st' w1' l H E; cbn [processFrames_log] in *; [discriminate|].
    destruct (tp_ReadFrame tp1 w1) as [[[wa r]|]|] eqn:F; cbn [io_bind] in E; try discriminate.
    destruct (HR _ _ _ _ H F) as (wb & F2 & D). rewrite F2. unfold done at 1. cbn [io_bind].
    assert (ERR : forall e, (r = inr EOF \/ R wa wb) -> r <> inr EOF ->
      (go (st', w', l) <- processFrames_log fuel errText sdump certLog rt reg clock tp1 st wa;
       done (st', w', logFrame errText [] (Some e) "<< FRAME" :: l)) = done (st', w1', l) ->
      exists w2' l2, (go (st', w', l) <- processFrames_log fuel errText sdump certLog rt reg clock tp2 st wb;
       done (st', w', logFrame errText [] (Some e) "<< FRAME" :: l)) = done (st', w2', l2)
      /\ RO w1' w2' /\ Forall2 (alike errText P) l l2).
    { intros e DD NE X. destruct DD as [DD|DD]; [contradiction|].
      destruct (processFrames_log fuel errText sdump certLog rt reg clock tp1 st wa) as [[[[st2 wc] l0]|]|] eqn:G; cbn [io_bind] in X;
        try discriminate. injection X as <- <- <-. destruct (IH _ _ _ _ _ _ DD G) as (wd & l2 & G2 & H3 & A).
      rewrite G2. unfold done at 1. cbn [io_bind]. eexists _, _. split; [reflexivity|]. split; [exact H3|].
      apply Forall2_cons; [left; reflexivity|exact A]. }
    destruct r as [fr|e].
    - destruct D as [D|D]; [discriminate|].
      destruct (process_frame_log errText sdump certLog rt reg clock tp1 st wa fr) as [[[[st1 wc] l1]|]|] eqn:G; cbn [io_bind] in E; try discriminate.
      destruct (process_frame_log_sim _ _ _ _ _ _ _ _ _ _ D G) as (wd & l2 & G2 & H2 & A). rewrite G2. unfold done at 1. cbn [io_bind].
      destruct (processFrames_log fuel errText sdump certLog rt reg clock tp1 st1 wc) as [[[[st2 we] l3]|]|] eqn:I; cbn [io_bind] in E; try discriminate.
      injection E as <- <- <-. destruct (IH _ _ _ _ _ _ H2 I) as (wf & l4 & I2 & H4 & A2).
      rewrite I2. unfold done at 1. cbn [io_bind]. eexists _, _. split; [reflexivity|]. split; [exact H4|]. apply alike_app; assumption.
    - destruct e; [|apply ERR; [exact D|discriminate|exact E]..].
      injection E as <- <- <-. eexists _, _. split; [reflexivity|]. split; [exact (HEOF _ _ _ _ H F F2)|].
      apply Forall2_cons; [left; reflexivity|apply Forall2_nil].
  Qed.
End LogSim.

(** ** The traced run and the list of its reads *)

Definition listed_tp (fuel : nat) (defs : list ReportDef) (spares : nat -> bytes) : transport (list raw_read * nat) :=
  hid_transport fuel defs spares list_read discard.
Definition traced_tp {S} (fuel : nat) (defs : list ReportDef) (spares : nat -> bytes) (dev : io_rw S) : transport ((S * bytes) * nat) :=
  hid_transport fuel defs spares (traced_read append_file dev) (tracer_Write append_file dev).
Definition replayed_tp (fuel : nat) (defs : list ReportDef) (spares : nat -> bytes) : transport (Reader * nat) :=
  hid_transport fuel defs spares replay_read discard.

Lemma live_listed_log {S} errText sdump certLog rt reg clock (dev : io_rw S) fuel2 defs spares (P : option goerr -> Prop) :
  usable defs -> narrow defs -> clean dev ->
  (forall d f d' e, WriteFrame_dev defs (tracer_Write append_file dev) d f = done (d', e) -> P e) ->
  forall fuel st d n st' d' n' l,
  processFrames_log fuel errText sdump certLog rt reg clock (traced_tp fuel2 defs spares dev) st (d, n) = done (st', (d', n'), l) ->
  exists ops rs ds x l2, run_tracer append_file dev d ops = Ret (d', rs) /\ Forall fit ops
    /\ Forall (fun b => b <> []) ds
    /\ to_reads rs = (map good_data ds ++ [(x, Some EOF)])%list
    /\ Forall2 (alike errText P) l l2
    /\ forall rest, processFrames_log fuel errText sdump certLog rt reg clock (listed_tp fuel2 defs spares) st ((to_reads rs ++ rest)%list, n)
                    = done (st', (rest, n'), l2).
Proof.
  intros U NR C PW. induction fuel as [|fuel IH]; intros st d n st' d' n' l E; [discriminate|].
  cbn [processFrames_log] in E. unfold traced_tp in E at 1. cbn [tp_ReadFrame hid_transport fst snd] in E.
  destruct (ReadFrame_dev fuel2 defs (traced_read append_file dev) [] d) as [[[d1 r]|]|] eqn:RF; cbn [io_bind done] in E;
    try discriminate.
  destruct (read_traced dev defs fuel2 C [] d d1 r RF) as (k & rs & ds & RT & ND & RL & Q).
  assert (GO : forall st1 d2 l1 l1' l0, (exists ops1 rs1, run_tracer append_file dev d1 ops1 = Ret (d2, rs1)
                  /\ to_reads rs1 = [] /\ Forall fit ops1) ->
    to_reads rs = map good_data ds ->
    Forall2 (alike errText P) l1 l1' -> l = (l1 ++ l0)%list ->
    processFrames_log fuel errText sdump certLog rt reg clock (traced_tp fuel2 defs spares dev) st1 (d2, Datatypes.S n)
      = done (st', (d', n'), l0) ->
    (forall rest, processFrames_log (Datatypes.S fuel) errText sdump certLog rt reg clock (listed_tp fuel2 defs spares) st
                ((to_reads rs ++ rest)%list, n)
               = go (a, b, c) <- processFrames_log fuel errText sdump certLog rt reg clock (listed_tp fuel2 defs spares) st1 (rest, Datatypes.S n);
                 done (a, b, (l1' ++ c)%list)) ->
    exists ops rs0 ds0 x l2, run_tracer append_file dev d ops = Ret (d', rs0) /\ Forall fit ops
    /\ Forall (fun b => b <> []) ds0
    /\ to_reads rs0 = (map good_data ds0 ++ [(x, Some EOF)])%list
    /\ Forall2 (alike errText P) l l2
    /\ forall rest, processFrames_log (Datatypes.S fuel) errText sdump certLog rt reg clock (listed_tp fuel2 defs spares) st
                      ((to_reads rs0 ++ rest)%list, n) = done (st', (rest, n'), l2)).
  { intros st1 d2 l1 l1' l0 (ops1 & rs1 & R1 & T1 & F1) TR AL -> E2 HL.
    destruct (IH _ _ _ _ _ _ _ E2) as (ops2 & rs2 & ds2 & x & l2 & R2 & F2 & N2 & T2 & A2 & L2).
    exists (repeat (OpRead maxRawSize) k ++ ops1 ++ ops2)%list, (rs ++ rs1 ++ rs2)%list, (ds ++ ds2)%list, x, (l1' ++ l2)%list.
    split. { exact (run_tracer_join _ _ _ _ _ _ _ _ _ RT (run_tracer_join _ _ _ _ _ _ _ _ _ R1 R2)). }
    split. { apply Forall_app. split; [apply fit_reads|]. apply Forall_app. split; assumption. }
    split. { apply Forall_app. split; assumption. }
    split. { rewrite !to_reads_app, T1, TR, T2, map_app. cbn [app]. apply app_assoc. }
    split. { apply alike_app; assumption. }
    intros rest. rewrite to_reads_app, to_reads_app, T1. cbn [app]. rewrite <- app_assoc. rewrite HL, L2. reflexivity. }
  destruct r as [fr|er].
  - destruct Q as [[_ TR]|[X _]]; [|discriminate].
    destruct (process_frame_log errText sdump certLog rt reg clock (traced_tp fuel2 defs spares dev) st (d1, Datatypes.S n)
                (mkSlice fr (spares n))) as [[[[st1 [d2 n2]] l1]|]|] eqn:PF; cbn [io_bind] in E; try discriminate.
    destruct (processFrames_log fuel errText sdump certLog rt reg clock (traced_tp fuel2 defs spares dev) st1 (d2, n2))
      as [[[[st2 [d3 n3]] l0]|]|] eqn:PL; cbn [io_bind] in E; try discriminate.
    injection E as <- <- <- <-.
    pose (R := fun (rest : list raw_read) (w1 : (S * bytes) * nat) (w2 : list raw_read * nat) =>
                 (exists ops1 rs1, run_tracer append_file dev d1 ops1 = Ret (fst w1, rs1)
                    /\ to_reads rs1 = [] /\ Forall fit ops1)
                 /\ snd w1 = Datatypes.S n /\ w2 = (rest, Datatypes.S n)).
    assert (SIM : forall rest, exists w2' l2, process_frame_log errText sdump certLog rt reg clock (listed_tp fuel2 defs spares) st (rest, Datatypes.S n)
                      (mkSlice fr (spares n)) = done (st1, w2', l2) /\ R rest (d2, n2) w2' /\ Forall2 (alike errText P) l1 l2).
    { intros rest. eapply (process_frame_log_sim (traced_tp fuel2 defs spares dev) (listed_tp fuel2 defs spares) (R rest)); [| |exact PF].
      - intros [da na] w2 f w1' e ((ops1 & rs1 & R1 & T1 & F1) & Hn & ->) W. cbn [fst snd] in *. subst na.
        unfold traced_tp in W. cbn [tp_WriteFrame hid_transport fst snd] in W.
        destruct (WriteFrame_dev defs (tracer_Write append_file dev) da f) as [[[db eb]|]|] eqn:WF;
          cbn [io_bind done] in W; try discriminate. injection W as <- <-.
        destruct (write_traced dev defs da f db eb U NR WF) as (ops3 & rs3 & R3 & T3 & F3).
        exists (rest, Datatypes.S n), None. split.
        + unfold listed_tp. cbn [tp_WriteFrame hid_transport fst snd]. rewrite (write_discard defs rest f U). reflexivity.
        + split; [|right; split; [exact (PW _ _ _ _ WF)|reflexivity]].
          unfold R. cbn [fst snd]. split; [|split; reflexivity].
          exists (ops1 ++ ops3)%list, (rs1 ++ rs3)%list. split; [exact (run_tracer_join _ _ _ _ _ _ _ _ _ R1 R3)|].
          split; [rewrite to_reads_app, T1, T3; reflexivity|]. apply Forall_app. split; assumption.
      - unfold R. cbn [fst snd]. split; [|split; reflexivity]. exists [], []. repeat split; apply Forall_nil. }
    destruct (SIM []) as (wx & l1' & SX & (W & Hn & _) & A1). cbn [fst snd] in W, Hn. subst n2.
    eapply (GO st1 d2 l1 l1' l0); [exact W|exact TR|exact A1|reflexivity|exact PL|].
    intros rest. cbn [processFrames_log]. unfold listed_tp at 1. cbn [tp_ReadFrame hid_transport fst snd].
    rewrite RL. cbn [io_bind done]. destruct (SIM rest) as (w2' & l2 & PF2 & (_ & _ & ->) & A2).
    cbn [snd fst]. rewrite PF2. unfold done at 1. cbn [io_bind].
    assert (l2 = l1'); [|subst; reflexivity]. clear -SX PF2 U.
    revert SX PF2. unfold process_frame_log. cbv zeta.
    destruct (frame_packets rt reg (sv_mode st) _) as [[[m1 evs]|]|]; cbn [io_bind]; try discriminate.
    destruct (handle_all_log sdump certLog reg clock (inCmds evs) (sv_h st)) as [[h1 k1]|]; cbn [io_bind]; [|discriminate].
    generalize (outCmds (h_log (sv_h st)) (h_log h1)). intros cs.
    assert (G : forall m a b, (forall ma a' la mb b' lb, write_replies_log errText rt (listed_tp fuel2 defs spares) m cs a = done (ma, a', la) ->
        write_replies_log errText rt (listed_tp fuel2 defs spares) m cs b = done (mb, b', lb) -> la = lb)).
    { clear -U. induction cs as [|c cs IH]; intros m a b ma a' la mb b' lb; cbn [write_replies_log].
      - intros X Y. injection X as _ _ <-. injection Y as _ _ <-. reflexivity.
      - destruct (MarshalCmd rt m c) as [[m1 res]|]; cbn [io_bind]; [|discriminate]. cbv zeta.
        destruct (WritePacket NewPacketWriter match res with Ok b => b | Err _ => [] end) as [fr0 er].
        unfold listed_tp at 1 3. cbn [tp_WriteFrame hid_transport]. rewrite !(write_discard defs _ fr0 U). cbn [io_bind done].
        destruct (write_replies_log errText rt (listed_tp fuel2 defs spares) m1 cs (fst a, snd a)) as [[[[m2 wc] l0]|]|] eqn:X; cbn [io_bind]; try discriminate.
        destruct (write_replies_log errText rt (listed_tp fuel2 defs spares) m1 cs (fst b, snd b)) as [[[[m3 wd] l3]|]|] eqn:Y; cbn [io_bind]; try discriminate.
        intros A B. pose proof (IH _ _ _ _ _ _ _ _ _ X Y) as L. subst l3. injection A as _ _ <-. injection B as _ _ <-. reflexivity. }
    specialize (G m1 ([], Datatypes.S n) (rest, Datatypes.S n)).
    destruct (write_replies_log errText rt (listed_tp fuel2 defs spares) m1 cs ([], Datatypes.S n)) as [[[[m2 wc] l0]|]|] eqn:X; cbn [io_bind]; try discriminate.
    destruct (write_replies_log errText rt (listed_tp fuel2 defs spares) m1 cs (rest, Datatypes.S n)) as [[[[m3 wd] l3]|]|] eqn:Y; cbn [io_bind]; try discriminate.
    intros A B. pose proof (G _ _ _ _ _ _ eq_refl eq_refl) as L. subst l3. injection A as _ Aw Al. injection B as Bm Bw Bl. congruence.
  - assert (NE : er = EOF \/ er <> EOF) by (destruct er; [left; reflexivity|right; discriminate..]).
    destruct NE as [-> |NE].
    + injection E as <- <- <- <-. destruct Q as [[X _]|[_ (x & TR)]]; [congruence|].
      eexists (repeat (OpRead maxRawSize) k), rs, ds, x, _. split; [exact RT|]. split; [apply fit_reads|].
      split; [exact ND|]. split; [exact TR|]. split; [apply alike_refl|]. intros rest. cbn [processFrames_log].
      unfold listed_tp at 1. cbn [tp_ReadFrame hid_transport fst snd]. rewrite RL. reflexivity.
    + destruct Q as [[_ TR]|[X _]]; [|congruence].
      assert (E2 : (go (st', w', l) <- processFrames_log fuel errText sdump certLog rt reg clock (traced_tp fuel2 defs spares dev) st (d1, Datatypes.S n);
                    done (st', w', logFrame errText [] (Some er) "<< FRAME" :: l)) = done (st', (d', n'), l))
        by (destruct er; congruence).
      destruct (processFrames_log fuel errText sdump certLog rt reg clock (traced_tp fuel2 defs spares dev) st (d1, Datatypes.S n))
        as [[[[st2 w2] l0]|]|] eqn:PL; cbn [io_bind] in E2; try discriminate. injection E2 as -> -> <-.
      eapply (GO st d1 [_] [_] l0); [exists [], []; repeat split; apply Forall_nil|exact TR|apply alike_refl|reflexivity|exact PL|].
      intros rest. cbn [processFrames_log]. unfold listed_tp at 1. cbn [tp_ReadFrame hid_transport fst snd].
      rewrite RL. cbn [io_bind done]. destruct er; [congruence|reflexivity..].
Qed.

Lemma listed_replayed_log errText sdump certLog rt reg clock fuel2 defs spares : usable defs ->
  forall fuel st r ds x n st' l' n' l, replays r ds ->
  processFrames_log fuel errText sdump certLog rt reg clock (listed_tp fuel2 defs spares) st
    ((map good_data ds ++ [(x, Some EOF)])%list, n) = done (st', (l', n'), l) ->
  exists r', processFrames_log fuel errText sdump certLog rt reg clock (replayed_tp fuel2 defs spares) st (r, n)
             = done (st', (r', n'), l).
Proof.
  intros U fuel st r ds x n st' l' n' l H E.
  pose (R := fun (w1 : list raw_read * nat) (w2 : Reader * nat) =>
               (exists ds0, fst w1 = (map good_data ds0 ++ [(x, Some EOF)])%list /\ replays (fst w2) ds0) /\ snd w1 = snd w2).
  pose (RO := fun (w1 : list raw_read * nat) (w2 : Reader * nat) => snd w1 = snd w2).
  assert (HW : forall w1 w2 f w1' e, R w1 w2 -> tp_WriteFrame (listed_tp fuel2 defs spares) w1 f = done (w1', e) ->
     exists w2' e', tp_WriteFrame (replayed_tp fuel2 defs spares) w2 f = done (w2', e') /\ R w1' w2' /\ (e = e' \/ e = None /\ e' = None)).
  { intros [li a] [q b] f w1' e ((ds0 & X & Y) & Q) W. cbn [fst snd] in *. subst b.
    unfold listed_tp in W. cbn [tp_WriteFrame hid_transport fst snd] in W.
    rewrite (write_discard defs li f U) in W. cbn [io_bind done] in W. injection W as <- <-.
    unfold replayed_tp. cbn [tp_WriteFrame hid_transport fst snd]. rewrite (write_discard defs q f U).
    cbn [io_bind done]. eexists _, _. split; [reflexivity|]. split; [|left; reflexivity].
    unfold R. cbn [fst snd]. split; [exists ds0; auto|auto]. }
  assert (HR2 : forall w1 w2 w1' res, R w1 w2 -> tp_ReadFrame (listed_tp fuel2 defs spares) w1 = done (w1', res) ->
     exists w2', tp_ReadFrame (replayed_tp fuel2 defs spares) w2 = done (w2', res)
       /\ (res = inr EOF \/ R w1' w2') /\ RO w1' w2').
  { intros [li a] [q b] w1' res ((ds0 & X & Y) & Q) W. cbn [fst snd] in *. subst b li.
    unfold listed_tp in W. cbn [tp_ReadFrame hid_transport fst snd] in W.
    destruct (ReadFrame_dev fuel2 defs list_read [] _) as [[[l1 r1]|]|] eqn:RF; cbn [io_bind done] in W; try discriminate.
    destruct (read_replayed _ _ _ _ _ _ _ _ Y RF) as (q' & RQ & D). injection W as <- <-.
    unfold replayed_tp. cbn [tp_ReadFrame hid_transport fst snd]. rewrite RQ. cbn [io_bind done].
    eexists. split; [reflexivity|]. split; [|reflexivity].
    destruct D as [-> |(ds' & -> & H2)]; [left; reflexivity|right]. unfold R. cbn [fst snd].
    split; [exists ds'; auto|auto]. }
  assert (G : exists w2' l2, processFrames_log fuel errText sdump certLog rt reg clock (replayed_tp fuel2 defs spares) st (r, n)
                = done (st', w2', l2) /\ RO (l', n') w2' /\ Forall2 (alike errText (fun e => e = None)) l l2).
  { refine (processFrames_log_sim (listed_tp fuel2 defs spares) (replayed_tp fuel2 defs spares) R _ errText sdump certLog HW _ RO _ rt reg clock fuel st
              _ _ st' _ _ _ E).
    - intros w1 w2 w1' res X Y. destruct (HR2 _ _ _ _ X Y) as (w2' & A & B & _). eauto.
    - intros w1 w2 w1' w2' X Y Z. destruct (HR2 _ _ _ _ X Y) as (w2'' & A & _ & B).
      rewrite A in Z. injection Z as <-. exact B.
    - unfold R. cbn [fst snd]. split; [exists ds; auto|auto]. }
  destruct G as ([r' b] & l2 & E2 & Q & A). unfold RO in Q. cbn [snd] in Q. subst b. apply alike_eq in A as <-. exists r'. exact E2.
Qed.

(** A recorded session and its replay log the same, but for errors of writes. *)
Lemma replay_log {S} errText sdump certLog rt reg clock st0 (dev : io_rw S) s fuel fuel2 defs spares st s' file n l (P : option goerr -> Prop) :
  usable defs -> narrow defs -> honest dev -> clean dev ->
  (forall d f d' e, WriteFrame_dev defs (tracer_Write append_file dev) d f = done (d', e) -> P e) ->
  processFrames_log fuel errText sdump certLog rt reg clock (traced_tp fuel2 defs spares dev) st0 ((s, []), 0)
    = done (st, ((s', file), n), l) ->
  exists r l2, processFrames_log fuel errText sdump certLog rt reg clock (replayed_tp fuel2 defs spares) st0 (NewReader file EOF, 0)
            = done (st, (r, n), l2) /\ Forall2 (alike errText P) l l2.
Proof.
  intros U NR HO C PW E.
  destruct (live_listed_log errText sdump certLog rt reg clock dev fuel2 defs spares P U NR C PW _ _ _ _ _ _ _ _ E)
    as (ops & rs & ds & x & l2 & RT & F & ND & TR & AL & L).
  specialize (L []). rewrite app_nil_r, TR in L.
  assert (RP : replays (NewReader file EOF) ds).
  { intros k. destruct (replay_session dev s ops maxRawSize k HO) as (s1 & file1 & rs1 & _ & RT1 & RP).
    - eapply Forall_impl; [|exact F]. intros o []; assumption.
    - apply Forall_forall. intros o I. apply filter_In in I as [I1 I2]. rewrite Forall_forall in F.
      exact (Nat.eq_le_incl _ _ (proj2 (F _ I1) I2)).
    - rewrite RT in RT1. injection RT1 as <- <- <-. rewrite (read_data_reads ds x rs ND TR) in RP. exact RP. }
  destruct (listed_replayed_log errText sdump certLog rt reg clock fuel2 defs spares U _ _ _ _ _ _ _ _ _ _ RP L) as (r & X).
  exists r, l2. split; assumption.
Qed.

(** ** With and without the tracer *)

Section Tracer.
  Context {S : Type} (dev : io_rw S) (HO : honest dev).

  Lemma read_both defs fuel : forall buf d file, exists file',
    ReadFrame_dev fuel defs (traced_read append_file dev) buf (d, file)
    = (go (d', r) <- ReadFrame_dev fuel defs (plain_read dev) buf d; done ((d', file'), r)).
  Proof.
    induction fuel as [|fuel IH]; intros buf d file; cbn [ReadFrame_dev]; [exists []; reflexivity|].
    unfold traced_read at 1, plain_read at 1, tracer_Read.
    destruct (rw_read dev d maxRawSize) as [d1 [got e]] eqn:RD.
    assert (X : exists file1, (match e with
       | Some _ => Ret (d1, file, (got, e))
       | None => if Nat.ltb maxRawSize (List.length got) then Panic
                 else let '(t', _) := WriteMsg append_file file (mkMsg DirIn 0 got) in Ret (d1, t', (got, e))
       end) = Ret ((d1, file1), (got, e))).
    { destruct e as [e|]; [eexists; reflexivity|]. apply (proj1 HO) in RD.
      destruct (Nat.ltb_spec maxRawSize (List.length got)); [lia|].
      destruct (WriteMsg append_file file (mkMsg DirIn 0 got)). eexists; reflexivity. }
    destruct X as (file1 & X).
    match goal with |- exists f, io_bind (Some ?a) _ = _ => assert (Y : a = Ret ((d1, file1), (got, e))) end.
    { destruct e; exact X. }
    rewrite Y. cbn [io_bind done]. clear X Y.
    destruct (ReadReport (got, e)) as [report|er]; [|eexists; reflexivity].
    destruct (Find defs _) as [def|er]; [|eexists; reflexivity]. cbv zeta.
    destruct (Z.min _ _ <? 0)%Z; [exists []; reflexivity|].
    destruct (_ =? LinkControlDone)%N; [eexists; reflexivity|].
    destruct (_ =? LinkControlMoreToFollow)%N; [apply IH|].
    destruct (_ =? N.lor _ _)%N; [apply IH|].
    destruct (_ =? LinkControlContinue)%N; [eexists; reflexivity|apply IH].
  Qed.

  Lemma offer_both rs : forall d file, exists file',
    offer (dev_WriteReport (tracer_Write append_file dev)) (Ret (d, file)) rs
    = (let '(o, e) := offer (dev_WriteReport (plain_write dev)) (Ret d) rs in (do d' <- o; Ret (d', file'), e)).
  Proof.
    induction rs as [|r rs IH]; intros d file; cbn [offer]; [eexists; reflexivity|].
    unfold dev_WriteReport at 1 3, WriteReport, raw_Write. cbn [bind]. unfold plain_write at 1. fold (raw r).
    unfold tracer_Write at 1. destruct (rw_write dev d (raw r)) as [d1 [n e]] eqn:W.
    assert (X : exists file1, (match e with
       | Some _ => Ret (d1, file, (n, e))
       | None => if Nat.ltb (List.length (raw r)) n then Panic
                 else let '(t', _) := WriteMsg append_file file (mkMsg DirOut 0 (firstn n (raw r))) in Ret (d1, t', (n, e))
       end) = Ret ((d1, file1), (n, e))).
    { destruct e as [e|]; [eexists; reflexivity|]. apply (proj2 HO) in W.
      destruct (Nat.ltb_spec (List.length (raw r)) n); [lia|].
      destruct (WriteMsg append_file file _). eexists; reflexivity. }
    destruct X as (file1 & X). rewrite X. clear X.
    destruct (Nat.ltb (List.length (raw r)) n); [exists []; reflexivity|].
    destruct e as [e|]; [eexists; reflexivity|]. destruct (Nat.eqb n _); [apply IH|eexists; reflexivity].
  Qed.

  Lemma write_both defs d file f : usable defs -> exists file',
    WriteFrame_dev defs (tracer_Write append_file dev) (d, file) f
    = (go (d', e) <- WriteFrame_dev defs (plain_write dev) d f; done ((d', file'), e)).
  Proof.
    intros (_ & _ & x & LO & L). unfold WriteFrame_dev. destruct f as [|b f].
    - rewrite !write_empty. eexists. reflexivity.
    - destruct (write_segments defs (b :: f) x (List.length (b :: f)) LO L ltac:(discriminate) ltac:(lia)) as (rs & _ & _ & H).
      rewrite !H. destruct (offer_both rs d file) as (file' & E). rewrite E.
      destruct (offer (dev_WriteReport (plain_write dev)) (Ret d) rs) as [[d'|] e]; exists file'; reflexivity.
  Qed.

  Context (defs : list ReportDef) (U : usable defs) (fuel2 : nat) (spares : nat -> bytes).
  Context (errText : goerr -> string) (sdump : option bytes -> string) (certLog : bytes -> list log_rec).

  Definition plain_tp : transport (S * nat) := hid_transport fuel2 defs spares (plain_read dev) (plain_write dev).

  Lemma serve_both rt reg clock fuel st d n file st' :
    (forall d' n' l file', processFrames_log fuel errText sdump certLog rt reg clock (traced_tp fuel2 defs spares dev) st ((d, file), n) = done (st', ((d', file'), n'), l) ->
       processFrames_log fuel errText sdump certLog rt reg clock plain_tp st (d, n) = done (st', (d', n'), l))
    /\ (forall d' n' l, processFrames_log fuel errText sdump certLog rt reg clock plain_tp st (d, n) = done (st', (d', n'), l) ->
       exists file', processFrames_log fuel errText sdump certLog rt reg clock (traced_tp fuel2 defs spares dev) st ((d, file), n) = done (st', ((d', file'), n'), l)).
  Proof.
    split.
    - intros d' n' l file' E.
      pose (R := fun (w1 : (S * bytes) * nat) (w2 : S * nat) => w2 = (fst (fst w1), snd w1)).
      destruct (processFrames_log_sim (traced_tp fuel2 defs spares dev) plain_tp R (fun e => e = None) errText sdump certLog)
        with (RO := R) (rt := rt) (reg := reg) (clock := clock) (fuel := fuel) (st := st) (w1 := ((d, file), n)) (w2 := (d, n)) (st' := st')
             (w1' := ((d', file'), n')) (l := l) as (w2' & l2 & E2 & HR & A).
      + intros [[a fa] k] w2 f w1' e -> W. cbn [fst snd] in *. unfold traced_tp in W. unfold plain_tp. cbn [tp_WriteFrame hid_transport fst snd] in *.
        destruct (write_both defs a fa f U) as (f' & X). rewrite X in W.
        destruct (WriteFrame_dev defs (plain_write dev) a f) as [[[a' e']|]|]; cbn [io_bind done] in *; try discriminate.
        injection W as <- <-. eexists _, _. split; [reflexivity|]. split; [reflexivity|left; reflexivity].
      + intros [[a fa] k] w2 w1' r -> W. cbn [fst snd] in *. unfold traced_tp in W. unfold plain_tp. cbn [tp_ReadFrame hid_transport fst snd] in *.
        destruct (read_both defs fuel2 [] a fa) as (f' & X). rewrite X in W.
        destruct (ReadFrame_dev fuel2 defs (plain_read dev) [] a) as [[[a' e']|]|]; cbn [io_bind done] in *; try discriminate.
        injection W as <- <-. eexists. split; [reflexivity|right; reflexivity].
      + intros [[a fa] k] w2 w1' w2' -> W W2. cbn [fst snd] in *. unfold traced_tp in W. unfold plain_tp in W2. cbn [tp_ReadFrame hid_transport fst snd] in *.
        destruct (read_both defs fuel2 [] a fa) as (f' & X). rewrite X in W.
        destruct (ReadFrame_dev fuel2 defs (plain_read dev) [] a) as [[[a' e']|]|]; cbn [io_bind done] in *; try discriminate.
        injection W as <- _. injection W2 as <- _. reflexivity.
      + reflexivity.
      + exact E.
      + apply alike_eq in A as <-. unfold R in HR. cbn [fst snd] in HR. subst w2'. exact E2.
    - intros d' n' l E.
      pose (R := fun (w2 : S * nat) (w1 : (S * bytes) * nat) => w2 = (fst (fst w1), snd w1)).
      destruct (processFrames_log_sim plain_tp (traced_tp fuel2 defs spares dev) R (fun e => e = None) errText sdump certLog)
        with (RO := R) (rt := rt) (reg := reg) (clock := clock) (fuel := fuel) (st := st) (w1 := (d, n)) (w2 := ((d, file), n)) (st' := st')
             (w1' := (d', n')) (l := l) as ([[d2 file2] n2] & l2 & E2 & HR & A).
      + intros w2 [[a fa] k] f w1' e -> W. cbn [fst snd] in *. unfold plain_tp in W. unfold traced_tp. cbn [tp_WriteFrame hid_transport fst snd] in *.
        destruct (write_both defs a fa f U) as (f' & X). rewrite X.
        destruct (WriteFrame_dev defs (plain_write dev) a f) as [[[a' e']|]|]; cbn [io_bind done] in *; try discriminate.
        injection W as <- <-. eexists _, _. split; [reflexivity|]. split; [reflexivity|left; reflexivity].
      + intros w2 [[a fa] k] w1' r -> W. cbn [fst snd] in *. unfold plain_tp in W. unfold traced_tp. cbn [tp_ReadFrame hid_transport fst snd] in *.
        destruct (read_both defs fuel2 [] a fa) as (f' & X). rewrite X.
        destruct (ReadFrame_dev fuel2 defs (plain_read dev) [] a) as [[[a' e']|]|]; cbn [io_bind done] in *; try discriminate.
        injection W as <- <-. eexists. split; [reflexivity|right; reflexivity].
      + intros w2 [[a fa] k] w1' w2' -> W W2. cbn [fst snd] in *. unfold plain_tp in W. unfold traced_tp in W2. cbn [tp_ReadFrame hid_transport fst snd] in *.
        destruct (read_both defs fuel2 [] a fa) as (f' & X). rewrite X in W2.
        destruct (ReadFrame_dev fuel2 defs (plain_read dev) [] a) as [[[a' e']|]|]; cbn [io_bind done] in *; try discriminate.
        injection W as <- _. injection W2 as <- _. reflexivity.
      + reflexivity.
      + exact E.
      + apply alike_eq in A as <-. unfold R in HR. cbn [fst snd] in HR. injection HR as -> ->. exists file2. exact E2.
  Qed.
End Tracer.
