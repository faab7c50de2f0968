(** Lemmas for C118. *)
From Coq Require Import ZifyBool ZifyNat ZifyN Lia.
From Verif Require Import Base BaseFacts GoTypes Types Payload Lingo Command SpecPayload SpecCommand Handlers SpecHandlers HandlersThms
  SpecProtocol Packet SpecPacket PacketFacts PacketThms Hid SpecHid HidThms Server SpecServer ServerFacts ServerThms SpecWire ProtocolProps SpecPlug SpecTransport.

#[local] Opaque std_registry.

(** ** Packets of a frame *)

Fixpoint decode_all (rt mode : bool) (ps : list bytes) : outcome (bool * list command) :=
  match ps with
  | [] => Ret (mode, [])
  | p :: ps' =>
      do (m1, c, _) <- UnmarshalCmd rt std_registry mode p;
      do (m', cs) <- decode_all rt m1 ps';
      Ret (m', c :: cs)
  end.

Lemma held_packets rt fr ps : holds fr ps -> forall m fuel, List.length (vis fr) < fuel ->
  match decode_all rt m ps with
  | Panic => read_packets fuel rt std_registry m fr = Some Panic
  | Ret (m', cs) => exists evs, read_packets fuel rt std_registry m fr = Some (Ret (m', evs)) /\ inCmds evs = cs
  end.
Proof.
  destruct fr as [v sp]. intros (r & Hs & Hr). cbn [vis spare] in *.
  induction Hs as [d|f w p d ps r Hf Hw Hs IH|f d ps r Hf Hn Ho Hs IH]; intros m fuel Hl;
    (destruct fuel as [|fuel]; [lia|]); cbn [read_packets].
  - cbn [decode_all]. rewrite ReadPacket_eof by exact Hr. exists []. split; reflexivity.
  - cbn [decode_all]. rewrite (ReadPacket_packet f p w d sp Hf Hw). cbn [io_bind].
    destruct (UnmarshalCmd rt std_registry m p) as [[[m1 c] e]|]; [|reflexivity]. cbn [bind io_bind].
    assert (L : List.length d < fuel).
    { destruct (packet_start _ _ Hw) as (w' & ->). rewrite !app_length in Hl. cbn [List.length] in Hl. lia. }
    specialize (IH Hr m1 fuel L). destruct (decode_all rt m1 ps) as [[m' cs]|]; cbn [bind].
    + destruct IH as (evs & R & Ev). rewrite R. exists (PktCmd p c e :: evs). split; [reflexivity|]. cbn [inCmds flat_map app]. f_equal. exact Ev.
    + now rewrite IH.
  - destruct (start_cases f d sp Hf) as [(p & w & d2 & Ew & Hw & E)|[(Ho2 & E)|(_ & Ho' & e & He & E)]].
    + exfalso. eapply Hn; eassumption.
    + contradiction.
    + rewrite E. cbn [io_bind].
      assert (L : List.length d < fuel) by (rewrite app_length in Hl; cbn [List.length] in Hl; lia).
      specialize (IH Hr m fuel L). destruct (decode_all rt m ps) as [[m' cs]|].
      * destruct IH as (evs & R & Ev). exists (PktErr e :: evs). rewrite R. split; [destruct e; try reflexivity; now elim He|exact Ev].
      * rewrite IH. destruct e; try reflexivity. now elim He.
Qed.

Lemma packets_alike rt m f1 f2 : frame_alike f1 f2 ->
  compare (frame_packets rt std_registry m f1) (frame_packets rt std_registry m f2) (fun x y => fst x = fst y /\ inCmds (snd x) = inCmds (snd y)).
Proof.
  intros [->|(ps & H1 & H2)].
  - destruct (frame_packets rt std_registry m f2) as [[x|]|]; cbn; auto.
  - pose proof (held_packets rt f1 ps H1 m _ (Nat.lt_succ_diag_r _)) as A. pose proof (held_packets rt f2 ps H2 m _ (Nat.lt_succ_diag_r _)) as B.
    unfold frame_packets, NewPacketReader. destruct (decode_all rt m ps) as [[m' cs]|].
    + destruct A as (e1 & -> & E1), B as (e2 & -> & E2). unfold compare. cbn [fst snd]. split; [reflexivity|now rewrite E1, E2].
    + rewrite A, B. exact I.
Qed.

(** ** Runs *)

Lemma compare_bind {A B C D} (x : io A) (y : io B) (f : A -> io C) (g : B -> io D) P Q :
  compare x y P -> (forall a b, P a b -> compare (f a) (g b) Q) -> compare (io_bind x f) (io_bind y g) Q.
Proof.
  intros H K. destruct x as [[a|]|], y as [[b|]|]; cbn [io_bind]; try (elim H; fail); try exact I. exact (K a b H).
Qed.

Section alike.
  Context {S W1 W2 : Type} (R : W1 -> W2 -> Prop) (t1 : transport W1) (t2 : transport W2) (CA : carry_alike R t1 t2).
  Context (rt : bool) (clock : nat -> datetime) (dev : DeviceGeneral S).

  Lemma replies_carried cmds : forall mode w1 w2, R w1 w2 ->
    compare (write_replies rt t1 mode cmds w1) (write_replies rt t2 mode cmds w2) (fun x y => fst x = fst y /\ R (snd x) (snd y)).
  Proof.
    induction cmds as [|c cmds IH]; intros mode w1 w2 H; cbn [write_replies]; [split; [reflexivity|exact H]|].
    destruct (MarshalCmd rt mode c) as [[mode' res]|]; [|exact I]. cbn [io_bind]. cbv zeta. destruct (WritePacket _ _) as [f x].
    eapply compare_bind; [exact (ca_write R t1 t2 CA w1 w2 f H)|]. intros [w1' e1] [w2' e2] H'. apply IH. exact H'.
  Qed.

  Lemma frame_carried f1 f2 st w1 w2 : frame_alike f1 f2 -> R w1 w2 ->
    compare (process_frame rt std_registry clock dev t1 st w1 f1) (process_frame rt std_registry clock dev t2 st w2 f2) (fun x y => fst x = fst y /\ R (snd x) (snd y)).
  Proof.
    intros F H. unfold process_frame. eapply compare_bind; [exact (packets_alike rt (sv_mode st) f1 f2 F)|].
    intros [m1 e1] [m2 e2] [M E]. cbn [fst snd] in M, E. subst m2. rewrite E.
    destruct (handle_all std_registry clock dev (inCmds e2) (sv_h st)) as [[h1 u]|]; [|exact I]. cbn [io_bind].
    eapply compare_bind; [apply replies_carried; exact H|]. intros [m3 w1'] [m4 w2'] [M' H']. cbn [fst snd] in *. subst m4. split; [reflexivity|exact H'].
  Qed.

  Lemma server_carried fuel : forall st w1 w2, R w1 w2 ->
    compare (processFrames_loop fuel rt std_registry clock dev t1 st w1) (processFrames_loop fuel rt std_registry clock dev t2 st w2)
      (fun x y => fst x = fst y /\ R (snd x) (snd y)).
  Proof.
    induction fuel as [|fuel IH]; intros st w1 w2 H; cbn [processFrames_loop]; [exact I|].
    eapply compare_bind; [exact (ca_read R t1 t2 CA w1 w2 H)|]. intros [w1' [f1|e1]] [w2' [f2|e2]] [H' A]; cbn [fst snd read_alike] in *; try contradiction.
    - eapply compare_bind; [exact (frame_carried f1 f2 st w1' w2' A H')|]. intros [s1 v1] [s2 v2] [E V]. cbn [fst snd] in *. subst s2. apply IH. exact V.
    - assert (K : compare (done (st, w1')) (done (st, w2')) (fun x y => fst x = fst y /\ R (snd x) (snd y))) by (split; [reflexivity|exact H']).
      destruct e1, e2; try exact K; try (apply IH; exact H'); exfalso; (assert (X : EOF = EOF) by reflexivity); apply A in X; discriminate X.
  Qed.
End alike.

(** ** Report tables *)

Fixpoint marshal_all (rt mode : bool) (cmds : list command) : outcome (bool * list bytes) :=
  match cmds with
  | [] => Ret (mode, [])
  | c :: cmds' =>
      do (mode', res) <- MarshalCmd rt mode c;
      do (m2, fs) <- marshal_all rt mode' cmds';
      Ret (m2, fst (WritePacket NewPacketWriter (match res with Ok b => b | Err _ => [] end)) :: fs)
  end.

Definition talk {S} rt clock (dev : DeviceGeneral S) (st : server S) (ps : list bytes) : outcome (server S * list bytes) :=
  do (m1, cs) <- decode_all rt (sv_mode st) ps;
  do (h1, _) <- handle_all std_registry clock dev cs (sv_h st);
  do (m2, fs) <- marshal_all rt m1 (outCmds (h_log (sv_h st)) (h_log h1));
  Ret (mkServer m2 h1, fs).

Fixpoint talk_all {S} rt clock (dev : DeviceGeneral S) (st : server S) (pss : list (list bytes)) : outcome (server S * list bytes) :=
  match pss with
  | [] => Ret (st, [])
  | ps :: pss' =>
      do (st1, fs1) <- talk rt clock dev st ps;
      do (st2, fs2) <- talk_all rt clock dev st1 pss';
      Ret (st2, fs1 ++ fs2)
  end.

Lemma replies_wired rt defs fuel spares cmds : usable defs -> forall mode l o n,
  match marshal_all rt mode cmds with
  | Panic => write_replies rt (hid_transport fuel defs spares wire_read wire_write) mode cmds ((l, o), n) = Some Panic
  | Ret (m, fs) => exists outs, departs defs fs outs
      /\ write_replies rt (hid_transport fuel defs spares wire_read wire_write) mode cmds ((l, o), n) = done (m, ((l, o ++ outs), n))
  end.
Proof.
  intros U. induction cmds as [|c cmds IH]; intros mode l o n; cbn [marshal_all write_replies].
  - exists []. split; [constructor|]. now rewrite app_nil_r.
  - destruct (MarshalCmd rt mode c) as [[mode' res]|]; [|reflexivity]. cbn [bind io_bind]. cbv zeta.
    destruct (WritePacket _ _) as [f x] eqn:WP.
    destruct (wire_sent defs l o f U) as (o1 & E & D).
    assert (T : tp_WriteFrame (hid_transport fuel defs spares wire_read wire_write) ((l, o), n) f = done ((l, o ++ o1, n), None)).
    { cbn [hid_transport tp_WriteFrame fst snd]. rewrite E. reflexivity. }
    rewrite T. cbn [io_bind done]. specialize (IH mode' l (o ++ o1) n). destruct (marshal_all rt mode' cmds) as [[m2 fs]|]; cbn [bind fst]; [|exact IH].
    destruct IH as (o2 & D2 & E2). exists (o1 ++ o2). split; [now apply D|]. rewrite E2. now rewrite app_assoc.
Qed.

Lemma frame_wired {S} rt clock (dev : DeviceGeneral S) defs fuel spares st fr ps l o n : usable defs -> holds fr ps ->
  match talk rt clock dev st ps with
  | Panic => process_frame rt std_registry clock dev (hid_transport fuel defs spares wire_read wire_write) st ((l, o), n) fr = Some Panic
  | Ret (st', fs) => exists outs, departs defs fs outs
      /\ process_frame rt std_registry clock dev (hid_transport fuel defs spares wire_read wire_write) st ((l, o), n) fr = done (st', ((l, o ++ outs), n))
  end.
Proof.
  intros U H. unfold talk, process_frame, frame_packets, NewPacketReader.
  pose proof (held_packets rt fr ps H (sv_mode st) _ (Nat.lt_succ_diag_r _)) as A.
  destruct (decode_all rt (sv_mode st) ps) as [[m1 cs]|]; [|cbn [bind]; now rewrite A].
  destruct A as (evs & -> & <-). cbn [bind io_bind].
  destruct (handle_all std_registry clock dev (inCmds evs) (sv_h st)) as [[h1 u]|]; [|reflexivity]. cbn [bind io_bind].
  pose proof (replies_wired rt defs fuel spares (outCmds (h_log (sv_h st)) (h_log h1)) U m1 l o n) as B.
  destruct (marshal_all rt m1 _) as [[m2 fs]|]; cbn [bind]; [|now rewrite B].
  destruct B as (outs & D & ->). exists outs. split; [exact D|reflexivity].
Qed.

Lemma server_wired {S} rt clock (dev : DeviceGeneral S) defs spares reads pss n : usable defs -> arrives defs spares n reads pss ->
  forall fuel fuel2 st o, List.length reads < fuel -> List.length reads < fuel2 ->
  match talk_all rt clock dev st pss with
  | Panic => processFrames_loop fuel rt std_registry clock dev (hid_transport fuel2 defs spares wire_read wire_write) st ((reads, o), n) = Some Panic
  | Ret (st', fs) => exists rest k outs, departs defs fs outs
      /\ processFrames_loop fuel rt std_registry clock dev (hid_transport fuel2 defs spares wire_read wire_write) st ((reads, o), n) = done (st', ((rest, o ++ outs), k))
  end.
Proof.
  intros U. induction 1 as [n reads rs E P|n taken rest rs E P|n taken rest rs x pss E P X _ IH|n taken rest rs last f ps pss E P LV EN F H _ IH];
    intros fuel fuel2 st o L L2; (destruct fuel as [|fuel]; [lia|]); cbn [talk_all processFrames_loop].
  - assert (R : exists b, ReadFrame defs [] (map ReadReport (reads ++ [])) = Ret (map ReadReport [], b, inr EOF)).
    { apply ReadFrame_err_iff. exists rs. rewrite app_nil_r. destruct P. split; [assumption|]. split; [assumption|].
      right. right. rewrite E. auto. }
    destruct R as [b R]. apply (wire_frame defs fuel2 _ _ o) in R; [|rewrite app_nil_r; exact L2].
    rewrite app_nil_r in R. rewrite (wire_transport _ _ spares _ _ _ _ n R). cbn [io_bind done].
    exists [], (Datatypes.S n), []. rewrite app_nil_r. split; [apply departs_end|reflexivity].
  - assert (R : exists b, ReadFrame defs [] (map ReadReport (taken ++ rest)) = Ret (map ReadReport rest, b, inr EOF)).
    { apply ReadFrame_err_iff. exists rs. destruct P. split; [assumption|]. split; [assumption|].
      left. rewrite map_app, E, <- app_assoc. reflexivity. }
    destruct R as [b R]. apply (wire_frame defs fuel2 _ _ o) in R; [|exact L2].
    rewrite (wire_transport _ _ spares _ _ _ _ n R). cbn [io_bind done].
    exists rest, (Datatypes.S n), []. rewrite app_nil_r. split; [apply departs_end|reflexivity].
  - assert (R : exists e, e <> EOF /\ exists b, ReadFrame defs [] (map ReadReport (taken ++ rest)) = Ret (map ReadReport rest, b, inr e)).
    { exists (match x with inr e => e | inl _ => errReportID end). split; [destruct x; [discriminate|exact X]|].
      apply ReadFrame_err_iff. exists rs. destruct P. split; [assumption|]. split; [assumption|].
      rewrite map_app, E, <- app_assoc. destruct x as [r|e]; [right; left; exists r; auto|left; reflexivity]. }
    destruct R as (e & N & b & R). apply (wire_frame defs fuel2 _ _ o) in R; [|exact L2].
    rewrite (wire_transport _ _ spares _ _ _ _ n R). cbn [io_bind done].
    assert (T : 0 < List.length taken).
    { apply (f_equal (@List.length _)) in E. rewrite app_length, !map_length in E. cbn in E. lia. }
    rewrite app_length in L, L2. specialize (IH fuel fuel2 st o ltac:(lia) ltac:(lia)).
    destruct e; [now elim N|exact IH..].
  - assert (R : ReadFrame defs [] (map ReadReport (taken ++ rest)) = Ret (map ReadReport rest, f, inl f)).
    { apply ReadFrame_ok_iff. split; [reflexivity|]. exists rs, last. destruct P as [P1 P2].
      split; [now rewrite map_app, E|]. split; [apply Forall_app; auto|]. auto. }
    apply (wire_frame defs fuel2 _ _ o) in R; [|exact L2]. rewrite (wire_transport _ _ spares _ _ _ _ n R). cbn [io_bind done].
    assert (T : 0 < List.length taken).
    { apply (f_equal (@List.length _)) in E. rewrite !map_length, app_length in E. cbn in E. lia. }
    rewrite app_length in L, L2.
    pose proof (frame_wired rt clock dev defs fuel2 spares st (mkSlice f (spares n)) ps rest o (Datatypes.S n) U H) as Fr.
    destruct (talk rt clock dev st ps) as [[st1 fs]|]; cbn [bind]; [|now rewrite Fr].
    destruct Fr as (o1 & D1 & Er). rewrite Er. cbn [io_bind done].
    specialize (IH fuel fuel2 st1 (o ++ o1) ltac:(lia) ltac:(lia)).
    destruct (talk_all rt clock dev st1 pss) as [[st2 fs2]|]; cbn [bind]; [|exact IH].
    destruct IH as (rest' & k & o2 & D' & E'). exists rest', k, (o1 ++ o2).
    split; [now apply departs_app|]. rewrite app_assoc. exact E'.
Qed.
