(** Lemmas for C121. *)
From Coq Require Import ZifyBool ZifyNat ZifyN Lia.
From Verif Require Import Base BaseFacts GoTypes Types Payload Lingo Command Handlers SpecProtocol Packet SpecPacket Hid SpecHid HidThms Server SpecServer SpecWire ProtocolProps SpecReact.

Lemma sent_app a b : sent (a ++ b) = sent a ++ sent b. Proof. apply flat_map_app. Qed.
Lemma got_app a b : got (a ++ b) = got a ++ got b. Proof. apply flat_map_app. Qed.
Lemma sent_reads xs : sent (map FromAcc xs) = xs. Proof. unfold sent. induction xs as [|x xs IH]; [reflexivity|]. cbn [map flat_map app]. now rewrite IH. Qed.
Lemma got_reads xs : got (map FromAcc xs) = []. Proof. unfold got. induction xs as [|x xs IH]; [reflexivity|]. exact IH. Qed.
Lemma sent_writes ps : sent (map ToAcc ps) = []. Proof. unfold sent. induction ps as [|p ps IH]; [reflexivity|]. exact IH. Qed.
Lemma got_writes ps : got (map ToAcc ps) = ps. Proof. unfold got. induction ps as [|p ps IH]; [reflexivity|]. cbn [map flat_map app]. now rewrite IH. Qed.

Lemma exchange_app {D} (a : accessory D) d e d1 : exchange a d e d1 -> forall e' d2, exchange a d1 e' d2 -> exchange a d (e ++ e') d2.
Proof. induction 1; intros e' d2 X; cbn [app]; [exact X|constructor; auto|constructor; auto]. Qed.

(** Where a read is in a row of reads, or of writes, with something behind. *)
Lemma split_reads xs : forall e evs e1 x e2, map FromAcc xs ++ evs = e1 ++ FromAcc x :: e2 -> e = evs ->
  (exists ys zs, xs = ys ++ x :: zs /\ e1 = map FromAcc ys) \/ (exists e1', e1 = map FromAcc xs ++ e1' /\ evs = e1' ++ FromAcc x :: e2).
Proof.
  induction xs as [|y xs IH]; intros e evs e1 x e2 H E; cbn [map app] in H; [right; exists e1; auto|].
  destruct e1 as [|z e1]; cbn [app] in H.
  - injection H as -> _. left. exists [], xs. auto.
  - injection H as <- H. destruct (IH e evs e1 x e2 H E) as [(ys & zs & -> & ->)|(e1' & -> & ->)]; [left|right].
    + exists (y :: ys), zs. auto.
    + exists e1'. auto.
Qed.
Lemma split_writes ps : forall evs e1 x e2, map ToAcc ps ++ evs = e1 ++ FromAcc x :: e2 -> exists e1', e1 = map ToAcc ps ++ e1' /\ evs = e1' ++ FromAcc x :: e2.
Proof.
  induction ps as [|p ps IH]; intros evs e1 x e2 H; cbn [map app] in H; [exists e1; auto|].
  destruct e1 as [|z e1]; cbn [app] in H; [discriminate|]. injection H as <- H. destruct (IH _ _ _ _ H) as (e1' & -> & ->). exists e1'. auto.
Qed.

Section react.
  Context {D : Type} (a : accessory D) (defs : list ReportDef) (U : usable defs).

  Lemma read_reacts fuel : forall buf d,
    match ReadFrame_dev fuel defs (acc_read a) buf d with
    | None => True
    | Some r => exists xs d1, exchange a d (map FromAcc xs) d1
        /\ (forall rest o, ReadFrame_dev fuel defs wire_read buf (xs ++ rest, o)
              = match r with Ret (_, x) => done ((rest, o), x) | Panic => Some Panic end)
        /\ match r with Ret (d', _) => d' = d1 | Panic => True end
        /\ (forall ys z zs o, xs = ys ++ z :: zs -> ReadFrame_dev fuel defs wire_read buf (ys, o) = done (([], o), inr EOF))
    end.
  Proof.
    induction fuel as [|fuel IH]; intros buf d; cbn [ReadFrame_dev]; [exact I|].
    unfold acc_read at 1. destruct (acc_sends a d) as [d' x] eqn:A. cbn [io_bind done].
    assert (EX : forall evs d1, exchange a d' evs d1 -> exchange a d (FromAcc x :: evs) d1).
    { intros evs d1 X. pose proof (ex_read a d evs d1) as Y. rewrite A in Y. cbn [fst snd] in Y. exact (Y X). }
    destruct (ReadReport x) as [r|e] eqn:X.
    2:{ exists [x], d'. split; [apply EX; constructor|]. split; [|split; [reflexivity|]].
        - intros rest o. cbn [wire_read fst snd app io_bind done]. rewrite X. reflexivity.
        - intros ys z zs o E. destruct ys as [|y ys]; [reflexivity|]. apply (f_equal (@List.length _)) in E. rewrite app_length in E. cbn in E. lia. }
    destruct (Find defs (Z.of_N (b2n (rep_ID r)))) as [rd|e] eqn:F.
    2:{ exists [x], d'. split; [apply EX; constructor|]. split; [|split; [reflexivity|]].
        - intros rest o. cbn [wire_read fst snd app io_bind done]. rewrite X, F. reflexivity.
        - intros ys z zs o E. destruct ys as [|y ys]; [reflexivity|]. apply (f_equal (@List.length _)) in E. rewrite app_length in E. cbn in E. lia. }
    set (n := Z.min (Z.of_nat (List.length (rep_Data r))) (MaxPayload rd)) in *.
    destruct (n <? 0)%Z eqn:N0.
    { exists [x], d'. split; [apply EX; constructor|]. split; [|split; [exact I|]].
      - intros rest o. cbn [wire_read fst snd app io_bind done]. rewrite X, F. fold n. rewrite N0. reflexivity.
      - intros ys z zs o E. destruct ys as [|y ys]; [reflexivity|]. apply (f_equal (@List.length _)) in E. rewrite app_length in E. cbn in E. lia. }
    set (dt := firstn (Z.to_nat n) (rep_Data r)) in *. set (lc := b2n (rep_LinkControl r)) in *.
    (* a last report, and a report that is not the last *)
    assert (LAST : forall f : bytes,
      (forall w, (if (lc =? LinkControlDone)%N then done (w, inl dt) else if (lc =? LinkControlMoreToFollow)%N then ReadFrame_dev fuel defs wire_read dt w
              else if (lc =? N.lor LinkControlContinue LinkControlMoreToFollow)%N then ReadFrame_dev fuel defs wire_read (buf ++ dt) w
              else if (lc =? LinkControlContinue)%N then done (w, inl (buf ++ dt)) else ReadFrame_dev fuel defs wire_read buf w) = done (w, @inl bytes goerr f)) ->
      exists xs d1, exchange a d (map FromAcc xs) d1
        /\ (forall rest o, ReadFrame_dev (S fuel) defs wire_read buf (xs ++ rest, o) = done ((rest, o), inl f))
        /\ d' = d1
        /\ (forall ys z zs o, xs = ys ++ z :: zs -> ReadFrame_dev (S fuel) defs wire_read buf (ys, o) = done (([], o), inr EOF))).
    { intros f Q. exists [x], d'. split; [apply EX; constructor|]. split; [|split; [reflexivity|]].
      - intros rest o. cbn [ReadFrame_dev wire_read fst snd app io_bind done]. rewrite X, F. fold n. rewrite N0. fold dt lc. apply Q.
      - intros ys z zs o E. destruct ys as [|y ys]; [reflexivity|]. apply (f_equal (@List.length _)) in E. rewrite app_length in E. cbn in E. lia. }
    assert (MORE : forall b' : bytes,
      (forall w, (if (lc =? LinkControlDone)%N then done (w, inl dt) else if (lc =? LinkControlMoreToFollow)%N then ReadFrame_dev fuel defs wire_read dt w
              else if (lc =? N.lor LinkControlContinue LinkControlMoreToFollow)%N then ReadFrame_dev fuel defs wire_read (buf ++ dt) w
              else if (lc =? LinkControlContinue)%N then done (w, inl (buf ++ dt)) else ReadFrame_dev fuel defs wire_read buf w) = ReadFrame_dev fuel defs wire_read b' w) ->
      match ReadFrame_dev fuel defs (acc_read a) b' d' with
      | None => True
      | Some r => exists xs d1, exchange a d (map FromAcc xs) d1
        /\ (forall rest o, ReadFrame_dev (S fuel) defs wire_read buf (xs ++ rest, o)
              = match r with Ret (_, x) => done ((rest, o), x) | Panic => Some Panic end)
        /\ match r with Ret (d', _) => d' = d1 | Panic => True end
        /\ (forall ys z zs o, xs = ys ++ z :: zs -> ReadFrame_dev (S fuel) defs wire_read buf (ys, o) = done (([], o), inr EOF))
      end).
    { intros b' Q. specialize (IH b' d'). destruct (ReadFrame_dev fuel defs (acc_read a) b' d') as [r'|]; [|exact I].
      destruct IH as (xs & d1 & E & K & L & P). exists (x :: xs), d1. split; [apply EX; exact E|].
      assert (W : forall l o, ReadFrame_dev (S fuel) defs wire_read buf (x :: l, o) = ReadFrame_dev fuel defs wire_read b' (l, o)).
      { intros l o. cbn [ReadFrame_dev wire_read fst snd app io_bind done]. rewrite X, F. fold n. rewrite N0. fold dt lc. apply Q. }
      split; [intros rest o; cbn [app]; rewrite W; apply K|]. split; [exact L|].
      intros ys z zs o H. destruct ys as [|y ys]; [reflexivity|]. cbn [app] in H. injection H as <- H. rewrite W. exact (P _ _ _ o H). }
    destruct (lc =? LinkControlDone)%N; [apply LAST; reflexivity|]. destruct (lc =? LinkControlMoreToFollow)%N; [apply MORE; reflexivity|].
    destruct (lc =? N.lor LinkControlContinue LinkControlMoreToFollow)%N; [apply MORE; reflexivity|].
    destruct (lc =? LinkControlContinue)%N; [apply LAST; reflexivity|apply MORE; reflexivity].
  Qed.

  Lemma offered rs : forall d, exists d', exchange a d (map ToAcc (map report_bytes rs)) d' /\ offer (dev_WriteReport (acc_write a)) (Ret d) rs = (Ret d', None).
  Proof.
    induction rs as [|r rs IH]; intros d; [exists d; split; [constructor|reflexivity]|].
    destruct (IH (acc_gets a d (report_bytes r))) as (d' & E & O). exists d'. split; [cbn [map]; constructor; exact E|].
    cbn [offer]. unfold dev_WriteReport at 1, WriteReport, raw_Write, acc_write. cbn [bind fst snd].
    rewrite Nat.ltb_irrefl, Nat.eqb_refl. exact O.
  Qed.

  Lemma write_reacts d f : exists ps d', exchange a d (map ToAcc ps) d' /\ WriteFrame_dev defs (acc_write a) d f = done (d', None)
    /\ forall l o, WriteFrame_dev defs wire_write (l, o) f = done ((l, o ++ ps), None).
  Proof.
    destruct U as (_ & _ & rd & LO & R). unfold WriteFrame_dev. destruct f as [|b f].
    - exists [], d. split; [constructor|]. rewrite HidThms.write_empty. split; [reflexivity|]. intros l o. rewrite HidThms.write_empty. cbn [io_bind done]. now rewrite app_nil_r.
    - destruct (write_segments defs (b :: f) rd (List.length (b :: f)) LO R ltac:(discriminate) ltac:(lia)) as (rs & _ & _ & H).
      destruct (offered rs d) as (d' & E & O). exists (map report_bytes rs), d'. split; [exact E|]. rewrite H, O. split; [reflexivity|].
      intros l o. rewrite H, wire_offer. reflexivity.
  Qed.

  Context {S : Type} (rt : bool) (reg : registry) (clock : nat -> datetime) (dev : DeviceGeneral S) (spares : nat -> bytes) (fuel2 : nat).
  Notation atp := (hid_transport fuel2 defs spares (acc_read a) (acc_write a)).
  Notation wtp := (hid_transport fuel2 defs spares wire_read wire_write).

  Lemma replies_react cmds : forall mode d n,
    exists ps d1, exchange a d (map ToAcc ps) d1 /\
    match write_replies rt atp mode cmds (d, n) with
    | None => False
    | Some Panic => forall l o, write_replies rt wtp mode cmds ((l, o), n) = Some Panic
    | Some (Ret (m, (d', n'))) => d' = d1 /\ n' = n /\ forall l o, write_replies rt wtp mode cmds ((l, o), n) = done (m, ((l, o ++ ps), n))
    end.
  Proof.
    induction cmds as [|c cmds IH]; intros mode d n; cbn [write_replies].
    - exists [], d. split; [constructor|]. repeat split. intros l o. now rewrite app_nil_r.
    - destruct (MarshalCmd rt mode c) as [[mode' res]|]; cbn [io_bind].
      2:{ exists [], d. split; [constructor|]. reflexivity. }
      cbv zeta. destruct (WritePacket _ _) as [f x]. destruct (write_reacts d f) as (ps & d1 & E & W & WW).
      cbn [hid_transport tp_WriteFrame fst snd]. rewrite W. cbn [io_bind done].
      destruct (IH mode' d1 n) as (qs & d2 & E2 & K). exists (ps ++ qs), d2. split; [rewrite map_app; exact (exchange_app a _ _ _ E _ _ E2)|].
      assert (Z : forall l o, (go (w', _) <- (go (d', e) <- WriteFrame_dev defs wire_write (l, o) f; done (d', n, e)); write_replies rt wtp mode' cmds w')
                    = write_replies rt wtp mode' cmds ((l, o ++ ps), n)).
      { intros l o. rewrite WW. reflexivity. }
      destruct (write_replies rt atp mode' cmds (d1, n)) as [[[m [d' n']]|]|]; [|intros l o; rewrite Z; apply K|exact K].
      destruct K as (-> & -> & K). repeat split. intros l o. rewrite Z, K, app_assoc. reflexivity.
  Qed.

  Definition prompt (fuel : nat) (st : server S) (n : nat) (evs : list passed) : Prop :=
    forall e1 x e2 o, evs = e1 ++ FromAcc x :: e2 ->
      exists st1 n1, processFrames_loop fuel rt reg clock dev wtp st ((sent e1, o), n) = done (st1, (([], o ++ got e1), n1)).

  Lemma server_reacts fuel : forall st d n,
    match processFrames_loop fuel rt reg clock dev atp st (d, n) with
    | None => True
    | Some r => exists evs d1, exchange a d evs d1 /\ prompt fuel st n evs
        /\ match r with
           | Panic => forall rest o, processFrames_loop fuel rt reg clock dev wtp st ((sent evs ++ rest, o), n) = Some Panic
           | Ret (st', (d', n')) => d' = d1 /\ forall rest o, processFrames_loop fuel rt reg clock dev wtp st ((sent evs ++ rest, o), n) = done (st', ((rest, o ++ got evs), n'))
           end
    end.
  Proof.
    induction fuel as [|fuel IH]; intros st d n; [exact I|].
    pose (C := fun r : outcome (server S * (D * nat)) => exists evs d1, exchange a d evs d1 /\ prompt (Datatypes.S fuel) st n evs
        /\ match r with
           | Panic => forall rest o, processFrames_loop (Datatypes.S fuel) rt reg clock dev wtp st ((sent evs ++ rest, o), n) = Some Panic
           | Ret (st', (d', n')) => d' = d1 /\ forall rest o, processFrames_loop (Datatypes.S fuel) rt reg clock dev wtp st ((sent evs ++ rest, o), n) = done (st', ((rest, o ++ got evs), n'))
           end).
    change (match processFrames_loop (Datatypes.S fuel) rt reg clock dev atp st (d, n) with None => True | Some r => C r end).
    cbn [processFrames_loop].
    cbn [hid_transport tp_ReadFrame fst snd].
    pose proof (read_reacts fuel2 [] d) as R.
    destruct (ReadFrame_dev fuel2 defs (acc_read a) [] d) as [r|]; [|exact I].
    destruct r as [[d' r]|]; cbn [io_bind done].
    2:{ destruct R as (xs & d1 & E & K & _ & P). exists (map FromAcc xs), d1. split; [exact E|]. split.
        - intros e1 x e2 o H. rewrite <- (app_nil_r (map FromAcc xs)) in H. destruct (split_reads xs [] [] e1 x e2 H eq_refl) as [(ys & zs & -> & ->)|(e1' & _ & B)].
          + rewrite sent_reads, got_reads, app_nil_r. cbn [processFrames_loop hid_transport tp_ReadFrame fst snd]. rewrite (P ys x zs o eq_refl). cbn [io_bind done]. eauto.
          + destruct e1'; discriminate B.
        - intros rest o. rewrite sent_reads. cbn [processFrames_loop hid_transport tp_ReadFrame fst snd]. rewrite K. reflexivity. }
    destruct R as (xs & d1 & E & K & <- & P).
    assert (PRE : forall evs, (forall e1 x e2 o, evs = e1 ++ FromAcc x :: e2 ->
                      exists st1 n1, processFrames_loop (Datatypes.S fuel) rt reg clock dev wtp st ((xs ++ sent e1, o), n) = done (st1, (([], o ++ got e1), n1))) ->
                  prompt (Datatypes.S fuel) st n (map FromAcc xs ++ evs)).
    { intros evs H e1 x e2 o Q. destruct (split_reads xs evs evs e1 x e2 Q eq_refl) as [(ys & zs & -> & ->)|(e1' & -> & B)].
      - rewrite sent_reads, got_reads, app_nil_r. cbn [processFrames_loop hid_transport tp_ReadFrame fst snd]. rewrite (P ys x zs o eq_refl). cbn [io_bind done]. eauto.
      - rewrite sent_app, got_app, sent_reads, got_reads. cbn [app]. exact (H e1' x e2 o B). }
    destruct r as [f|e].
    - (* a frame *)
      unfold process_frame at 1. destruct (frame_packets rt reg (sv_mode st) (mkSlice f (spares n))) as [[[m1 pe]|]|] eqn:FP; cbn [io_bind].
      3: exact I.
      2:{ exists (map FromAcc xs), d'. split; [exact E|]. split.
          - rewrite <- (app_nil_r (map FromAcc xs)). apply PRE. intros e1 x e2 o B. destruct e1; discriminate B.
          - intros rest o. rewrite sent_reads. cbn [processFrames_loop hid_transport tp_ReadFrame fst snd]. rewrite K. cbn [io_bind done]. unfold process_frame. rewrite FP. reflexivity. }
      destruct (handle_all reg clock dev (inCmds pe) (sv_h st)) as [[h1 u]|] eqn:HA; cbn [io_bind].
      2:{ exists (map FromAcc xs), d'. split; [exact E|]. split.
          - rewrite <- (app_nil_r (map FromAcc xs)). apply PRE. intros e1 x e2 o B. destruct e1; discriminate B.
          - intros rest o. rewrite sent_reads. cbn [processFrames_loop hid_transport tp_ReadFrame fst snd]. rewrite K. cbn [io_bind done]. unfold process_frame. rewrite FP. cbn [io_bind]. rewrite HA. reflexivity. }
      destruct (replies_react (outCmds (h_log (sv_h st)) (h_log h1)) m1 d' (Datatypes.S n)) as (ps & d2 & E2 & W).
      assert (Z : forall l o, processFrames_loop (Datatypes.S fuel) rt reg clock dev wtp st ((xs ++ l, o), n)
                 = (go (m2, w') <- write_replies rt wtp m1 (outCmds (h_log (sv_h st)) (h_log h1)) ((l, o), Datatypes.S n);
                    processFrames_loop fuel rt reg clock dev wtp (mkServer m2 h1) w')).
      { intros l o. cbn [processFrames_loop].
        assert (T : tp_ReadFrame wtp ((xs ++ l, o), n) = done (((l, o), Datatypes.S n), inl (mkSlice f (spares n)))) by (cbn [hid_transport tp_ReadFrame fst snd]; rewrite K; reflexivity).
        rewrite T. cbn [io_bind done]. unfold process_frame. rewrite FP. cbn [io_bind]. rewrite HA. cbn [io_bind].
        destruct (write_replies rt wtp m1 (outCmds (h_log (sv_h st)) (h_log h1)) ((l, o), Datatypes.S n)) as [[[m2 w']|]|]; reflexivity. }
      destruct (write_replies rt atp m1 _ (d', Datatypes.S n)) as [[[m2 [d3 n3]]|]|]; cbn [io_bind done].
      3: contradiction.
      2:{ exists (map FromAcc xs ++ map ToAcc ps), d2. split; [exact (exchange_app a _ _ _ E _ _ E2)|]. split.
          - apply PRE. intros e1 x e2 o B. rewrite <- (app_nil_r (map ToAcc ps)) in B. destruct (split_writes ps _ _ _ _ B) as (e1' & _ & B'). destruct e1'; discriminate B'.
          - intros rest o. rewrite sent_app, sent_reads, sent_writes, app_nil_r, Z, W. reflexivity. }
      destruct W as (-> & -> & W). specialize (IH (mkServer m2 h1) d2 (Datatypes.S n)).
      destruct (processFrames_loop fuel rt reg clock dev atp (mkServer m2 h1) (d2, Datatypes.S n)) as [r|]; [|exact I].
      destruct IH as (evs & d4 & E4 & PR & G). exists (map FromAcc xs ++ map ToAcc ps ++ evs), d4.
      split; [exact (exchange_app a _ _ _ E _ _ (exchange_app a _ _ _ E2 _ _ E4))|]. split.
      + apply PRE. intros e1 x e2 o B. destruct (split_writes ps _ _ _ _ B) as (e1' & -> & B').
        rewrite sent_app, got_app, sent_writes, got_writes. cbn [app]. rewrite Z, W. cbn [io_bind done].
        destruct (PR e1' x e2 (o ++ ps) B') as (st1 & n1 & Q). rewrite Q. rewrite <- app_assoc. eauto.
      + assert (Y : forall rest o, processFrames_loop (Datatypes.S fuel) rt reg clock dev wtp st (((sent (map FromAcc xs ++ map ToAcc ps ++ evs)) ++ rest, o), n)
                    = processFrames_loop fuel rt reg clock dev wtp (mkServer m2 h1) ((sent evs ++ rest, o ++ ps), Datatypes.S n)).
        { intros rest o. rewrite !sent_app, sent_reads, sent_writes. cbn [app]. rewrite <- app_assoc, Z, W. reflexivity. }
        destruct r as [[st' [d5 n5]]|].
        * destruct G as (-> & G). split; [reflexivity|]. intros rest o. rewrite Y, G. rewrite !got_app, got_reads, got_writes. cbn [app]. now rewrite <- app_assoc.
        * intros rest o. rewrite Y. apply G.
    - (* an error *)
      assert (Z : forall l o, processFrames_loop (Datatypes.S fuel) rt reg clock dev wtp st ((xs ++ l, o), n)
                 = match e with EOF => done (st, ((l, o), Datatypes.S n)) | _ => processFrames_loop fuel rt reg clock dev wtp st ((l, o), Datatypes.S n) end).
      { intros l o. cbn [processFrames_loop hid_transport tp_ReadFrame fst snd]. rewrite K. cbn [io_bind done]. destruct e; reflexivity. }
      assert (GO : (forall l o, processFrames_loop (Datatypes.S fuel) rt reg clock dev wtp st ((xs ++ l, o), n) = processFrames_loop fuel rt reg clock dev wtp st ((l, o), Datatypes.S n)) ->
        match processFrames_loop fuel rt reg clock dev atp st (d', Datatypes.S n) with
        | None => True
        | Some r => exists evs d1, exchange a d evs d1 /\ prompt (Datatypes.S fuel) st n evs
            /\ match r with
               | Panic => forall rest o, processFrames_loop (Datatypes.S fuel) rt reg clock dev wtp st ((sent evs ++ rest, o), n) = Some Panic
               | Ret (st', (d', n')) => d' = d1 /\ forall rest o, processFrames_loop (Datatypes.S fuel) rt reg clock dev wtp st ((sent evs ++ rest, o), n) = done (st', ((rest, o ++ got evs), n'))
               end
        end).
      { intros Q. specialize (IH st d' (Datatypes.S n)). destruct (processFrames_loop fuel rt reg clock dev atp st (d', Datatypes.S n)) as [r|]; [|exact I].
        destruct IH as (evs & d4 & E4 & PR & G). exists (map FromAcc xs ++ evs), d4. split; [exact (exchange_app a _ _ _ E _ _ E4)|]. split.
        - apply PRE. intros e1 x e2 o B. rewrite Q. exact (PR e1 x e2 o B).
        - destruct r as [[st' [d5 n5]]|].
          + destruct G as (-> & G). split; [reflexivity|]. intros rest o. rewrite sent_app, got_app, sent_reads, got_reads, <- app_assoc, Q. cbn [app]. apply G.
          + intros rest o. rewrite sent_app, sent_reads, <- app_assoc, Q. apply G. }
      destruct e; try (exact (GO Z)). clear GO.
      exists (map FromAcc xs), d'. split; [exact E|]. split.
      + rewrite <- (app_nil_r (map FromAcc xs)). apply PRE. intros e1 x e2 o B. destruct e1; discriminate B.
      + split; [reflexivity|]. intros rest o. rewrite sent_reads, got_reads, Z, app_nil_r. reflexivity.
  Qed.
End react.
