(** The server on any transport, noise, replies read back, HID devices. *)
From Coq Require Import ZifyBool ZifyNat ZifyN.
From Verif Require Import Base BaseFacts GoTypes Types Payload Lingo Command SpecPayload SpecCommand
  LingoFacts CommandFacts CommandThms CommandProps PayloadFacts Handlers SpecHandlers HandlersFacts HandlersThms
  ReplyThms Packet SpecPacket PacketFacts PacketThms Hid SpecHid HidFacts HidThms Trace SpecTrace Server SpecServer
  ServerFacts ServerThms SessionThms.
Ltac Zify.zify_post_hook ::= Z.div_mod_to_equations.
#[local] Opaque std_registry.

(** ** Any transport *)

Lemma serves_run {W} rt clock (tp : transport W) fuel : forall st w, sound st ->
  match processFrames_loop fuel rt std_registry clock DevGeneral_device tp st w with
  | Some (Ret (st', w')) => serves rt clock tp st w st' w' /\ sound st'
  | Some Panic => serves_crash rt clock tp st w
  | None => True
  end.
Proof.
  induction fuel as [|fuel IH]; intros st w Hs; [exact I|]. cbn [processFrames_loop].
  destruct (tp_ReadFrame tp w) as [[[w1 r]|]|] eqn:R; cbn [io_bind].
  2:{ now apply crash_read. } 2:{ exact I. }
  destruct r as [fr|e].
  - destruct (process_frame_run rt clock tp st w1 fr Hs) as [(fs & st1 & A & Hs1 & ->)|(C & ->)]; cbn [io_bind].
    2:{ eapply crash_frame; [exact R|exact C]. }
    destruct (feed tp w1 fs) as [[w2|]|] eqn:F; cbn [io_bind done].
    2:{ eapply crash_write; [exact R|exact A|exact F]. } 2:{ exact I. }
    specialize (IH st1 w2 Hs1).
    destruct (processFrames_loop fuel rt std_registry clock DevGeneral_device tp st1 w2) as [[[st' w']|]|]; [|eapply crash_later; eassumption|exact I].
    destruct IH as [IH Hs']. split; [|exact Hs']. eapply serves_frame; eassumption.
  - assert (D : e = EOF \/ e <> EOF) by (destruct e; [now left|right; discriminate..]).
    destruct D as [-> |N].
    + split; [|exact Hs]. now apply serves_eof.
    + assert (X : match e with EOF => done (st, w1) | _ => processFrames_loop fuel rt std_registry clock DevGeneral_device tp st w1 end
                  = processFrames_loop fuel rt std_registry clock DevGeneral_device tp st w1) by (destruct e; congruence).
      rewrite X. specialize (IH st w1 Hs).
      destruct (processFrames_loop fuel rt std_registry clock DevGeneral_device tp st w1) as [[[st' w']|]|]; [|eapply crash_error; eassumption|exact I].
      destruct IH as [IH Hs']. split; [|exact Hs']. eapply serves_error; eassumption.
Qed.

Lemma answers_sound rt clock st fr fs st' :
  sound st -> answers rt clock DevGeneral_device st fr fs st' -> sound st'.
Proof.
  intros Hs A.
  destruct (process_frame_run rt clock script st ([], []) fr Hs) as [(fs2 & st2 & A2 & Hs2 & _)|(C & _)].
  - now destruct (answers_unique _ _ _ _ _ _ _ _ _ A A2) as [_ ->].
  - now apply (answers_not_crashing _ _ _ _ _ _ _ A) in C.
Qed.

Lemma process_answers {W} rt clock (tp : transport W) st w fr fs st' : sound st ->
  answers rt clock DevGeneral_device st fr fs st' ->
  process_frame rt std_registry clock DevGeneral_device tp st w fr = (go w' <- feed tp w fs; done (st', w')).
Proof.
  intros Hs A. destruct (process_frame_run rt clock tp st w fr Hs) as [(fs2 & st2 & A2 & _ & E)|(C & _)].
  - destruct (answers_unique _ _ _ _ _ _ _ _ _ A A2) as [-> ->]. exact E.
  - now apply (answers_not_crashing _ _ _ _ _ _ _ A) in C.
Qed.

Lemma run_serves {W} rt clock (tp : transport W) st w st' w' : serves rt clock tp st w st' w' -> sound st ->
  exists fuel, processFrames_loop fuel rt std_registry clock DevGeneral_device tp st w = done (st', w').
Proof.
  induction 1 as [st w w' R|st w w1 e st' w' R N _ IH|st w w1 fr fs st1 w2 st' w' R A F _ IH]; intros Hs.
  - exists 1. cbn [processFrames_loop]. rewrite R. reflexivity.
  - destruct (IH Hs) as [fuel E]. exists (S fuel). cbn [processFrames_loop]. rewrite R. cbn [io_bind done].
    destruct e; congruence.
  - destruct (IH (answers_sound _ _ _ _ _ _ Hs A)) as [fuel E]. exists (S fuel). cbn [processFrames_loop].
    rewrite R. cbn [io_bind done]. rewrite (process_answers _ _ _ _ _ _ _ _ Hs A), F. exact E.
Qed.

Lemma run_crash {W} rt clock (tp : transport W) st w : serves_crash rt clock tp st w -> sound st ->
  exists fuel, processFrames_loop fuel rt std_registry clock DevGeneral_device tp st w = Some Panic.
Proof.
  induction 1 as [st w R|st w w1 fr R C|st w w1 fr fs st1 R A F|st w w1 e R N _ IH|st w w1 fr fs st1 w2 R A F _ IH];
    intros Hs.
  - exists 1. cbn [processFrames_loop]. rewrite R. reflexivity.
  - exists 1. cbn [processFrames_loop]. rewrite R. cbn [io_bind done].
    destruct (process_frame_run rt clock tp st w1 fr Hs) as [(fs2 & st2 & A2 & _ & E)|(_ & ->)]; [|reflexivity].
    now apply (answers_not_crashing _ _ _ _ _ _ _ A2) in C.
  - exists 1. cbn [processFrames_loop]. rewrite R. cbn [io_bind done].
    rewrite (process_answers _ _ _ _ _ _ _ _ Hs A), F. reflexivity.
  - destruct (IH Hs) as [fuel E]. exists (S fuel). cbn [processFrames_loop]. rewrite R. cbn [io_bind done].
    destruct e; congruence.
  - destruct (IH (answers_sound _ _ _ _ _ _ Hs A)) as [fuel E]. exists (S fuel). cbn [processFrames_loop].
    rewrite R. cbn [io_bind done]. rewrite (process_answers _ _ _ _ _ _ _ _ Hs A), F. exact E.
Qed.

Lemma feed_ok {W} (tp : transport W) fs : sturdy tp -> forall w, exists w', feed tp w fs = done w'.
Proof.
  intros [_ H]. induction fs as [|f fs IH]; intros w; cbn [feed]; [eauto|].
  destruct (H w f) as (w1 & e & ->). cbn [io_bind done]. apply IH.
Qed.

Lemma frame_panic_iff {W} rt clock (tp : transport W) st w fr : sound st -> sturdy tp ->
  (process_frame rt std_registry clock DevGeneral_device tp st w fr = Some Panic <-> crashing_frame rt (sv_mode st) fr)
  /\ process_frame rt std_registry clock DevGeneral_device tp st w fr <> None.
Proof.
  intros Hs T. destruct (process_frame_run rt clock tp st w fr Hs) as [(fs & st' & A & _ & ->)|(C & ->)].
  - destruct (feed_ok tp fs T w) as (w' & ->). cbn [io_bind done]. split; [|discriminate]. split; [discriminate|].
    intros C. now apply (answers_not_crashing _ _ _ _ _ _ _ A) in C.
  - split; [|discriminate]. split; auto.
Qed.

(** ** HID transports *)

Lemma hid_sturdy {D} fuel defs spares (rd : D -> io (D * raw_read)) wd :
  usable defs -> Forall (fun d => (1 <= def_Len d)%Z) defs -> (forall d, rd d <> Some Panic) -> writes_ok wd ->
  sturdy (hid_transport fuel defs spares rd wd).
Proof.
  intros U L Hr Hw. split.
  - intros [d n]. cbn [tp_ReadFrame hid_transport fst snd]. intros E.
    assert (X : forall fuel buf d, ReadFrame_dev fuel defs rd buf d <> Some Panic).
    { clear -L Hr. induction fuel as [|fuel IH]; intros buf d; cbn [ReadFrame_dev]; [discriminate|].
      destruct (rd d) as [[[d1 got]|]|] eqn:R; cbn [io_bind]; [|now apply Hr in R|discriminate].
      destruct (ReadReport got) as [rep|]; [|discriminate].
      destruct (Find defs (Z.of_N (b2n (rep_ID rep)))) as [def|] eqn:F; [|discriminate]. cbv zeta.
      assert (In def defs).
      { clear -F. induction defs as [|x defs IH]; cbn [Find] in F; [discriminate|].
        destruct (_ =? _)%Z; [injection F as ->; now left|right; auto]. }
      rewrite Forall_forall in L. specialize (L _ H). unfold MaxPayload.
      destruct (Z.ltb_spec (Z.min (Z.of_nat (List.length (rep_Data rep))) (def_Len def - 1)) 0); [lia|].
      repeat match goal with |- context[if ?b then _ else _] => destruct b end; try discriminate; apply IH. }
    destruct (ReadFrame_dev fuel defs rd [] d) as [[[d1 r]|]|] eqn:R; cbn [io_bind] in E; try discriminate.
    now apply X in R.
  - intros [d n] f. cbn [tp_WriteFrame hid_transport fst snd].
    destruct (write_dev_ok defs wd d f U Hw) as (d' & e & ->). cbn [io_bind]. unfold done. eauto.
Qed.

(** Empty frames, the trace of replies that cannot be marshalled, write no report. *)
Lemma hid_empty {D} fuel defs spares (rd : D -> io (D * raw_read)) wd w :
  tp_WriteFrame (hid_transport fuel defs spares rd wd) w [] = done (w, None).
Proof.
  cbn [tp_WriteFrame hid_transport]. unfold WriteFrame_dev. rewrite write_empty. cbn [io_bind done].
  now destruct w.
Qed.

Lemma feed_nonempty {D} fuel defs spares (rd : D -> io (D * raw_read)) wd fs w :
  feed (hid_transport fuel defs spares rd wd) w fs
  = feed (hid_transport fuel defs spares rd wd) w (filter (fun f => negb (match f with [] => true | _ => false end)) fs).
Proof.
  revert w; induction fs as [|f fs IH]; intros w; cbn [feed filter]; [reflexivity|].
  destruct f as [|b f]; cbn [negb].
  - rewrite hid_empty. cbn [io_bind done]. apply IH.
  - cbn [feed]. destruct (tp_WriteFrame _ w (b :: f)) as [[[w' e]|]|]; cbn [io_bind]; auto.
Qed.

(** ** Noise *)

Lemma garbage_run {S W} rt clock (dev : DeviceGeneral S) (tp : transport W) st w fr :
  holds fr [] -> process_frame rt std_registry clock dev tp st w fr = done (st, w).
Proof.
  intros H. unfold process_frame, frame_packets.
  destruct (holds_runs (Datatypes.S (List.length (vis fr))) rt (sv_mode st) fr [] [] (sv_mode st)
              (Nat.lt_succ_diag_r _) H (dec_nil rt (sv_mode st))) as (evs & R & E).
  unfold NewPacketReader. rewrite R. cbn [io_bind]. rewrite E. cbn [handle_all]. unfold ret. cbn [io_bind].
  pose proof (outCmds_app (h_log (sv_h st)) []) as O. rewrite app_nil_r in O. rewrite O.
  cbn [written flat_map write_replies io_bind done]. now destruct st.
Qed.

Lemma filler_holds f sp : filler f -> holds (mkSlice f sp) [].
Proof. intros H. exists f. split; [apply parses_here|exact H]. Qed.

Lemma thinned_run {S} rt clock (dev : DeviceGeneral S) ins ins' : thinned ins ins' -> forall st o fuel fuel',
  List.length ins < fuel -> List.length ins' < fuel' ->
  final (processFrames_loop fuel rt std_registry clock dev script st (ins, o))
  = final (processFrames_loop fuel' rt std_registry clock dev script st (ins', o)).
Proof.
  induction 1 as [|x ins ins' _ IH|x ins ins' N _ IH]; intros st o fuel fuel' L L';
    (destruct fuel as [|fuel]; [lia|]); cbn [List.length] in *.
  - destruct fuel' as [|fuel']; [lia|]. reflexivity.
  - destruct fuel' as [|fuel']; [lia|].
    cbn [processFrames_loop script tp_ReadFrame io_bind done fst snd]. destruct x as [fr|e].
    + assert (Q : forall ins, exists r, process_frame rt std_registry clock dev script st (ins, o) fr
                  = (go (st', o') <- r; done (st', (ins, o'))) 
                  /\ forall ins2, process_frame rt std_registry clock dev script st (ins2, o) fr
                  = (go (st', o') <- r; done (st', (ins2, o')))).
      { intros i. unfold process_frame.
        destruct (frame_packets rt std_registry (sv_mode st) fr) as [[[m evs]|]|]; cbn [io_bind].
        2:{ exists (Some Panic). split; reflexivity. } 2:{ exists None. split; reflexivity. }
        destruct (handle_all std_registry clock dev (inCmds evs) (sv_h st)) as [[h1 u]|]; cbn [io_bind].
        2:{ exists (Some Panic). split; reflexivity. }
        generalize (outCmds (h_log (sv_h st)) (h_log h1)) as cs. intros cs.
        assert (WR : exists r, forall i, write_replies rt script m cs (i, o) = (go (m', o') <- r; done (m', (i, o')))).
        { clear. revert m o. induction cs as [|c cs IH]; intros m o.
          - exists (done (m, o)). reflexivity.
          - cbn [write_replies]. destruct (MarshalCmd rt m c) as [[m1 res]|].
            2:{ exists (Some Panic). reflexivity. }
            destruct (WritePacket NewPacketWriter match res with Ok b => b | Err _ => [] end) as [f e] eqn:WP.
            destruct (IH m1 (o ++ [f])) as (r & Hr). exists r. intros i. cbn [io_bind].
            rewrite WP. cbn [script tp_WriteFrame io_bind done fst snd]. apply Hr. }
        destruct WR as (r & Hr). exists (go (m2, o') <- r; done (mkServer m2 h1, o')).
        split; [|intros i2]; rewrite Hr; destruct r as [[[m2 o2]|]|]; reflexivity. }
      destruct (Q ins) as (r & E1 & E2). rewrite E1, (E2 ins').
      destruct r as [[[st1 o1]|]|]; cbn [io_bind done]; [|reflexivity..]. apply IH; lia.
    + destruct e; [reflexivity|apply IH; lia..].
  - cbn [processFrames_loop script tp_ReadFrame io_bind done fst snd]. destruct x as [fr|e]; cbn [noise] in N.
    + rewrite (garbage_run rt clock dev script st (ins, o) fr N). cbn [io_bind done]. apply IH; lia.
    + destruct e; [congruence|apply IH; lia..].
Qed.

(** ** Replies read back *)

Lemma encoded_survives rt m c f : controls (cmd_id c) = None ->
  encoded rt m c f -> survives rt m c ->
  exists b, WritePacket [] b = (f, None)
    /\ (writable b -> forall pad sp, filler pad -> holds (mkSlice (f ++ pad) sp) [b])
    /\ UnmarshalCmd rt std_registry m b
       = Ret (m, mkCmd (cmd_id c) (if m then cmd_trx c else None) (cmd_payload c), None).
Proof.
  intros C E (Hx & Sv).
  assert (MA : forall e, mode_after e [cmd_id c] = e) by (intros e; cbn [mode_after]; now rewrite C).
  assert (G : exists b, MarshalCmd rt m c = Ret (m, Ok b)
     /\ UnmarshalCmd rt std_registry m b = Ret (m, mkCmd (cmd_id c) (if m then cmd_trx c else None) (cmd_payload c), None)).
  { destruct c as [id tr p]. cbn [cmd_id cmd_trx cmd_payload] in *.
    destruct Sv as [(t & n & vs & -> & Hin & Hn & Ht & Hd)|(q & t & -> & Hq & Hin & Hs & Hm)].
    - destruct (fixed_roundtrip_gen rt m m id tr t n vs Hin Hn Ht Hx (or_introl Hd)) as (b & M & U).
      rewrite MA in M, U. rewrite ?MA in U. eauto.
    - destruct (variable_roundtrip rt m id tr q t Hs Hq Hin Hx) as (b & M & U); [now rewrite MA|].
      rewrite MA in M, U. exists b. split; [exact M|]. rewrite U. f_equal. f_equal. f_equal. f_equal.
      destruct m; [reflexivity|]. destruct tr; [|reflexivity]. destruct Hm as [Hm _].
      specialize (Hm ltac:(discriminate)). discriminate. }
  destruct G as (b & M & U). destruct E as [(b' & M' & Wf & _ & P)|[(e & x & M') _]]; [|congruence].
  rewrite M in M'. injection M' as <-. exists b. split; [exact Wf|]. split; [|exact U].
  intros Hw pad sp Hp. exists pad. split; [|exact Hp]. cbn [vis spare].
  apply (parses_packet sp [] f b pad [] pad); [intros []|exact (P Hw)|apply parses_here].
Qed.

(** ** Replies by request *)

Lemma serve_in_turn rt clock cs : Forall (from_wire rt) cs -> forall h h' evs,
  (dg_uimode (h_dev h) <= 1)%N ->
  does (serve (handlePacket std_registry clock DevGeneral_device) cs) h h' tt evs ->
  exists outs, in_turn clock DevGeneral_device h cs outs h' /\ written evs = List.concat outs.
Proof.
  induction 1 as [|c cs Hc Hcs IH]; intros h h' evs Hm D; cbn [serve] in D.
  - destruct D as [E L]. injection E as <-. rewrite <- app_nil_r in L at 1. apply app_inv_head in L as <-.
    exists []. split; [apply in_turn_nil|reflexivity].
  - assert (A : answers_ok DevGeneral_device (h_dev h)) by (apply DevGeneral_answers; unfold u8; lia).
    destruct (post_both _ _ _ _ (packet_uimode clock DevGeneral_device dg_uimode c h DevGeneral_keeps Hm)
                (packet_fine clock DevGeneral_device c h A (proj1 Hc))) as (h1 & u & e1 & D1 & Hm1 & _).
    destruct (serve_replies rt clock cs h1 Hcs Hm1) as (h2 & u2 & e2 & D2 & _).
    destruct D as [E L]. unfold seq in E. destruct D1 as [E1 L1]. rewrite E1 in E. cbn [bind] in E.
    pose proof D2 as [E2 L2]. rewrite E2 in E. injection E as -> ->.
    rewrite L2, L1, <- app_assoc in L. apply app_inv_head in L as <-.
    destruct (IH _ _ _ Hm1 D2) as (outs & T & Wr).
    exists (written e1 :: outs). split; [eapply in_turn_cons; [split; [exact E1|exact L1]|exact T]|].
    cbn [List.concat]. unfold written in *. rewrite flat_map_app. now rewrite Wr.
Qed.

Lemma Forall2_split {A B} (R : A -> B -> Prop) outs : forall fs, Forall2 R (List.concat outs) fs ->
  exists fss, Forall2 (Forall2 R) outs fss /\ fs = List.concat fss.
Proof.
  induction outs as [|o outs IH]; intros fs H; cbn [List.concat] in H.
  - inversion H; subst. exists []. split; [apply Forall2_nil|reflexivity].
  - apply Forall2_app_inv_l in H as (f1 & f2 & H1 & H2 & ->). destruct (IH _ H2) as (fss & H3 & ->).
    exists (f1 :: fss). split; [now apply Forall2_cons|reflexivity].
Qed.

Lemma answers_in_turn rt clock st fr fs st' : sound st ->
  answers rt clock DevGeneral_device st fr fs st' ->
  exists ps cs outs fss, holds fr ps /\ decodes rt (sv_mode st) ps cs
    /\ in_turn clock DevGeneral_device (sv_h st) cs outs (sv_h st')
    /\ Forall2 (Forall2 (encoded rt (sv_mode st'))) outs fss /\ fs = List.concat fss
    /\ sv_mode st' = mode_after (sv_mode st) (ids_of ps).
Proof.
  intros Hs (ps & cs & evs & H & D & Do & F & M).
  pose proof D as D'. apply decodes_dec, dec_from_wire in D'.
  destruct (serve_in_turn _ _ _ D' _ _ _ Hs Do) as (outs & T & Wr). rewrite Wr in F.
  destruct (Forall2_split _ _ _ F) as (fss & F2 & ->). exists ps, cs, outs, fss. auto 10.
Qed.

(** ** Devices that only fail *)

Lemma lost_device {S W} rt clock (dev : DeviceGeneral S) (tp : transport W) (P : W -> Prop) :
  (forall w, P w -> exists w' e, tp_ReadFrame tp w = done (w', inr e) /\ e <> EOF /\ P w') ->
  forall fuel st w, P w -> processFrames_loop fuel rt std_registry clock dev tp st w = None.
Proof.
  intros H. induction fuel as [|fuel IH]; intros st w Hw; [reflexivity|]. cbn [processFrames_loop].
  destruct (H w Hw) as (w' & e & -> & N & Hw'). cbn [io_bind done].
  destruct e; [congruence|now apply IH..].
Qed.

Lemma lost_hid {S D} rt clock (dev : DeviceGeneral S) fuel2 defs spares (rd : D -> io (D * raw_read)) wd (P : D -> Prop) :
  (forall d, P d -> exists d' got e, rd d = done (d', (got, Some e)) /\ e <> EOF /\ P d') ->
  forall fuel h d n, P d ->
  processFrames fuel rt std_registry clock dev (hid_transport (Datatypes.S fuel2) defs spares rd wd) h (d, n) = None.
Proof.
  intros H fuel h d n Hd. unfold processFrames.
  apply (lost_device rt clock dev _ (fun w => P (fst w))); [|exact Hd].
  intros [d0 n0] H0. cbn [fst] in H0. destruct (H d0 H0) as (d' & got & e & R & N & P').
  exists (d', Datatypes.S n0), e. split; [|split; [exact N|exact P']].
  cbn [tp_ReadFrame hid_transport fst snd ReadFrame_dev]. rewrite R. cbn [io_bind done ReadReport]. reflexivity.
Qed.

(** ** Runs that cannot crash *)

Lemma feed_no_panic {W} (tp : transport W) w fs : sturdy tp -> feed tp w fs <> Some Panic.
Proof. intros T. destruct (feed_ok tp fs T w) as (w' & ->). discriminate. Qed.

Lemma crash_has_frame {W} rt clock (tp : transport W) st w : sturdy tp -> serves_crash rt clock tp st w ->
  exists m w0 w1 fr, tp_ReadFrame tp w0 = done (w1, inl fr) /\ crashing_frame rt m fr.
Proof.
  intros T. induction 1 as [st w R|st w w1 fr R C|st w w1 fr fs st1 R A F| | ]; auto.
  - now apply (proj1 T) in R.
  - eauto 10.
  - now apply (feed_no_panic tp _ _ T) in F.
Qed.

Lemma safe_run {W} rt clock (tp : transport W) fuel h w :
  (dg_uimode (h_dev h) <= 1)%N -> sturdy tp ->
  (forall m w0 w1 fr, tp_ReadFrame tp w0 = done (w1, inl fr) -> ~ crashing_frame rt m fr) ->
  processFrames fuel rt std_registry clock DevGeneral_device tp h w <> Some Panic.
Proof.
  intros Hs T H E. pose proof (serves_run rt clock tp fuel (mkServer false h) w Hs) as R.
  unfold processFrames in E. rewrite E in R. apply (crash_has_frame _ _ _ _ _ T) in R as (m & w0 & w1 & fr & R & C).
  exact (H _ _ _ _ R C).
Qed.

Lemma mode_later m ids ids' : Forall (fun id => controls id = None) ids' -> mode_after m (ids ++ ids') = mode_after m ids.
Proof.
  intros H. revert m; induction ids as [|i ids IH]; intros m; cbn [app mode_after]; [|apply IH].
  revert m; induction H as [|i ids' C _ IH]; intros m; cbn [mode_after]; [reflexivity|]. now rewrite C.
Qed.

Lemma answers_mode {S} rt clock (dev : DeviceGeneral S) st fr fs st' before p after :
  answers rt clock dev st fr fs st' -> holds fr (before ++ p :: after) ->
  Forall (fun id => controls id = None) (ids_of after) ->
  sv_mode st' = mode_after (sv_mode st) (ids_of (before ++ [p])).
Proof.
  intros (ps & cs & evs & H & _ & _ & _ & M) H2 N. rewrite (holds_unique _ _ _ H H2) in M. rewrite M.
  change (p :: after) with ([p] ++ after). rewrite app_assoc. unfold ids_of at 1. rewrite flat_map_app.
  now apply mode_later.
Qed.

(** A way to see that a given frame holds no packets. *)
Lemma holds_none fr m evs :
  frame_packets true std_registry false fr = Some (Ret (m, evs)) -> inCmds evs = [] -> holds fr [].
Proof.
  intros R E. destruct (frame_packets_run true false fr) as [(m' & evs' & ps & R' & H & D)|(R' & _)];
    rewrite R in R'; [|discriminate]. injection R' as <- <-. rewrite E in D. inversion D; subst. exact H.
Qed.

(** A frame on the scripted transport. *)
Lemma script_frame rt clock st ins o fr st' w' :
  sound st -> process_frame rt std_registry clock DevGeneral_device script st (ins, o) fr = done (st', w') ->
  exists fs, answers rt clock DevGeneral_device st fr fs st' /\ w' = (ins, o ++ fs).
Proof.
  intros Hs E. destruct (process_frame_run rt clock script st (ins, o) fr Hs) as [(fs & st1 & A & _ & F)|[_ F]];
    rewrite F in E; [|discriminate E]. rewrite feed_script in E. cbn [io_bind done] in E.
  apply TraceFacts.some_inj in E. apply CommandFacts.ret_inj in E. injection E as <- <-. exists fs. auto.
Qed.

Lemma script_in_turn rt clock st ins o fr st' w' :
  sound st -> process_frame rt std_registry clock DevGeneral_device script st (ins, o) fr = done (st', w') ->
  exists ps cs outs fss, holds fr ps /\ decodes rt (sv_mode st) ps cs
    /\ in_turn clock DevGeneral_device (sv_h st) cs outs (sv_h st')
    /\ Forall2 (Forall2 (encoded rt (sv_mode st'))) outs fss /\ w' = (ins, o ++ List.concat fss)
    /\ sv_mode st' = mode_after (sv_mode st) (ids_of ps).
Proof.
  intros Hs E. destruct (script_frame _ _ _ _ _ _ _ _ Hs E) as (fs & A & ->).
  destruct (answers_in_turn _ _ _ _ _ _ Hs A) as (ps & cs & outs & fss & H1 & H2 & H3 & H4 & -> & H5).
  exists ps, cs, outs, fss. auto 6.
Qed.

Lemma script_mode rt clock st ins o fr st' w' ps :
  sound st -> process_frame rt std_registry clock DevGeneral_device script st (ins, o) fr = done (st', w') -> holds fr ps ->
  exists cs outs fss, decodes rt (sv_mode st) ps cs
    /\ in_turn clock DevGeneral_device (sv_h st) cs outs (sv_h st')
    /\ Forall2 (Forall2 (encoded rt (mode_after (sv_mode st) (ids_of ps)))) outs fss /\ w' = (ins, o ++ List.concat fss).
Proof.
  intros Hs E H. destruct (script_in_turn _ _ _ _ _ _ _ _ Hs E) as (ps2 & cs & outs & fss & H1 & H2 & H3 & H4 & -> & H5).
  rewrite (holds_unique _ _ _ H1 H) in *. rewrite H5 in H4. exists cs, outs, fss. auto.
Qed.

Lemma script_mode_of_request rt clock st ins o fr st' w' before p after :
  sound st -> process_frame rt std_registry clock DevGeneral_device script st (ins, o) fr = done (st', w') ->
  holds fr (before ++ p :: after) -> Forall (fun id => controls id = None) (ids_of after) ->
  exists cs outs fss, decodes rt (sv_mode st) (before ++ p :: after) cs
    /\ in_turn clock DevGeneral_device (sv_h st) cs outs (sv_h st')
    /\ Forall2 (Forall2 (encoded rt (mode_after (sv_mode st) (ids_of (before ++ [p]))))) outs fss
    /\ w' = (ins, o ++ List.concat fss).
Proof.
  intros Hs E H N. destruct (script_mode _ _ _ _ _ _ _ _ _ Hs E H) as (cs & outs & fss & H1 & H2 & H3 & H4).
  destruct (script_frame _ _ _ _ _ _ _ _ Hs E) as (fs & A & _).
  pose proof (answers_mode _ _ _ _ _ _ _ _ _ _ A H N) as M.
  assert (M2 : sv_mode st' = mode_after (sv_mode st) (ids_of (before ++ p :: after))).
  { destruct A as (ps2 & ? & ? & Hh & _ & _ & _ & M2). now rewrite (holds_unique _ _ _ Hh H) in M2. }
  rewrite <- M2, M in H3. exists cs, outs, fss. auto.
Qed.
