(** The send mode. *)
From Coq Require Import ZifyBool ZifyNat ZifyN Lia.
From Verif Require Import Base BaseFacts GoTypes Types Payload Lingo Command Handlers Packet Hid SpecHid HidThms Trace SpecTrace
  TraceFacts TraceThms TraceSessions Server SessionThms Send SpecSend.
#[local] Opaque std_registry.

Lemma to_send_fun rs out : to_send rs out -> forall out', to_send rs out' -> out = out'.
Proof.
  induction 1; intros out' Q; inversion Q; subst; try reflexivity; try contradiction; try lia.
  - now apply IHto_send.
  - f_equal. now apply IHto_send.
Qed.

Lemma to_send_app rs out more : to_send rs out -> to_send (rs ++ more) out.
Proof. induction 1; cbn [app]; constructor; assumption. Qed.

Lemma read_msgs_app a : forall b r, exists l, read_msgs (a + b) r = read_msgs a r ++ l.
Proof.
  induction a as [|a IH]; intros b r; cbn [Nat.add read_msgs app]; [eexists; reflexivity|].
  destruct (ReadMsg r (mkMsg 0 0 [])) as [[r' m] e]. destruct (IH b r') as (l & ->). exists l. reflexivity.
Qed.

Definition to_send_from (r : Reader) (out : list bytes) : Prop := exists k, to_send (read_msgs k r) out.

Lemma to_send_from_fun r a b : to_send_from r a -> to_send_from r b -> a = b.
Proof.
  intros (k & A) (k' & B). destruct (read_msgs_app k k' r) as (l & E). destruct (read_msgs_app k' k r) as (l' & E').
  rewrite Nat.add_comm in E'. apply (to_send_app _ _ l) in A. apply (to_send_app _ _ l') in B.
  rewrite <- E in A. rewrite <- E' in B. exact (to_send_fun _ _ A _ B).
Qed.

Lemma ReadMsg_tokens r r' m e : ReadMsg r (mkMsg 0 0 []) = (r', m, e) ->
  List.length (rd_tokens r') <= List.length (rd_tokens r)
  /\ (e = None -> List.length (rd_tokens r') < List.length (rd_tokens r)).
Proof.
  unfold ReadMsg. destruct (rd_err r) as [x|].
  { intros E. injection E as <- <- <-. split; [lia|discriminate]. }
  assert (G : forall tokens fin i m0, ReadMsg_loop tokens fin i m0 = (r', m, e) ->
            List.length (rd_tokens r') <= List.length tokens /\ (e = None -> List.length (rd_tokens r') < List.length tokens)).
  { induction tokens as [|t tokens IH]; intros fin i m0 E; cbn [ReadMsg_loop] in E.
    - injection E as <- <- <-. split; [cbn; lia|discriminate].
    - destruct t as [|c t].
      + destruct (IH _ _ _ E) as [A B]. cbn [List.length]. split; [lia|]. intros X. specialize (B X). lia.
      + destruct (Msg_UnmarshalText m0 (c :: t)) as [m1 [x|]]; injection E as <- <- <-; cbn [List.length rd_tokens]; split; intros; lia. }
  apply G.
Qed.

(** Reading the trace through the direction filter, against the messages. *)
Lemma dir_read_send n : forall fuel r, List.length (rd_tokens r) < fuel ->
  exists r' x, dir_Read_loop fuel DirIn r n = Some (r', x)
    /\ ((exists e, x = ([], Some e) /\ to_send_from r [])
        \/ (exists m, msg_Dir m = 0%N /\ x = (firstn n (msg_Data m), None)
              /\ List.length (rd_tokens r') < List.length (rd_tokens r)
              /\ (List.length (msg_Data m) < 3 -> to_send_from r [])
              /\ (3 <= List.length (msg_Data m) -> forall out, to_send_from r' out ->
                    to_send_from r (firstn 1024 (msg_Data m) :: out)))).
Proof.
  induction fuel as [|fuel IH]; intros r L; [lia|]. cbn [dir_Read_loop].
  destruct (ReadMsg r (mkMsg 0 0 [])) as [[r1 m] e] eqn:E.
  destruct (ReadMsg_tokens _ _ _ _ E) as [L1 L2]. destruct e as [e|].
  - exists r1, ([], Some e). split; [reflexivity|]. left. exists e. split; [reflexivity|]. exists 1.
    cbn [read_msgs]. rewrite E. constructor.
  - specialize (L2 eq_refl).
    assert (K : forall out, (forall k, to_send (read_msgs k r1) out -> to_send ((m, None) :: read_msgs k r1) out) ->
                  to_send_from r1 out -> to_send_from r out).
    { intros out H (k & T). exists (Datatypes.S k). cbn [read_msgs]. rewrite E. apply H. exact T. }
    unfold DirIn. destruct (msg_Dir m =? 0)%N eqn:D; cbn [negb].
    + apply N.eqb_eq in D. exists r1, (firstn n (msg_Data m), None). split; [reflexivity|]. right. exists m.
      split; [exact D|]. split; [reflexivity|]. split; [exact L2|]. split.
      * intros S3. exists 1. cbn [read_msgs]. rewrite E. now apply send_short.
      * intros G3 out (k & T). exists (Datatypes.S k). cbn [read_msgs]. rewrite E. now apply send_data.
    + apply N.eqb_neq in D. destruct (IH r1 ltac:(lia)) as (r' & x & R & C). exists r', x. split; [exact R|].
      destruct C as [(e & X & T)|(m' & D' & X & L' & S3 & G3)].
      * left. exists e. split; [exact X|]. apply K; [|exact T]. intros k. now apply send_other.
      * right. exists m'. split; [exact D'|]. split; [exact X|]. split; [lia|]. split.
        -- intros H. apply K; [|now apply S3]. intros k. now apply send_other.
        -- intros H out T. apply K; [|now apply G3]. intros k. now apply send_other.
Qed.

Lemma firstn_1024 (d : bytes) : 3 <= List.length d -> exists a b c t, firstn maxRawSize d = a :: b :: c :: t.
Proof.
  intros H. destruct d as [|a [|b [|c t]]]; cbn [List.length] in H; try lia. unfold maxRawSize.
  exists a, b, c, (firstn 1021 t). reflexivity.
Qed.

(** One round of the loop. *)
Lemma send_round {D} (wd : D -> bytes -> outcome (D * (nat * option goerr))) r d :
  (send_once wd r d = Some Panic /\ exists p, wd d p = Panic \/ exists d' n e, wd d p = Ret (d', (n, e)) /\ List.length p < n)
  \/ (exists r' , send_once wd r d = done (r', d, false) /\ to_send_from r [])
  \/ (exists r' d' p x, send_once wd r d = done (r', d', true) /\ wd d p = Ret (d', x)
        /\ List.length (rd_tokens r') < List.length (rd_tokens r)
        /\ forall out, to_send_from r' out -> to_send_from r (p :: out)).
Proof.
  unfold send_once, replay_read, dir_Read.
  destruct (dir_read_send maxRawSize (Datatypes.S (List.length (rd_tokens r))) r ltac:(lia)) as (r' & x & -> & C).
  cbn [io_bind done]. destruct C as [(e & -> & T)|(m & D0 & -> & L & S3 & G3)].
  - right. left. exists r'. split; [reflexivity|exact T].
  - destruct (Nat.lt_ge_cases (List.length (msg_Data m)) 3) as [H|H].
    + right. left. exists r'. split; [|now apply S3]. unfold ReadReport. rewrite firstn_firstn, Nat.min_id.
      assert (X : List.length (firstn maxRawSize (msg_Data m)) < 3) by (rewrite firstn_length; lia).
      destruct (firstn maxRawSize (msg_Data m)) as [|a [|b [|c t]]]; cbn [List.length] in X; try lia; reflexivity.
    + specialize (G3 H). change 1024 with maxRawSize in G3. unfold ReadReport. rewrite firstn_firstn, Nat.min_id.
      destruct (firstn_1024 _ H) as (a & b & c & t & E). rewrite E in *.
      unfold dev_WriteReport, WriteReport, raw_Write. cbn [rep_ID rep_LinkControl rep_Data bind].
      destruct (wd d (a :: b :: c :: t)) as [[d' [n e]]|] eqn:W.
      * destruct (Nat.ltb _ n) eqn:LT.
        -- left. split; [reflexivity|]. exists (a :: b :: c :: t). right. exists d', n, e. split; [exact W|].
           apply Nat.ltb_lt in LT. exact LT.
        -- right. right. exists r', d', (a :: b :: c :: t), (n, e). split.
           { destruct e; reflexivity. } split; [exact W|]. split; [exact L|exact G3].
      * left. cbn [Nat.ltb Nat.leb]. split; [reflexivity|]. exists (a :: b :: c :: t). left. exact W.
Qed.

Lemma to_send_exists : forall n r, List.length (rd_tokens r) < n -> exists out, to_send_from r out.
Proof.
  induction n as [|n IH]; intros r L; [lia|].
  destruct (dir_read_send maxRawSize (Datatypes.S (List.length (rd_tokens r))) r ltac:(lia)) as (r' & x & _ & C).
  destruct C as [(e & _ & T)|(m & D0 & _ & L2 & S3 & G3)]; [eauto|].
  destruct (Nat.lt_ge_cases (List.length (msg_Data m)) 3) as [H|H]; [eauto|].
  destruct (IH r' ltac:(lia)) as (out & T). eauto.
Qed.

Section Send.
  Context {S D : Type} (rt : bool) (reg : registry) (clock : nat -> datetime) (g : DeviceGeneral S)
          (defs : list ReportDef) (spares : nat -> bytes) (h : hstate S)
          (rd : D -> io (D * raw_read)) (wd : D -> bytes -> outcome (D * (nat * option goerr))).

  Notation steps := (send_steps rt reg clock g defs spares h (noting_read rd) (noting wd)).

  Definition sinv (out : list bytes) (s : send_state (D * list bytes)) : Prop :=
    if sn_sending s then exists later, to_send_from (sn_trace s) later /\ out = snd (sn_dev s) ++ later
    else out = snd (sn_dev s).

  Lemma sinv_step out s s' : sinv out s -> send_step rt reg clock g defs spares h (noting_read rd) (noting wd) s s' -> sinv out s'.
  Proof.
    intros I H. revert I. destruct H as [r d got r' d' b NP E|r b d got d' x NP E]; intros I.
    - unfold sinv in *. cbn [sn_sending sn_trace sn_dev] in *. destruct I as (later & T & ->).
      destruct (send_round (noting wd) r d) as [[X _]|[(r1 & X & T')|(r1 & d1 & p & x & X & W & _ & T')]]; rewrite X in E.
      + discriminate.
      + unfold done in E. injection E as <- <- <-. rewrite (to_send_from_fun _ _ _ T T'). apply app_nil_r.
      + unfold done in E. injection E as <- <- <-. unfold noting in W. destruct (wd (fst d) p) as [[dd y]|]; [|discriminate].
        cbn [bind] in W. injection W as <- <-. cbn [snd].
        destruct (to_send_exists _ r1 (Nat.lt_succ_diag_r _)) as (l1 & T1). exists l1. split; [exact T1|].
        rewrite (to_send_from_fun _ _ _ T (T' _ T1)), <- app_assoc. reflexivity.
    - unfold noting_read in E. destruct (rd (fst d)) as [[[dd y]|]|]; cbn [io_bind done] in E; try discriminate.
      injection E as <- <-. exact I.
  Qed.

  Lemma send_prefix content fin d : exists out, sendable_of content fin out
    /\ forall s, steps (send_start content fin (d, [])) s ->
         exists later, out = snd (sn_dev s) ++ later /\ (sn_sending s = false -> later = []).
  Proof.
    destruct (to_send_exists _ (NewReader content fin) (Nat.lt_succ_diag_r _)) as (out & T). exists out.
    split; [exact T|]. intros s H.
    assert (I : sinv out s).
    { remember (send_start content fin (d, [])) as s0 eqn:E0. induction H as [s|s s1 s' H IH H1].
      - subst s. exists out. split; [exact T|]. reflexivity.
      - exact (sinv_step out _ _ (IH E0) H1). }
    unfold sinv in I. destruct (sn_sending s).
    - destruct I as (later & _ & E). exists later. split; [exact E|discriminate].
    - exists []. split; [rewrite app_nil_r; exact I|reflexivity].
  Qed.

  Lemma steps_trans s1 s2 s3 : steps s1 s2 -> steps s2 s3 -> steps s1 s3.
  Proof. intros A B. induction B as [s|s sa sb B IH B1]; [exact A|]. eapply send_more; [exact (IH A)|exact B1]. Qed.

  Lemma send_completes s : orderly wd -> receiver rt reg clock g defs spares h (sn_got s) <> Some Panic ->
    exists s', steps s s' /\ sn_sending s' = false /\ sn_got s' = sn_got s.
  Proof.
    intros O NP. destruct s as [r b d got]. cbn [sn_got] in *. destruct b; [|exists (mkSend r false d got); split; [constructor|split; reflexivity]].
    assert (G : forall n r d, List.length (rd_tokens r) < n ->
              exists s', steps (mkSend r true d got) s' /\ sn_sending s' = false /\ sn_got s' = got).
    { clear r d. induction n as [|n IH]; intros r d L; [lia|].
      destruct (send_round (noting wd) r d) as [[_ (p & P)]|[(r1 & X & T')|(r1 & d1 & p & x & X & W & L1 & _)]].
      - exfalso. destruct (O (fst d) p) as (d' & m & e & W & LE). unfold noting in P. rewrite W in P. cbn [bind] in P.
        destruct P as [P|(d2 & m2 & e2 & P & LT)]; [discriminate|]. injection P as <- <- <-. lia.
      - exists (mkSend r1 false d got). split; [|split; reflexivity]. eapply send_more; [constructor|]. now apply step_send.
      - destruct (IH r1 d1 ltac:(lia)) as (s' & ST & B). exists s'. split; [|exact B].
        eapply steps_trans; [|exact ST]. eapply send_more; [constructor|]. now apply step_send. }
    exact (G _ r d (Nat.lt_succ_diag_r _)).
  Qed.
End Send.

Lemma to_send_stamped ms more : Forall (fun m => msg_Dir m = 0%N -> 3 <= List.length (msg_Data m) <= 1024) ms -> forall i,
  to_send (stamped i ms ++ failed EOF :: more) (map msg_Data (filter (fun m => (msg_Dir m =? 0)%N) ms)).
Proof.
  induction 1 as [|m ms H HS IH]; intros i; cbn [stamped app map filter]; [constructor|].
  destruct (msg_Dir m =? 0)%N eqn:E.
  - apply N.eqb_eq in E. specialize (H E). cbn [map].
    pose proof (firstn_all2 (n := 1024) (msg_Data m) ltac:(lia)) as F.
    pose proof (send_data (mkMsg (msg_Dir m) (i mod 2 ^ 64)%N (msg_Data m)) _ _ E ltac:(cbn [msg_Data]; lia) (IH (i + 1)%N)) as Q.
    cbn [msg_Data] in Q. rewrite F in Q. exact Q.
  - apply N.eqb_neq in E. apply send_other; [exact E|apply IH].
Qed.

Lemma send_recorded {S} (dev : io_rw S) s ops s' rs :
  honest dev -> Forall (fun o => (N.of_nat (op_size o) <= 21844)%N) ops -> run_dev dev s ops = (s', rs) ->
  Forall (fun d => 3 <= List.length d <= 1024) (read_data rs) ->
  exists file, run_tracer append_file dev (s, []) ops = Ret ((s', file), rs) /\ sendable_of file EOF (read_data rs).
Proof.
  intros HO SZ RD L. eexists. split; [exact (tracer_transparent append_file dev HO ops s [] s' rs RD)|].
  pose proof (recorded_recordable ops rs) as RR.
  pose proof (recorded_sizes dev 21844 ops HO SZ s s' rs RD) as RS.
  assert (RE : Forall readable (recorded ops rs)).
  { apply Forall_forall. intros m I. rewrite Forall_forall in RR, RS. split; [now apply RR|]. specialize (RS _ I). exact RS. }
  destruct (file_roundtrip (recorded ops rs) EOF 1 RE) as (file & W & R). rewrite W. cbn [fst].
  exists (List.length (recorded ops rs) + 1). rewrite R. cbn [repeat].
  rewrite <- (recorded_reads dev ops s s' rs RD) in L |- *.
  apply to_send_stamped. apply Forall_forall. intros m I E. rewrite Forall_forall in L. apply L.
  apply in_map, filter_In. split; [exact I|]. apply N.eqb_eq. exact E.
Qed.

(** The receiver's fuel: more of it changes nothing. *)
Lemma read_wait defs : forall fuel fuel' buf l, List.length l < fuel -> List.length l < fuel' ->
  ReadFrame_dev fuel defs wait_read buf l = ReadFrame_dev fuel' defs wait_read buf l
  /\ forall l' r, ReadFrame_dev fuel defs wait_read buf l = Some (Ret (l', r)) -> List.length l' < List.length l.
Proof.
  induction fuel as [|fuel IH]; intros fuel' buf l L L'; [lia|]. destruct fuel' as [|fuel']; [lia|].
  cbn [ReadFrame_dev]. destruct l as [|x l]; cbn [wait_read io_bind done]; [split; [reflexivity|discriminate]|].
  cbn [List.length] in L, L'.
  assert (ST : forall r0 : bytes + goerr,
     @Some (outcome (list raw_read * (bytes + goerr))) (Ret (l, r0)) = Some (Ret (l, r0))
     /\ forall l' r, Some (Ret (l, r0)) = Some (Ret (l', r)) -> List.length l' < List.length (x :: l)).
  { intros r0. split; [reflexivity|]. intros l' r E. injection E as <- _. cbn [List.length]. lia. }
  assert (GO : forall buf', ReadFrame_dev fuel defs wait_read buf' l = ReadFrame_dev fuel' defs wait_read buf' l
     /\ forall l' r, ReadFrame_dev fuel defs wait_read buf' l = Some (Ret (l', r)) -> List.length l' < List.length (x :: l)).
  { intros buf'. destruct (IH fuel' buf' l ltac:(lia) ltac:(lia)) as [A B]. split; [exact A|].
    intros l' r E. specialize (B _ _ E). cbn [List.length]. lia. }
  destruct (ReadReport x) as [report|e]; [|apply ST].
  destruct (Find defs _) as [d|e]; [|apply ST]. cbv zeta.
  destruct (_ <? 0)%Z; [split; [reflexivity|discriminate]|].
  destruct (_ =? LinkControlDone)%N; [apply ST|].
  destruct (_ =? LinkControlMoreToFollow)%N; [apply GO|].
  destruct (_ =? N.lor _ _)%N; [apply GO|].
  destruct (_ =? LinkControlContinue)%N; [apply ST|apply GO].
Qed.

Lemma write_discards {D} rt fuel defs spares (rd : D -> io (D * raw_read)) cs : usable defs -> forall m w,
  match write_replies rt (hid_transport fuel defs spares rd discard) m cs w with
  | Some (Ret (_, w')) => w' = w
  | Some Panic => True
  | None => False
  end.
Proof.
  intros U. induction cs as [|c cs IH]; intros m w; cbn [write_replies]; [reflexivity|].
  destruct (MarshalCmd rt m c) as [[m1 res]|]; cbn [io_bind]; [|exact I].
  destruct (WritePacket NewPacketWriter match res with Ok b => b | Err _ => [] end) as [fr er].
  cbn [tp_WriteFrame hid_transport]. rewrite (write_discard defs (fst w) fr U). cbn [io_bind done].
  destruct w as [d n]. exact (IH m1 (d, n)).
Qed.

Lemma replies_fuel {D} rt fuel fuel' defs spares (rd : D -> io (D * raw_read)) cs : forall m w,
  write_replies rt (hid_transport fuel defs spares rd discard) m cs w
  = write_replies rt (hid_transport fuel' defs spares rd discard) m cs w.
Proof.
  induction cs as [|c cs IH]; intros m w; cbn [write_replies]; [reflexivity|].
  destruct (MarshalCmd rt m c) as [[m1 res]|]; cbn [io_bind]; [|reflexivity].
  destruct (WritePacket NewPacketWriter match res with Ok b => b | Err _ => [] end) as [fr er].
  cbn [tp_WriteFrame hid_transport].
  destruct (WriteFrame_dev defs discard (fst w) fr) as [[[d e]|]|]; cbn [io_bind done]; [apply IH|reflexivity..].
Qed.

Lemma receiver_fuel {S} rt reg clock (g : DeviceGeneral S) defs spares : usable defs -> forall fuel fuel' fuel2 fuel2' st l n,
  List.length l < fuel -> List.length l < fuel' -> List.length l < fuel2 -> List.length l < fuel2' ->
  processFrames_loop fuel rt reg clock g (hid_transport fuel2 defs spares wait_read discard) st (l, n)
  = processFrames_loop fuel' rt reg clock g (hid_transport fuel2' defs spares wait_read discard) st (l, n).
Proof.
  intros U. induction fuel as [|fuel IH]; intros fuel' fuel2 fuel2' st l n A B C E; [lia|]. destruct fuel' as [|fuel']; [lia|].
  cbn [processFrames_loop]. cbn [tp_ReadFrame hid_transport fst snd].
  destruct (read_wait defs fuel2 fuel2' [] l C E) as [EQ LT]. rewrite <- EQ. clear EQ.
  destruct (ReadFrame_dev fuel2 defs wait_read [] l) as [[[l' r]|]|]; cbn [io_bind done]; [|reflexivity..].
  specialize (LT _ _ eq_refl).
  destruct r as [fr|e].
  - unfold process_frame. destruct (frame_packets rt reg (sv_mode st) _) as [[[m1 evs]|]|]; cbn [io_bind]; [|reflexivity..].
    destruct (handle_all reg clock g (inCmds evs) (sv_h st)) as [[h1 u]|]; cbn [io_bind]; [|reflexivity].
    rewrite (replies_fuel rt fuel2 fuel2').
    pose proof (write_discards rt fuel2' defs spares wait_read (outCmds (h_log (sv_h st)) (h_log h1)) U m1 (l', Datatypes.S n)) as W.
    destruct (write_replies rt (hid_transport fuel2' defs spares wait_read discard) m1 _ _) as [[[m2 w2]|]|]; cbn [io_bind done];
      [|reflexivity..].
    subst w2. apply IH; lia.
  - destruct e; [reflexivity|apply IH; lia..].
Qed.
