(** The program against the machine of SpecProtocol: frames and sessions. *)
From Coq Require Import ZifyBool ZifyNat ZifyN.
From Verif Require Import Base BaseFacts GoTypes Types Payload Lingo Command SpecPayload SpecCommand
  LingoFacts CommandFacts CommandThms Handlers SpecHandlers HandlersFacts HandlersThms
  SpecProtocol ProtocolFacts ProtocolTokens ProtocolThms
  Packet SpecPacket PacketFacts PacketThms Hid SpecHid HidFacts HidThms Trace SpecTrace Server SpecServer ServerFacts ServerThms SpecWire.
Ltac Zify.zify_post_hook ::= Z.div_mod_to_equations.
#[local] Opaque std_registry.

(** ** Frames of payloads *)

Lemma byte_sum_eq l : byte_sum l = sum_bytes l.
Proof. unfold byte_sum. induction l as [|b l IH]; [reflexivity|]. cbn [fold_right sum_bytes]. now rewrite IH. Qed.

Lemma frame_bytes_eq p : frame_bytes p = fst (WritePacket [] p).
Proof.
  unfold frame_bytes, WritePacket. destruct p as [|b p]; [reflexivity|]. set (q := b :: p).
  rewrite be_enc_2. unfold largePacketMinLen. cbv zeta. cbn [fst app].
  replace (Nat.ltb 256 (List.length q)) with (negb (len q <=? 256)%N) by (unfold len; lia).
  destruct (len q <=? 256)%N; cbn [negb]; cbv iota;
    rewrite checksum_sum, byte_sum_eq; unfold PacketStartByte; rewrite <- ?app_assoc; cbn [app];
    repeat (f_equal; try (apply n2b_eq; lia)).
Qed.

(** ** Several packets *)

Lemma ret_all {A B C} (a a' : A) (b b' : B) (c c' : C) : Ret (a, b, c) = Ret (a', b', c') -> a = a' /\ b = b' /\ c = c'.
Proof. intros H. now injection H. Qed.

Lemma all_handled rt clock ps e (h : hstate DevGeneral) :
  (dg_uimode (h_dev h) <= 1)%N ->
  match receive_all rt clock (mem e h) ps with
  | None => forall cs e', ~ dec rt e ps cs e'
  | Some (m, l) =>
      exists cs e', dec rt e ps cs e'
        /\ post (serve (handlePacket std_registry clock DevGeneral_device) cs) h
             (fun h' _ evs => (dg_uimode (h_dev h') <= 1)%N /\ mem e' h' = m /\ Forall2 (conveys rt) (written evs) l)
  end.
Proof.
  revert e h. induction ps as [|p ps IH]; intros e h U; cbn [receive_all].
  - exists [], e. split; [apply dec_nil|]. cbn [serve]. apply post_ret. split; [exact U|]. split; [reflexivity|apply Forall2_nil].
  - pose proof (packet_handled rt clock e h p U) as P. unfold handled in P.
    destruct (receive rt clock (mem e h) p) as [[m1 l1]|].
    2: { intros cs e' D. inversion D; subst. congruence. }
    destruct P as (e1 & c & x & UC & h1 & u & ev1 & D1 & U1 & M1 & F1). rewrite <- M1.
    specialize (IH e1 h1 U1). destruct (receive_all rt clock (mem e1 h1) ps) as [[m2 l2]|].
    2: { intros cs e' D. inversion D; subst.
         match goal with H : UnmarshalCmd _ _ _ _ = _ |- _ => rewrite UC in H; apply ret_all in H as (<- & <- & <-) end.
         eapply IH; eassumption. }
    destruct IH as (cs & e2 & D2 & Q). exists (c :: cs), e2. split; [eapply dec_cons; eassumption|].
    cbn [serve]. apply post_seq. exists h1, u, ev1. split; [exact D1|].
    eapply post_weaken; [exact Q|]. intros h2 u2 ev2 (U2 & M2 & F2).
    split; [exact U2|]. split; [exact M2|]. unfold written in *. rewrite flat_map_app. apply Forall2_app; assumption.
Qed.

(** ** One frame *)

Lemma conveys_encoded rt m c r f :
  conveys rt c r -> encoded rt m c f -> f = frame_bytes (reply_bytes m r).
Proof.
  intros C [(b & E & Wr & _)|[(m' & x & E) ->]]; destruct r as [id t q|].
  - rewrite (C m) in E. apply ret_ok in E as [_ <-]. rewrite frame_bytes_eq, Wr. reflexivity.
  - destruct (C m) as [x C']. rewrite C' in E. discriminate E.
  - rewrite (C m) in E. discriminate E.
  - reflexivity.
Qed.

Lemma all_encoded rt m cs rs fs :
  Forall2 (conveys rt) cs rs -> Forall2 (encoded rt m) cs fs -> fs = map (fun r => frame_bytes (reply_bytes m r)) rs.
Proof.
  intros H. revert fs. induction H as [|c r cs rs C _ IH]; intros fs F; inversion F; subst; [reflexivity|].
  cbn [map]. f_equal; [eapply conveys_encoded; eassumption|auto].
Qed.

Theorem frame_received {W} rt clock (tp : transport W) st w fr ps :
  sound st -> holds fr ps ->
  match receive_frame rt clock (memory_of st) ps with
  | None => process_frame rt std_registry clock DevGeneral_device tp st w fr = Some Panic
  | Some (m, fs) =>
      exists st', sound st' /\ memory_of st' = m
        /\ process_frame rt std_registry clock DevGeneral_device tp st w fr = (go w' <- feed tp w fs; done (st', w'))
  end.
Proof.
  intros S H. pose proof (all_handled rt clock ps (sv_mode st) (sv_h st) S) as A.
  unfold receive_frame. change (memory_of st) with (mem (sv_mode st) (sv_h st)).
  destruct (process_frame_run rt clock tp st w fr S) as [(fs & st' & An & S' & E)|[C E]].
  - destruct An as (ps' & cs & evs & H' & D & Do & F & M).
    pose proof (holds_unique _ _ _ H' H) as X. subst ps'. apply decodes_dec in D.
    destruct (receive_all rt clock (mem (sv_mode st) (sv_h st)) ps) as [[m l]|]; [|exfalso; eapply A; exact D].
    destruct A as (cs2 & e2 & D2 & Q). destruct (dec_unique _ _ _ _ _ D _ _ D2) as [<- <-].
    pose proof (does_post _ _ _ _ _ _ Do Q) as (_ & M2 & F2).
    rewrite <- M in M2. exists st'. split; [exact S'|]. split; [exact M2|].
    rewrite E. rewrite <- M2. cbn [numbered mem]. now rewrite (all_encoded rt (sv_mode st') _ _ _ F2 F).
  - destruct (receive_all rt clock (mem (sv_mode st) (sv_h st)) ps) as [[m l]|]; [|exact E].
    destruct A as (cs & e2 & D & _). exfalso. apply frame_packets_panic in C.
    destruct (holds_runs _ _ _ _ _ _ _ (Nat.lt_succ_diag_r _) H D) as (es & R & _).
    unfold frame_packets, NewPacketReader in C. rewrite C in R. discriminate R.
Qed.

(** ** Sessions *)

Theorem session_received rt clock ins pss : hears ins pss -> forall fuel st o,
  sound st -> List.length ins < fuel ->
  match conversation rt clock (memory_of st) pss with
  | None => processFrames_loop fuel rt std_registry clock DevGeneral_device script st (ins, o) = Some Panic
  | Some (m, outs) =>
      exists st' rest, sound st' /\ memory_of st' = m
        /\ processFrames_loop fuel rt std_registry clock DevGeneral_device script st (ins, o) = done (st', (rest, o ++ outs))
  end.
Proof.
  induction 1 as [|ins|e ins pss N _ IH|fr ps ins pss H _ IH]; intros fuel st o S L;
    (destruct fuel as [|fuel]; [lia|]); cbn [conversation].
  - exists st, []. rewrite app_nil_r. auto.
  - exists st, ins. rewrite app_nil_r. auto.
  - cbn [List.length] in L. specialize (IH fuel st o S ltac:(lia)).
    cbn [processFrames_loop script tp_ReadFrame io_bind done fst snd]. fold script.
    destruct e; [now elim N|exact IH..].
  - cbn [List.length] in L. cbn [processFrames_loop script tp_ReadFrame io_bind done fst snd]. fold script.
    pose proof (frame_received rt clock script st (ins, o) fr ps S H) as F.
    destruct (receive_frame rt clock (memory_of st) ps) as [[m1 fs]|]; [|now rewrite F].
    destruct F as (st1 & S1 & M1 & E). rewrite E, feed_script. cbn [io_bind done].
    specialize (IH fuel st1 (o ++ fs) S1 ltac:(lia)). rewrite M1 in IH.
    destruct (conversation rt clock m1 pss) as [[m2 outs]|]; [|exact IH].
    destruct IH as (st' & rest & S' & M' & E'). exists st', rest. rewrite app_assoc. auto.
Qed.

(** ** Reports *)

Lemma wire_loop defs : forall fuel buf l o, List.length l < fuel ->
  match ReadFrame_loop defs buf (map ReadReport l) with
  | Panic => True
  | Ret (rest, _, r) => exists t l', l = t ++ l' /\ map ReadReport l' = rest
                        /\ ReadFrame_dev fuel defs wire_read buf (l, o) = done ((l', o), r)
  end.
Proof.
  induction fuel as [|fuel IH]; intros buf l o L; [lia|]. cbn [ReadFrame_dev].
  destruct l as [|x l]; cbn [map ReadFrame_loop wire_read fst snd io_bind done].
  { exists [], []. auto. }
  cbn [List.length] in L.
  assert (NX : forall buf', match ReadFrame_loop defs buf' (map ReadReport l) with
     | Panic => True
     | Ret (rest, _, r) => exists t l', x :: l = t ++ l' /\ map ReadReport l' = rest
                        /\ ReadFrame_dev fuel defs wire_read buf' (l, o) = done ((l', o), r)
     end).
  { intros buf'. specialize (IH buf' l o ltac:(lia)).
    destruct (ReadFrame_loop defs buf' (map ReadReport l)) as [[[rest b] r]|]; [|exact I].
    destruct IH as (t & l' & -> & E & D). exists (x :: t), l'. auto. }
  destruct (ReadReport x) as [rep|e]; [|exists [x], l; auto].
  destruct (Find defs (Z.of_N (b2n (rep_ID rep)))) as [def|e]; [|exists [x], l; auto].
  cbv zeta. destruct (Z.min _ _ <? 0)%Z; [exact I|].
  destruct (b2n (rep_LinkControl rep) =? LinkControlDone)%N; [exists [x], l; auto|].
  destruct (b2n (rep_LinkControl rep) =? LinkControlMoreToFollow)%N; [exact (NX _)|].
  destruct (b2n (rep_LinkControl rep) =? N.lor LinkControlContinue LinkControlMoreToFollow)%N; [exact (NX _)|].
  destruct (b2n (rep_LinkControl rep) =? LinkControlContinue)%N; [exists [x], l; auto|].
  exact (NX _).
Qed.

Lemma wire_frame defs fuel taken rest o b r :
  List.length (taken ++ rest) < fuel ->
  ReadFrame defs [] (map ReadReport (taken ++ rest)) = Ret (map ReadReport rest, b, r) ->
  ReadFrame_dev fuel defs wire_read [] (taken ++ rest, o) = done ((rest, o), r).
Proof.
  intros L E. unfold ReadFrame in E. pose proof (wire_loop defs fuel [] (taken ++ rest) o L) as H. rewrite E in H.
  destruct H as (t & l' & S & M & D). rewrite D. do 3 f_equal.
  apply (f_equal (@List.length _)) in M. rewrite !map_length in M.
  assert (T : List.length t = List.length taken).
  { apply (f_equal (@List.length _)) in S. rewrite !app_length in S. lia. }
  clear -S T. revert t T S. induction taken as [|x taken IH]; intros [|y t] T S; try discriminate T; [now symmetry|].
  cbn [app] in S. injection S as -> S. apply (IH t); [now injection T|exact S].
Qed.

Lemma wire_offer rs : forall l o,
  offer (dev_WriteReport wire_write) (Ret (l, o)) rs = (Ret (l, o ++ map report_bytes rs), None).
Proof.
  induction rs as [|r rs IH]; intros l o; [cbn [offer map]; now rewrite app_nil_r|].
  cbn [offer]. unfold dev_WriteReport at 1, WriteReport, raw_Write, wire_write. cbn [bind fst snd].
  rewrite Nat.ltb_irrefl, Nat.eqb_refl. fold (wire_write). 
  rewrite IH. cbn [map]. now rewrite <- app_assoc.
Qed.

Lemma wire_sent defs l o f :
  usable defs -> exists outs, WriteFrame_dev defs wire_write (l, o) f = done ((l, o ++ outs), None)
                  /\ forall fs more, departs defs fs more -> departs defs (f :: fs) (outs ++ more).
Proof.
  intros (_ & _ & d & LO & D). unfold WriteFrame_dev. destruct f as [|b f].
  - exists []. rewrite write_empty. cbn [io_bind done]. rewrite app_nil_r. split; [reflexivity|].
    intros fs more. apply departs_empty.
  - destruct (write_segments defs (b :: f) d (List.length (b :: f)) LO D ltac:(discriminate) ltac:(lia)) as (rs & G & _ & H).
    exists (map report_bytes rs). rewrite H, wire_offer. split; [reflexivity|].
    intros fs more. now apply departs_frame.
Qed.

Lemma wire_fed defs fuel spares fs : usable defs -> forall l o n,
  exists outs, departs defs fs outs
    /\ feed (hid_transport fuel defs spares wire_read wire_write) ((l, o), n) fs = done ((l, o ++ outs), n).
Proof.
  intros U. induction fs as [|f fs IH]; intros l o n.
  - exists []. split; [apply departs_end|]. cbn [feed]. now rewrite app_nil_r.
  - destruct (wire_sent defs l o f U) as (o1 & E & D).
    destruct (IH l (o ++ o1) n) as (o2 & D2 & E2). exists (o1 ++ o2). split; [now apply D|].
    cbn [feed].
    assert (T : tp_WriteFrame (hid_transport fuel defs spares wire_read wire_write) ((l, o), n) f = done ((l, o ++ o1, n), None)).
    { cbn [hid_transport tp_WriteFrame fst snd]. rewrite E. reflexivity. }
    rewrite T. cbn [io_bind done]. rewrite E2. now rewrite app_assoc.
Qed.

Lemma departs_app defs a b oa ob : departs defs a oa -> departs defs b ob -> departs defs (a ++ b) (oa ++ ob).
Proof.
  induction 1 as [|fs outs _ IH|f rs fs outs S _ IH]; intros B; cbn [app]; [exact B|apply departs_empty; auto|].
  rewrite <- app_assoc. apply departs_frame; auto.
Qed.

Lemma wire_transport fuel defs spares l o l' r n :
  ReadFrame_dev fuel defs wire_read [] (l, o) = done ((l', o), r) ->
  tp_ReadFrame (hid_transport fuel defs spares wire_read wire_write) ((l, o), n)
  = done (((l', o), S n), match r with inl f => inl (mkSlice f (spares n)) | inr e => inr e end).
Proof. intros E. cbn [hid_transport tp_ReadFrame fst snd]. rewrite E. reflexivity. Qed.

Theorem wire_received rt clock defs spares reads pss n : usable defs -> arrives defs spares n reads pss ->
  forall fuel fuel2 st o, sound st -> List.length reads < fuel -> List.length reads < fuel2 ->
  match conversation rt clock (memory_of st) pss with
  | None => processFrames_loop fuel rt std_registry clock DevGeneral_device
              (hid_transport fuel2 defs spares wire_read wire_write) st ((reads, o), n) = Some Panic
  | Some (m, fs) =>
      exists st' rest k outs, sound st' /\ memory_of st' = m /\ departs defs fs outs
        /\ processFrames_loop fuel rt std_registry clock DevGeneral_device
             (hid_transport fuel2 defs spares wire_read wire_write) st ((reads, o), n) = done (st', ((rest, o ++ outs), k))
  end.
Proof.
  intros U. induction 1 as [n reads rs E P|n taken rest rs E P|n taken rest rs x pss E P X _ IH|n taken rest rs last f ps pss E P LV EN F H _ IH];
    intros fuel fuel2 st o S L L2; (destruct fuel as [|fuel]; [lia|]); cbn [conversation];
    cbn [processFrames_loop].
  - assert (R : exists b, ReadFrame defs [] (map ReadReport (reads ++ [])) = Ret (map ReadReport [], b, inr EOF)).
    { apply ReadFrame_err_iff. exists rs. rewrite app_nil_r. destruct P. split; [assumption|]. split; [assumption|].
      right. right. rewrite E. auto. }
    destruct R as [b R]. apply (wire_frame defs fuel2 _ _ o) in R; [|rewrite app_nil_r; exact L2].
    rewrite app_nil_r in R. rewrite (wire_transport _ _ spares _ _ _ _ n R). cbn [io_bind done].
    exists st, [], (Datatypes.S n), []. rewrite app_nil_r. split; [exact S|]. split; [reflexivity|]. split; [apply departs_end|reflexivity].
  - assert (R : exists b, ReadFrame defs [] (map ReadReport (taken ++ rest)) = Ret (map ReadReport rest, b, inr EOF)).
    { apply ReadFrame_err_iff. exists rs. destruct P. split; [assumption|]. split; [assumption|].
      left. rewrite map_app, E, <- app_assoc. reflexivity. }
    destruct R as [b R]. apply (wire_frame defs fuel2 _ _ o) in R; [|exact L2].
    rewrite (wire_transport _ _ spares _ _ _ _ n R). cbn [io_bind done].
    exists st, rest, (Datatypes.S n), []. rewrite app_nil_r. split; [exact S|]. split; [reflexivity|]. split; [apply departs_end|reflexivity].
  - assert (R : exists e, e <> EOF /\ exists b, ReadFrame defs [] (map ReadReport (taken ++ rest)) = Ret (map ReadReport rest, b, inr e)).
    { exists (match x with inr e => e | inl _ => errReportID end). split; [destruct x; [discriminate|exact X]|].
      apply ReadFrame_err_iff. exists rs. destruct P. split; [assumption|]. split; [assumption|].
      rewrite map_app, E, <- app_assoc. destruct x as [r|e]; [right; left; exists r; auto|left; reflexivity]. }
    destruct R as (e & N & b & R). apply (wire_frame defs fuel2 _ _ o) in R; [|exact L2].
    rewrite (wire_transport _ _ spares _ _ _ _ n R). cbn [io_bind done].
    assert (T : 0 < List.length taken).
    { apply (f_equal (@List.length _)) in E. rewrite app_length, !map_length in E. cbn in E. lia. }
    rewrite app_length in L, L2. specialize (IH fuel fuel2 st o S ltac:(lia) ltac:(lia)).
    destruct e; [now elim N|exact IH..].
  - assert (R : ReadFrame defs [] (map ReadReport (taken ++ rest)) = Ret (map ReadReport rest, f, inl f)).
    { apply ReadFrame_ok_iff. split; [reflexivity|]. exists rs, last. destruct P as [P1 P2].
      split; [now rewrite map_app, E|]. split; [apply Forall_app; auto|]. auto. }
    apply (wire_frame defs fuel2 _ _ o) in R; [|exact L2]. rewrite (wire_transport _ _ spares _ _ _ _ n R). cbn [io_bind done].
    assert (T : 0 < List.length taken).
    { apply (f_equal (@List.length _)) in E. rewrite !map_length, app_length in E. cbn in E. lia. }
    rewrite app_length in L, L2.
    pose proof (frame_received rt clock (hid_transport fuel2 defs spares wire_read wire_write) st (rest, o, Datatypes.S n)
                  (mkSlice f (spares n)) ps S H) as Fr.
    destruct (receive_frame rt clock (memory_of st) ps) as [[m1 fs]|]; [|now rewrite Fr].
    destruct Fr as (st1 & S1 & M1 & Er). rewrite Er.
    destruct (wire_fed defs fuel2 spares fs U rest o (Datatypes.S n)) as (o1 & D1 & Fd). rewrite Fd. cbn [io_bind done].
    specialize (IH fuel fuel2 st1 (o ++ o1) S1 ltac:(lia) ltac:(lia)). rewrite M1 in IH.
    destruct (conversation rt clock m1 pss) as [[m2 fs2]|]; [|exact IH].
    destruct IH as (st' & rest' & k & o2 & S' & M' & D' & E'). exists st', rest', k, (o1 ++ o2).
    split; [exact S'|]. split; [exact M'|]. split; [now apply departs_app|]. rewrite app_assoc. exact E'.
Qed.

(** ** Unknown commands *)

Definition row_id (r : request) : bytes := fst (fst r).
Definition no_date : nat -> date := fun _ => (0, 0, 0, 0, 0)%N.

Lemma row_ids rt clock : map row_id (requests rt clock) = map row_id (requests true no_date).
Proof. reflexivity. Qed.

Definition lone (c : byte) : bool :=
  existsb (N.eqb (b2n c)) known_general
  || (forallb (fun i => if list_eq_dec Byte.byte_eq_dec [x00; c] i then false else true) (map row_id (requests true no_date))
      && Bool.eqb (switched true [x00; c]) true && Bool.eqb (switched false [x00; c]) false).

Lemma all_lone c : lone c = true.
Proof. destruct c; vm_cast_no_check (eq_refl true). Qed.

#[local] Opaque requests.

Lemma rows_none pre rs :
  forallb (fun i => if list_eq_dec Byte.byte_eq_dec pre i then false else true) (map row_id rs) = true ->
  filter (fun r : request => if list_eq_dec Byte.byte_eq_dec pre (fst (fst r)) then true else false) rs = [].
Proof.
  induction rs as [|r rs IH]; [reflexivity|]. cbn [map forallb filter]. intros H. apply andb_prop in H as [H1 H2].
  change (fst (fst r)) with (row_id r). destruct (list_eq_dec Byte.byte_eq_dec pre (row_id r)); [discriminate H1|auto].
Qed.

Lemma unknown_received {W} rt clock (tp : transport W) st w fr c b :
  sound st -> holds fr [x00 :: c :: b] -> ~ In (b2n c) known_general -> ~ In (List.length b) (known_sizes c) ->
  exists st', memory_of st' = memory_of st
    /\ process_frame rt std_registry clock DevGeneral_device tp st w fr
       = (go w' <- feed tp w [frame_bytes [x00; x02; x05; c]]; done (st', w')).
Proof.
  intros S H N NS. pose proof (frame_received rt clock tp st w fr _ S H) as F.
  assert (E : existsb (N.eqb (b2n c)) known_general = false).
  { apply Bool.not_true_is_false. intros E. apply existsb_exists in E as (i & I & E). apply N.eqb_eq in E. subst i. now apply N. }
  pose proof (all_lone c) as L. unfold lone in L. rewrite E in L. cbn [orb] in L.
  apply andb_prop in L as [L L4]. apply andb_prop in L as [L1 L3].
  apply Bool.eqb_prop in L3, L4.
  rewrite <- (row_ids rt clock) in L1. apply rows_none in L1.
  assert (R : receive rt clock (memory_of st) (x00 :: c :: b) = Some (memory_of st, [Reply [x00; x02] None [x05; c]])).
  { rewrite (receive_react rt clock _ (x00 :: c :: b) [x00; c] b eq_refl).
    match goal with |- context [filter ?f (requests rt clock)] =>
      replace (filter f (requests rt clock)) with (@nil request) by (symmetry; exact L1) end.
    unfold react. cbn [understand find].
    assert (X : mkMemory (switched (numbered (memory_of st)) [x00; c]) (extended (memory_of st)) (last_number (memory_of st)) (readings (memory_of st)) = memory_of st).
    { unfold memory_of. cbn [numbered extended last_number readings]. f_equal. destruct (sv_mode st); assumption. }
    rewrite X. unfold strange_command.
    assert (K : existsb (Nat.eqb (List.length b)) (known_sizes c) = false).
    { apply Bool.not_true_is_false. intros K. apply existsb_exists in K as (i & I & K). apply Nat.eqb_eq in K. subst i. now apply NS. }
    rewrite E, K. reflexivity. }
  unfold receive_frame in F. cbn [receive_all] in F. rewrite R in F. cbn [app map reply_bytes] in F.
  destruct F as (st' & _ & M & P). exists st'. auto.
Qed.

(** ** Well-formed input *)

Lemma stream_holds ps f sp : stream ps f -> holds (mkSlice f sp) ps.
Proof.
  intros H. enough (E : exists r, parses sp f ps r /\ filler r) by exact E.
  induction H as [f F|f p w ps rest F P _ (r & IH & R)].
  - exists f. split; [apply parses_here|exact F].
  - exists r. split; [|exact R]. now apply parses_packet.
Qed.

Lemma sent_report r : 1 <= List.length (rep_Data r) <= 1022 -> ReadReport (report_bytes r, None) = inl r.
Proof.
  intros L. unfold ReadReport, report_bytes, maxRawSize. rewrite firstn_all2 by (cbn [List.length]; lia).
  destruct r as [i l d]. cbn [rep_Data rep_ID rep_LinkControl] in *. destruct d; [cbn in L; lia|reflexivity].
Qed.

Lemma sent_reports rs : Forall (fun r => 1 <= List.length (rep_Data r) <= 1022) rs ->
  map ReadReport (map (fun r => (report_bytes r, None)) rs) = map inl rs.
Proof.
  induction 1 as [|r rs L _ IH]; [reflexivity|]. cbn [map]. now rewrite IH, sent_report.
Qed.

Lemma sent_arrives defs spares rss pss :
  Forall2 (sends defs) rss pss ->
  forall n, arrives defs spares n (map (fun r => (report_bytes r, None)) (List.concat rss)) pss.
Proof.
  induction 1 as [|rs ps rss pss (pre & last & f & -> & P & LV & E & L & F & S) _ IH]; intros n.
  - apply arrives_end with []; [reflexivity|split; constructor].
  - cbn [List.concat]. rewrite map_app. eapply arrives_frame; [now apply sent_reports|exact P|exact LV|exact E|exact F| |apply IH].
    now apply stream_holds.
Qed.

Lemma segments_nil defs first rs : segments defs first [] rs -> False.
Proof.
  intros H. remember (@nil byte) as l eqn:E. destruct H as [a data d N|a chunk rest d rs' N]; [now apply N|].
  apply app_eq_nil in E as [_ E]. now apply N.
Qed.

Lemma departs_unique defs fs o o' : departs defs fs o -> departs defs fs o' -> o = o'.
Proof.
  intros D. revert o'. induction D as [|fs o D IH|f rs fs o S D IH]; intros o' E; inversion E; subst; auto.
  - exfalso. match goal with H : segments _ _ [] _ |- _ => exact (segments_nil _ _ _ H) end.
  - exfalso. exact (segments_nil _ _ _ S).
  - match goal with H : segments _ _ f ?rs2 |- _ => rewrite (segments_unique _ _ _ _ _ S H) end. f_equal. auto.
Qed.

(** Frames for examples. *)
Lemma framed ps : Forall writable ps -> stream ps (flat_map (fun p => x00 :: frame_bytes p) ps ++ [x00]).
Proof.
  induction 1 as [|p ps Wr _ IH]; cbn [flat_map].
  - apply stream_end. intros [H|[]]; discriminate H.
  - rewrite <- app_assoc. change ((x00 :: frame_bytes p) ++ ?r) with ([x00] ++ frame_bytes p ++ r).
    apply stream_pkt; [intros [H|[]]; discriminate H| |exact IH].
    rewrite frame_bytes_eq. destruct (WritePacket_is_packet [] p Wr) as (w & E & Hw). cbn [app] in E. rewrite E. exact Hw.
Qed.

Lemma stream_more ps w : stream ps w -> stream ps (w ++ [x00; x00]).
Proof.
  induction 1 as [f F|f p w ps rest F P _ IH].
  - apply stream_end. intros H. apply in_app_or in H as [H|[H|[H|[]]]]; [now apply F|discriminate H..].
  - rewrite <- !app_assoc. now apply stream_pkt.
Qed.
