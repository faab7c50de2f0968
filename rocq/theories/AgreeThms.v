(** The server's log of a session and the viewer's log of its trace. *)
From Coq Require Import Ascii ZifyBool ZifyNat ZifyN Lia.
From Verif Require Import Base BaseFacts Text SpecText TextFacts TextThms GoTypes Types Payload Lingo LingoFacts Command SpecPayload SpecCommand PayloadFacts CommandFacts Handlers SpecHandlers HandlersFacts
  HandlersThms ReplyThms Packet PacketFacts PacketThms SpecPacket Hid SpecHid Trace SpecTrace TraceFacts TraceThms TraceSessions Server SpecServer SessionThms ServerFacts ServerThms SpecView ViewThms
  SpecSession CrashThms RecordThms Log SpecLog LogThms.
Local Open Scope string_scope.
#[local] Opaque std_registry.

(** ** Lists of entries *)

Lemma nb_skip m1 m2 r l : lr_Message r <> m1 -> neighbours m1 m2 (r :: l) = neighbours m1 m2 l.
Proof.
  intros H. destruct l as [|r2 l]; [reflexivity|]. cbn [neighbours]. apply String.eqb_neq in H. rewrite H. reflexivity.
Qed.
Lemma nb_skip_all m1 m2 a l : Forall (fun r => lr_Message r <> m1) a -> neighbours m1 m2 (a ++ l) = neighbours m1 m2 l.
Proof. induction 1 as [|r a H _ IH]; [reflexivity|]. cbn [app]. rewrite nb_skip by exact H. exact IH. Qed.
Lemma nb_hit m1 m2 r1 r2 l : lr_Message r1 = m1 -> lr_Message r2 = m2 ->
  neighbours m1 m2 (r1 :: r2 :: l) = (r1, r2) :: neighbours m1 m2 (r2 :: l).
Proof. intros <- <-. cbn [neighbours]. rewrite !String.eqb_refl. reflexivity. Qed.

Lemma out_msg_ne r s : outgoing r = false -> lr_Message r <> ">> " ++ s.
Proof.
  intros H E. unfold outgoing in H. rewrite E in H. cbn [append prefix] in H. destruct s; discriminate H.
Qed.
Lemma in_out r : incoming r = true -> outgoing r = false.
Proof.
  unfold incoming, outgoing. intros H. apply orb_true_iff in H as [H|H]; [apply orb_true_iff in H as [H|H]|];
    [|apply String.eqb_eq in H; rewrite H; reflexivity..].
  destruct (lr_Message r) as [|a s]; [discriminate|]. cbn [prefix] in *.
  destruct (ascii_dec "<" a) as [<-|]; [reflexivity|discriminate].
Qed.

Lemma sized_msg errText msg n err r : sized_entry errText msg n err r -> lr_Message r = msg.
Proof. intros (s & _ & E). destruct err; cbn [entry] in E; subst r; reflexivity. Qed.
Lemma command_msg errText msg c err r : command_entry errText msg c err r -> lr_Message r = msg.
Proof. intros (a & b & t & ty & _ & _ & _ & E). destruct err; cbn [entry] in E; subst r; reflexivity. Qed.

Lemma in_prefix r s : lr_Message r = "<< " ++ s -> incoming r = true.
Proof. unfold incoming. intros ->. cbn [append prefix]. destruct s; reflexivity. Qed.
Lemma out_prefix r s : lr_Message r = ">> " ++ s -> outgoing r = true.
Proof. unfold outgoing. intros ->. cbn [append prefix]. destruct s; reflexivity. Qed.
Lemma out_in r : outgoing r = true -> incoming r = false.
Proof. intros H. destruct (incoming r) eqn:I; [|reflexivity]. apply in_out in I. congruence. Qed.

Lemma switching_in m m' : Forall (fun r => incoming r = true) (switching m m').
Proof. destruct m, m'; repeat constructor. Qed.

Lemma packets_in errText m evs l : packet_entries errText "<< " m evs l -> Forall (fun r => incoming r = true) l.
Proof.
  induction 1 as [m|m e evs r rs H _ IH|m p c e evs r1 r2 rs H1 H2 _ IH]; [constructor|apply Forall_cons; [|exact IH]|].
  - eapply in_prefix. exact (sized_msg _ _ _ _ _ H).
  - apply Forall_cons; [eapply in_prefix; exact (sized_msg _ _ _ _ _ H1)|].
    apply Forall_app. split; [apply switching_in|]. apply Forall_cons; [eapply in_prefix; exact (command_msg _ _ _ _ _ H2)|exact IH].
Qed.

Lemma said_quiet sdump certLog : (forall b, Forall quiet (certLog b)) -> forall toks cert cs l,
  said sdump certLog toks cert cs l -> Forall quiet l.
Proof.
  intros Q toks cert cs l. induction 1 as [|toks cert c cs l ls H _ IH]; [constructor|]. apply Forall_app. split; [|exact IH].
  unfold says in H. destruct (lingo_of c =? 2)%N.
  { subst l. apply Forall_cons; [split; reflexivity|constructor]. }
  destruct (lingo_of c =? 0)%N; [|subst l; constructor].
  destruct (ends_identification c).
  { destruct H as (s & (t & _ & ->) & ->). apply Forall_cons; [split; reflexivity|constructor]. }
  destruct (section c) as [[[n last] d]|]; subst l; [|constructor].
  destruct (last <=? n)%N; [apply Q|constructor].
Qed.

(** ** The server's log follows what happens on the transport *)

(** [m] is the transaction mode. *)
Inductive logged (errText : goerr -> string) (rt : bool) : bool -> list happening -> list log_rec -> Prop :=
| lg_end m : logged errText rt m [] [mkRec 3 "EOF" []]
| lg_error m e hs r l : sized_entry errText "<< FRAME" 0 (Some e) r -> logged errText rt m hs l ->
    logged errText rt m (Received (inr e) :: hs) (r :: l)
| lg_frame m fr ps evs r l1 l2 hs l :
    sized_entry errText "<< FRAME" (len (vis fr)) None r -> holds fr ps -> happens rt (spare fr) m (vis fr) evs ->
    packet_entries errText "<< " m evs l1 -> Forall quiet l2 ->
    logged errText rt (mode_after m (ids_of ps)) hs l ->
    logged errText rt m (Received (inl (vis fr)) :: hs) (r :: l1 ++ l2 ++ l)
| lg_reply m c b me f we r1 r2 r3 hs l :
    command_entry errText ">> CMD" c None r1 -> (packet_id b = Some (cmd_id c) /\ me = None /\ WritePacket [] b = (f, None) /\ b <> []
                                                 \/ (exists e, me = Some e) /\ f = []) ->
    sized_entry errText ">> PACKET" (len b) me r2 -> sized_entry errText ">> FRAME" (len f) we r3 ->
    controls (cmd_id c) = None -> tame (cmd_id c) = true -> (exists t, In (cmd_id c, t) std_registry) -> logged errText rt m hs l ->
    logged errText rt m (Sent f :: hs) (r1 :: r2 :: r3 :: l).

Lemma marshal_packet_id rt m c m' b t : In (cmd_id c, t) std_registry -> MarshalCmd rt m c = Ret (m', Ok b) ->
  packet_id b = Some (cmd_id c).
Proof.
  intros Hin H. pose proof (std_wire_id _ _ Hin) as W.
  assert (X : exists x, b = (id_prefix (cmd_id c) ++ x)%list).
  { unfold MarshalCmd in H. destruct (cmd_payload c) as [p|]; [|discriminate].
    rewrite (marshal_id_prefix (cmd_id c)) in H by apply W.
    destruct (payload_marshaler rt p) as [[[b0|e]|]|]; cbn [bind] in H; try discriminate.
    - apply ret_ok in H as [_ H]. eexists. symmetry. exact H.
    - destruct (payload_binary_write p); [|discriminate H]. apply ret_ok in H as [_ H]. eexists. symmetry. exact H. }
  destruct X as (x & ->). apply (packet_id_prefix _ x W).
Qed.

Definition a_reply (c : command) : Prop := controls (cmd_id c) = None /\ tame (cmd_id c) = true /\ exists t, In (cmd_id c, t) std_registry.

Lemma sends_logged {W} errText rt (tp : transport W) m cs w l w2 : sends errText rt (watched tp) m cs w l w2 -> Forall a_reply cs ->
  exists hs1, snd w2 = (snd w ++ hs1)%list
    /\ forall hs' l', logged errText rt m hs' l' -> logged errText rt m (hs1 ++ hs') (l ++ l').
Proof.
  induction 1 as [w|c cs w w1 w2 b me f we r1 r2 r3 rs C M P W1 F _ IH]; intros A.
  - exists []. split; [now rewrite app_nil_r|]. auto.
  - inversion A as [|? ? (A1 & At & t & A2) A3]; subst. destruct (IH A3) as (hs1 & E & L).
    cbn [watched tp_WriteFrame] in W1. destruct (tp_WriteFrame tp (fst w) f) as [[[wa ea]|]|]; cbn [io_bind done] in W1; try discriminate.
    injection W1 as <- <-. cbn [snd] in E. exists (Sent f :: hs1). split; [rewrite E, <- app_assoc; reflexivity|].
    intros hs' l' G. cbn [app]. eapply lg_reply; [exact C| |exact P|exact F|exact A1|exact At|exists t; exact A2|exact (L _ _ G)].
    destruct M as [(M & -> & WP)|(e & M & -> & -> & ->)]; [left|right; eauto].
    split; [exact (marshal_packet_id _ _ _ _ _ _ A2 M)|]. split; [reflexivity|]. split; [exact WP|]. exact (marshal_nonempty _ _ _ _ _ M).
Qed.

Lemma happens_wire rt sp m d evs : happens rt sp m d evs -> Forall (from_wire rt) (inCmds evs).
Proof.
  induction 1 as [|m f w p d m1 c e evs Hf Hw U H IH|m f d e evs Hf Hn Ho He H IH]; [constructor| |exact IH].
  unfold inCmds in *. cbn [flat_map app]. apply Forall_cons; [exact (decoded_from_wire _ _ _ _ _ _ U)|exact IH].
Qed.

Lemma fine_a_reply req c : fine_cmd req c -> a_reply c.
Proof. intros (p & (t & _ & I & _) & C & _ & T). split; [exact C|]. split; [exact T|]. eauto. Qed.

Lemma transcript_logged {W} errText sdump certLog rt clock (tp : transport W) st w l st' w' :
  (forall b, Forall quiet (certLog b)) ->
  transcript errText sdump certLog rt clock (watched tp) st w l st' w' -> sound st ->
  exists hs, snd w' = (snd w ++ hs)%list /\ logged errText rt (sv_mode st) hs l.
Proof.
  intros Q. induction 1 as [st w w' R|st w w1 e r rs st' w' R NE E _ IH
    |st w w1 fr ps r evs l1 l2 devs l3 st1 w2 rs st' w' R E Hh Ha Pe Sa D Mo Se _ IH]; intros Hs.
  - cbn [watched tp_ReadFrame] in R. destruct (tp_ReadFrame tp (fst w)) as [[[wa ra]|]|]; cbn [io_bind done] in R; try discriminate.
    injection R as <- ->. exists []. split; [reflexivity|apply lg_end].
  - cbn [watched tp_ReadFrame] in R. destruct (tp_ReadFrame tp (fst w)) as [[[wa ra]|]|]; cbn [io_bind done] in R; try discriminate.
    injection R as <- ->. destruct (IH Hs) as (hs & X & L). exists (Received (inr e) :: hs). split; [|now apply lg_error].
    cbn [snd] in X. rewrite X, <- app_assoc. f_equal. destruct e; [congruence|reflexivity..].
  - cbn [watched tp_ReadFrame] in R. destruct (tp_ReadFrame tp (fst w)) as [[[wa ra]|]|]; cbn [io_bind done] in R; try discriminate.
    injection R as <- ->.
    destruct (does_post _ _ _ _ _ _ D (serve_replies rt clock (inCmds evs) (sv_h st) (happens_wire _ _ _ _ _ Ha) Hs)) as [Hs1 F].
    destruct (IH Hs1) as (hs & X & L). destruct (sends_logged _ _ _ _ _ _ _ _ Se) as (hs1 & Y & G).
    { eapply Forall_impl; [|exact F]. intros c (req & _ & Fc). exact (fine_a_reply _ _ Fc). }
    exists (Received (inl (vis fr)) :: hs1 ++ hs). split.
    + rewrite X, Y. cbn [snd]. rewrite <- !app_assoc. reflexivity.
    + eapply lg_frame; try eassumption; [exact (said_quiet _ _ Q _ _ _ _ Sa)|]. rewrite <- Mo. exact (G _ _ L).
Qed.

(** ** The viewer's log of the messages recorded *)

Lemma show_block_log rt defs spares n m ms rest d x es left : block defs ms d x ->
  shows rt defs spares n m (ms ++ rest) es left ->
  exists es', match x with
  | inr e => es = mkView d (inr e) [] :: es' /\ shows rt defs spares (S n) m rest es' left
  | inl f => exists ps evs, es = mkView d (inl f) evs :: es' /\ holds (mkSlice f (spares n)) ps /\ happens rt (spares n) m f evs
               /\ shows rt defs spares (S n) (mode_after m (ids_of ps)) rest es' left
  end.
Proof.
  intros B SH. specialize (B ms rest eq_refl). inversion SH; subst.
  - match goal with H : [] = _ |- _ => rewrite <- H in B end. inversion B.
  - exfalso. match goal with H : _ :: _ = _ |- _ => rewrite <- H in B end. eapply unfinished_next; eassumption.
  - match goal with H : next_frame _ (ms ++ rest) _ (inr _) _ |- _ => destruct (next_unique _ _ _ _ _ _ _ _ B H) as (<- & -> & <-) end.
    eexists. split; [reflexivity|]. eassumption.
  - match goal with H : next_frame _ (ms ++ rest) _ (inl _) _ |- _ => destruct (next_unique _ _ _ _ _ _ _ _ B H) as (<- & -> & <-) end.
    eexists _, _, _. split; [reflexivity|]. split; [eassumption|]. split; eassumption.
Qed.

Lemma zeros_filler k : filler (repeat x00 k).
Proof. intros H. apply repeat_spec in H. discriminate. Qed.

Lemma padded_happens rt sp m p w k evs : is_packet p w -> happens rt sp m (w ++ repeat x00 k) evs ->
  exists m1 c e, UnmarshalCmd rt std_registry m p = Ret (m1, c, e) /\ evs = [PktCmd p c e].
Proof.
  intros Hw H. destruct (packet_start _ _ Hw) as (w1 & Ew).
  inversion H as [m0 f0 Hf0 Em E1|m0 f0 w0 p0 d0 m2 c0 e0 evs0 Hf0 Hw0 U0 H0 Em E1|m0 f0 d0 e0 evs0 Hf0 Hn0 Ho0 He0 H0 Em E1]; subst m0.
  - exfalso. subst f0. apply Hf0. rewrite Ew. left. reflexivity.
  - destruct (packet_start _ _ Hw0) as (w2 & Ew2).
    assert (E2 : ([] ++ x55 :: (w1 ++ repeat x00 k))%list = (f0 ++ x55 :: (w2 ++ d0))%list).
    { rewrite Ew, Ew2 in E1. cbn [app] in E1 |- *. symmetry. exact E1. }
    destruct (first_start _ _ _ _ E2 (fun x => x) Hf0) as [_ E3].
    destruct (packet_unique p w (repeat x00 k) p0 w0 d0 Hw Hw0) as (X1 & X2 & X3); [rewrite Ew, Ew2; cbn; congruence|].
    subst p0 w0 d0. exists m2, c0, e0. split; [exact U0|]. f_equal. symmetry.
    exact (happens_unique_any rt sp sp m2 _ [] (happens_end rt sp m2 _ (zeros_filler k)) _ H0).
  - exfalso. rewrite Ew in E1. cbn [app] in E1.
    destruct (first_start [] (w1 ++ repeat x00 k) f0 d0 (eq_sym E1) (fun x => x) Hf0) as [_ E2].
    apply (Hn0 p w (repeat x00 k)); [rewrite Ew; cbn; congruence|exact Hw].
Qed.

Lemma padded_holds sp p w k : is_packet p w -> holds (mkSlice (w ++ repeat x00 k) sp) [p].
Proof.
  intros Hw. exists (repeat x00 k). split; [|apply zeros_filler]. cbn [spare vis].
  apply (parses_packet sp [] w p (repeat x00 k) [] (repeat x00 k)); [intros []|exact Hw|apply parses_here].
Qed.

Lemma field_id errText c err msg : field "id" (logCmd errText c err msg) = Some (id_String (cmd_id c)).
Proof. destruct err; reflexivity. Qed.
Lemma field_len errText p err msg : field "len" (logPacket errText p err msg) = Some (FormatInt (len p)).
Proof. destruct err; reflexivity. Qed.

Lemma not_registered_254 t : ~ In (254%N, t) std_registry.
Proof.
  assert (X : forallb (fun p => negb (fst p =? 254)%N) std_registry = true) by (vm_compute; reflexivity).
  intros H. rewrite forallb_forall in X. specialize (X _ H). discriminate.
Qed.

Lemma write_is_packet b f p id t : WritePacket [] b = (f, None) -> b <> [] -> packet_id b = Some id -> In (id, t) std_registry ->
  is_packet p f -> p = b.
Proof.
  intros WP NE PI RG (h' & c' & Ef & Hh & _). destruct (WritePacket_shape [] b NE) as (h & E & Eh).
  rewrite E in WP. cbn [app] in WP. assert (WF : x55 :: (h ++ b ++ [n2b (checksum (h ++ b))])%list = f) by congruence. clear WP E.
  rewrite Ef in WF. assert (WQ : (h ++ b ++ [n2b (checksum (h ++ b))])%list = (h' ++ p ++ [c'])%list) by congruence. clear WF.
  revert WQ Eh. generalize (n2b (checksum (h ++ b))) as c. intros c WQ Eh.
  assert (NZ : (len b <> 0)%N) by (destruct b; [congruence|unfold len; cbn [List.length]; lia]).
  inversion Hh as [x Hx Hn E1|hi lo Hx E1]; subst h'; destruct (N.ltb_spec 256 (len b)) as [L|L]; subst h; cbn [app] in WQ.
  - injection WQ as E1 _. rewrite <- E1 in Hx. cbn in Hx. congruence.
  - injection WQ as _ WQ. apply app_inj_tail in WQ as [<- _]. reflexivity.
  - injection WQ as _ _ WQ. apply app_inj_tail in WQ as [<- _]. reflexivity.
  - injection WQ as E1 WQ.
    assert (L2 : len b = 256%N).
    { assert (Y : b2n (n2b (len b)) = 0%N) by (rewrite E1; reflexivity). rewrite b2n_n2b in Y. lia. }
    exfalso. change (hi :: lo :: (p ++ [c'])%list) with ((hi :: lo :: p) ++ [c'])%list in WQ. apply app_inj_tail in WQ as [WQ _].
    rewrite WQ in L2, PI. assert (LP : len p = 254%N) by (unfold len in *; cbn [List.length] in L2; lia).
    pose proof (b2n_lt lo). assert (H0 : b2n hi = 0%N) by lia. assert (H1 : b2n lo = 254%N) by lia.
    unfold packet_id in PI. rewrite H0, H1 in PI. change (0 =? 4)%N with false in PI. cbv iota in PI.
    injection PI as <-. revert RG. apply not_registered_254.
Qed.

Lemma replies_sent_skip a l : Forall (fun r => outgoing r = false) a -> replies_sent (a ++ l) = replies_sent l.
Proof.
  intros F. unfold replies_sent. rewrite nb_skip_all; [reflexivity|]. eapply Forall_impl; [|exact F].
  intros r H. exact (out_msg_ne r "CMD" H).
Qed.
Lemma replies_viewed_skip a l : Forall (fun r => outgoing r = false) a -> replies_viewed (a ++ l) = replies_viewed l.
Proof.
  intros F. unfold replies_viewed. rewrite nb_skip_all; [reflexivity|]. eapply Forall_impl; [|exact F].
  intros r H. exact (out_msg_ne r "PACKET" H).
Qed.

Lemma filter_app_none {A} (f : A -> bool) a b : Forall (fun x => f x = false) a -> filter f (a ++ b) = filter f b.
Proof. intros F. rewrite filter_app, (filter_none f a F). reflexivity. Qed.

Lemma show_logged errText rt defs spares m hs l : logged errText rt m hs l -> forall blocks end_ ms n es left,
  Forall2 (told defs) hs blocks -> Forall readable hs ->
  open_end defs end_ -> map strip ms = map strip (List.concat blocks ++ end_) ->
  shows rt defs spares n m ms es left ->
  filter incoming (views_log errText m es) = filter incoming l
  /\ replies_viewed (views_log errText m es) = replies_sent l.
Proof.
  induction 1 as [m|m e hs r l Er _ IH|m fr ps evs r l1 l2 hs l Er Hh Ha Pe Q _ IH|m c b me f we r1 r2 r3 hs l C M P F CT TM RG _ IH];
    intros blocks end_ ms n es left T RD O E SH.
  - inversion T; subst. cbn [List.concat app] in E.
    assert (O' : open_end defs ms).
    { destruct O as (D & rs & R & L & N). destruct (strip_report _ _ E) as [ER ED]. split.
      - apply (forall_map msg_Dir (fun x => x = 0%N)). rewrite ED. now apply (forall_map msg_Dir (fun x => x = 0%N)).
      - exists rs. rewrite ER. auto. }
    destruct (show_open _ _ _ _ _ _ _ _ O' SH) as [-> ->]. split; reflexivity.
  - inversion T as [|? bl ? bls T1 T2]; subst. inversion RD as [|? ? _ RD2]; subst.
    cbn [List.concat] in E. rewrite <- app_assoc, map_app in E. apply map_eq_app in E as (b' & ms2 & -> & E1 & E2).
    destruct (show_block_log _ _ _ _ _ _ _ _ _ _ _ (block_strip _ _ _ _ _ T1 E1) SH) as (es' & -> & SH').
    destruct (IH _ _ _ _ _ _ T2 RD2 O E2 SH') as [I1 I2]. cbn [views_log vw_packets]. unfold view_log at 1 2. cbn [vw_frame vw_dir].
    change (dirPrefix 0 "FRAME") with "<< FRAME".
    rewrite (sized_unique _ _ _ _ _ _ Er (logFrame_entry errText [] (Some e) "<< FRAME")). cbn [app].
    change (events_mode m []) with m.
    set (x := logFrame errText [] (Some e) "<< FRAME"). split.
    + cbn [filter]. rewrite I1. reflexivity.
    + change (x :: views_log errText m es')%list with ([x] ++ views_log errText m es')%list. change (x :: l)%list with ([x] ++ l)%list.
      rewrite (replies_viewed_skip [x]), (replies_sent_skip [x]); [exact I2|..]; (apply Forall_cons; [reflexivity|constructor]).
  - inversion T as [|? bl ? bls T1 T2]; subst. inversion RD as [|? ? _ RD2]; subst.
    cbn [List.concat] in E. rewrite <- app_assoc, map_app in E. apply map_eq_app in E as (b' & ms2 & -> & E1 & E2).
    destruct (show_block_log _ _ _ _ _ _ _ _ _ _ _ (block_strip _ _ _ _ _ T1 E1) SH) as (es' & ps' & evs' & -> & Hh' & Ha' & SH').
    pose proof (happens_unique_any _ _ _ _ _ _ Ha _ Ha') as <-.
    assert (ps' = ps) as ->.
    { destruct Hh as (x & X1 & X2), Hh' as (y & Y1 & Y2). exact (parses_unique_any _ _ _ _ _ Y1 Y2 _ _ X1 X2). }
    destruct (IH _ _ _ _ _ _ T2 RD2 O E2 SH') as [I1 I2]. cbn [views_log vw_packets]. unfold view_log at 1 2. cbn [vw_frame vw_dir vw_packets].
    pose proof (packets_in _ _ _ _ Pe) as PI. rewrite events_mode_after, (happens_packets _ _ _ _ _ Ha Hh).
    assert (A0 : arrow_of 0 "<< ") by (left; auto).
    rewrite <- (packet_entries_unique _ _ _ _ _ Pe _ (packets_log_entries errText 0 "<< " evs m A0)).
    change (dirPrefix 0 "FRAME") with "<< FRAME".
    rewrite <- (sized_unique _ _ _ _ _ _ Er (logFrame_entry errText (vis fr) None "<< FRAME")).
    pose proof (sized_msg _ _ _ _ _ Er : _ = "<< " ++ "FRAME") as MR. apply in_prefix in MR.
    assert (OR : Forall (fun r => outgoing r = false) (r :: l1)).
    { apply Forall_cons; [now apply in_out|]. eapply Forall_impl; [|exact PI]. intros x. apply in_out. }
    split.
    + cbn [app filter]. rewrite MR, !filter_app, I1. f_equal. f_equal. rewrite (filter_none incoming l2); [reflexivity|].
      eapply Forall_impl; [|exact Q]. intros x [X _]. exact X.
    + change (r :: l1 ++ l2 ++ l)%list with ((r :: l1) ++ (l2 ++ l))%list. rewrite !replies_sent_skip, replies_viewed_skip; auto.
      eapply Forall_impl; [|exact Q]. intros x [_ X]. exact X.
  - inversion T as [|? bl ? bls T1 T2]; subst. inversion RD as [|? ? RD1 RD2]; subst.
    pose proof (command_msg _ _ _ _ _ C) as M1. pose proof (sized_msg _ _ _ _ _ P) as M2. pose proof (sized_msg _ _ _ _ _ F) as M3.
    assert (SI : filter incoming (r1 :: r2 :: r3 :: l) = filter incoming l).
    { cbn [filter]. rewrite (out_in _ (out_prefix r1 "CMD" M1)), (out_in _ (out_prefix r2 "PACKET" M2)), (out_in _ (out_prefix r3 "FRAME" M3)). reflexivity. }
    assert (SR : replies_sent (r1 :: r2 :: r3 :: l)
                 = ((if (lr_Level r2 =? 4)%N then [(field "id" r1, field "len" r2)] else []) ++ replies_sent l)%list).
    { unfold replies_sent. rewrite nb_hit by assumption. rewrite (nb_skip _ _ r2) by (rewrite M2; discriminate).
      rewrite (nb_skip _ _ r3) by (rewrite M3; discriminate). cbn [filter snd]. destruct (lr_Level r2 =? 4)%N; reflexivity. }
    rewrite SI, SR. cbn [List.concat] in E.
    destruct M as [(PI & -> & WP & NB)|((e & ->) & ->)].
    + assert (NF : f <> []).
      { intros ->. destruct (WritePacket_shape [] b NB) as (h & X & _). rewrite X in WP. discriminate. }
      destruct RD1 as [X|(p & IP)]; [congruence|]. destruct RG as (t & RG).
      pose proof (write_is_packet _ _ _ _ _ WP NB PI RG IP) as ->.
      assert (T1' : exists got, padded defs f got /\ block defs bl 1 (inl got)) by (destruct f; [congruence|exact T1]).
      destruct T1' as (got & (k & d & _ & _ & _ & ->) & T1').
      rewrite <- app_assoc, map_app in E. apply map_eq_app in E as (b' & ms2 & -> & E1 & E2).
      destruct (show_block_log _ _ _ _ _ _ _ _ _ _ _ (block_strip _ _ _ _ _ T1' E1) SH) as (es' & ps' & evs' & -> & Hh' & Ha' & SH').
      pose proof (holds_unique _ _ _ Hh' (padded_holds (spares n) b f k IP)) as ->.
      destruct (padded_happens _ _ _ _ _ _ _ IP Ha') as (m1 & c1 & e1 & U & ->).
      assert (IC : cmd_id c1 = cmd_id c).
      { destruct (decoded_id _ _ _ _ _ _ _ U) as [X|[X _]]; congruence. }
      assert (MM : mode_after m (ids_of [b]) = m).
      { cbn [ids_of flat_map]. rewrite PI. cbn [app mode_after]. rewrite CT. reflexivity. }
      rewrite MM in SH'. destruct (IH _ _ _ _ _ _ T2 RD2 O E2 SH') as [I1 I2].
      cbn [views_log vw_packets]. unfold view_log at 1 2. cbn [vw_frame vw_dir vw_packets packets_log].
      change (events_mode m [PktCmd b c1 e1]) with (packet_mode m b).
      rewrite (packet_mode_after m b), MM, mode_log_same. cbn [app].
      change (dirPrefix 1 "FRAME") with ">> FRAME". change (dirPrefix 1 "PACKET") with ">> PACKET". change (dirPrefix 1 "CMD") with ">> CMD".
      set (v1 := logFrame errText (f ++ repeat x00 k) None ">> FRAME").
      set (v2 := logPacket errText b None ">> PACKET"). set (v3 := logCmd errText c1 e1 ">> CMD").
      assert (V3 : lr_Message v3 = ">> CMD") by (unfold v3; destruct e1; reflexivity).
      rewrite (sized_unique _ _ _ _ _ _ P (logPacket_entry errText b None ">> PACKET")). fold v2.
      rewrite (command_entry_unique _ _ _ _ _ _ C (logCmd_entry errText c None ">> CMD")), field_id. split.
      * cbn [filter]. rewrite (out_in _ (out_prefix v3 "CMD" V3)). exact I1.
      * unfold replies_viewed. rewrite (nb_skip _ _ v1) by discriminate. rewrite nb_hit by (exact V3 || reflexivity).
        rewrite (nb_skip _ _ v3) by (rewrite V3; discriminate). change (lr_Level v2 =? 4)%N with true. cbv iota. cbn [filter fst].
        change (lr_Level v2 =? 4)%N with true. cbv iota. cbn [map fst snd app]. unfold v3 at 1. rewrite field_id, IC. f_equal. exact I2.
    + cbn [told] in T1. subst bl. cbn [app] in E. destruct (IH _ _ _ _ _ _ T2 RD2 O E SH) as [I1 I2].
      assert (L2 : lr_Level r2 = 2%N) by (destruct P as (s & _ & X); cbn [entry] in X; now subst r2).
      rewrite L2. split; assumption.
Qed.

(** ** A session and its trace *)

Lemma logs_agree {S} errText sdump certLog rt clock h (dev : io_rw S) s fuel fuel2 defs spares st s' file n hs l spares' :
  usable defs -> Forall (fun d => (1 <= def_Len d <= 1023)%Z) defs -> honest dev -> obliging dev -> clean dev ->
  (forall b, Forall quiet (certLog b)) -> sound (mkServer false h) ->
  processFrames_log fuel errText sdump certLog rt std_registry clock
    (watched (hid_transport fuel2 defs spares (traced_read append_file dev) (tracer_Write append_file dev)))
    (mkServer false h) (((s, []), 0), []) = done (st, (((s', file), n), hs), l) ->
  Forall readable hs ->
  dumpTrace rt std_registry defs spares' (NewReader file EOF) <> Some Panic ->
  exists q es, dumpTrace rt std_registry defs spares' (NewReader file EOF) = done (inl (q, es))
    /\ filter incoming (dump_log errText es) = filter incoming l
    /\ replies_viewed (dump_log errText es) = replies_sent l.
Proof.
  intros U L HO OB C Q SO PL RD NP.
  assert (N : Forall (fun d => (def_Len d <= 1023)%Z) defs) by (eapply Forall_impl; [|exact L]; cbn beta; lia).
  assert (L1 : Forall (fun d => (1 <= def_Len d)%Z) defs) by (eapply Forall_impl; [|exact L]; cbn beta; lia).
  pose proof (log_erase errText sdump certLog rt std_registry clock
    (watched (hid_transport fuel2 defs spares (traced_read append_file dev) (tracer_Write append_file dev))) fuel (mkServer false h)
    (((s, []), 0), [])) as PF.
  rewrite PL in PF. cbn [io_bind done] in PF. symmetry in PF.
  destruct (session_went rt std_registry clock DevGeneral_device dev fuel2 defs spares U N OB C _ _ _ _ _ _ _ PF)
    as (d' & n' & hs' & d1 & ops & rs & EW & (ops0 & rs0 & blocks & RT0 & F0 & T0 & R0) & RT & F & OE).
  cbn [app] in EW. injection EW as <- <- <-.
  pose proof (run_tracer_join _ _ _ _ _ _ _ _ _ RT0 RT) as RTJ.
  destruct (recorded_file dev s (ops0 ++ ops) s' file (rs0 ++ rs) HO) as (ms & TO & ST); [|exact RTJ|].
  { apply Forall_app. split; assumption. }
  rewrite (recorded_join _ _ _ _ _ _ _ _ RT0), R0 in ST.
  destruct (dump_shows rt defs spares' file EOF ms L1 TO) as (q & es & D & _ & SH).
  { intros VC. apply NP. apply (dump_crash_iff rt defs spares' file EOF L1). exists ms. split; assumption. }
  destruct (transcript_logged _ _ _ _ _ _ _ _ _ _ _ Q (log_transcript _ _ _ _ _ _ _ _ _ _ _ _ SO PL) SO) as (hs1 & E1 & LG).
  cbn [snd app sv_mode] in E1, LG. subst hs1.
  exists q, es. split; [exact D|]. exact (show_logged _ _ _ spares' _ _ _ LG _ _ _ _ _ _ T0 RD OE ST SH).
Qed.
