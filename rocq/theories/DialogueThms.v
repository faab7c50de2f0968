(** A dialogue over HID between an accessory that uses the library and the server (C99). *)
From Coq Require Import ZifyBool ZifyNat ZifyN Lia.
From Verif Require Import Base BaseFacts GoTypes GoTypesFacts Types Payload Util Lingo Command
  SpecPayload SpecCommand LingoFacts CommandFacts CommandThms PayloadFacts Handlers SpecHandlers HandlersFacts
  HandlersThms ReplyThms Packet SpecPacket PacketFacts ClientPacket PacketThms Hid SpecHid HidFacts HidThms HidPacketThms Trace SpecTrace Server SpecServer ServerFacts
  ServerThms ServerProps SpecProtocol SpecWire ProtocolProps ProtocolMore AgreeThms SpecRead ReadReplies SpecDialogue.
Ltac Zify.zify_post_hook ::= Z.div_mod_to_equations.
#[local] Opaque std_registry.

(** ** The request *)

Lemma request_travels rt e c : proper rt e c ->
  exists b, MarshalCmd rt e c = Ret (mode_after e [cmd_id c], Ok b)
    /\ UnmarshalCmd rt std_registry e b = Ret (mode_after e [cmd_id c], c, None)
    /\ writable b /\ packet_id b = Some (cmd_id c).
Proof.
  intros ((p & t & Hp & Ht & Hin & K) & U & NP & Wr).
  assert (X : exists b, MarshalCmd rt e c = Ret (mode_after e [cmd_id c], Ok b)
    /\ UnmarshalCmd rt std_registry e b = Ret (mode_after e [cmd_id c], c, None)).
  { destruct c as [id tr q]. cbn [cmd_id cmd_trx cmd_payload] in *. subst q. destruct K as [K|(vs & n & -> & F & T & N)].
    - exact (variable_roundtrip rt e id tr p t K Ht Hin U NP).
    - destruct (fixed_roundtrip_gen rt e e id tr t n vs Hin F T U (or_introl N)) as (b & M & R). exists b. split; [exact M|].
      rewrite R. unfold numbered_properly in NP. cbn [cmd_trx] in NP.
      replace (if mode_after e [id] then tr else None) with tr; [reflexivity|].
      destruct (mode_after e [id]) eqn:Z; [reflexivity|]. destruct tr; [|reflexivity]. destruct NP as [NP _].
      discriminate NP. discriminate. }
  destruct X as (b & M & R). exists b. split; [exact M|]. split; [exact R|]. split; [now apply Wr|].
  eapply marshal_packet_id; eassumption.
Qed.

(** ** Reports *)

Lemma segments_reads defs f rs :
  usable defs -> Forall (fun d => def_Len d <= 1023)%Z defs -> segments defs true f rs ->
  forall buf rest, exists got, padded defs f got
    /\ ReadFrame defs buf (map ReadReport (as_reads (map report_bytes rs)) ++ rest) = Ret (rest, got, inl got).
Proof.
  intros (ND & RG & _) SZ G buf rest. destruct (segments_shape _ _ _ _ G) as (_ & SH & _).
  assert (E : map ReadReport (as_reads (map report_bytes rs)) = map inl rs).
  { apply reads_back. rewrite Forall_forall in SH, SZ |- *. intros r I. destruct (SH r I) as (d & Id & _ & _ & -> & R).
    specialize (SZ d Id). unfold room in *. lia. }
  rewrite E. destruct (segments_read defs ND RG true f rs G [] rest ltac:(auto)) as (g & P & RD).
  exists g. split; [exact P|exact RD].
Qed.

Lemma unsendable_dec req c : fine_cmd req c -> unsendable c \/ ~ unsendable c.
Proof.
  intros (p & (t & Ht & _ & _ & Hp) & _). destruct c as [id tr q]. cbn [cmd_payload cmd_trx cmd_id] in *. subst q.
  assert (A : is_acks p = false \/ exists l, p = PTokenAcks l) by (destruct p; cbn; eauto).
  destruct A as [A|(l & ->)].
  - rewrite (unsendable_other id tr p t A Ht). destruct (existsb (pty_eqb t) unsendable_replies); [now left|now right].
  - rewrite unsendable_acks. destruct (forallb has_ack l); [right; discriminate|now left].
Qed.

(** ** Replies *)

Definition good (defs : list ReportDef) (rt e tokens : bool) (c : command) (f : bytes) : Prop :=
  (unsendable c /\ f = []) \/ (~ unsendable c /\ f <> [] /\ forall g, padded defs f g -> comes_through rt e tokens c g).

Lemma departs_receives defs rt e tokens cs fs :
  usable defs -> Forall (fun d => def_Len d <= 1023)%Z defs -> Forall2 (good defs rt e tokens) cs fs ->
  forall outs, departs defs fs outs -> receives rt e tokens defs cs outs.
Proof.
  intros U SZ. induction 1 as [|c f cs fs [[X ->]|(X & N & G)] F IH]; intros outs D buf rest.
  - inversion D; subst. exists []. split; [apply heard_none|reflexivity].
  - inversion D as [|? ? D1|? ? ? ? S D1]; subst; [|now apply segments_nil in S].
    destruct (IH _ D1 buf rest) as (got & H & R). exists got. split; [now apply heard_lost|exact R].
  - inversion D as [|? ? D1|? rs ? outs1 S D1]; subst; [now elim N|].
    destruct (segments_reads defs f rs U SZ S buf (map ReadReport (as_reads outs1) ++ rest)) as (g & P & R).
    destruct (IH _ D1 g rest) as (got & H & R2). exists (g :: got). split; [apply heard_reply; auto|].
    cbn [List.length read_frames].
    replace (map ReadReport (as_reads (map report_bytes rs ++ outs1)) ++ rest)
      with (map ReadReport (as_reads (map report_bytes rs)) ++ map ReadReport (as_reads outs1) ++ rest)
      by (unfold as_reads; now rewrite !map_app, <- app_assoc).
    rewrite R. cbn [bind]. rewrite R2. reflexivity.
Qed.

Lemma frame_longer b : b <> [] -> List.length b < List.length (frame_bytes b).
Proof.
  intros N. unfold frame_bytes. destruct b as [|x b]; [now elim N|]. cbv zeta. cbn [List.length].
  rewrite !app_length. cbn [List.length]. destruct (len (x :: b) <=? 256)%N; cbn [List.length]; lia.
Qed.

Lemma reply_good defs rt e tokens req c f :
  encoded rt e c f -> fine_cmd req c ->
  (~ unsendable c -> (text_info c -> unreadable rt e e c) /\ (~ text_info c -> read_back rt e e c)) ->
  List.length f <= 1285 -> (tokens = false -> List.length f <= 28) -> good defs rt e tokens c f.
Proof.
  intros E F K L1 L2. destruct (fine_marshals rt e req c F) as [M _].
  destruct E as [(b & Mb & Wb & Nf & P)|[(e' & x & Mf) ->]].
  - assert (X : ~ unsendable c) by (apply M; exists e, b; exact Mb).
    right. split; [exact X|]. split; [exact Nf|]. intros g Pg. exists b. split; [exact Mb|].
    assert (Nb : b <> []) by exact (marshal_nonempty _ _ _ _ _ Mb).
    pose proof (frame_longer b Nb) as FL. rewrite frame_bytes_eq, Wb in FL. cbn [fst] in FL.
    destruct (N.eq_dec (len b) 256) as [E256|E256].
    + left. split; [|exact E256]. destruct tokens; [reflexivity|]. specialize (L2 eq_refl). unfold len in E256. lia.
    + right. assert (Wr : writable b).
      { split; [|exact E256]. unfold carriable, len. destruct b; [now elim Nb|]. cbn [List.length] in *. lia. }
      specialize (P Wr). assert (St : stream [b] g).
      { apply padded_stream with defs f; [|exact Pg]. pose proof (stream_pkt [] b f [] []) as Q. cbn [app] in Q. rewrite app_nil_r in Q.
        apply Q; [intros []|exact P|apply stream_end; intros []]. }
      split; [intros sp k; exact (stream_read [b] g sp k St)|].
      destruct (K X) as [K1 K2]. split.
      * intros T. destruct (K1 T) as (b' & c' & x & Mb' & Ub). rewrite Mb in Mb'. apply ret_ok in Mb' as [_ ->]. eauto.
      * intros T. destruct (K2 T) as (b' & Mb' & Ub). rewrite Mb in Mb'. apply ret_ok in Mb' as [_ ->]. exact Ub.
  - left. split; [|reflexivity]. destruct (unsendable_dec req c F) as [X|X]; [exact X|]. apply M in X as (e2 & b & X).
    rewrite Mf in X. discriminate X.
Qed.

Lemma bounded_answers rt clock st fr ps fs st' :
  sound st -> holds fr ps -> SpecServer.answers rt clock DevGeneral_device st fr fs st' ->
  Forall (fun f => List.length f <= 1285) fs
  /\ (Forall (fun p => ~ has_tokens p) ps -> Forall (fun f => List.length f <= 28) fs).
Proof.
  intros S H A. pose proof (frame_received rt clock script st ([], []) fr ps S H) as F.
  rewrite (process_answers rt clock script st ([], []) fr fs st' S A) in F. rewrite feed_script in F. cbn [io_bind done] in F.
  unfold receive_frame in F. destruct (receive_all rt clock (memory_of st) ps) as [[m l]|] eqn:R; [|discriminate F].
  destruct F as (st2 & _ & _ & E). rewrite feed_script in E. cbn [io_bind done app] in E. injection E as _ ->.
  destruct (received_all _ _ _ _ _ _ R) as (_ & _ & B & N). rewrite !Forall_map. split.
  - eapply Forall_impl; [|exact B]. intros r Hr. exact (frame_size _ 1280 (Hr _)).
  - intros T. eapply Forall_impl; [|exact (N T)]. intros r Hr. exact (frame_size _ 25 (Hr _)).
Qed.

Lemma tokens_id b : has_tokens b -> packet_id b = Some 57%N.
Proof. intros (t & ->). destruct t; reflexivity. Qed.

Lemma answered {W} defs rt clock (tp : transport W) st w fr b c :
  sound st -> holds fr [b] -> UnmarshalCmd rt std_registry (sv_mode st) b = Ret (mode_after (sv_mode st) [cmd_id c], c, None) ->
  packet_id b = Some (cmd_id c) -> numbered_properly (mode_after (sv_mode st) [cmd_id c]) c ->
  exists u evs fs st',
    does (handlePacket std_registry clock DevGeneral_device c) (sv_h st) (sv_h st') u evs
    /\ sound st' /\ sv_mode st' = mode_after (sv_mode st) [cmd_id c]
    /\ Forall2 (good defs rt (sv_mode st') (cmd_id c =? 57)%N) (written evs) fs
    /\ process_frame rt std_registry clock DevGeneral_device tp st w fr = (go w' <- feed tp w fs; done (st', w')).
Proof.
  intros S H U P NP.
  assert (D1 : decodes rt (sv_mode st) [b] [c]).
  { apply (decodes_snoc rt (sv_mode st) [] [] b c _ _ (decodes_nil rt (sv_mode st)) U). }
  destruct (process_frame_run rt clock tp st w fr S) as [(fs & st' & A & S' & E)|[C _]].
  2:{ exfalso. apply decodes_dec in D1.
      destruct (holds_runs _ _ _ _ _ _ _ (Nat.lt_succ_diag_r _) H D1) as (es & R & _).
      rewrite (crash_panics _ _ _ _ (Nat.lt_succ_diag_r _) C) in R. discriminate R. }
  destruct (bounded_answers rt clock st fr [b] fs st' S H A) as [B1 B2].
  destruct (answers_in_turn rt clock st fr fs st' S A) as (ps & cs & outs & fss & H' & D' & T & F & -> & M).
  rewrite <- (holds_unique _ _ _ H H') in *. rewrite (decodes_unique _ _ _ _ _ D' D1) in T.
  assert (M' : sv_mode st' = mode_after (sv_mode st) [cmd_id c]).
  { rewrite M. cbn [ids_of flat_map]. now rewrite P. }
  inversion T as [|? ? ? h1 u evs outs1 ? Do T1]; subst. inversion T1; subst.
  inversion F as [|? fs1 ? ? F1 F2]; subst. inversion F2; subst. cbn [List.concat] in *. rewrite app_nil_r in *.
  exists u, evs, fs1, st'. split; [assumption|]. split; [exact S'|]. split; [exact M'|]. split; [|exact E].
  assert (W' : off_the_wire rt c) by (exists (sv_mode st), b, (mode_after (sv_mode st) [cmd_id c]), None; exact U).
  assert (An : answers_ok DevGeneral_device (h_dev (sv_h st))) by (apply DevGeneral_answers; unfold u8, sound in *; lia).
  destruct (post_both _ _ _ _ (packet_fine clock DevGeneral_device c (sv_h st) An (proj1 (decoded_from_wire _ _ _ _ _ _ U)))
              (packet_read clock DevGeneral_device c (sv_h st) rt (sv_mode st') An W' ltac:(rewrite M'; exact NP)))
    as (h2 & u2 & evs2 & Do2 & Fi & Re).
  destruct (does_unique _ _ _ _ _ _ _ _ Do Do2) as (_ & _ & <-).
  assert (B3 : (cmd_id c =? 57)%N = false -> Forall (fun f => List.length f <= 28) fs1).
  { intros N. apply B2. apply Forall_cons; [|apply Forall_nil]. intros Tk. apply tokens_id in Tk. rewrite P in Tk.
    injection Tk as Tk. rewrite Tk in N. discriminate N. }
  clear -F1 Fi Re B1 B3. unfold all_fine in Fi. revert Fi Re B1 B3.
  induction F1 as [|x f xs fs Hx _ IH]; intros Fi Re B1 B3; [apply Forall2_nil|].
  inversion Fi; subst. inversion Re; subst. inversion B1; subst. apply Forall2_cons.
  - eapply reply_good; try eassumption. intros N. specialize (B3 N). inversion B3; assumption.
  - apply IH; auto. intros N. specialize (B3 N). inversion B3; assumption.
Qed.

(** ** The dialogue *)

Lemma as_reads_app a b : as_reads (a ++ b) = as_reads a ++ as_reads b.
Proof. apply map_app. Qed.

Theorem dialogue_run rt clock defs spares cs : usable defs -> Forall (fun d => def_Len d <= 1023)%Z defs -> forall e, all_proper rt e cs ->
  exists sents, transmits rt defs e cs sents /\ forall st fuel fuel2 o n,
    sv_mode st = e -> sound st -> List.length (List.concat sents) < fuel -> List.length (List.concat sents) < fuel2 ->
    exists st' k replies outss,
      processFrames_loop fuel rt std_registry clock DevGeneral_device (hid_transport fuel2 defs spares wire_read wire_write)
        st ((as_reads (List.concat sents), o), n) = done (st', (([], o ++ List.concat outss), k))
      /\ in_turn clock DevGeneral_device (sv_h st) cs replies (sv_h st')
      /\ sv_mode st' = mode_after e (map cmd_id cs)
      /\ listens rt defs e cs replies outss.
Proof.
  intros U SZ. induction cs as [|c cs IH]; intros e A.
  - exists []. split; [apply transmits_none|]. intros st fuel fuel2 o n M S L L2. destruct fuel as [|fuel]; [lia|].
    destruct fuel2 as [|fuel2]; [lia|].
    exists st, (Datatypes.S n), [], []. cbn [List.concat as_reads map]. rewrite app_nil_r.
    split; [reflexivity|]. split; [apply in_turn_nil|]. split; [exact M|apply listens_none].
  - destruct A as [P A]. destruct (IH _ A) as (sents & T & K). destruct (request_travels rt e c P) as (b & Mb & Ub & Wb & Pb).
    destruct (WritePacket NewPacketWriter b) as [f we] eqn:Wf.
    assert (SF : stream [b] f /\ f <> [] /\ we = None).
    { pose proof (written_stream [b] (Forall_cons _ Wb (Forall_nil _)) ltac:(discriminate)) as [S1 S2].
      cbn [write_all] in S1, S2. rewrite Wf in S1, S2. cbn [fst] in S1, S2. split; [exact S1|]. split; [exact S2|].
      unfold WritePacket in Wf. destruct b; [|congruence]. destruct Wb as [[X _] _]. unfold len in X. cbn in X. lia. }
    destruct SF as (Sf & Nf & ->).
    pose proof U as (_ & _ & d0 & LO & D0).
    destruct (write_segments defs f d0 (List.length f) LO D0 Nf ltac:(lia)) as (rs & G & _ & Wr).
    exists (map report_bytes rs :: sents). split.
    { eapply transmits_one; [exact Mb|exact Wf| |exact T]. rewrite Wr, offer_raw. reflexivity. }
    intros st fuel fuel2 o n M S L L2. subst e. cbn [List.concat] in *. rewrite app_length in L, L2.
    assert (Lrs : 1 <= List.length (map report_bytes rs)).
    { destruct rs; [|cbn; lia]. exfalso. inversion G. }
    destruct fuel as [|fuel]; [lia|]. cbn [processFrames_loop].
    destruct (segments_reads defs f rs U SZ G [] (map ReadReport (as_reads (List.concat sents)))) as (got & Pg & R).
    rewrite <- map_app in R. rewrite as_reads_app.
    apply (wire_frame defs fuel2 _ _ o) in R; [|unfold as_reads; rewrite app_length, !map_length in *; lia].
    rewrite (wire_transport _ _ spares _ _ _ _ n R). cbn [io_bind done].
    destruct (answered defs rt clock (hid_transport fuel2 defs spares wire_read wire_write) st
                ((as_reads (List.concat sents), o), Datatypes.S n) (mkSlice got (spares n)) b c S
                (stream_holds _ _ _ (padded_stream _ _ _ _ Sf Pg)) Ub Pb (proj1 (proj2 (proj2 P))))
      as (u & evs & fs & st1 & Do & S1 & M1 & F & E).
    rewrite E. destruct (wire_fed defs fuel2 spares fs U (as_reads (List.concat sents)) o (Datatypes.S n)) as (o1 & D1 & Fd).
    rewrite Fd. cbn [io_bind done].
    destruct (K st1 fuel fuel2 (o ++ o1) (Datatypes.S n) M1 S1 ltac:(lia) ltac:(lia)) as (st' & k & replies & outss & E' & I & M' & Li).
    exists st', k, (written evs :: replies), (o1 :: outss).
    split; [rewrite E'; cbn [List.concat]; now rewrite app_assoc|]. split; [eapply in_turn_cons; eassumption|].
    split; [rewrite M'; cbn [map]; change (cmd_id c :: map cmd_id cs) with ([cmd_id c] ++ map cmd_id cs); now rewrite mode_after_app|].
    apply listens_one; [|exact Li]. rewrite <- M1. eapply departs_receives; eassumption.
Qed.

(** What the accessory writes is determined. *)
Lemma transmits_fun rt defs e cs sents : transmits rt defs e cs sents -> forall sents', transmits rt defs e cs sents' -> sents = sents'.
Proof.
  induction 1 as [e|e e' c b f sent cs sents M P W _ IH]; intros sents' H'; inversion H' as [|? e2 ? b2 f2 sent2 ? ? M2 P2 W2 T2]; subst; [reflexivity|].
  rewrite M in M2. injection M2 as <- <-. rewrite P in P2. injection P2 as <-. rewrite W in W2. injection W2 as <-.
  f_equal. exact (IH _ T2).
Qed.
