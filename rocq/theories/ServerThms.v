(** The server's loop: one frame, whole sessions. *)
From Coq Require Import ZifyBool ZifyNat ZifyN.
From Verif Require Import Base BaseFacts GoTypes Types Payload Lingo Command SpecPayload SpecCommand
  LingoFacts CommandFacts CommandThms CommandProps PayloadFacts Handlers SpecHandlers HandlersFacts HandlersThms
  ReplyThms Packet SpecPacket PacketFacts PacketThms Hid SpecHid Trace SpecTrace Server SpecServer ServerFacts.
Ltac Zify.zify_post_hook ::= Z.div_mod_to_equations.
#[local] Opaque std_registry.

(** ** Decoded requests *)

Lemma tokens_known data l :
  tokens_unmarshal true data = Ret (Ok l) -> Forall (fun v => known_token (tv_type v) (tv_sub v)) l.
Proof.
  unfold tokens_unmarshal. destruct data as [|n r]; [discriminate|]. generalize (N.to_nat (b2n n)). clear n.
  intros n. revert r l; induction n as [|n IH]; intros data l; cbn [tokens_unmarshal_loop].
  - intros [= <-]. apply Forall_nil.
  - destruct data as [|k r]; [discriminate|].
    destruct (token_value_unmarshal true (firstn (N.to_nat (b2n k)) r)) as [[v|e]|] eqn:E; try discriminate.
    cbn [bind].
    destruct (tokens_unmarshal_loop true n (skipn (N.to_nat (b2n k)) r)) as [[vs|e]|] eqn:E2; try discriminate.
    intros [= <-]. apply Forall_cons; [|now apply (IH _ _ E2)].
    unfold token_value_unmarshal in E. destruct (read_full 2 _) as [[idb|e] r2]; [|discriminate].
    destruct (token_kind_of (b2n (nth 0 idb x00)) (b2n (nth 1 idb x00))) eqn:K; try discriminate;
      assert (KN : known_token (b2n (nth 0 idb x00)) (b2n (nth 1 idb x00)))
        by (destruct (token_kind_none (b2n (nth 0 idb x00)) (b2n (nth 1 idb x00))) as [_ H];
            unfold known_token in *;
            destruct (N.eq_dec (b2n (nth 0 idb x00)) 1); [now left|];
            destruct (N.eq_dec (b2n (nth 0 idb x00)) 0) as [Z|Z];
            [destruct (in_dec N.eq_dec (b2n (nth 1 idb x00)) [0; 1; 2; 3; 4; 5; 7; 8]%N) as [I|I]; [right; auto|]|];
            (assert (X : token_kind_of (b2n (nth 0 idb x00)) (b2n (nth 1 idb x00)) = KNone) by (apply H; intuition);
             rewrite K in X; discriminate)).
    + destruct (identify_unmarshal r2); [|discriminate]. now injection E as <-.
    + now injection E as <-.
    + destruct (accinfo_unmarshal r2); [|discriminate]. now injection E as <-.
    + destruct (eaprotocol_unmarshal r2); [|discriminate]. cbn [bind] in E. now injection E as <-.
    + destruct (fst (binary_read t r2)); [|discriminate]. now injection E as <-.
Qed.

(** What decoding on either kind of Go version guarantees of a request. *)
Definition from_wire (rt : bool) (c : command) : Prop :=
  request_ok c /\ forall l, cmd_payload c = Some (PTokens l) ->
    Forall consistent_token l /\ (rt = true -> Forall (fun v => known_token (tv_type v) (tv_sub v)) l).

Lemma ret3 {A B C} (a a' : A) (b b' : B) (c c' : C) : Ret (a, b, c) = Ret (a', b', c') -> b = b'.
Proof. now intros [= _ -> _]. Qed.

Lemma decoded_from_wire rt e pkt e' c x :
  UnmarshalCmd rt std_registry e pkt = Ret (e', c, x) -> from_wire rt c.
Proof.
  intros H. split; [exact (decoded_ok _ _ _ _ _ _ _ H)|]. intros l Hp.
  split; [exact (decoded_tokens _ _ _ _ _ _ _ _ H Hp)|]. intros ->.
  destruct x as [x|].
  - destruct (packet_id pkt) as [id|] eqn:P.
    2:{ destruct (UnmarshalCmd_short true std_registry e pkt P) as (y & E & _). rewrite E in H.
        apply ret3 in H. subst c. discriminate Hp. }
    destruct (Lookup std_registry id (List.length (packet_body pkt)) (mode_after e [id])) as [[t b]|] eqn:L.
    2:{ rewrite (UnmarshalCmd_unknown _ _ _ _ _ P L) in H. apply ret3 in H. subst c. discriminate Hp. }
    rewrite (UnmarshalCmd_found _ _ _ _ _ _ _ P L) in H. cbv zeta in H.
    destruct (b && _); [apply ret3 in H; subst c; discriminate Hp|].
    destruct (payload_unmarshal true t _) as [[[|] [q|err]]|]; cbn [bind] in H; try discriminate H;
      apply ret3 in H; subst c; discriminate Hp.
  - apply UnmarshalCmd_ok in H as (id & t & b & q & body & P & He & L & (used & U) & Hc).
    assert (q = PTokens l).
    { destruct b; [destruct Hc as (? & ? & _ & ->) | destruct Hc as (_ & ->)]; cbn [cmd_payload] in Hp; congruence. }
    subst q. pose proof (payload_unmarshal_type _ _ _ _ _ U) as T. injection T as <-.
    cbn [payload_unmarshal] in U.
    destruct (tokens_unmarshal true body) as [[l'|y]|] eqn:D; cbn in U; try discriminate.
    injection U as _ <-. now apply tokens_known in D.
Qed.

Lemma dec_from_wire rt m ps cs m' : dec rt m ps cs m' -> Forall (from_wire rt) cs.
Proof.
  induction 1 as [|m p ps m1 c e cs m' H _ IH]; [apply Forall_nil|].
  apply Forall_cons; [|exact IH]. eapply decoded_from_wire; exact H.
Qed.

(** ** Replies *)

Lemma ack_known v : consistent_token v -> known_token (tv_type v) (tv_sub v) -> ackToken (tv_token v) <> None.
Proof.
  intros Hv Hk. inversion Hv as [| | |ty sub t vs Ht Hty|]; subst; cbn [tv_token tv_type tv_sub] in *; try discriminate.
  - inversion Ht; subst; discriminate.
  - contradiction.
Qed.

(** A reply to a request from the wire is marshalled, or fails to; it does not panic. *)
Lemma reply_marshals rt m req c :
  from_wire rt req -> fine_cmd req c ->
  (exists b, MarshalCmd rt m c = Ret (m, Ok b)) \/ (exists x, MarshalCmd rt m c = Ret (m, Err x)).
Proof.
  intros [_ Hw] F. pose proof (fine_marshals rt m req c F) as [M1 M2].
  assert (Hm : forall r, MarshalCmd rt m c = Ret r -> fst r = m).
  { intros [m' r] E. assert (R : serde_run rt std_registry m [SMarshal c] = Ret m').
    { cbn [serde_run serde_step]. rewrite E. reflexivity. }
    apply serde_run_mode in R. cbn [ids_seen mode_after] in R. destruct F as (p & _ & C & _). rewrite C in R. now subst. }
  assert (D : ~ unsendable c \/ (rt = false /\ unsendable c) \/ exists x, MarshalCmd rt m c = Ret (m, Err x)).
  { destruct F as (p & (t & Ht & Hin & _ & Hp) & _ & [(W & N & E)|(l & Hl & ->)] & _).
    - destruct c as [id tr q]. cbn [cmd_payload cmd_trx cmd_id] in *. subst q.
      assert (A : is_acks p = false \/ exists l, p = PTokenAcks l) by (destruct p; cbn; eauto).
      destruct A as [A|(l & ->)].
      + destruct (existsb (pty_eqb t) unsendable_replies) eqn:X.
        * assert (K : known_payload std_registry p) by (unfold known_payload; rewrite Ht; eauto).
          pose proof (marshal_exactly rt m id tr p K W N) as Q. unfold type_of in E. rewrite Ht, X in E.
          rewrite E in Q. cbn [negb] in Q. destruct Q as [y Q]. right. right. exists y. rewrite Q. f_equal. f_equal.
          specialize (Hm _ Q). exact Hm.
        * left. rewrite (unsendable_other id tr p t A Ht). rewrite X. discriminate.
      + left. rewrite unsendable_acks. cbn [nil_free] in N. unfold has_ack. rewrite N. discriminate.
    - destruct c as [id tr q]. cbn [cmd_payload cmd_trx cmd_id] in *. subst q.
      rewrite unsendable_acks. destruct (forallb has_ack (map ackFIDTokenValue l)) eqn:Y; [left; discriminate|].
      destruct rt; [|right; left; split; reflexivity]. exfalso.
      destruct (Hw l Hl) as [Hc Hk]. specialize (Hk eq_refl). rewrite Forall_forall in Hc, Hk.
      apply Bool.not_true_iff_false in Y. apply Y. apply forallb_forall. intros a Ha.
      apply in_map_iff in Ha as (v & Ea & Hv). subst a. unfold has_ack, ackFIDTokenValue. cbn [ta_ack].
      pose proof (ack_known v (Hc v Hv) (Hk v Hv)). destruct (ackToken (tv_token v)); congruence. }
  destruct D as [D|[[-> D]|D]]; [left|right|right; exact D].
  - apply M1 in D as (e' & b & E). exists b. rewrite E. specialize (Hm _ E). cbn in Hm. now subst.
  - destruct (M2 eq_refl D) as (e' & x & E). exists x. rewrite E. specialize (Hm _ E). cbn in Hm. now subst.
Qed.

Lemma marshal_nonempty rt m c m' b : MarshalCmd rt m c = Ret (m', Ok b) -> b <> [].
Proof.
  intros H E. subst b. unfold MarshalCmd in H. destruct (cmd_payload c) as [p|]; [|discriminate].
  assert (P : forall l, marshalLingoCmdID (cmd_id c) ++ l <> []).
  { intros l X. apply app_eq_nil in X as [X _]. unfold marshalLingoCmdID in X.
    destruct (cmdIDLen (LingoID (cmd_id c))) as [|[|[|k]]]; cbn [be_enc app] in X; discriminate. }
  destruct (payload_marshaler rt p) as [[[b|e]|]|]; cbn [bind] in H; try discriminate.
  - apply ret_ok in H as [_ H]. now apply P in H.
  - destruct (payload_binary_write p); [|discriminate H]. apply ret_ok in H as [_ H]. now apply P in H.
Qed.

Lemma write_replies_run {W} rt (tp : transport W) m cs w :
  Forall (fun c => (exists b, MarshalCmd rt m c = Ret (m, Ok b)) \/ (exists x, MarshalCmd rt m c = Ret (m, Err x))) cs ->
  exists fs, Forall2 (encoded rt m) cs fs
    /\ write_replies rt tp m cs w = (go w' <- feed tp w fs; done (m, w')).
Proof.
  intros H. revert w. induction H as [|c cs Hc _ IH]; intros w.
  - exists []. split; [apply Forall2_nil|reflexivity].
  - assert (E : exists f, encoded rt m c f /\ forall w, write_replies rt tp m (c :: cs) w
                = (go (w', _) <- tp_WriteFrame tp w f; write_replies rt tp m cs w')).
    { destruct Hc as [[b E]|[x E]].
      - pose proof (marshal_nonempty _ _ _ _ _ E) as Hb. exists (fst (WritePacket NewPacketWriter b)).
        destruct (write_extends NewPacketWriter b) as [_ (wf & Ew & Hwf)]. cbn [app NewPacketWriter] in Ew.
        split.
        + assert (X : WritePacket [] b = (fst (WritePacket NewPacketWriter b), None)).
          { change (@nil Byte.byte) with NewPacketWriter at 1.
            destruct (WritePacket NewPacketWriter b) as [fr er] eqn:Q. cbn [fst].
            f_equal. destruct (write_extends NewPacketWriter b) as [[_ X] _]. rewrite Q in X. cbn in X. now apply X. }
          left. exists b. split; [exact E|]. split; [exact X|]. split; [rewrite Ew; tauto|].
          intros Hw. apply (write_wellformed_iff NewPacketWriter b); [exact Hb|exact X|exact Hw].
        + intros w'. cbn [write_replies]. rewrite E. cbn [io_bind].
          destruct (WritePacket NewPacketWriter b) as [fr er]. reflexivity.
      - exists []. split; [right; split; [do 2 eexists; exact E|reflexivity]|].
        intros w'. cbn [write_replies]. rewrite E. reflexivity. }
    destruct E as (f & Ef & E). rewrite E. cbn [feed].
    destruct (tp_WriteFrame tp w f) as [[[w1 e1]|]|] eqn:F; cbn [io_bind].
    + destruct (IH w1) as (fs & Efs & R). exists (f :: fs). split; [now apply Forall2_cons|].
      rewrite R. cbn [feed]. rewrite F. reflexivity.
    + destruct (IH w) as (fs & Efs & _). exists (f :: fs). split; [now apply Forall2_cons|].
      cbn [feed]. rewrite F. reflexivity.
    + destruct (IH w) as (fs & Efs & _). exists (f :: fs). split; [now apply Forall2_cons|].
      cbn [feed]. rewrite F. reflexivity.
Qed.

(** ** Handling *)

Lemma handle_all_serve {S} reg clock (dev : DeviceGeneral S) cs :
  handle_all reg clock dev cs = serve (handlePacket reg clock dev) cs.
Proof. induction cs as [|c cs IH]; [reflexivity|]. cbn [handle_all serve]. now rewrite IH. Qed.

Lemma outCmds_app a evs : outCmds a (a ++ evs) = written evs.
Proof. unfold outCmds. rewrite skipn_app_exact by reflexivity. reflexivity. Qed.

Lemma packet_uimode {S} clock (dev : DeviceGeneral S) mode req h :
  keeps_mode dev mode -> (mode (h_dev h) <= 1)%N ->
  post (handlePacket std_registry clock dev req) h (fun h' _ _ => (mode (h_dev h') <= 1)%N).
Proof.
  intros K Hm. unfold handlePacket. cbv zeta.
  destruct (LingoID (cmd_id req) =? LingoGeneralID)%N.
  { apply post_seq. eapply post_weaken with (Q := fun h' _ evs => h_dev h' = h_dev h).
    - unfold audio_Start. by_payload req; cbv beta zeta iota; hrun; reflexivity.
    - intros h1 u e1 D. pose proof (serve_mode dev mode [req] h1 K) as P.
      destruct P as (h2 & a & evs & [E L] & _ & Q). cbn [serve] in E. unfold seq in E.
      destruct (HandleGeneral std_registry dev req h1) as [[h3 u3]|] eqn:G; [|discriminate].
      injection E as <- <-. exists h3, u3, evs. split; [split; [exact G|exact L]|]. apply Q. now rewrite D. }
  destruct (LingoID (cmd_id req) =? LingoDisplayRemoteID)%N.
  { apply post_seq. eapply post_weaken; [apply disp_trx|]. intros h1 u e1 (_ & _ & D & _).
    apply post_ret. now rewrite D. }
  destruct (LingoID (cmd_id req) =? LingoExtRemoteID)%N.
  { eapply post_weaken; [apply ext_trx|]. intros h1 u e1 (_ & _ & D & _). now rewrite D. }
  destruct (LingoID (cmd_id req) =? LingoDigitalAudioID)%N.
  { eapply post_weaken; [apply audio_trx|]. intros h1 u e1 (_ & _ & D & _). now rewrite D. }
  apply post_ret. exact Hm.
Qed.

Lemma post_both {S A} (m : act S A) h (P Q : hstate S -> A -> list event -> Prop) :
  post m h P -> post m h Q -> post m h (fun h' a evs => P h' a evs /\ Q h' a evs).
Proof.
  intros (h' & a & evs & D & HP) HQ. exists h', a, evs. split; [exact D|]. split; [exact HP|].
  exact (does_post m h h' a evs Q D HQ).
Qed.

Lemma serve_replies rt clock cs (h : hstate DevGeneral) :
  Forall (from_wire rt) cs -> (dg_uimode (h_dev h) <= 1)%N ->
  post (serve (handlePacket std_registry clock DevGeneral_device) cs) h (fun h' _ evs =>
    (dg_uimode (h_dev h') <= 1)%N
    /\ Forall (fun c => exists req, from_wire rt req /\ fine_cmd req c) (written evs)).
Proof.
  intros H. revert h; induction H as [|c cs Hc _ IH]; intros h Hm; cbn [serve].
  - apply post_ret. split; [exact Hm|apply Forall_nil].
  - assert (A : answers_ok DevGeneral_device (h_dev h)) by (apply DevGeneral_answers; unfold u8; lia).
    apply post_seq. eapply post_weaken.
    { apply post_both.
      - exact (packet_uimode clock DevGeneral_device dg_uimode c h DevGeneral_keeps Hm).
      - exact (packet_fine clock DevGeneral_device c h A (proj1 Hc)). }
    intros h1 u e1 [Hm1 F1]. eapply post_weaken; [apply IH, Hm1|]. intros h2 u2 e2 [Hm2 F2].
    split; [exact Hm2|]. unfold written in *. rewrite flat_map_app. apply Forall_app. split; [|exact F2].
    eapply Forall_impl; [|exact F1]. intros c0 F. exists c. split; [exact Hc|exact F].
Qed.

(** ** One frame *)

Lemma process_frame_run {W} rt clock (tp : transport W) st w fr :
  sound st ->
  (exists fs st', answers rt clock DevGeneral_device st fr fs st' /\ sound st'
     /\ process_frame rt std_registry clock DevGeneral_device tp st w fr = (go w' <- feed tp w fs; done (st', w')))
  \/ (crashing_frame rt (sv_mode st) fr
      /\ process_frame rt std_registry clock DevGeneral_device tp st w fr = Some Panic).
Proof.
  intros Hs. unfold process_frame.
  destruct (frame_packets_run rt (sv_mode st) fr) as [(m' & evs & ps & R & Hh & D)|(R & C)];
    rewrite R; cbn [io_bind]; [left|right; auto].
  rewrite handle_all_serve.
  destruct (serve_replies rt clock (inCmds evs) (sv_h st) (dec_from_wire _ _ _ _ _ D) Hs)
    as (h' & u & es & [E L] & Hm & F).
  rewrite E. cbn [io_bind]. rewrite L, outCmds_app.
  destruct (write_replies_run rt tp m' (written es) w) as (fs & Efs & Wr).
  { eapply Forall_impl; [|exact F]. intros c (req & Hw & Hf). eapply reply_marshals; eassumption. }
  rewrite Wr. exists fs, (mkServer m' h'). split; [|split; [exact Hm|]].
  - destruct u. exists ps, (inCmds evs), es. cbn [sv_h sv_mode]. split; [exact Hh|].
    pose proof (dec_mode _ _ _ _ _ D) as M. split.
    { apply decodes_dec. rewrite <- M. exact D. }
    split; [split; assumption|]. split; [exact Efs|exact M].
  - destruct (feed tp w fs) as [[w'|]|]; reflexivity.
Qed.

(** ** Uniqueness *)

Lemma dec_unique rt m ps cs m' : dec rt m ps cs m' -> forall cs2 m2, dec rt m ps cs2 m2 -> cs = cs2 /\ m' = m2.
Proof.
  induction 1 as [m|m p ps m1 c e cs m' U _ IH]; intros cs2 m2 D2; inversion D2; subst; [auto|].
  match goal with H : UnmarshalCmd _ _ _ _ = _ |- _ => rewrite U in H; injection H as <- <- <- end.
  destruct (IH _ _ ltac:(eassumption)) as [-> ->]. auto.
Qed.

Lemma decodes_unique rt m ps cs cs2 : decodes rt m ps cs -> decodes rt m ps cs2 -> cs = cs2.
Proof. intros D D2. apply decodes_dec in D, D2. now destruct (dec_unique _ _ _ _ _ D _ _ D2). Qed.

Lemma encoded_unique rt m c f f' : encoded rt m c f -> encoded rt m c f' -> f = f'.
Proof.
  intros [(b & E & Wf & _)|[(e & x & E) ->]] [(b' & E' & Wf' & _)|[(e' & x' & E') ->]]; try congruence.
Qed.

Lemma encoded_all_unique rt m cs fs fs' :
  Forall2 (encoded rt m) cs fs -> Forall2 (encoded rt m) cs fs' -> fs = fs'.
Proof.
  intros H; revert fs'; induction H as [|c f cs fs Hc _ IH]; intros fs' H'; inversion H'; subst; [reflexivity|].
  f_equal; [eapply encoded_unique; eassumption|now apply IH].
Qed.

Lemma does_unique {S A} (m : act S A) h h1 a1 e1 h2 a2 e2 :
  does m h h1 a1 e1 -> does m h h2 a2 e2 -> h1 = h2 /\ a1 = a2 /\ e1 = e2.
Proof.
  intros [E L] [E2 L2]. rewrite E in E2. injection E2 as -> ->. rewrite L in L2. apply app_inv_head in L2. auto.
Qed.

Lemma answers_unique {S} rt clock (dev : DeviceGeneral S) st fr fs1 st1 fs2 st2 :
  answers rt clock dev st fr fs1 st1 -> answers rt clock dev st fr fs2 st2 -> fs1 = fs2 /\ st1 = st2.
Proof.
  intros (ps & cs & evs & Hh & D & Do & F & M) (ps2 & cs2 & evs2 & Hh2 & D2 & Do2 & F2 & M2).
  pose proof (holds_unique _ _ _ Hh Hh2) as E. subst ps2.
  pose proof (decodes_unique _ _ _ _ _ D D2) as E. subst cs2.
  destruct (does_unique _ _ _ _ _ _ _ _ Do Do2) as (Eh & _ & E). subst evs2.
  destruct st1 as [m1 h1], st2 as [m2 h2]. cbn [sv_mode sv_h] in *. subst m1 m2 h2.
  split; [eapply encoded_all_unique; eassumption|reflexivity].
Qed.

(** A frame whose packets decode does not crash. *)
Lemma holds_runs fuel rt m fr ps cs m' :
  List.length (vis fr) < fuel -> holds fr ps -> dec rt m ps cs m' ->
  exists evs, read_packets fuel rt std_registry m fr = Some (Ret (m', evs)) /\ inCmds evs = cs.
Proof.
  destruct fr as [v sp]. intros Hl (r & Hs & Hr) D. cbn [vis spare] in *. revert m cs fuel Hl D.
  induction Hs as [d|f w p d ps r Hf Hw Hs IH|f d ps r Hf Hn Ho Hs IH]; intros m cs fuel Hl D;
    (destruct fuel as [|fuel]; [lia|]); cbn [read_packets].
  - inversion D; subst. rewrite ReadPacket_eof by exact Hr. exists []. split; reflexivity.
  - inversion D as [|? ? ? m1 c e cs0 ? U D1]; subst. rewrite (ReadPacket_packet f p w d sp Hf Hw). cbn [io_bind].
    rewrite U. cbn [io_bind]. destruct (IH Hr m1 cs0 fuel) as (evs & R & Ev); [|exact D1|].
    + destruct (packet_start _ _ Hw) as (w' & ->). rewrite !app_length in Hl. cbn [List.length] in Hl. lia.
    + rewrite R. exists (PktCmd p c e :: evs). split; [reflexivity|]. cbn [inCmds flat_map app]. f_equal. exact Ev.
  - destruct (start_cases f d sp Hf) as [(p & w & d2 & Ew & Hw & E)|[(Ho2 & E)|(_ & Ho' & e & He & E)]].
    + exfalso. eapply Hn; eassumption.
    + contradiction.
    + rewrite E. cbn [io_bind]. destruct (IH Hr m cs fuel) as (evs & R & Ev); [|exact D|].
      * rewrite app_length in Hl. cbn [List.length] in Hl. lia.
      * exists (PktErr e :: evs). rewrite R. split; [destruct e; try reflexivity; now elim He|exact Ev].
Qed.

Lemma answers_not_crashing {S} rt clock (dev : DeviceGeneral S) st fr fs st' :
  answers rt clock dev st fr fs st' -> ~ crashing_frame rt (sv_mode st) fr.
Proof.
  intros (ps & cs & evs & Hh & D & _) C. apply decodes_dec in D.
  destruct (holds_runs _ _ _ _ _ _ _ (Nat.lt_succ_diag_r _) Hh D) as (es & R & _).
  rewrite (crash_panics _ _ _ _ (Nat.lt_succ_diag_r _) C) in R. discriminate.
Qed.

(** ** Sessions *)

Lemma feed_script ins o fs : feed script (ins, o) fs = done (ins, o ++ fs).
Proof.
  revert o; induction fs as [|f fs IH]; intros o; [now rewrite app_nil_r|].
  cbn [feed script tp_WriteFrame io_bind done fst snd]. rewrite IH. now rewrite <- app_assoc.
Qed.

Lemma script_run rt clock ins fuel st o :
  sound st -> List.length ins < fuel ->
  (exists outs st' rest, session rt clock st ins outs st' /\ sound st'
     /\ processFrames_loop fuel rt std_registry clock DevGeneral_device script st (ins, o)
        = done (st', (rest, o ++ outs)))
  \/ (crashes rt clock st ins
      /\ processFrames_loop fuel rt std_registry clock DevGeneral_device script st (ins, o) = Some Panic).
Proof.
  revert ins st o; induction fuel as [|fuel IH]; intros ins st o Hs Hl; [lia|].
  destruct ins as [|[fr|e] ins]; cbn [processFrames_loop script tp_ReadFrame io_bind done fst snd].
  - left. exists [], st, []. rewrite app_nil_r. split; [apply session_end|]. split; [exact Hs|reflexivity].
  - fold script. cbn [List.length] in Hl.
    destruct (process_frame_run rt clock script st (ins, o) fr Hs) as [(fs & st1 & A & Hs1 & E)|(C & E)].
    + rewrite E, feed_script. cbn [io_bind done].
      destruct (IH ins st1 (o ++ fs) Hs1 ltac:(lia)) as [(outs & st' & rest & Se & Hs' & R)|(C & R)].
      * left. exists (fs ++ outs), st', rest. split; [eapply session_frame; eassumption|]. split; [exact Hs'|].
        rewrite R. now rewrite app_assoc.
      * right. split; [eapply crashes_later; eassumption|exact R].
    + right. rewrite E. split; [now apply crashes_now|reflexivity].
  - cbn [List.length] in Hl.
    assert (D : e = EOF \/ e <> EOF) by (destruct e; [now left|right; discriminate..]).
    destruct D as [-> |D].
    + left. exists [], st, ins. rewrite app_nil_r. split; [apply session_eof|]. split; [exact Hs|reflexivity].
    + fold script. destruct (IH ins st o Hs ltac:(lia)) as [(outs & st' & rest & Se & Hs' & R)|(C & R)].
      * left. exists outs, st', rest. split; [now apply session_error|]. split; [exact Hs'|].
        destruct e; try exact R; now elim D.
      * right. split; [now apply crashes_error|]. destruct e; try exact R; now elim D.
Qed.

Lemma session_unique rt clock st ins o1 st1 :
  session rt clock st ins o1 st1 -> forall o2 st2, session rt clock st ins o2 st2 -> o1 = o2 /\ st1 = st2.
Proof.
  induction 1 as [st|st ins|st e ins outs st' He _ IH|st fr ins fs sta outs st' A _ IH]; intros o2 st2 S2;
    inversion S2; subst; try contradiction; auto.
  match goal with H : answers _ _ _ st fr ?f ?s |- _ =>
    destruct (answers_unique _ _ _ _ _ _ _ _ _ A H) as [-> ->] end.
  destruct (IH _ _ ltac:(eassumption)) as [-> ->]. auto.
Qed.

Lemma session_not_crashing rt clock st ins outs st' : session rt clock st ins outs st' -> ~ crashes rt clock st ins.
Proof.
  induction 1 as [st|st ins|st e ins outs st' He _ IH|st fr ins fs sta outs st' A _ IH]; intros C;
    inversion C; subst; try contradiction; auto.
  - eapply answers_not_crashing; eassumption.
  - match goal with H : answers _ _ _ st fr ?f ?s |- _ =>
      destruct (answers_unique _ _ _ _ _ _ _ _ _ A H) as [-> ->] end. now apply IH.
Qed.

Lemma sound_init : sound (mkServer false (mkH DevGeneral_init [] 0 0 [])).
Proof. unfold sound. cbn. lia. Qed.
