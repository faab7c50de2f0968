(** Theorems about the tool's log. *)
From Coq Require Import Ascii ZifyBool ZifyNat ZifyN Lia.
From Verif Require Import Base BaseFacts Text SpecText TextFacts TextThms GoTypes Types Payload Lingo Command SpecPayload SpecCommand PayloadFacts CommandFacts Handlers SpecHandlers HandlersFacts
  HandlersThms ReplyThms Packet PacketFacts PacketThms SpecPacket Hid Trace SpecTrace TraceFacts Server SpecServer ServerFacts ServerThms SpecView ViewThms
  Log SpecLog.
Local Open Scope string_scope.
#[local] Opaque std_registry.

(** ** Entries *)

Lemma log_with_entry errText fields err msg : entry errText msg fields err (log_with errText fields err msg).
Proof. destruct err; reflexivity. Qed.

Lemma logFrame_entry errText f err msg : sized_entry errText msg (len f) err (logFrame errText f err msg).
Proof. eexists. split; [apply FormatInt_decimal|]. apply log_with_entry. Qed.
Lemma logPacket_entry errText p err msg : sized_entry errText msg (len p) err (logPacket errText p err msg).
Proof. eexists. split; [apply FormatInt_decimal|]. apply log_with_entry. Qed.

Lemma trx_text_shown t : trx_shown t (trx_text t).
Proof. destruct t as [x|]; [apply Transaction_String_hex|reflexivity]. Qed.
Lemma payload_T_shown p : type_shown p (payload_T p).
Proof. destruct p as [p|]; [|reflexivity]. cbn [type_shown payload_T]. destruct (payload_type p); reflexivity. Qed.

Lemma logCmd_entry errText c err msg : command_entry errText msg c err (logCmd errText c err msg).
Proof.
  destruct (id_String_text (cmd_id c)) as (l & k & T & E). exists l, k, (trx_text (cmd_trx c)), (payload_T (cmd_payload c)).
  split; [exact T|]. split; [apply trx_text_shown|]. split; [apply payload_T_shown|].
  rewrite <- E. apply log_with_entry.
Qed.

Definition arrow_of (d : N) (arrow : string) : Prop := (d = 0 /\ arrow = "<< " \/ d = 1 /\ arrow = ">> ")%N.

Lemma dirPrefix_arrow d arrow s : arrow_of d arrow -> dirPrefix d s = arrow ++ s.
Proof. intros [[-> ->]|[-> ->]]; reflexivity. Qed.

Lemma mode_log_switching m m' : mode_log m m' = switching m m'.
Proof. destruct m, m'; reflexivity. Qed.

Lemma packet_mode_after m p : packet_mode m p = mode_after m (ids_of [p]).
Proof.
  unfold packet_mode. pose proof (LingoFacts.unmarshal_id_spec p) as U. cbn [ids_of flat_map]. destruct (packet_id p) as [id|].
  - destruct U as [-> _]. apply handleCmdID_mode.
  - destruct U as (e & r & -> & _). reflexivity.
Qed.

Lemma events_mode_after evs : forall m, events_mode m evs = mode_after m (ids_of (packets_of evs)).
Proof.
  induction evs as [|[e|p c e] evs IH]; intros m; [reflexivity|exact (IH m)|].
  change (packets_of (PktCmd p c e :: evs)) with (p :: packets_of evs). rewrite ids_cons, mode_after_app, <- packet_mode_after.
  exact (IH _).
Qed.

Lemma unmarshal_packet_mode rt reg m p m1 c e : UnmarshalCmd rt reg m p = Ret (m1, c, e) -> m1 = packet_mode m p.
Proof.
  intros H. assert (R : serde_run rt reg m [SUnmarshal p] = Ret m1).
  { cbn [serde_run serde_step]. rewrite H. reflexivity. }
  apply serde_run_mode in R. rewrite R, packet_mode_after. cbn [ids_seen ids_of flat_map]. destruct (packet_id p); reflexivity.
Qed.

Lemma happens_parses rt sp m d evs : happens rt sp m d evs -> exists r, parses sp d (packets_of evs) r /\ filler r.
Proof.
  induction 1 as [m f Hf|m f w p d m1 c e evs Hf Hw U H (r & P & R)|m f d e evs Hf Hn Ho He H (r & P & R)].
  - exists f. split; [apply parses_here|exact Hf].
  - exists r. split; [|exact R]. now apply (parses_packet sp f w p d (packets_of evs)).
  - exists r. split; [|exact R]. now apply parses_bad.
Qed.
Lemma happens_packets rt m fr evs ps : happens rt (spare fr) m (vis fr) evs -> holds fr ps -> packets_of evs = ps.
Proof. intros H. exact (holds_unique fr _ _ (happens_parses _ _ _ _ _ H)). Qed.

Lemma mode_log_same m : mode_log m m = [].
Proof. destruct m; reflexivity. Qed.

Lemma packets_log_entries errText d arrow evs : forall m, arrow_of d arrow ->
  packet_entries errText arrow m evs (packets_log errText d m evs).
Proof.
  intros m A. revert m. induction evs as [|[e|p c e] evs IH]; intros m; [apply pe_nil|..]; cbn [packets_log];
    rewrite ?(dirPrefix_arrow d arrow _ A).
  - apply pe_error; [|apply IH]. apply (logPacket_entry errText []).
  - rewrite mode_log_switching, packet_mode_after. apply pe_packet; [apply logPacket_entry|apply logCmd_entry|apply IH].
Qed.

Lemma views_log_entries errText vs : forall m,
  Forall (fun v => valid_dir (vw_dir v)) vs -> Forall (fun v => forall e, vw_frame v = inr e -> vw_packets v = []) vs ->
  view_entries errText m vs (views_log errText m vs).
Proof.
  induction vs as [|[d x evs] vs IH]; intros m V P; [apply ve_end|].
  inversion V as [|? ? V1 V2]; inversion P as [|? ? P1 P2]; subst. cbn [vw_dir vw_frame vw_packets] in *.
  specialize (fun m => IH m V2 P2).
  assert (A : exists arrow, arrow_of d arrow).
  { destruct V1 as [-> | ->]; [exists "<< "|exists ">> "]; [left|right]; auto. }
  destruct A as (arrow & A). cbn [views_log vw_packets]. unfold view_log at 1. cbn [vw_dir vw_frame vw_packets].
  rewrite (dirPrefix_arrow d arrow "FRAME" A).
  destruct x as [f|e].
  - cbn [app]. eapply ve_frame; [exact A|apply logFrame_entry|now apply packets_log_entries|]. rewrite <- events_mode_after. apply IH.
  - rewrite (P1 _ eq_refl). cbn [app]. eapply ve_error; [exact A|apply (logFrame_entry errText [])|apply IH].
Qed.

Lemma dump_log_entries errText vs :
  Forall (fun v => valid_dir (vw_dir v)) vs -> Forall (fun v => forall e, vw_frame v = inr e -> vw_packets v = []) vs ->
  view_entries errText false vs (dump_log errText vs).
Proof. exact (views_log_entries errText vs false). Qed.

(** ** The report *)

Lemma caps_text_ok m :
  caps_text m AccCaps = Ret (String.concat "" (map (fun s => "Capability: " ++ s ++ nl) (map snd (filter (fun p => negb (N.land m (fst p) =? 0)%N) AccCapBit_names)))).
Proof.
  assert (C0 : forall l, String.concat "" l = fold_right append "" l).
  { induction l as [|s [|t l] IH]; [reflexivity|cbn; now rewrite sapp_nil|]. cbn [String.concat fold_right] in *. rewrite IH. reflexivity. }
  rewrite C0. clear C0.
  assert (G : forall names, Forall (fun p => AccCapBit_String (fst p) = Ret (snd p)) names ->
    caps_text m (map fst names)
    = Ret (fold_right append "" (map (fun s => "Capability: " ++ s ++ nl) (map snd (filter (fun p => negb (N.land m (fst p) =? 0)%N) names))))).
  { induction names as [|[b s] names IH]; intros F; [reflexivity|]. inversion F as [|? ? F1 F2]; subst. cbn [fst snd] in F1.
    cbn [map fst caps_text filter]. rewrite (IH F2). destruct (N.land m b =? 0)%N; cbn [negb map snd fold_right]; [reflexivity|].
    rewrite F1. cbn [bind]. unfold newline, nl. rewrite !sapp_assoc. reflexivity. }
  apply (G AccCapBit_names). repeat apply Forall_cons; try apply Forall_nil; vm_compute; reflexivity.
Qed.

Lemma caps_text_0 : caps_text 0 AccCaps = Ret "".
Proof. reflexivity. Qed.

Lemma tokens_text_told sdump l : exists s, tokens_text sdump l = Ret s /\ tokens_told sdump l s.
Proof.
  induction l as [|v l (s & E & T)]; [exists ""; split; [reflexivity|apply tokens_told_nil]|].
  assert (B : exists a, match tv_token v with
                 | TokStruct general_FIDAccCapsToken vs => caps_text (fu vs 0) AccCaps
                 | TokAccInfo ty value => do key <- AccInfoType_String ty; Ret (key ++ ": " ++ sdump value ++ newline)
                 | _ => Ret ""
                 end = Ret a /\ token_told sdump (tv_token v) a).
  { assert (N : forall t, (forall ty v, t <> TokAccInfo ty v) -> (forall m vs, t <> TokStruct general_FIDAccCapsToken (VU m :: vs)) ->
                token_told sdump t "") by (intros; now apply told_nothing).
    destruct (tv_token v) as [|ls o d|ty w|i w|t vs|b]; try (exists ""; split; [reflexivity|apply N; intros; discriminate]).
    - destruct (AccInfoType_ok ty) as (name & E1 & E2). rewrite E1. cbn [bind]. eexists. split; [reflexivity|]. now apply told_info.
    - assert (Q : t = general_FIDAccCapsToken \/ t <> general_FIDAccCapsToken) by (destruct t; try (right; discriminate); left; reflexivity).
      destruct Q as [->|Q].
      + destruct vs as [|[] vs]; try (exists ""; split; [reflexivity|apply N; intros; discriminate]).
        eexists. split; [apply caps_text_ok|]. now apply told_caps.
      + exists "". split; [destruct t; try reflexivity; now elim Q|]. apply N; intros; [discriminate|congruence]. }
  destruct B as (a & B & TT). exists ("* Token: " ++ token_type_shown (tv_token v) ++ nl ++ a ++ s).
  split; [|now apply tokens_told_cons]. cbn [tokens_text]. rewrite B. cbn [bind]. rewrite E. cbn [bind]. destruct (tv_token v); reflexivity.
Qed.

Lemma EndIDPS_report_ok sdump l : exists s, EndIDPS_report sdump l = Ret s /\ report sdump l s.
Proof.
  destruct (tokens_text_told sdump l) as (s & E & T). unfold EndIDPS_report. rewrite E. cbn [bind].
  eexists. split; [reflexivity|]. exists s. auto.
Qed.

(** ** Handlers *)

Lemma packet_general_step clock c (h : hstate DevGeneral) : request_ok c -> LingoID (cmd_id c) = LingoGeneralID ->
  post (handlePacket std_registry clock DevGeneral_device c) h (fun h' _ evs =>
    dg_tokens (h_dev h') = tokens_since_start (dg_tokens (h_dev h)) [c] /\ h_cert h' = cert_next (h_cert h) c
    /\ exists ext, calls evs = device_calls ext (h_cert h) (cmd_payload c)).
Proof.
  intros Hok HL. unfold handlePacket. rewrite HL. cbv zeta. change (LingoGeneralID =? LingoGeneralID)%N with true. cbv iota.
  apply post_seq. eapply post_weaken with (Q := fun h' _ evs => h_dev h' = h_dev h /\ h_cert h' = h_cert h /\ calls evs = []).
  - unfold audio_Start. by_payload c; cbv beta zeta iota; hrun; auto.
  - intros h1 u e1 (D & C & K). eapply post_weaken.
    { apply post_both; [apply (general_tokens c h1)|]. apply post_both; [apply (general_cert DevGeneral_device c h1 Hok)|].
      apply (device_called DevGeneral_device c h1 Hok). }
    intros h2 u2 e2 (T & (C2 & _) & X). rewrite T, C2, C, D. split; [reflexivity|]. split; [reflexivity|].
    unfold calls in *. rewrite flat_map_app, K, X. eexists. rewrite C. reflexivity.
Qed.

Lemma packet_other_step clock c (h : hstate DevGeneral) : LingoID (cmd_id c) <> LingoGeneralID ->
  post (handlePacket std_registry clock DevGeneral_device c) h (fun h' _ evs => h_dev h' = h_dev h /\ h_cert h' = h_cert h /\ calls evs = []).
Proof.
  intros HL. unfold handlePacket. cbv zeta. apply N.eqb_neq in HL. rewrite HL.
  destruct (LingoID (cmd_id c) =? LingoDisplayRemoteID)%N.
  { apply post_seq. eapply post_weaken; [apply disp_trx|]. intros h1 u e1 (_ & K & D & C & _). apply post_ret. rewrite app_nil_r. auto. }
  destruct (LingoID (cmd_id c) =? LingoExtRemoteID)%N.
  { eapply post_weaken; [apply ext_trx|]. intros h1 u e1 (_ & K & D & C & _). auto. }
  destruct (LingoID (cmd_id c) =? LingoDigitalAudioID)%N.
  { eapply post_weaken; [apply audio_trx|]. intros h1 u e1 (_ & K & D & C & _). auto. }
  apply post_ret. auto.
Qed.

Lemma calls_log_calls sdump certLog d evs evs' : calls evs = calls evs' -> calls_log sdump certLog d evs = calls_log sdump certLog d evs'.
Proof.
  assert (N : forall evs, calls_log sdump certLog d evs = calls_log sdump certLog d (map Called (calls evs))).
  { clear. induction evs as [|[x|x] evs IH]; [reflexivity|..]; unfold calls in *; cbn [flat_map app map calls_log call_log bind].
    - rewrite <- IH. destruct (calls_log _ _ _ evs); reflexivity.
    - rewrite IH. reflexivity. }
  intros E. now rewrite (N evs), (N evs'), E.
Qed.

Lemma calls_say sdump certLog d cert c ext : request_ok c ->
  exists l1, calls_log sdump certLog d (map Called (device_calls ext cert (cmd_payload c))) = Ret l1
    /\ (if ends_identification c then exists s, report sdump (dg_tokens d) s /\ l1 = [mkRec 4 s []]
        else match section c with
             | Some (n, last, d) => l1 = (if (last <=? n)%N then certLog (if (n =? 0)%N then d else (cert ++ d)%list) else [])
             | None => l1 = []
             end).
Proof.
  intros Hok. unfold request_ok in Hok. unfold section, ends_identification.
  by_payload c; try (exists []; split; reflexivity).
  all: try (fields Hok; exists []; split; reflexivity).
  + destruct ext; eexists; split; reflexivity.
  + destruct ext; eexists; split; reflexivity.
  + fields Hok. cbn [device_calls].
    destruct (2 <=? n)%N; cbn [andb]; [|eexists; split; reflexivity].
    destruct (n2 <=? n1)%N; [|eexists; split; reflexivity].
    eexists. cbn [map calls_log call_log bind]. rewrite app_nil_r. split; reflexivity.
  + fields Hok. destruct (EndIDPS_report_ok sdump (dg_tokens d)) as (s & R1 & R2).
    cbn [device_calls map calls_log call_log]. rewrite R1. cbn [bind app]. eauto.
  + exists []. split; [|reflexivity]. cbn [device_calls]. clear. induction l as [|v l IH]; [reflexivity|].
    cbn [map calls_log call_log bind]. rewrite IH. reflexivity.
Qed.

Lemma step_says sdump certLog clock c (h : hstate DevGeneral) : request_ok c ->
  exists h1 l1, handlePacket std_registry clock DevGeneral_device c h = Ret (h1, tt)
    /\ (do l <- calls_log sdump certLog (h_dev h) (skipn (List.length (h_log h)) (h_log h1));
        Ret (l ++ (if (LingoID (cmd_id c) =? LingoSimpleRemoteID)%N
                   then [mkRec WarnLevel "Lingo SimpleRemote is not supported yet" []] else []))%list) = Ret l1
    /\ says sdump certLog (dg_tokens (h_dev h)) (h_cert h) c l1
    /\ dg_tokens (h_dev h1) = tokens_after (dg_tokens (h_dev h)) c /\ h_cert h1 = cert_after (h_cert h) c.
Proof.
  intros Hok. unfold says, tokens_after, cert_after, lingo_of. rewrite <- LingoID_div.
  change LingoSimpleRemoteID with 2%N.
  destruct (N.eqb_spec (LingoID (cmd_id c)) LingoGeneralID) as [L|L].
  - destruct (packet_general_step clock c h Hok L) as (h1 & [] & evs & [E LL] & T & C & ext & K).
    rewrite L in *. change (LingoGeneralID =? 2)%N with false. change (LingoGeneralID =? 0)%N with true. cbv iota.
    exists h1. rewrite LL, skipn_app_exact by reflexivity.
    assert (X : calls_log sdump certLog (h_dev h) evs = calls_log sdump certLog (h_dev h) (map Called (device_calls ext (h_cert h) (cmd_payload c)))).
    { apply calls_log_calls. rewrite K. clear. unfold calls. induction (device_calls _ _ _) as [|d l IH]; [reflexivity|]. cbn [map flat_map app]. now f_equal. }
    rewrite X.
    assert (P : cert_next (h_cert h) c = match section c with Some (n, _, d) => if (n =? 0)%N then d else (h_cert h ++ d)%list | None => h_cert h end) by reflexivity.
    rewrite <- P.
    enough (G : exists l1, calls_log sdump certLog (h_dev h) (map Called (device_calls ext (h_cert h) (cmd_payload c))) = Ret l1
              /\ (if ends_identification c then exists s, report sdump (dg_tokens (h_dev h)) s /\ l1 = [mkRec 4 s []]
                  else match section c with
                       | Some (n, last, d) => l1 = (if (last <=? n)%N then certLog (if (n =? 0)%N then d else (h_cert h ++ d)%list) else [])
                       | None => l1 = []
                       end)).
    { destruct G as (l1 & G1 & G2). exists l1. rewrite G1. cbn [bind]. rewrite app_nil_r. auto. }
    now apply calls_say.
  - destruct (packet_other_step clock c h L) as (h1 & [] & evs & [E LL] & D & C & K).
    exists h1. rewrite LL, skipn_app_exact by reflexivity.
    assert (X : calls_log sdump certLog (h_dev h) evs = Ret []) by exact (calls_log_calls _ _ _ evs [] K).
    rewrite X, D, C. cbn [bind app]. change LingoGeneralID with 0%N in L. apply N.eqb_neq in L. rewrite L.
    exists (if (LingoID (cmd_id c) =? 2)%N then [mkRec WarnLevel "Lingo SimpleRemote is not supported yet" []] else []).
    split; [exact E|]. split; [reflexivity|]. split; [destruct (_ =? 2)%N; reflexivity|]. split; [reflexivity|].
    destruct (section c) as [[[n la] d]|]; reflexivity.
Qed.

Lemma handle_all_said sdump certLog clock cs : forall h : hstate DevGeneral, Forall request_ok cs ->
  exists h' l, handle_all_log sdump certLog std_registry clock cs h = Ret (h', l)
    /\ handle_all std_registry clock DevGeneral_device cs h = Ret (h', tt)
    /\ said sdump certLog (dg_tokens (h_dev h)) (h_cert h) cs l.
Proof.
  induction cs as [|c cs IH]; intros h F.
  - exists h, []. split; [reflexivity|]. split; [reflexivity|apply said_nil].
  - inversion F as [|? ? F1 F2]; subst.
    destruct (step_says sdump certLog clock c h F1) as (h1 & l1 & E & EL & S & T & C).
    destruct (IH h1 F2) as (h' & l & E2 & E3 & SS). rewrite T, C in SS.
    exists h', (l1 ++ l)%list. cbn [handle_all_log handle_all]. rewrite E. cbn [bind].
    destruct (calls_log _ _ _ _) as [la|] eqn:K; cbn [bind] in EL |- *; [|discriminate].
    apply ret_inj in EL as <-. rewrite E2. cbn [bind]. split; [now rewrite <- app_assoc|].
    split; [unfold seq; rewrite E; exact E3|]. now apply said_cons.
Qed.

(** ** The log does not change what is done *)

Definition erase {A B C} (x : io (A * B * C)) : io (A * B) := go (a, b, _) <- x; done (a, b).

Lemma call_log_total sdump certLog d ev : exists l, call_log sdump certLog d ev = Ret l.
Proof.
  destruct ev as [c|x]; [eexists; reflexivity|]. destruct x; try (eexists; reflexivity).
  destruct (EndIDPS_report_ok sdump (dg_tokens d)) as (s & E & _). cbn [call_log]. rewrite E. eexists. reflexivity.
Qed.
Lemma calls_log_total sdump certLog d evs : exists l, calls_log sdump certLog d evs = Ret l.
Proof.
  induction evs as [|ev evs (l & E)]; [eexists; reflexivity|].
  destruct (call_log_total sdump certLog d ev) as (a & A). cbn [calls_log]. rewrite A, E. eexists. reflexivity.
Qed.

Lemma handle_all_erase sdump certLog reg clock cs : forall h,
  (do (h', _) <- handle_all_log sdump certLog reg clock cs h; Ret (h', tt)) = handle_all reg clock DevGeneral_device cs h.
Proof.
  induction cs as [|c cs IH]; intros h; [reflexivity|]. cbn [handle_all_log handle_all]. unfold seq.
  destruct (handlePacket reg clock DevGeneral_device c h) as [[h1 u]|]; [|reflexivity]. cbn [bind].
  destruct (calls_log_total sdump certLog (h_dev h) (skipn (List.length (h_log h)) (h_log h1))) as (l & E). rewrite E. cbn [bind].
  rewrite <- IH. destruct (handle_all_log sdump certLog reg clock cs h1) as [[h2 l2]|]; reflexivity.
Qed.

Lemma write_replies_erase {W} errText rt (tp : transport W) cs : forall m w,
  erase (write_replies_log errText rt tp m cs w) = write_replies rt tp m cs w.
Proof.
  induction cs as [|c cs IH]; intros m w; [reflexivity|]. cbn [write_replies_log write_replies].
  destruct (MarshalCmd rt m c) as [[m' res]|]; [|reflexivity]. cbn [io_bind].
  destruct (WritePacket NewPacketWriter match res with Ok b => b | Err _ => [] end) as [f fe].
  destruct (tp_WriteFrame tp w f) as [[[w' e]|]|]; cbn [io_bind]; try reflexivity.
  rewrite <- IH. destruct (write_replies_log errText rt tp m' cs w') as [[[[m2 w2] l]|]|]; reflexivity.
Qed.

Lemma process_frame_erase {W} errText sdump certLog rt reg clock (tp : transport W) st w fr :
  erase (process_frame_log errText sdump certLog rt reg clock tp st w fr) = process_frame rt reg clock DevGeneral_device tp st w fr.
Proof.
  unfold process_frame_log, process_frame. cbv zeta.
  destruct (frame_packets rt reg (sv_mode st) fr) as [[[m1 evs]|]|]; cbn [io_bind]; try reflexivity.
  rewrite <- (handle_all_erase sdump certLog). destruct (handle_all_log _ _ _ _ _ _) as [[h1 l2]|]; cbn [bind io_bind]; try reflexivity.
  rewrite <- (write_replies_erase errText).
  destruct (write_replies_log errText rt tp m1 _ w) as [[[[m2 w2] l]|]|]; reflexivity.
Qed.

Lemma log_erase {W} errText sdump certLog rt reg clock (tp : transport W) fuel : forall st w,
  erase (processFrames_log fuel errText sdump certLog rt reg clock tp st w) = processFrames_loop fuel rt reg clock DevGeneral_device tp st w.
Proof.
  induction fuel as [|fuel IH]; intros st w; [reflexivity|]. cbn [processFrames_log processFrames_loop].
  destruct (tp_ReadFrame tp w) as [[[w1 r]|]|]; cbn [io_bind]; try reflexivity.
  assert (X : forall e, erase (go (st', w', l) <- processFrames_log fuel errText sdump certLog rt reg clock tp st w1;
                               done (st', w', logFrame errText [] (Some e) "<< FRAME" :: l))
                        = processFrames_loop fuel rt reg clock DevGeneral_device tp st w1).
  { intros e. rewrite <- IH. destruct (processFrames_log _ _ _ _ _ _ _ _ _ _) as [[[[st' w'] l]|]|]; reflexivity. }
  destruct r as [fr|[]]; try apply X; [|reflexivity].
  rewrite <- (process_frame_erase errText sdump certLog).
  destruct (process_frame_log errText sdump certLog rt reg clock tp st w1 fr) as [[[[st1 w2] l1]|]|]; cbn [erase io_bind]; try reflexivity.
  unfold done at 2. cbn [io_bind]. rewrite <- IH. destruct (processFrames_log _ _ _ _ _ _ _ _ st1 w2) as [[[[st' w'] l]|]|]; reflexivity.
Qed.

(** ** The transcript *)

Lemma write_replies_sends {W} errText rt (tp : transport W) m cs :
  Forall (fun c => (exists b, MarshalCmd rt m c = Ret (m, Ok b)) \/ (exists x, MarshalCmd rt m c = Ret (m, Err x))) cs ->
  forall w m' w' l, write_replies_log errText rt tp m cs w = done (m', w', l) -> m' = m /\ sends errText rt tp m cs w l w'.
Proof.
  induction 1 as [|c cs Hc _ IH]; intros w m' w' l E; cbn [write_replies_log] in E.
  - apply some_inj, ret_inj in E. injection E as <- <- <-. split; [reflexivity|apply sends_nil].
  - assert (X : exists b me f, (MarshalCmd rt m c = Ret (m, Ok b) /\ me = None /\ WritePacket [] b = (f, None)
       \/ exists e, MarshalCmd rt m c = Ret (m, Err e) /\ me = Some e /\ b = [] /\ f = [])
      /\ exists res, MarshalCmd rt m c = Ret (m, res) /\ match res with Ok b => b | Err _ => [] end = b
           /\ match res with Ok _ => None | Err e => Some e end = me /\ fst (WritePacket NewPacketWriter b) = f).
    { destruct Hc as [[b Hc]|[x Hc]].
      - pose proof (marshal_nonempty _ _ _ _ _ Hc) as Hb. exists b, None, (fst (WritePacket NewPacketWriter b)). split.
        + left. split; [exact Hc|]. split; [reflexivity|]. destruct b; [now elim Hb|]. reflexivity.
        + exists (Ok b). auto.
      - exists [], (Some x), []. split; [right; exists x; auto|]. exists (Err x). auto. }
    destruct X as (b & me & f & X & res & Em & Eb & Ee & Ef). rewrite Em in E. cbn [io_bind] in E. cbv zeta in E. rewrite Eb, Ee in E.
    destruct (WritePacket NewPacketWriter b) as [f' fe]. cbn [fst] in Ef. subst f'.
    destruct (tp_WriteFrame tp w f) as [[[w1 we]|]|] eqn:Wf; cbn [io_bind] in E; try discriminate.
    destruct (write_replies_log errText rt tp m cs w1) as [[[[m2 w2] l2]|]|] eqn:R; cbn [io_bind] in E; try discriminate.
    rewrite mode_log_same in E.
    apply some_inj, ret_inj in E. injection E as <- <- <-. destruct (IH _ _ _ _ R) as [-> S]. split; [reflexivity|].
    eapply sends_reply; [apply logCmd_entry|exact X|apply logPacket_entry|exact Wf|apply logFrame_entry|exact S].
Qed.

Lemma process_frame_log_run {W} errText sdump certLog rt clock (tp : transport W) st w fr st' w' l :
  sound st -> process_frame_log errText sdump certLog rt std_registry clock tp st w fr = done (st', w', l) ->
  exists ps r evs l1 l2 devs l3, l = (r :: l1 ++ l2 ++ l3)%list /\ sound st'
    /\ sized_entry errText "<< FRAME" (len (vis fr)) None r
    /\ holds fr ps /\ happens rt (spare fr) (sv_mode st) (vis fr) evs /\ packet_entries errText "<< " (sv_mode st) evs l1
    /\ said sdump certLog (dg_tokens (h_dev (sv_h st))) (h_cert (sv_h st)) (inCmds evs) l2
    /\ does (serve (handlePacket std_registry clock DevGeneral_device) (inCmds evs)) (sv_h st) (sv_h st') tt devs
    /\ sv_mode st' = mode_after (sv_mode st) (ids_of ps)
    /\ sends errText rt tp (sv_mode st') (written devs) w l3 w'.
Proof.
  intros Hs. unfold process_frame_log. cbv zeta.
  destruct (frame_packets_run rt (sv_mode st) fr) as [(m' & evs & ps & R & Hh & D)|(R & C)];
    rewrite R; cbn [io_bind]; [|discriminate].
  pose proof (dec_from_wire _ _ _ _ _ D) as FW.
  destruct (handle_all_said sdump certLog clock (inCmds evs) (sv_h st)) as (h' & l2 & E1 & E2 & S).
  { eapply Forall_impl; [|exact FW]. intros c [H _]. exact H. }
  rewrite E1. cbn [io_bind].
  destruct (serve_replies rt clock (inCmds evs) (sv_h st) FW Hs) as (h2 & [] & es & [E L] & Hm & F).
  rewrite handle_all_serve, E in E2. apply ret_inj in E2. injection E2 as ->. rewrite L, outCmds_app.
  destruct (write_replies_log errText rt tp m' (written es) w) as [[[[m2 w2] l3]|]|] eqn:Wr; cbn [io_bind]; try discriminate.
  intros X. apply some_inj, ret_inj in X. injection X as <- <- <-.
  apply write_replies_sends in Wr as [-> Sn].
  2:{ eapply Forall_impl; [|exact F]. intros c (req & Hw & Hf). eapply reply_marshals; eassumption. }
  exists ps, (logFrame errText (vis fr) None "<< FRAME"), evs, (packets_log errText DirIn (sv_mode st) evs), l2, es, l3.
  split; [reflexivity|]. split; [exact Hm|]. split; [apply logFrame_entry|]. split; [exact Hh|].
  split; [exact (read_packets_happens _ _ _ _ _ _ R)|]. split; [apply packets_log_entries; left; auto|].
  split; [exact S|]. split; [split; assumption|]. split; [exact (dec_mode _ _ _ _ _ D)|exact Sn].
Qed.

Lemma log_transcript {W} errText sdump certLog rt clock (tp : transport W) fuel : forall st w st' w' l,
  sound st -> processFrames_log fuel errText sdump certLog rt std_registry clock tp st w = done (st', w', l) ->
  transcript errText sdump certLog rt clock tp st w l st' w'.
Proof.
  induction fuel as [|fuel IH]; intros st w st' w' l Hs; cbn [processFrames_log]; [discriminate|].
  destruct (tp_ReadFrame tp w) as [[[w1 r]|]|] eqn:R; cbn [io_bind]; try discriminate.
  assert (X : forall e, e <> EOF -> r = inr e -> (go (st', w', l) <- processFrames_log fuel errText sdump certLog rt std_registry clock tp st w1;
                               done (st', w', logFrame errText [] (Some e) "<< FRAME" :: l)) = done (st', w', l) ->
              transcript errText sdump certLog rt clock tp st w l st' w').
  { intros e NE -> E. destruct (processFrames_log _ _ _ _ _ _ _ _ _ _) as [[[[st2 w2] l2]|]|] eqn:P; cbn [io_bind] in E; try discriminate.
    apply some_inj, ret_inj in E. injection E as <- <- <-. eapply tr_error; [exact R|exact NE|apply (logFrame_entry errText [])|].
    exact (IH _ _ _ _ _ Hs P). }
  destruct r as [fr|e].
  2:{ destruct e; try (apply X; [discriminate|reflexivity]).
      intros E. apply some_inj, ret_inj in E. injection E as <- <- <-. now apply tr_eof. }
  clear X. destruct (process_frame_log errText sdump certLog rt std_registry clock tp st w1 fr) as [[[[st1 w2] l1]|]|] eqn:P; cbn [io_bind]; try discriminate.
  destruct (processFrames_log fuel errText sdump certLog rt std_registry clock tp st1 w2) as [[[[st3 w3] l3]|]|] eqn:Q; cbn [io_bind]; try discriminate.
  intros E. apply some_inj, ret_inj in E. injection E as <- <- <-.
  destruct (process_frame_log_run _ _ _ _ _ _ _ _ _ _ _ _ Hs P) as (ps & r & evs & a1 & a2 & devs & a3 & -> & Hs1 & A & B & C & D & F & G & I & J).
  cbn [app]. rewrite <- !app_assoc. eapply tr_frame; try eassumption. exact (IH _ _ _ _ _ Hs1 Q).
Qed.

(** ** The log is determined *)

Lemma entry_unique errText msg f err r r' : entry errText msg f err r -> entry errText msg f err r' -> r = r'.
Proof. destruct err; cbn [entry]; congruence. Qed.
Lemma decimal_unique w n s s' : decimal w n s -> decimal w n s' -> s = s'.
Proof. exact (written_unique _ w n s s' (or_introl eq_refl)). Qed.

Lemma sized_unique errText msg n err r r' : sized_entry errText msg n err r -> sized_entry errText msg n err r' -> r = r'.
Proof. intros (s & D & E) (s' & D' & E'). rewrite (decimal_unique _ _ _ _ D' D) in E'. eapply entry_unique; eassumption. Qed.

Lemma command_entry_unique errText msg c err r r' : command_entry errText msg c err r -> command_entry errText msg c err r' -> r = r'.
Proof.
  intros (l & k & t & ty & A & B & C & E) (l' & k' & t' & ty' & A' & B' & C' & E').
  destruct (id_text_unique _ _ _ _ _ A A') as [-> ->].
  assert (t = t') as ->.
  { destruct (cmd_trx c); cbn [trx_shown] in B, B'; [eapply hexadecimal_unique; eassumption|congruence]. }
  assert (ty = ty') as ->.
  { destruct (cmd_payload c) as [p|]; cbn [type_shown] in C, C'; [destruct (payload_type p)|]; congruence. }
  eapply entry_unique; eassumption.
Qed.

Lemma packet_entries_unique errText arrow m evs l : packet_entries errText arrow m evs l ->
  forall l', packet_entries errText arrow m evs l' -> l = l'.
Proof.
  induction 1 as [m|m e evs r rs S P IH|m p c e evs r1 r2 rs S1 S2 P IH]; intros l' P'; inversion P'; subst; [reflexivity|..].
  - f_equal; [eapply sized_unique; eassumption|]. now apply IH.
  - f_equal; [eapply sized_unique; eassumption|]. f_equal. f_equal; [eapply command_entry_unique; eassumption|]. now apply IH.
Qed.

Lemma view_entries_unique errText m vs l : view_entries errText m vs l -> forall l', view_entries errText m vs l' -> l = l'.
Proof.
  assert (A : forall d a a', (d = 0 /\ a = "<< " \/ d = 1 /\ a = ">> ")%N -> (d = 0 /\ a' = "<< " \/ d = 1 /\ a' = ">> ")%N -> a = a').
  { intros d a a' [[-> ->]|[-> ->]] [[? ->]|[? ->]]; congruence. }
  induction 1 as [m|m d arrow e vs r rs D S P IH|m d arrow f evs vs r ps rs D S P Q IH]; intros l' P'; inversion P' as [|? ? arrow' ? ? ? ? D' S' Q'|? ? arrow' ? ? ? ? ? ? D' S' P2 Q']; subst; [reflexivity|..].
  - rewrite (A _ _ _ D' D) in *. f_equal; [eapply sized_unique; eassumption|]. now apply IH.
  - rewrite (A _ _ _ D' D) in *. f_equal; [eapply sized_unique; eassumption|].
    f_equal; [eapply packet_entries_unique; eassumption|]. now apply IH.
Qed.

Lemma text_of_unique names ty n s s' : NoDup (map fst names) -> text_of names ty n s -> text_of names ty n s' -> s = s'.
Proof.
  intros ND H H'. destruct H as [s I|d N D], H' as [s' I'|d' N' D'].
  - clear -ND I I'. induction names as [|[a b] l IH]; [destruct I|]. cbn [map fst] in ND. inversion ND as [|? ? X Y]; subst.
    destruct I as [I|I], I' as [I'|I']; try congruence.
    + injection I as -> ->. exfalso. apply X. now apply (in_map fst) in I'.
    + injection I' as -> ->. exfalso. apply X. now apply (in_map fst) in I.
    + auto.
  - exfalso. apply N'. now apply (in_map fst) in I.
  - exfalso. apply N. now apply (in_map fst) in I'.
  - now rewrite (decimal_unique _ _ _ _ D D').
Qed.

Lemma token_told_unique sdump t s s' : token_told sdump t s -> token_told sdump t s' -> s = s'.
Proof.
  intros H H'. destruct H as [m vs names E|ty v name T|t A B]; inversion H' as [m' vs' names' E'|ty' v' name' T'|t' A' B']; subst; try reflexivity.
  all: try (exfalso; eapply A; reflexivity); try (exfalso; eapply B; reflexivity).
  all: try (exfalso; eapply A'; reflexivity); try (exfalso; eapply B'; reflexivity).
  rewrite (text_of_unique AccInfoType_names "AccInfoType" ty name name'); try assumption; try reflexivity.
  repeat apply NoDup_cons; try apply NoDup_nil; cbn; intuition discriminate.
Qed.

Lemma report_unique sdump l s s' : report sdump l s -> report sdump l s' -> s = s'.
Proof.
  intros (t & T & ->) (t' & T' & ->). do 2 f_equal. revert t' T'.
  induction T as [|v l a t A T IH]; intros t' T'; inversion T' as [|? ? a' t2 A' T2]; subst; [reflexivity|].
  rewrite (token_told_unique _ _ _ _ A' A), (IH _ T2). reflexivity.
Qed.

Lemma says_unique sdump certLog toks cert c l l' : says sdump certLog toks cert c l -> says sdump certLog toks cert c l' -> l = l'.
Proof.
  unfold says. destruct (lingo_of c =? 2)%N; [congruence|]. destruct (lingo_of c =? 0)%N; [|congruence].
  destruct (ends_identification c).
  - intros (s & R & ->) (s' & R' & ->). now rewrite (report_unique _ _ _ _ R R').
  - destruct (section c) as [[[n la] d]|]; congruence.
Qed.

Lemma said_unique sdump certLog toks cert cs l : said sdump certLog toks cert cs l -> forall l', said sdump certLog toks cert cs l' -> l = l'.
Proof.
  induction 1 as [|toks cert c cs l ls S _ IH]; intros l' H'; inversion H' as [|? ? ? ? l2 ls2 S2 H2]; subst; [reflexivity|].
  rewrite (says_unique _ _ _ _ _ _ _ S S2), (IH _ H2). reflexivity.
Qed.

Lemma sends_unique {W} errText rt (tp : transport W) m cs w l w' : sends errText rt tp m cs w l w' ->
  forall l' w'', sends errText rt tp m cs w l' w'' -> l = l' /\ w' = w''.
Proof.
  induction 1 as [w|c cs w w1 w2 b me f we r1 r2 r3 rs C M P F G _ IH]; intros l' w'' H';
    inversion H' as [|? ? ? w1' w2' b' me' f' we' r1' r2' r3' rs' C' M' P' F' G' H2]; subst; [auto|].
  assert (b = b' /\ me = me' /\ f = f') as (<- & <- & <-).
  { destruct M as [(M & -> & Wp)|(e & M & -> & -> & ->)], M' as [(M' & -> & Wp')|(e' & M' & -> & -> & ->)]; rewrite M in M';
      apply ret_inj in M'; try discriminate; injection M' as <-; [rewrite Wp in Wp'; injection Wp' as <-|]; auto. }
  rewrite F in F'. apply some_inj, ret_inj in F'. injection F' as <- <-. destruct (IH _ _ H2) as [<- <-]. split; [|reflexivity].
  f_equal; [eapply command_entry_unique; eassumption|]. f_equal; [eapply sized_unique; eassumption|].
  f_equal. eapply sized_unique; eassumption.
Qed.

Lemma transcript_unique {W} errText sdump certLog rt clock (tp : transport W) st w l st' w' :
  transcript errText sdump certLog rt clock tp st w l st' w' ->
  forall l2 st2 w2, transcript errText sdump certLog rt clock tp st w l2 st2 w2 -> l = l2 /\ st' = st2 /\ w' = w2.
Proof.
  induction 1 as [st w w' R|st w w1 e r rs st' w' R NE S _ IH|st w w1 fr ps r evs l1 l2 devs l3 st1 w2 rs st' w' R S Hh Ha Pe Sa Do Mo Se _ IH];
    intros l0 st0 w0 H0;
    inversion H0 as [st4 w4 w4' R'|st4 w4 w1' e' r' rs' st4' w4' R' NE' S' T'|st4 w4 w1' fr' ps' r' evs' l1' l2' devs' l3' st1' w2' rs' st4' w4' R' S' Hh' Ha' Pe' Sa' Do' Mo' Se' T']; subst;
    rewrite R in R'; apply some_inj, ret_inj in R'; try discriminate R'.
  - injection R' as <-. auto.
  - injection R' as _ <-. now elim NE'.
  - injection R' as _ ->. now elim NE.
  - injection R' as <- <-. destruct (IH _ _ _ T') as (<- & <- & <-). split; [|auto]. f_equal. eapply sized_unique; eassumption.
  - injection R' as <- <-. pose proof (holds_unique _ _ _ Hh Hh') as <-. pose proof (happens_unique _ _ _ _ _ Ha _ Ha') as <-.
    destruct (does_unique _ _ _ _ _ _ _ _ Do Do') as (Eh & _ & <-).
    assert (st1 = st1') as <-.
    { destruct st1 as [a b], st1' as [a' b']. cbn [sv_h sv_mode] in *. congruence. }
    destruct (sends_unique _ _ _ _ _ _ _ _ Se _ _ Se') as [<- <-]. destruct (IH _ _ _ T') as (<- & <- & <-). split; [|auto].
    rewrite (sized_unique _ _ _ _ _ _ S S'), (packet_entries_unique _ _ _ _ _ Pe _ Pe'), (said_unique _ _ _ _ _ _ Sa _ Sa'). reflexivity.
Qed.

(** ** Lines *)

Definition plain_rec (r : log_rec) : Prop :=
  (lr_Level r <= 6)%N /\ one_line (lr_Message r) /\ NoDup (map fst (lr_Data r))
  /\ (forall k v, In (k, v) (lr_Data r) -> one_line k /\ one_line v).

Lemma hex_line s n : numeral HEX s n -> one_line s.
Proof.
  intros H. induction H as [|s n c d H IH E]; [apply one_lineb_ok; reflexivity|]. apply one_line_app; [exact IH|].
  apply one_lineb_ok. cbn [one_lineb]. destruct (Ascii.eqb_spec c "010") as [->|]; [|reflexivity]. exfalso.
  assert (L : forall k, String.get k HEX <> Some "010"%char) by (apply one_lineb_ok; reflexivity). exact (L _ E).
Qed.
Lemma hexadecimal_line w n s : hexadecimal w n s -> one_line s.
Proof. intros (d & -> & H & _). apply one_line_app; [apply one_lineb_ok; reflexivity|]. exact (hex_line _ _ H). Qed.
Lemma decimal_line w n s : decimal w n s -> one_line s.
Proof. intros (H & _). exact (numeral_line _ _ H). Qed.

Ltac literal := apply one_lineb_ok; reflexivity.

Lemma entry_plain errText msg fields err r : (forall e, one_line (errText e)) -> one_line msg -> NoDup (map fst fields) ->
  ~ In "error" (map fst fields) -> (forall k v, In (k, v) fields -> one_line k /\ one_line v) ->
  entry errText msg fields err r -> plain_rec r.
Proof.
  intros HE HM ND NI HF E. destruct err as [e|]; cbn [entry] in E; subst r; unfold plain_rec; cbn [lr_Level lr_Message lr_Data].
  - split; [lia|]. split; [exact HM|]. split.
    + rewrite map_app. cbn [map fst]. apply NoDup_rev in ND. rewrite <- (rev_involutive (map fst fields)), <- rev_involutive.
      apply NoDup_rev. rewrite rev_app_distr. cbn [rev app]. rewrite rev_involutive. apply NoDup_cons; [|exact ND]. now rewrite <- in_rev.
    + intros k v I. apply in_app_or in I as [I|[I|[]]]; [auto|]. injection I as <- <-. split; [literal|apply HE].
  - split; [lia|]. auto.
Qed.

Lemma sized_plain errText msg n err r : (forall e, one_line (errText e)) -> one_line msg -> sized_entry errText msg n err r -> plain_rec r.
Proof.
  intros HE HM (s & D & E). apply (entry_plain _ _ _ _ _ HE HM) in E; [exact E|..].
  - apply NoDup_cons; [intros []|apply NoDup_nil].
  - cbn. intuition discriminate.
  - intros k v [I|[]]. injection I as <- <-. split; [literal|exact (decimal_line _ _ _ D)].
Qed.

Lemma type_name_line t : one_line (type_name t).
Proof.
  apply one_lineb_ok. assert (A : forallb (fun t => one_lineb (type_name t)) all_types = true) by (vm_compute; reflexivity).
  rewrite forallb_forall in A. apply A, in_all_types.
Qed.

Lemma command_plain errText msg c err r : (forall e, one_line (errText e)) -> one_line msg -> command_entry errText msg c err r -> plain_rec r.
Proof.
  intros HE HM (l & k & t & ty & (A1 & A2) & B & C & E). apply (entry_plain _ _ _ _ _ HE HM) in E; [exact E|..].
  - repeat apply NoDup_cons; try apply NoDup_nil; cbn; intuition discriminate.
  - cbn. intuition discriminate.
  - intros k0 v [I|[I|[I|[]]]]; injection I as <- <-; (split; [literal|]).
    + apply one_line_app; [exact (hexadecimal_line _ _ _ A1)|]. apply (one_line_app "," k); [literal|exact (hexadecimal_line _ _ _ A2)].
    + destruct (cmd_trx c); cbn [trx_shown] in B; [exact (hexadecimal_line _ _ _ B)|subst; literal].
    + destruct (cmd_payload c) as [p|]; cbn [type_shown] in C; [destruct (payload_type p)|]; subst; try literal.
      apply (one_line_app "*"); [literal|apply type_name_line].
Qed.

Lemma warning_plain s : one_line s -> plain_rec (mkRec 3 s []).
Proof. intros H. unfold plain_rec. cbn. split; [lia|]. split; [exact H|]. split; [apply NoDup_nil|intros k v []]. Qed.

Lemma packets_plain errText arrow m evs l : (forall e, one_line (errText e)) -> one_line arrow -> packet_entries errText arrow m evs l -> Forall plain_rec l.
Proof.
  intros HE HA. induction 1 as [m|m e evs r rs S P IH|m p c e evs r1 r2 rs S1 S2 P IH]; [apply Forall_nil|..].
  - apply Forall_cons; [|exact IH]. eapply sized_plain; [exact HE| |exact S]. apply one_line_app; [exact HA|literal].
  - apply Forall_cons; [|apply Forall_app; split; [|apply Forall_cons; [|exact IH]]].
    + eapply sized_plain; [exact HE| |exact S1]. apply one_line_app; [exact HA|literal].
    + unfold switching. destruct m, (mode_after _ _); try apply Forall_nil; (apply Forall_cons; [|apply Forall_nil]);
        apply warning_plain; literal.
    + eapply command_plain; [exact HE| |exact S2]. apply one_line_app; [exact HA|literal].
Qed.

Lemma eof_plain : plain_rec (mkRec 3 "EOF" []).
Proof. apply warning_plain. literal. Qed.

Lemma view_plain errText m vs l : (forall e, one_line (errText e)) -> view_entries errText m vs l -> Forall plain_rec l.
Proof.
  intros HE. assert (A : forall d a, (d = 0 /\ a = "<< " \/ d = 1 /\ a = ">> ")%N -> one_line a) by (intros d a [[_ ->]|[_ ->]]; literal).
  induction 1 as [m|m d arrow e vs r rs D S P IH|m d arrow f evs vs r ps rs D S P Q IH].
  - apply Forall_cons; [apply eof_plain|apply Forall_nil].
  - apply Forall_cons; [|exact IH]. eapply sized_plain; [exact HE| |exact S]. apply one_line_app; [exact (A _ _ D)|literal].
  - apply Forall_cons; [eapply sized_plain; [exact HE| |exact S]; apply one_line_app; [exact (A _ _ D)|literal]|].
    apply Forall_app. split; [|exact IH]. eapply packets_plain; [exact HE|exact (A _ _ D)|exact P].
Qed.

Definition field_text (v : option string) : string := match v with Some s => s | None => "<nil>" end.

Lemma plain_line runes colored t r : plain_rec r ->
  exists body, Format runes field_text colored (mkEntry (lr_Level r) (Z.of_N t) (lr_Message r) (lr_Data r)) = Ret (body ++ nl) /\ one_line body.
Proof. intros (L & M & ND & F). exact (Format_one_line runes field_text colored (lr_Level r) t (lr_Message r) (lr_Data r) L ND M F). Qed.

(** ** The viewer *)

Lemma shows_valid rt defs spares n m ms es left : shows rt defs spares n m ms es left -> Forall (fun x => valid_dir (msg_Dir x)) ms ->
  Forall (fun v => valid_dir (vw_dir v)) es /\ Forall (fun v => forall e, vw_frame v = inr e -> vw_packets v = []) es.
Proof.
  assert (X : forall l d x rest, next_frame defs l d x rest -> Forall (fun x => valid_dir (msg_Dir x)) l ->
              valid_dir d /\ Forall (fun x => valid_dir (msg_Dir x)) rest).
  { intros l d x rest N F. destruct (next_read _ _ _ _ _ N) as (h & l' & t & b & -> & -> & P & _).
    split; [now inversion F|]. exact (picks_valid _ _ _ _ P F). }
  induction 1 as [n m|n m h l U|n m l d e rest es left N S IH|n m l d f rest ps cs evs es left N H D SH SL HA S IH]; intros F;
    try (split; apply Forall_nil).
  - destruct (X _ _ _ _ N F) as [V F']. destruct (IH F') as [A B]. split; apply Forall_cons; try assumption. reflexivity.
  - destruct (X _ _ _ _ N F) as [V F']. destruct (IH F') as [A B]. split; apply Forall_cons; try assumption. discriminate.
Qed.
