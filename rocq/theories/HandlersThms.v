(** The statements proved about the handlers, request by request and over histories. *)
From Coq Require Import ZifyBool ZifyNat ZifyN.
From Verif Require Import Base BaseFacts GoTypes GoTypesFacts Types Payload Util Lingo Command
  SpecPayload SpecCommand LingoFacts CommandFacts CommandThms Handlers SpecHandlers HandlersFacts.
Ltac Zify.zify_post_hook ::= Z.div_mod_to_equations.
#[local] Opaque std_registry.

(** ** Requests *)

Lemma have_cons f fs vs :
  have_types (f :: fs) vs = true ->
  exists v vs', vs = v :: vs' /\ has_type f v = true /\ have_types fs vs' = true.
Proof.
  destruct vs as [|v vs']; [discriminate|]. cbn [have_types]. intros H.
  apply andb_prop in H as [H1 H2]. eauto.
Qed.
Lemma have_nil vs : have_types [] vs = true -> vs = [].
Proof. now destruct vs. Qed.
Lemma has_FU k v : has_type (FU k) v = true -> exists n, v = VU n /\ (n < 256 ^ N.of_nat k)%N.
Proof. destruct v; cbn [has_type]; try discriminate. intros H. apply N.ltb_lt in H. eauto. Qed.
Lemma has_FBytes v : has_type FBytes v = true -> exists b, v = VBytes b.
Proof. destruct v; cbn [has_type]; try discriminate. eauto. Qed.
Lemma has_FArr n v : has_type (FArr n) v = true -> exists b, v = VArr b /\ List.length b = n.
Proof. destruct v; cbn [has_type]; try discriminate. intros H. apply Nat.eqb_eq in H. eauto. Qed.

(** Splits [typed t vs] into the fields. *)
Ltac fields H :=
  unfold typed in H; cbn [layout] in H;
  repeat match type of H with
  | have_types (_ :: _) _ = true =>
      let v := fresh "v" in let w := fresh "w" in let V := fresh "V" in
      apply have_cons in H as (v & w & -> & V & H);
      match type of V with
      | has_type (FU _) _ = true => let n := fresh "n" in apply has_FU in V as (n & -> & V); cbn in V
      | has_type FBytes _ = true => let b := fresh "b" in apply has_FBytes in V as (b & ->)
      | has_type (FArr _) _ = true => let b := fresh "b" in apply has_FArr in V as (b & -> & V)
      | _ => idtac
      end
  | have_types [] _ = true => apply have_nil in H; subst
  end.

(** ** Every handler ends without a panic; its replies carry the request's transaction *)

Definition replies_with {S} (tr : option N) : hstate S -> unit -> list event -> Prop :=
  fun _ _ evs => Forall (fun c => cmd_trx c = tr) (written evs).

Ltac fin := cbn [written flat_map app]; repeat constructor.

Lemma ext_trx {S} req (h : hstate S) :
  post (HandleExtRemote std_registry req) h
    (fun h' _ evs => Forall (fun c => cmd_trx c = cmd_trx req) (written evs) /\ calls evs = []
                     /\ h_dev h' = h_dev h /\ h_cert h' = h_cert h /\ h_trx h' = h_trx h).
Proof.
  unfold HandleExtRemote. by_payload req; cbv beta zeta iota; hrun; fin.
Qed.

Lemma disp_trx {S} clock req (h : hstate S) :
  post (HandleDispRemote std_registry clock req) h
    (fun h' _ evs => Forall (fun c => cmd_trx c = cmd_trx req) (written evs) /\ calls evs = []
                     /\ h_dev h' = h_dev h /\ h_cert h' = h_cert h /\ h_trx h' = h_trx h).
Proof.
  unfold HandleDispRemote. by_payload req; cbv beta zeta iota; hrun; fin.
Qed.

Lemma audio_trx {S} req (h : hstate S) :
  post (HandleAudio std_registry req) h
    (fun h' _ evs => Forall (fun c => cmd_trx c = cmd_trx req) (written evs) /\ calls evs = []
                     /\ h_dev h' = h_dev h /\ h_cert h' = h_cert h /\ h_trx h' = h_trx h).
Proof.
  unfold HandleAudio. by_payload req; cbv beta zeta iota; hrun; fin.
Qed.

Lemma written_tokens l evs :
  written (map (fun t => Called (CSetToken t)) l ++ evs) = written evs.
Proof. induction l; [reflexivity|]. cbn. exact IHl. Qed.

Lemma calls_tokens l evs :
  calls (map (fun t => Called (CSetToken t)) l ++ evs) = map CSetToken l ++ calls evs.
Proof. induction l; [reflexivity|]. cbn. now f_equal. Qed.

Lemma general_trx {S} (dev : DeviceGeneral S) req h :
  request_ok req ->
  post (HandleGeneral std_registry dev req) h
    (fun _ _ evs => forall c, In c (written evs) ->
       cmd_trx c = cmd_trx req \/ (is_request req general_EndIDPS [VU 0] /\ next_auth h c)).
Proof.
  intros Hok. unfold request_ok in Hok. unfold HandleGeneral.
  by_payload req; cbv beta zeta iota; hrun;
    rewrite ?written_tokens;
    try (cbn [written flat_map app In]; intros c Hc; repeat destruct Hc as [<-|Hc];
         try contradiction; left; reflexivity).
  cbn [written flat_map app In]. intros c [<-|[<-|[]]]; [now left|]. right. fields Hok.
  cbn in E. subst n. split; [exact P|]. exists general_GetDevAuthenticationInfo.
  split; [reflexivity|]. split; [apply registered_in; vm_compute; reflexivity|]. split; reflexivity.
Qed.

(** ** Acknowledgements *)

Ltac ack_case :=
  cbn [written flat_map app]; repeat constructor;
  unfold reply_type; cbn [cmd_payload payload_type ack ackSuccess ackPending disp_ackSuccess ext_ack ackFIDTokenValues];
  let u := fresh "u" in let E := fresh "E" in let F := fresh "F" in
  intros u E F; injection E as <-; first [reflexivity | exfalso; cbn [In ack_types] in F; repeat destruct F as [F|F]; discriminate F || contradiction].

Lemma general_acks {S} (dev : DeviceGeneral S) req h :
  post (HandleGeneral std_registry dev req) h (fun _ _ evs => acks_ok (cmd8 req) evs).
Proof.
  unfold HandleGeneral, acks_ok.
  by_payload req; cbv beta zeta iota; hrun; rewrite ?written_tokens; ack_case.
Qed.

Lemma ext_acks {S} req (h : hstate S) :
  post (HandleExtRemote std_registry req) h (fun _ _ evs => acks_ok (CmdID (cmd_id req)) evs).
Proof.
  unfold HandleExtRemote, acks_ok. by_payload req; cbv beta zeta iota; hrun; ack_case.
Qed.

Lemma disp_acks {S} clock req (h : hstate S) :
  post (HandleDispRemote std_registry clock req) h (fun _ _ evs => acks_ok (cmd8 req) evs).
Proof.
  unfold HandleDispRemote, acks_ok. by_payload req; cbv beta zeta iota; hrun; ack_case.
Qed.

Lemma audio_acks {S} n req (h : hstate S) :
  post (HandleAudio std_registry req) h (fun _ _ evs => acks_ok n evs).
Proof.
  unfold HandleAudio, acks_ok. by_payload req; cbv beta zeta iota; hrun; ack_case.
Qed.

Lemma acks_ok_app n a b : acks_ok n a -> acks_ok n b -> acks_ok n (a ++ b).
Proof.
  unfold acks_ok, written. rewrite flat_map_app. intros A B. apply Forall_app. now split.
Qed.

Lemma post_app {S A B} (m : act S A) (k : A -> act S B) h (P : list event -> Prop) :
  (forall a b, P a -> P b -> P (a ++ b)) ->
  post m h (fun _ _ evs => P evs) -> (forall h1 a, post (k a) h1 (fun _ _ evs => P evs)) ->
  post (seq m k) h (fun _ _ evs => P evs).
Proof.
  intros HP Hm Hk. apply post_seq. eapply post_weaken; [exact Hm|].
  intros h1 a e1 H1. eapply post_weaken; [apply Hk|]. intros h2 b e2 H2. auto.
Qed.

Lemma decoded_id rt reg e pkt e' c x :
  UnmarshalCmd rt reg e pkt = Ret (e', c, x) ->
  packet_id pkt = Some (cmd_id c) \/ (packet_id pkt = None /\ cmd_id c = 0%N).
Proof.
  intros H. destruct (packet_id pkt) as [id|] eqn:P.
  - left. destruct (Lookup reg id (List.length (packet_body pkt)) (mode_after e [id])) as [[t b]|] eqn:L.
    + rewrite (UnmarshalCmd_found _ _ _ _ _ _ _ P L) in H. cbv zeta in H.
      destruct (b && _); [injection H as <- <- <-; reflexivity|].
      destruct (payload_unmarshal rt t _) as [[[|] [q|err]]|]; cbn [bind] in H; try discriminate;
        injection H as <- <- <-; reflexivity.
    + rewrite (UnmarshalCmd_unknown _ _ _ _ _ P L) in H. injection H as <- <- <-. reflexivity.
  - right. destruct (UnmarshalCmd_short rt reg e pkt P) as (y & E & _). rewrite E in H.
    injection H as <- <- <-. auto.
Qed.

Lemma some_eq {A} (a b : A) : Some a = Some b -> a = b.
Proof. congruence. Qed.

Lemma packet_id_wire pkt id : packet_id pkt = Some id -> wire_id id.
Proof.
  unfold packet_id, wire_id. destruct pkt as [|l [|c r]]; try discriminate.
  pose proof (b2n_lt l). pose proof (b2n_lt c).
  destruct (N.eqb_spec (b2n l) 4).
  - destruct r as [|d r]; [discriminate|]. pose proof (b2n_lt d). intros E. apply some_eq in E. subst id.
    change (2 ^ 24)%N with 16777216%N. split; [lia|left; lia].
  - intros E. apply some_eq in E. subst id. change (2 ^ 24)%N with 16777216%N. split; [lia|right; lia].
Qed.

Lemma decoded_wire rt reg e pkt e' c x :
  UnmarshalCmd rt reg e pkt = Ret (e', c, x) -> wire_id (cmd_id c).
Proof.
  intros H. destruct (decoded_id _ _ _ _ _ _ _ H) as [P|[_ ->]].
  - exact (packet_id_wire _ _ P).
  - split; [reflexivity|right; reflexivity].
Qed.

Lemma handle_acks {S} clock (dev : DeviceGeneral S) req h :
  wire_id (cmd_id req) ->
  post (handlePacket std_registry clock dev req) h (fun _ _ evs => acks_ok (cmd_id req mod 65536)%N evs).
Proof.
  intros [H1 H2]. unfold handlePacket. cbv zeta.
  assert (E8 : LingoID (cmd_id req) <> 4%N -> cmd8 req = (cmd_id req mod 65536)%N).
  { unfold cmd8. rewrite CmdID_eq, LingoID_eq. intros Hl. lia. }
  destruct (N.eqb_spec (LingoID (cmd_id req)) LingoGeneralID) as [L|L];
    [|destruct (N.eqb_spec (LingoID (cmd_id req)) LingoDisplayRemoteID) as [L1|L1];
      [|destruct (N.eqb_spec (LingoID (cmd_id req)) LingoExtRemoteID) as [L2|L2];
        [|destruct (N.eqb_spec (LingoID (cmd_id req)) LingoDigitalAudioID) as [L3|L3]]]].
  - rewrite <- E8 by (rewrite L; discriminate).
    apply post_app; [exact (acks_ok_app _)| |intros; apply general_acks].
    unfold audio_Start.
    by_payload req; cbv beta zeta iota; hrun; unfold acks_ok; ack_case.
  - rewrite <- E8 by (rewrite L1; discriminate).
    apply post_app; [exact (acks_ok_app _)|apply disp_acks|]. intros. apply post_ret. constructor.
  - rewrite <- CmdID_eq. apply ext_acks.
  - apply audio_acks.
  - apply post_ret. constructor.
Qed.

(** ** Reply types *)

Ltac type_case :=
  unfold of_types; cbn [written flat_map app];
  repeat (apply Forall2_cons; [split; [apply registered_in; vm_compute; reflexivity|reflexivity]|]);
  apply Forall2_nil.

Lemma general_table {S} (dev : DeviceGeneral S) req h :
  request_ok req ->
  post (HandleGeneral std_registry dev req) h
    (fun _ _ evs => of_types (written evs)
       (general_replies (snd (dev_UIMode dev (h_dev h)) =? 1)%N (cmd_payload req))).
Proof.
  intros Hok. unfold request_ok in Hok. unfold HandleGeneral.
  by_payload req; cbv beta zeta iota.
  all: hrun.
  all: rewrite ?written_tokens; change UIModeExtended with 1%N in *.
  all: cbn [general_replies payload_type].
  all: match goal with
       | |- of_types _ (row ?a ?b) => let r := eval vm_compute in (row a b) in change (row a b) with r
       | _ => idtac
       end.
  all: try solve [type_case].
  1-2: rewrite E; type_case.
  1-2: apply (f_equal negb) in E; rewrite Bool.negb_involutive in E; rewrite E; type_case.
  all: fields Hok; unfold fu in *; cbn [nth] in *.
  all: repeat match goal with
       | |- of_types _ (if ?b then _ else _) => let F := fresh "F" in destruct b eqn:F
       end.
  all: try solve [exfalso; lia | type_case].
  all: now destruct v.
Qed.

Lemma ext_table {S} req (h : hstate S) :
  post (HandleExtRemote std_registry req) h
    (fun _ _ evs => of_types (written evs) (simple_replies ext_rows (cmd_payload req))).
Proof.
  unfold HandleExtRemote. by_payload req; cbv beta zeta iota.
  all: hrun.
  all: cbn [simple_replies payload_type].
  all: match goal with
       | |- of_types _ (row ?a ?b) => let r := eval vm_compute in (row a b) in change (row a b) with r
       | _ => idtac
       end.
  all: type_case.
Qed.

Lemma audio_table {S} req (h : hstate S) :
  post (HandleAudio std_registry req) h
    (fun _ _ evs => of_types (written evs) (simple_replies audio_rows (cmd_payload req))).
Proof.
  unfold HandleAudio. by_payload req; cbv beta zeta iota.
  all: hrun.
  all: cbn [simple_replies payload_type].
  all: match goal with
       | |- of_types _ (row ?a ?b) => let r := eval vm_compute in (row a b) in change (row a b) with r
       | _ => idtac
       end.
  all: type_case.
Qed.

Lemma disp_state_known ty :
  (ty =? 9)%N = false ->
  match disp_state_info ty with
  | Some _ => ((ty <=? 16) && negb (ty =? 10))%N%bool = true
  | None => ((ty <=? 16) && negb (ty =? 10))%N%bool = false
  end.
Proof.
  intros H9. destruct (N.le_gt_cases ty 16) as [L|L].
  - assert (Hin : In ty (map N.of_nat (List.seq 0 17))).
    { apply in_map_iff. exists (N.to_nat ty). split; [lia|]. apply in_seq. lia. }
    cbn in Hin. repeat destruct Hin as [<-|Hin]; try reflexivity; try discriminate H9; contradiction.
  - replace (disp_state_info ty) with (@None iface); [lia|].
    destruct ty as [|p]; [lia|].
    do 5 (try destruct p as [p|p|]); try reflexivity; exfalso; lia.
Qed.

Lemma disp_track_known ty :
  match disp_track_info ty with
  | Some _ => (ty <=? 8)%N = true
  | None => (ty <=? 8)%N = false
  end.
Proof.
  destruct (N.le_gt_cases ty 8) as [L|L].
  - assert (Hin : In ty (map N.of_nat (List.seq 0 9))).
    { apply in_map_iff. exists (N.to_nat ty). split; [lia|]. apply in_seq. lia. }
    cbn in Hin. repeat destruct Hin as [<-|Hin]; try reflexivity; contradiction.
  - replace (disp_track_info ty) with (@None iface); [lia|].
    destruct ty as [|p]; [lia|].
    do 5 (try destruct p as [p|p|]); try reflexivity; exfalso; lia.
Qed.

Lemma disp_table {S} clock req (h : hstate S) :
  request_ok req ->
  post (HandleDispRemote std_registry clock req) h
    (fun _ _ evs => of_types (written evs) (disp_replies (cmd_payload req))).
Proof.
  intros Hok. unfold request_ok in Hok.
  unfold HandleDispRemote. by_payload req; cbv beta zeta iota.
  all: hrun.
  all: cbn [disp_replies simple_replies payload_type].
  all: match goal with
       | |- of_types _ (row ?a ?b) => let r := eval vm_compute in (row a b) in change (row a b) with r
       | _ => idtac
       end.
  all: try solve [type_case].
  all: fields Hok; unfold fu in *; cbn [nth] in *.
  - apply N.eqb_eq in E. subst n. cbn. type_case.
  - pose proof (disp_state_known _ E) as K. rewrite E0 in K. rewrite K. type_case.
  - pose proof (disp_state_known _ E) as K. rewrite E0 in K. rewrite K. type_case.
  - pose proof (disp_track_known n) as K. rewrite E in K. rewrite K. type_case.
  - pose proof (disp_track_known n) as K. rewrite E in K. rewrite K. type_case.
  all: now destruct v.
Qed.

(** ** UI mode *)

Lemma tell_tokens_mode {S} (dev : DeviceGeneral S) mode l s :
  keeps_mode dev mode -> mode (tell_tokens dev s l) = mode s.
Proof.
  intros K. assert (T : forall s t, mode (fst (dev_SetToken dev s t)) = mode s) by apply K.
  revert s. induction l as [|t l IH]; intros s; [reflexivity|]. cbn [tell_tokens]. now rewrite IH, T.
Qed.

Definition mode_next (m : N) (r : command) : N :=
  match cmd_payload r with
  | Some (Pst general_EnterRemoteUIMode _) => 1%N
  | Some (Pst general_ExitRemoteUIMode _) => if (m =? 1)%N then 0%N else m
  | _ => m
  end.

Lemma general_mode {S} (dev : DeviceGeneral S) mode req h :
  keeps_mode dev mode ->
  post (HandleGeneral std_registry dev req) h
    (fun h' _ _ => mode (h_dev h') = mode_next (mode (h_dev h)) req).
Proof.
  intros K. pose proof (fun l s => tell_tokens_mode dev mode l s K) as KT.
  destruct K as (K1 & K2 & K3 & K4 & K5 & K6 & K7 & K8 & K9 & K10 & K11 & K12 & K13 & K14 & K15 & K16 & K17 & K18).
  assert (K1a : forall s, mode (fst (dev_UIMode dev s)) = mode s) by (intros; apply K1).
  assert (K1b : forall s, snd (dev_UIMode dev s) = mode s) by (intros; apply K1).
  clear K1. unfold HandleGeneral, mode_next.
  by_payload req; cbv beta zeta iota.
  all: hrun.
  all: cbn [log counted h_dev];
       rewrite ?K2, ?K3, ?K4, ?K5, ?K6, ?K7, ?K8, ?K9, ?K10, ?K11, ?K12, ?K13, ?K14, ?K15, ?K16, ?K17, ?K18, ?KT, ?K1a;
       try reflexivity.
  all: rewrite K1b in E; change UIModeExtended with 1%N in *.
  - now apply N.eqb_eq.
  - apply Bool.negb_true_iff in E. now rewrite E.
  - apply Bool.negb_false_iff in E. now rewrite E.
Qed.

(** Handling a history. *)
Lemma serve_post {S} (handle : command -> act S unit) (I : list command -> hstate S -> Prop) reqs h0 :
  I [] h0 ->
  (forall pre r suf h, reqs = pre ++ r :: suf -> I pre h ->
     post (handle r) h (fun h' _ _ => I (pre ++ [r]) h')) ->
  post (serve handle reqs) h0 (fun h' _ _ => I reqs h').
Proof.
  intros H0 Hs.
  assert (G : forall suf pre h, reqs = pre ++ suf -> I pre h ->
            post (serve handle suf) h (fun h' _ _ => I reqs h')).
  { induction suf as [|r suf IH]; intros pre h E HI.
    - apply post_ret. rewrite app_nil_r in E. now subst.
    - cbn [serve]. apply post_seq. eapply post_weaken; [eapply Hs; eassumption|].
      intros h1 [] e1 H1. eapply post_weaken; [apply (IH (pre ++ [r]))|].
      + now rewrite <- app_assoc.
      + exact H1.
      + auto. }
  exact (G reqs [] h0 eq_refl H0).
Qed.

Lemma entered_snoc i pre r :
  entered i (pre ++ [r])
  = match cmd_payload r with
    | Some (Pst general_EnterRemoteUIMode _) => true
    | Some (Pst general_ExitRemoteUIMode _) => false
    | _ => entered i pre
    end.
Proof. revert i. induction pre as [|q pre IH]; intros i; cbn [entered app]; [reflexivity|apply IH]. Qed.

Lemma serve_mode {S} (dev : DeviceGeneral S) mode reqs h :
  keeps_mode dev mode ->
  post (serve (HandleGeneral std_registry dev) reqs) h
    (fun h' _ _ => (mode (h_dev h') =? 1)%N = entered (mode (h_dev h) =? 1)%N reqs
       /\ ((mode (h_dev h) <= 1)%N -> (mode (h_dev h') <= 1)%N)).
Proof.
  intros K.
  apply (serve_post _ (fun pre h' => (mode (h_dev h') =? 1)%N = entered (mode (h_dev h) =? 1)%N pre
       /\ ((mode (h_dev h) <= 1)%N -> (mode (h_dev h') <= 1)%N))).
  - split; [reflexivity|auto].
  - intros pre r suf h1 E [H1 H2]. eapply post_weaken; [apply (general_mode dev mode r h1 K)|].
    intros h2 _ _ ->. rewrite entered_snoc, <- H1. unfold mode_next.
    by_payload r; auto.
    + split; [reflexivity|lia].
    + destruct (N.eqb_spec (mode (h_dev h1)) 1); split; auto; lia.
Qed.

(** Replies that are known exactly. *)
Ltac replied :=
  eexists; split; [reflexivity|];
  eexists; split; [reflexivity|]; split; [apply registered_in; vm_compute; reflexivity|];
  split; reflexivity.

Lemma remote_mode_answer {S} (dev : DeviceGeneral S) req vs h :
  is_request req general_RequestRemoteUIMode vs ->
  post (HandleGeneral std_registry dev req) h
    (fun _ _ evs => exists c, evs = [Called CUIMode; Wrote c]
       /\ is_reply c (cmd_trx req)
            (Pst general_ReturnRemoteUIMode [VU (if snd (dev_UIMode dev (h_dev h)) =? 1 then 1 else 0)%N])).
Proof. intros P. unfold HandleGeneral. rewrite P. cbv beta zeta iota. hrun. replied. Qed.

Lemma uimode_answer {S} (dev : DeviceGeneral S) req vs h :
  is_request req general_GetUIMode vs ->
  post (HandleGeneral std_registry dev req) h
    (fun _ _ evs => exists c, evs = [Called CUIMode; Wrote c]
       /\ is_reply c (cmd_trx req) (Pst general_RetUIMode [VU (snd (dev_UIMode dev (h_dev h)))])).
Proof. intros P. unfold HandleGeneral. rewrite P. cbv beta zeta iota. hrun. replied. Qed.

Ltac replied2 :=
  do 2 eexists; split; [reflexivity|]; split;
  (eexists; split; [reflexivity|]; split; [apply registered_in; vm_compute; reflexivity|];
   split; reflexivity).

Lemma ackSuccess_eq req : ackSuccess req = success_ack req.
Proof. unfold ackSuccess, success_ack, cmd8. now rewrite CmdID_eq. Qed.
Lemma ackPending_eq req : ackPending req 300 = pending_ack req.
Proof. unfold ackPending, pending_ack, cmd8. now rewrite CmdID_eq. Qed.

Lemma mode_change {S} (dev : DeviceGeneral S) req vs h (enter : bool) :
  is_request req (if enter then general_EnterRemoteUIMode else general_ExitRemoteUIMode) vs ->
  post (HandleGeneral std_registry dev req) h
    (fun _ _ evs =>
       if Bool.eqb (snd (dev_UIMode dev (h_dev h)) =? 1)%N enter
       then exists c, evs = [Called CUIMode; Wrote c] /\ is_reply c (cmd_trx req) (success_ack req)
       else exists c1 c2, evs = [Called CUIMode; Wrote c1; Called (CSetUIMode (if enter then 1 else 0)%N); Wrote c2]
            /\ is_reply c1 (cmd_trx req) (pending_ack req)
            /\ is_reply c2 (cmd_trx req) (success_ack req)).
Proof.
  intros P. rewrite <- ackSuccess_eq, <- ackPending_eq.
  unfold HandleGeneral. destruct enter; rewrite P; cbv beta zeta iota; hrun;
    change UIModeExtended with 1%N in *;
    try (match type of E with negb _ = _ => apply (f_equal negb) in E; rewrite Bool.negb_involutive in E end);
    rewrite E; cbn [Bool.eqb negb].
  - replied.
  - replied2.
  - replied.
  - replied2.
Qed.

Lemma setuimode_ignored {S} (dev : DeviceGeneral S) req vs h :
  is_request req general_SetUIMode vs ->
  post (HandleGeneral std_registry dev req) h
    (fun h' _ evs => h_dev h' = h_dev h
       /\ exists c, evs = [Wrote c] /\ is_reply c (cmd_trx req) (success_ack req)).
Proof.
  intros P. rewrite <- ackSuccess_eq. unfold HandleGeneral. rewrite P. cbv beta zeta iota. hrun.
  split; [reflexivity|]. replied.
Qed.

(** ** Tokens *)

Lemma tokens_reply {S} (dev : DeviceGeneral S) req l h :
  cmd_payload req = Some (PTokens l) ->
  post (HandleGeneral std_registry dev req) h
    (fun _ _ evs => exists c acks, evs = map (fun t => Called (CSetToken t)) l ++ [Wrote c]
       /\ is_reply c (cmd_trx req) (PTokenAcks acks)
       /\ Forall2 (fun v a => ta_type a = tv_type v /\ ta_sub a = tv_sub v
                              /\ ta_ack a = ackToken (tv_token v)) l acks).
Proof.
  intros P. unfold HandleGeneral. rewrite P. cbv beta zeta iota. hrun.
  do 2 eexists. split; [reflexivity|]. split.
  - eexists; split; [reflexivity|]; split; [apply registered_in; vm_compute; reflexivity|];
    split; reflexivity.
  - clear P. induction l as [|v l IH]; cbn [map]; [apply Forall2_nil|].
    apply Forall2_cons; [repeat split|exact IH].
Qed.

Lemma tell_tokens_dev l s :
  tell_tokens DevGeneral_device s l = mkDG (dg_uimode s) (dg_tokens s ++ l).
Proof.
  revert s. induction l as [|t l IH]; intros s; cbn [tell_tokens].
  - rewrite app_nil_r. now destruct s.
  - rewrite IH. cbn. now rewrite <- app_assoc.
Qed.

Lemma general_tokens req h :
  post (HandleGeneral std_registry DevGeneral_device req) h
    (fun h' _ _ => dg_tokens (h_dev h')
       = match cmd_payload req with
         | Some (Pst general_StartIDPS _) => []
         | Some (PTokens l) => dg_tokens (h_dev h) ++ l
         | _ => dg_tokens (h_dev h)
         end).
Proof.
  unfold HandleGeneral. by_payload req; cbv beta zeta iota.
  all: hrun.
  all: cbn [log counted h_dev]; try reflexivity.
  now rewrite tell_tokens_dev.
Qed.

Lemma tokens_snoc k pre r :
  tokens_since_start k (pre ++ [r])
  = match cmd_payload r with
    | Some (Pst general_StartIDPS _) => []
    | Some (PTokens l) => tokens_since_start k pre ++ l
    | _ => tokens_since_start k pre
    end.
Proof. revert k. induction pre as [|q pre IH]; intros k; cbn [tokens_since_start app]; [reflexivity|apply IH]. Qed.

Lemma serve_tokens reqs h :
  post (serve (HandleGeneral std_registry DevGeneral_device) reqs) h
    (fun h' _ _ => dg_tokens (h_dev h') = tokens_since_start (dg_tokens (h_dev h)) reqs).
Proof.
  apply (serve_post _ (fun pre h' => dg_tokens (h_dev h') = tokens_since_start (dg_tokens (h_dev h)) pre)).
  - reflexivity.
  - intros pre r suf h1 _ H1. eapply post_weaken; [apply general_tokens|].
    intros h2 _ _ ->. rewrite tokens_snoc, <- H1. reflexivity.
Qed.

Lemma ack_of_consistent v :
  consistent_token v ->
  match ackToken (tv_token v) with
  | Some b => known_token (tv_type v) (tv_sub v) /\ ack_content (tv_token v) b
  | None => ~ known_token (tv_type v) (tv_sub v)
  end.
Proof.
  intros [l o d|ty w|i s|ty sub t vs Hs Ht|ty sub l Hk]; cbn [tv_token tv_type tv_sub ackToken ack_content].
  1-3: split; [right; cbn; tauto|reflexivity].
  - destruct Hs; cbn [ack_content]; try (split; [unfold known_token; cbn; tauto|reflexivity]).
    fields Ht. unfold fu. cbn [nth]. split; [right; cbn; tauto|reflexivity].
  - exact Hk.
Qed.

(** ** Certificates *)

Definition cert_next (buf : bytes) (r : command) : bytes :=
  match section r with
  | Some (n, _, d) => if (n =? 0)%N then d else buf ++ d
  | None => buf
  end.

Lemma certs_app a b : certs (a ++ b) = certs a ++ certs b.
Proof. unfold certs, calls. now rewrite !flat_map_app. Qed.

Lemma certs_tokens l evs : certs (map (fun t => Called (CSetToken t)) l ++ evs) = certs evs.
Proof.
  rewrite certs_app. replace (certs (map _ l)) with (@nil bytes); [reflexivity|].
  induction l; [reflexivity|]. cbn. exact IHl.
Qed.

Lemma general_cert {S} (dev : DeviceGeneral S) req h :
  request_ok req ->
  post (HandleGeneral std_registry dev req) h
    (fun h' _ evs => h_cert h' = cert_next (h_cert h) req
       /\ certs evs = match section req with
                      | Some (n, last, _) => if (last <=? n)%N then [cert_next (h_cert h) req] else []
                      | None => []
                      end).
Proof.
  intros Hok. unfold request_ok in Hok. unfold cert_next, section, HandleGeneral.
  by_payload req; cbv beta zeta iota.
  all: try (hrun; rewrite ?certs_tokens; split; reflexivity).
  fields Hok. unfold fu, fb. cbn [nth].
  hrun; cbn [nth] in *.
  all: rewrite ?E.
  all: try (replace (n2 <=? n1)%N with false by lia); try (replace (n2 <=? n1)%N with true by lia).
  all: split; reflexivity.
Qed.

Lemma serve_cert {S} (dev : DeviceGeneral S) reqs h :
  Forall request_ok reqs ->
  post (serve (HandleGeneral std_registry dev) reqs) h
    (fun h' _ _ => h_cert h' = fold_left cert_next reqs (h_cert h)).
Proof.
  intros Hok.
  apply (serve_post _ (fun pre h' => h_cert h' = fold_left cert_next pre (h_cert h))).
  - reflexivity.
  - intros pre r suf h1 E H1. subst reqs. apply Forall_app in Hok as [_ Hok]. inversion Hok; subst.
    eapply post_weaken; [apply general_cert; assumption|]. intros h2 _ e [-> _].
    rewrite fold_left_app. cbn. now rewrite H1.
Qed.

(** What the buffer holds, said without following the steps. *)
Lemma cert_fold_cases reqs buf :
  (exists pre r0 suf, reqs = pre ++ r0 :: suf /\ first_section r0 /\ Forall (fun r => ~ first_section r) suf
     /\ fold_left cert_next reqs buf = sections_data (r0 :: suf))
  \/ (Forall (fun r => ~ first_section r) reqs /\ fold_left cert_next reqs buf = buf ++ sections_data reqs).
Proof.
  induction reqs as [|r reqs IH] using rev_ind.
  - right. split; [constructor|]. cbn. now rewrite app_nil_r.
  - rewrite fold_left_app. cbn [fold_left].
    assert (D : sections_data [r] = match section r with Some (_, _, d) => d | None => [] end).
    { unfold sections_data. cbn. apply app_nil_r. }
    assert (DA : forall a b, sections_data (a ++ b) = sections_data a ++ sections_data b).
    { intros. unfold sections_data. apply flat_map_app. }
    destruct (section r) as [[[n last] d]|] eqn:Hs.
    + destruct (N.eqb_spec n 0) as [->|Hn].
      * left. exists reqs, r, []. split; [reflexivity|]. split; [now exists last, d|]. split; [constructor|].
        rewrite D. unfold cert_next. rewrite Hs. reflexivity.
      * assert (NF : ~ first_section r). { intros (l' & d' & E). congruence. }
        assert (E : forall b, cert_next b r = b ++ sections_data [r]).
        { intros b. unfold cert_next. rewrite Hs, D. now apply N.eqb_neq in Hn as ->. }
        rewrite E. destruct IH as [(pre & r0 & suf & -> & F & NS & ->)|[NS ->]].
        -- left. exists pre, r0, (suf ++ [r]). rewrite <- app_assoc. split; [reflexivity|]. split; [exact F|].
           split; [apply Forall_app; auto|]. now rewrite app_comm_cons, DA.
        -- right. split; [apply Forall_app; auto|]. now rewrite DA, app_assoc.
    + assert (NF : ~ first_section r). { intros (l' & d' & E). congruence. }
      assert (E : forall b, cert_next b r = b ++ sections_data [r]).
      { intros b. unfold cert_next. rewrite Hs, D. now rewrite app_nil_r. }
      rewrite E. destruct IH as [(pre & r0 & suf & -> & F & NS & ->)|[NS ->]].
      * left. exists pre, r0, (suf ++ [r]). rewrite <- app_assoc. split; [reflexivity|]. split; [exact F|].
        split; [apply Forall_app; auto|]. now rewrite app_comm_cons, DA.
      * right. split; [apply Forall_app; auto|]. now rewrite DA, app_assoc.
Qed.

(** The certificate calls of a whole history. *)
Lemma serve_certs_all {S} (dev : DeviceGeneral S) reqs h :
  Forall request_ok reqs ->
  post (serve (HandleGeneral std_registry dev) reqs) h
    (fun h' _ evs => h_cert h' = fold_left cert_next reqs (h_cert h)
       /\ certs evs = (fix go buf rs := match rs with
                       | [] => []
                       | r :: rs' => match section r with
                                     | Some (n, last, _) => if (last <=? n)%N then [cert_next buf r] else []
                                     | None => []
                                     end ++ go (cert_next buf r) rs'
                       end) (h_cert h) reqs).
Proof.
  revert h. induction reqs as [|r reqs IH]; intros h Hok.
  - apply post_ret. split; reflexivity.
  - inversion Hok; subst. cbn [serve fold_left]. apply post_seq.
    eapply post_weaken; [apply general_cert; assumption|]. intros h1 [] e1 [C1 K1].
    eapply post_weaken; [apply IH; assumption|]. intros h2 x e2 [C2 K2].
    rewrite C1 in C2, K2. split; [exact C2|]. rewrite certs_app, K1, K2. reflexivity.
Qed.

(** ** End of IDPS *)

Lemma end_idps {S} (dev : DeviceGeneral S) req status h :
  is_request req general_EndIDPS [VU status] ->
  post (HandleGeneral std_registry dev req) h
    (fun h' _ evs => exists rest, evs = Called (CEndIDPS status) :: rest
       /\ (status = 0%N -> exists c1 c2, rest = [Wrote c1; Wrote c2]
             /\ is_reply c1 (cmd_trx req) (Pst general_IDPSStatus [VU 0]) /\ next_auth h c2)
       /\ (status = 1%N -> exists c, rest = [Wrote c] /\ is_reply c (cmd_trx req) (Pst general_IDPSStatus [VU 4]))
       /\ (status = 2%N -> exists c, rest = [Wrote c] /\ is_reply c (cmd_trx req) (Pst general_IDPSStatus [VU 6]))
       /\ ((2 < status)%N -> rest = [])).
Proof.
  intros P. unfold HandleGeneral. rewrite P. cbv beta zeta iota.
  hrun; unfold fu in *; cbn [nth] in *; subst status;
    (eexists; split; [reflexivity|]; repeat apply conj; intros; try lia; try discriminate; try reflexivity).
  - replied2.
  - replied.
  - replied.
Qed.

Lemma start_idps {S} (dev : DeviceGeneral S) req vs h :
  is_request req general_StartIDPS vs ->
  post (HandleGeneral std_registry dev req) h
    (fun h' _ evs => h_trx h' = 0%N
       /\ exists c, evs = [Called CStartIDPS; Wrote c] /\ is_reply c (cmd_trx req) (success_ack req)).
Proof.
  intros P. rewrite <- ackSuccess_eq. unfold HandleGeneral. rewrite P. cbv beta zeta iota.
  hrun. split; [reflexivity|]. replied.
Qed.

Lemma counter_changes {S} (dev : DeviceGeneral S) req h :
  request_ok req ->
  post (HandleGeneral std_registry dev req) h
    (fun h' _ _ => h_trx h' = match cmd_payload req with
                              | Some (Pst general_StartIDPS _) => 0%N
                              | Some (Pst general_EndIDPS [VU 0]) => ((h_trx h + 1) mod 2 ^ 32)%N
                              | _ => h_trx h
                              end).
Proof.
  intros Hok. unfold request_ok in Hok. unfold HandleGeneral. by_payload req; cbv beta zeta iota.
  all: try (hrun; reflexivity).
  fields Hok. unfold fu. cbn [nth]. hrun; reflexivity.
Qed.

(** Certificates handed over for a list of sections. *)
Fixpoint hand_over (buf : bytes) (l : list (N * N * bytes)) : list bytes :=
  match l with
  | [] => []
  | (n, last, d) :: l' =>
      let buf' := if (n =? 0)%N then d else buf ++ d in
      (if (last <=? n)%N then [buf'] else []) ++ hand_over buf' l'
  end.

Lemma serve_hand_over {S} (dev : DeviceGeneral S) reqs h :
  Forall request_ok reqs ->
  post (serve (HandleGeneral std_registry dev) reqs) h
    (fun _ _ evs => certs evs = hand_over (h_cert h) (sections reqs)).
Proof.
  intros Hok. eapply post_weaken; [apply serve_certs_all, Hok|]. intros h' _ evs [_ ->].
  generalize (h_cert h). clear. induction reqs as [|r reqs IH]; intros buf; [reflexivity|].
  rewrite IH. unfold sections, cert_next. cbn [flat_map].
  destruct (section r) as [[[n last] d]|]; reflexivity.
Qed.

Lemma hand_over_rest ds k last buf :
  (0 < k)%nat -> N.of_nat (k + List.length ds) = (last + 1)%N -> ds <> [] ->
  hand_over buf (map (fun '(i, d) => (N.of_nat i, last, d)) (combine (List.seq k (List.length ds)) ds))
  = [buf ++ List.concat ds].
Proof.
  revert k buf. induction ds as [|d ds IH]; intros k buf Hk Hl Hne; [now destruct Hne|].
  cbn [List.length List.seq combine map hand_over List.concat]. cbn [List.length] in Hl.
  replace (N.of_nat k =? 0)%N with false by lia.
  destruct ds as [|d2 ds].
  - cbn in *. replace (last <=? N.of_nat k)%N with true by lia. cbn. now rewrite app_nil_r.
  - cbn [List.length] in Hl. replace (last <=? N.of_nat k)%N with false by lia.
    rewrite IH; [|lia|cbn [List.length]; lia|discriminate]. cbn [app]. now rewrite <- app_assoc.
Qed.

Lemma hand_over_whole ds buf :
  ds <> [] -> hand_over buf (whole_certificate ds) = [List.concat ds].
Proof.
  intros Hne. unfold whole_certificate. destruct ds as [|d ds]; [now destruct Hne|].
  assert (L : (len (d :: ds) - 1)%N = N.of_nat (List.length ds)) by (unfold len; cbn [List.length]; lia).
  rewrite L. cbn [List.length List.seq combine map hand_over List.concat]. cbn [N.of_nat N.eqb].
  destruct ds as [|d2 ds].
  - cbn. now rewrite app_nil_r.
  - replace (N.of_nat (List.length (d2 :: ds)) <=? 0)%N with false by (cbn [List.length]; lia).
    cbn [app]. apply hand_over_rest; [lia|lia|discriminate].
Qed.

(** ** Start of the audio lingo *)

Ltac no_audio := unfold no_audio_start; cbn [written flat_map app];
  repeat (apply Forall_cons; [unfold reply_type; cbn [cmd_payload payload_type]; discriminate|]); apply Forall_nil.

Lemma general_no_audio {S} (dev : DeviceGeneral S) req h :
  post (HandleGeneral std_registry dev req) h (fun _ _ evs => no_audio_start evs).
Proof.
  unfold HandleGeneral. by_payload req; cbv beta zeta iota; hrun;
    unfold no_audio_start; rewrite ?written_tokens; no_audio.
Qed.
Lemma ext_no_audio {S} req (h : hstate S) :
  post (HandleExtRemote std_registry req) h (fun _ _ evs => no_audio_start evs).
Proof. unfold HandleExtRemote. by_payload req; cbv beta zeta iota; hrun; no_audio. Qed.
Lemma disp_no_audio {S} clock req (h : hstate S) :
  post (HandleDispRemote std_registry clock req) h (fun _ _ evs => no_audio_start evs).
Proof. unfold HandleDispRemote. by_payload req; cbv beta zeta iota; hrun; no_audio. Qed.
Lemma audio_no_audio {S} req (h : hstate S) :
  post (HandleAudio std_registry req) h (fun _ _ evs => no_audio_start evs).
Proof. unfold HandleAudio. by_payload req; cbv beta zeta iota; hrun; no_audio. Qed.

Lemma seq_ret_l {S A B} (a : A) (k : A -> act S B) h : seq (ret a) k h = k a h.
Proof. reflexivity. Qed.

Lemma post_ext {S A} (m m' : act S A) h Q : m h = m' h -> post m h Q -> post m' h Q.
Proof. intros E (h' & a & evs & [D1 D2] & H). exists h', a, evs. split; [split|]; congruence. Qed.

Lemma audio_start {S} clock (dev : DeviceGeneral S) req h :
  request_ok req ->
  post (handlePacket std_registry clock dev req) h
    (fun _ _ evs =>
       if starts_audio req
       then exists c rest, evs = Wrote c :: rest
            /\ is_reply c (Some ((h_trx h + 1) mod 2 ^ 32 mod 65536)%N) (Pst audio_GetAccSampleRateCaps [])
            /\ no_audio_start rest
       else no_audio_start evs).
Proof.
  intros Hok. unfold handlePacket, starts_audio. cbv zeta. rewrite <- LingoID_eq.
  change LingoGeneralID with 0%N. change LingoDisplayRemoteID with 3%N.
  change LingoExtRemoteID with 4%N. change LingoDigitalAudioID with 10%N.
  destruct (N.eqb_spec (LingoID (cmd_id req)) 0) as [L|L]; cbn [andb].
  - assert (K : forall h, post (HandleGeneral std_registry dev req) h (fun _ _ evs => no_audio_start evs))
      by (intros; apply general_no_audio).
    unfold request_ok in Hok.
    by_payload req; cbv beta iota; try (eapply post_ext; [symmetry; apply seq_ret_l|apply K]).
    fields Hok. unfold fu. cbn [nth].
    replace ((2 <=? n) && (n2 <=? n1) || (n <? 2))%N%bool with ((n <? 2) || (n2 <=? n1))%N%bool by lia.
    destruct ((n <? 2) || (n2 <=? n1))%N%bool.
    + unfold audio_Start. apply post_seq. hrun. eapply post_weaken; [apply K|].
      intros h1 u e1 H1. do 2 eexists. split; [reflexivity|]. split; [|exact H1].
      eexists; split; [reflexivity|]; split; [apply registered_in; vm_compute; reflexivity|];
      split; reflexivity.
    + eapply post_ext; [symmetry; apply seq_ret_l|apply K].
  - destruct (LingoID (cmd_id req) =? 3)%N.
    { apply post_seq. eapply post_weaken; [apply disp_no_audio|]. intros h1 a e1 H1. apply post_ret.
      now rewrite app_nil_r. }
    destruct (LingoID (cmd_id req) =? 4)%N; [apply ext_no_audio|].
    destruct (LingoID (cmd_id req) =? 10)%N; [apply audio_no_audio|].
    apply post_ret. constructor.
Qed.
