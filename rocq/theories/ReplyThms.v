(** Which replies can be marshalled. *)
From Coq Require Import ZifyBool ZifyNat ZifyN.
From Verif Require Import Base BaseFacts GoTypes GoTypesFacts Types Payload Util Lingo Command
  SpecPayload SpecCommand LingoFacts CommandFacts CommandThms PayloadFacts Handlers SpecHandlers HandlersFacts
  HandlersThms.
Ltac Zify.zify_post_hook ::= Z.div_mod_to_equations.
#[local] Opaque std_registry.

(** ** Which replies can be marshalled *)

Definition type_of (p : payload) : pty := match payload_type p with Some t => t | None => anon_struct end.
Definition is_acks (p : payload) : bool := match p with PTokenAcks _ => true | _ => false end.

Definition fine (p : payload) : Prop :=
  well_formed p /\ nil_free p = true
  /\ encodable p = negb (existsb (pty_eqb (type_of p)) unsendable_replies).

(** A reply to [req] that does not control the mode and is fine, or is the list of token acks. *)
Definition token_acks_for (req : command) (p : payload) : Prop :=
  exists l, cmd_payload req = Some (PTokens l) /\ p = PTokenAcks (map ackFIDTokenValue l).
(** Not the id of a packet that can crash its receiver (C20). *)
Definition tame (id : N) : bool := negb (id =? 57)%N && negb (id =? 100)%N.
Definition fine_cmd (req c : command) : Prop :=
  exists p, is_reply c (cmd_trx c) p /\ controls (cmd_id c) = None /\ (fine p \/ token_acks_for req p) /\ tame (cmd_id c) = true.
Definition all_fine (req : command) (evs : list event) : Prop := Forall (fine_cmd req) (written evs).

Definition has_ack (a : token_ack) : bool := match ta_ack a with Some _ => true | None => false end.

Lemma acks_loop_nil rt l :
  forallb has_ack l = false -> acks_marshal_loop rt l = if rt then Panic else Ret (Err errUnknownAck).
Proof.
  unfold has_ack. induction l as [|a l IH]; [discriminate|]. cbn [forallb acks_marshal_loop]. unfold ack_marshal.
  destruct (ta_ack a); cbn [andb bind]; intros H; [|destruct rt; reflexivity].
  rewrite (IH H). destruct rt; reflexivity.
Qed.

Lemma pty_in t l : existsb (pty_eqb t) l = true <-> In t l.
Proof.
  rewrite existsb_exists. split.
  - intros (x & Hx & E). apply pty_eqb_eq in E. now subst.
  - intros H. exists t. split; [exact H|]. now apply pty_eqb_eq.
Qed.

Lemma unsendable_acks id tr l :
  unsendable (mkCmd id tr (Some (PTokenAcks l))) <-> forallb has_ack l = false.
Proof.
  split.
  - intros [(t & E & Hin)|(l' & a & E & Hin & Ha)].
    + injection E as <-. apply pty_in in Hin. vm_compute in Hin. discriminate.
    + injection E as <-. apply Bool.not_true_iff_false. rewrite forallb_forall. intros F.
      specialize (F a Hin). unfold has_ack in F. now rewrite Ha in F.
  - intros F. right. induction l as [|a l IH]; [discriminate|]. cbn [forallb] in F. unfold has_ack at 1 in F.
    destruct (ta_ack a) eqn:Ha.
    + destruct (IH F) as (l' & a' & E & Hin & Ha'). injection E as <-.
      exists (a :: l), a'. repeat split; [now right|exact Ha'].
    + exists (a :: l), a. repeat split; [now left|exact Ha].
Qed.

Lemma unsendable_other id tr p t :
  is_acks p = false -> payload_type p = Some t ->
  unsendable (mkCmd id tr (Some p)) <-> existsb (pty_eqb t) unsendable_replies = true.
Proof.
  intros Hn Ht. rewrite pty_in. split.
  - intros [(u & E & Hin)|(l' & a & E & Hin & Ha)].
    + unfold reply_type in E. cbn [cmd_payload] in E. congruence.
    + injection E as ->. discriminate.
  - intros Hin. left. exists t. split; [exact Ht|exact Hin].
Qed.

Lemma fine_marshals rt e req c :
  fine_cmd req c -> (marshals rt e c <-> ~ unsendable c)
                /\ (rt = false -> unsendable c -> marshal_fails rt e c).
Proof.
  intros (p & (t & Ht & Hin & _ & Hp) & _ & F & _). destruct c as [id tr q]. cbn [cmd_payload cmd_trx cmd_id] in *. subst q.
  assert (K : known_payload std_registry p) by (unfold known_payload; rewrite Ht; eauto).
  destruct (is_acks p) eqn:A.
  - clear F. destruct p; try discriminate A. rewrite unsendable_acks.
    destruct (forallb has_ack l) eqn:E.
    + pose proof (marshal_exactly rt e id tr (PTokenAcks l) K I E) as M. cbn [encodable] in M.
      unfold has_ack in E. rewrite E in M. destruct M as [b M]. split; [|discriminate]. split.
      * intros _. discriminate.
      * intros _. do 2 eexists. exact M.
    + assert (M : exists x, MarshalCmd rt e (mkCmd id tr (Some (PTokenAcks l)))
                  = if rt then Panic else Ret (mode_after e [id], Err x)).
      { eexists. rewrite MarshalCmd_eq. cbn [payload_marshaler]. unfold acks_marshal. rewrite (acks_loop_nil rt l E).
        destruct rt; reflexivity. }
      destruct M as [y M]. split.
      * split; [|intros H; now destruct H]. intros (e' & b & X). rewrite M in X. destruct rt; discriminate.
      * intros -> _. do 2 eexists. exact M.
  - destruct F as [(Hw & Hn & He)|(l & _ & ->)]; [|discriminate].
    rewrite (unsendable_other id tr p t A Ht).
    pose proof (marshal_exactly rt e id tr p K Hw Hn) as M.
    unfold type_of in He. rewrite Ht in He. rewrite He in M.
    destruct (existsb (pty_eqb t) unsendable_replies); cbn [negb] in M; destruct M as [b M].
    + split; [|intros; do 2 eexists; exact M]. split; [|intros H; now destruct H].
      intros (e' & b' & X). rewrite M in X. discriminate.
    + split; [|discriminate]. split; [discriminate|]. intros _. do 2 eexists. exact M.
Qed.

Lemma all_fine_marshals rt e req evs :
  all_fine req evs ->
  Forall (fun c => (marshals rt e c <-> ~ unsendable c)
                   /\ (rt = false -> unsendable c -> marshal_fails rt e c)) (written evs).
Proof. unfold all_fine. apply Forall_impl. intros c. apply fine_marshals. Qed.

Lemma fine_cons req t tr p cs :
  payload_type p = Some t -> registered t && (match controls (the_id t) with None => true | _ => false end) && tame (the_id t) = true ->
  fine p \/ token_acks_for req p ->
  Forall (fine_cmd req) cs -> Forall (fine_cmd req) (mkCmd (the_id t) tr (Some p) :: cs).
Proof.
  intros Ht Hr Hf Hcs. apply andb_true_iff in Hr as [Hr Htm]. apply andb_true_iff in Hr as [Hr Hc]. apply Forall_cons; [|exact Hcs].
  exists p. split; [|split; [cbn [cmd_id]; destruct (controls (the_id t)); [discriminate|reflexivity]|split; [exact Hf|exact Htm]]]. exists t. split; [exact Ht|]. split; [now apply registered_in|].
  split; reflexivity.
Qed.

Ltac fine_case :=
  unfold all_fine; cbn [written flat_map app];
  repeat (apply fine_cons; [reflexivity|vm_compute; reflexivity| |]); try apply Forall_nil;
  try (right; eexists; split; [eassumption|reflexivity]);
  try (left; split; [|split; [reflexivity|vm_compute; reflexivity]]; try exact I; try reflexivity).

Lemma cmd8_u8 req : (cmd8 req < 256)%N.
Proof. unfold cmd8. lia. Qed.

Ltac bounded := cbn [well_formed]; unfold typed; cbn [layout have_types has_type];
  repeat (apply andb_true_intro; split); try reflexivity.

Lemma ext_fine {S} req (h : hstate S) :
  request_ok req ->
  post (HandleExtRemote std_registry req) h (fun _ _ evs => all_fine req evs).
Proof.
  intros Hok. unfold request_ok in Hok. unfold HandleExtRemote.
  by_payload req; cbv beta zeta iota; hrun; fine_case.
  all: try (bounded; rewrite CmdID_eq; cbn; lia).
  left. split; [exact I|]. unfold ext_track_info.
  repeat match goal with |- context[match ?x with _ => _ end] =>
    match type of x with N => destruct x | positive => destruct x end end; split; vm_compute; reflexivity.
Qed.

Lemma audio_fine {S} req (h : hstate S) :
  post (HandleAudio std_registry req) h (fun _ _ evs => all_fine req evs).
Proof. unfold HandleAudio. by_payload req; cbv beta zeta iota; hrun; fine_case. Qed.

Lemma state_info_fine ty i :
  disp_state_info ty = Some i -> fine (PStateInfo ty i).
Proof.
  intros H. split; [exact I|]. unfold disp_state_info in H.
  repeat match type of H with
         | match ?x with _ => _ end = _ => destruct x; try discriminate H
         end; injection H as <-; split; vm_compute; reflexivity.
Qed.
Lemma track_info_fine ty i :
  disp_track_info ty = Some i -> fine (PDispTrackInfo ty i).
Proof.
  intros H. split; [exact I|]. unfold disp_track_info in H.
  repeat match type of H with
         | match ?x with _ => _ end = _ => destruct x; try discriminate H
         end; injection H as <-; split; vm_compute; reflexivity.
Qed.

Lemma disp_fine {S} clock req (h : hstate S) :
  request_ok req ->
  post (HandleDispRemote std_registry clock req) h (fun _ _ evs => all_fine req evs).
Proof.
  intros Hok. unfold request_ok in Hok. unfold HandleDispRemote.
  by_payload req; cbv beta zeta iota; hrun;
    try match goal with
        | H : disp_state_info _ = Some _ |- _ => apply state_info_fine in H
        | H : disp_track_info _ = Some _ |- _ => apply track_info_fine in H
        end.
  all: fine_case; try (left; assumption).
  all: try (bounded; pose proof (cmd8_u8 req); cbn; lia).
  left. split; [exact I|]. unfold disp_date_info. destruct (clock (h_ticks h)) as [[[[? ?] ?] ?] ?]. split; reflexivity.
Qed.

Lemma answer_u8 n : u8 n -> (n <? 256 ^ N.of_nat 1)%N = true.
Proof. unfold u8. cbn. lia. Qed.

Lemma general_fine {S} (dev : DeviceGeneral S) req h :
  answers_ok dev (h_dev h) -> request_ok req ->
  post (HandleGeneral std_registry dev req) h (fun _ _ evs => all_fine req evs).
Proof.
  intros Hd Hok. pose proof (cmd8_u8 req) as Hc. unfold request_ok in Hok. unfold HandleGeneral.
  by_payload req; cbv beta zeta iota; hrun;
  unfold all_fine; rewrite ?written_tokens; fine_case.
  all: try (bounded; cbn; lia).
  all: destruct Hd as (D1 & D2 & D3 & D4 & D5 & D6 & D7 & D8);
       unfold u8, u16 in *.
  all: try (fields Hok).
  all: repeat match goal with
       | H : forall l : N, match snd ?x with _ => _ end, E : snd (dev_LingoProtocolVersion _ _ ?l) = _ |- _ =>
           specialize (H l); rewrite E in H
       | H : forall l : N, (snd _ < _)%N |- context[snd (_ ?l)] => specialize (H l)
       end; unfold fu, fa in *; cbn [nth] in *.
  all: repeat match goal with H : snd ?x = _ |- _ => rewrite H in * end.
  all: try (bounded; cbn; try (apply Nat.eqb_eq; assumption); try lia).
  unfold BoolToByte. now destruct (_ =? _)%N.
Qed.

Lemma all_fine_app req a b : all_fine req a -> all_fine req b -> all_fine req (a ++ b).
Proof. unfold all_fine, written. rewrite flat_map_app. intros. now apply Forall_app. Qed.

Lemma packet_fine {S} clock (dev : DeviceGeneral S) req h :
  answers_ok dev (h_dev h) -> request_ok req ->
  post (handlePacket std_registry clock dev req) h (fun _ _ evs => all_fine req evs).
Proof.
  intros Hd Hok. unfold handlePacket. cbv zeta.
  destruct (LingoID (cmd_id req) =? LingoGeneralID)%N.
  { apply post_seq. eapply post_weaken with (Q := fun h' _ evs => h_dev h' = h_dev h /\ all_fine req evs).
    - unfold audio_Start. by_payload req; cbv beta zeta iota; hrun; (split; [reflexivity|fine_case]).
    - intros h1 u e1 [D F]. eapply post_weaken; [apply general_fine; [now rewrite D|exact Hok]|].
      intros. now apply all_fine_app. }
  destruct (LingoID (cmd_id req) =? LingoDisplayRemoteID)%N.
  { apply post_app; [exact (all_fine_app req)|now apply disp_fine|]. intros. apply post_ret. fine_case. }
  destruct (LingoID (cmd_id req) =? LingoExtRemoteID)%N; [now apply ext_fine|].
  destruct (LingoID (cmd_id req) =? LingoDigitalAudioID)%N; [apply audio_fine|].
  apply post_ret. fine_case.
Qed.

Lemma packet_marshals {S} clock (dev : DeviceGeneral S) req h rt e :
  answers_ok dev (h_dev h) -> request_ok req ->
  post (handlePacket std_registry clock dev req) h (fun _ _ evs =>
    Forall (fun c => (marshals rt e c <-> ~ unsendable c)
                     /\ (rt = false -> unsendable c -> marshal_fails rt e c)) (written evs)).
Proof.
  intros Hd Hok. eapply post_weaken; [now apply packet_fine|]. intros h' u evs. apply all_fine_marshals.
Qed.

(** The ack list lacks an ack exactly when a token is unknown. *)
Lemma missing_ack_iff {S} (dev : DeviceGeneral S) req h l :
  cmd_payload req = Some (PTokens l) -> Forall consistent_token l ->
  post (HandleGeneral std_registry dev req) h (fun _ _ evs =>
    exists c, written evs = [c]
      /\ (missing_ack c <-> Exists (fun v => ~ known_token (tv_type v) (tv_sub v)) l)).
Proof.
  intros Hp Hl. unfold HandleGeneral. rewrite Hp. hrun. rewrite written_tokens. cbn [written flat_map app].
  eexists. split; [reflexivity|].
  assert (K : forall v, consistent_token v ->
            (ackToken (tv_token v) = None <-> ~ known_token (tv_type v) (tv_sub v))).
  { intros v Hv. inversion Hv as [| | |ty sub t vs Ht Hty|]; subst; cbn [tv_token tv_type tv_sub].
    - cbn. split; [discriminate|]. intros H. destruct H. right. split; [reflexivity|]. now left.
    - cbn. split; [discriminate|]. intros H. destruct H. right. split; [reflexivity|]. cbn. auto.
    - cbn. split; [discriminate|]. intros H. destruct H. right. split; [reflexivity|]. cbn. auto 10.
    - assert (known_token ty sub) by (inversion Ht; subst; [right|right|right|right|right|left]; cbn; auto 12).
      inversion Ht; subst; cbn; (split; [discriminate|contradiction]).
    - cbn. tauto. }
  split.
  - intros (l' & a & E & Hin & Ha). injection E as <-. apply in_map_iff in Hin as (v & <- & Hv).
    apply Exists_exists. exists v. split; [exact Hv|]. rewrite Forall_forall in Hl. apply K; [now apply Hl|exact Ha].
  - intros H. apply Exists_exists in H as (v & Hv & Hk).
    exists (map ackFIDTokenValue l), (ackFIDTokenValue v). split; [reflexivity|]. split; [now apply in_map|].
    rewrite Forall_forall in Hl. apply K; [now apply Hl|exact Hk].
Qed.

(** ** Requests as they come from the wire *)

Lemma decoded_ok rt reg e pkt e' c x :
  UnmarshalCmd rt reg e pkt = Ret (e', c, x) -> request_ok c.
Proof.
  intros H. unfold request_ok. destruct (cmd_payload c) as [p|] eqn:P; [|exact I].
  destruct (decoded_wf _ _ _ _ _ _ _ _ H P) as (_ & W & _). exact W.
Qed.

Lemma decoded_tokens rt reg e pkt e' c x l :
  UnmarshalCmd rt reg e pkt = Ret (e', c, x) -> cmd_payload c = Some (PTokens l) ->
  Forall consistent_token l.
Proof.
  intros H Hp. destruct x as [x|].
  - destruct (packet_id pkt) as [id|] eqn:P.
    2:{ destruct (UnmarshalCmd_short rt reg e pkt P) as (y & E & _). rewrite E in H.
        injection H as <- <- <-. discriminate. }
    destruct (Lookup reg id (List.length (packet_body pkt)) (mode_after e [id])) as [[t b]|] eqn:L.
    2:{ rewrite (UnmarshalCmd_unknown _ _ _ _ _ P L) in H. injection H as <- <- <-. discriminate. }
    rewrite (UnmarshalCmd_found _ _ _ _ _ _ _ P L) in H. cbv zeta in H.
    destruct (b && _); [injection H as <- <- <-; discriminate|].
    destruct (payload_unmarshal rt t _) as [[[|] [q|err]]|]; cbn [bind] in H; try discriminate;
      injection H as <- <- <-; discriminate.
  - apply UnmarshalCmd_ok in H as (id & t & b & q & body & P & He & L & (used & U) & Hc).
    assert (q = PTokens l).
    { destruct b; [destruct Hc as (? & ? & _ & ->) | destruct Hc as (_ & ->)]; cbn [cmd_payload] in Hp; congruence. }
    subst q. pose proof (payload_unmarshal_type _ _ _ _ _ U) as T. injection T as <-.
    cbn [payload_unmarshal] in U.
    destruct (tokens_unmarshal rt body) as [[l'|y]|] eqn:D; cbn in U; try discriminate.
    injection U as _ <-. now apply tokens_consistent in D as [? _].
Qed.

(** ** UI mode *)

Lemma post_then {S A B} (m : act S A) (k : A -> act S B) h
      (P : hstate S -> A -> list event -> Prop) (Q : hstate S -> B -> list event -> Prop) :
  post m h P ->
  (forall h1 a e1, P h1 a e1 -> post (k a) h1 (fun h2 b e2 => Q h2 b (e1 ++ e2))) ->
  post (seq m k) h Q.
Proof. intros H K. apply post_seq. eapply post_weaken; [exact H|]. exact K. Qed.

Lemma mode_history {S} (dev : DeviceGeneral S) mode reqs r vs h :
  keeps_mode dev mode -> is_request r general_RequestRemoteUIMode vs ->
  post (run _ <- serve (HandleGeneral std_registry dev) reqs; HandleGeneral std_registry dev r) h
    (fun _ _ evs => exists before c, evs = before ++ [Called CUIMode; Wrote c]
       /\ is_reply c (cmd_trx r) (Pst general_ReturnRemoteUIMode
            [VU (if entered (mode (h_dev h) =? 1)%N reqs then 1 else 0)%N])).
Proof.
  intros Hk Hr. eapply post_then; [apply serve_mode, Hk|]. intros h1 u e1 [M _].
  eapply post_weaken; [eapply remote_mode_answer, Hr|]. intros h2 u2 e2 (c & -> & Hc).
  exists e1, c. split; [reflexivity|]. destruct Hk as [Hk _]. destruct (Hk (h_dev h1)) as [Hu _].
  rewrite Hu, M in Hc. exact Hc.
Qed.

Lemma ui_mode_history {S} (dev : DeviceGeneral S) mode reqs r vs h :
  keeps_mode dev mode -> (mode (h_dev h) <= 1)%N -> is_request r general_GetUIMode vs ->
  post (run _ <- serve (HandleGeneral std_registry dev) reqs; HandleGeneral std_registry dev r) h
    (fun _ _ evs => exists before c, evs = before ++ [Called CUIMode; Wrote c]
       /\ is_reply c (cmd_trx r) (Pst general_RetUIMode
            [VU (if entered (mode (h_dev h) =? 1)%N reqs then 1 else 0)%N])).
Proof.
  intros Hk Hm Hr. eapply post_then; [apply serve_mode, Hk|]. intros h1 u e1 [M1 M2].
  eapply post_weaken; [eapply uimode_answer, Hr|]. intros h2 u2 e2 (c & -> & Hc).
  exists e1, c. split; [reflexivity|]. destruct Hk as [Hk _]. destruct (Hk (h_dev h1)) as [Hu _].
  rewrite Hu in Hc. specialize (M2 Hm). rewrite <- M1.
  replace (if (mode (h_dev h1) =? 1)%N then 1%N else 0%N) with (mode (h_dev h1)); [exact Hc|].
  destruct (N.eqb_spec (mode (h_dev h1)) 1); lia.
Qed.

Lemma setuimode_refuted {S} (dev : DeviceGeneral S) mode r r2 vs vs2 h :
  keeps_mode dev mode -> is_request r general_SetUIMode vs -> is_request r2 general_GetUIMode vs2 ->
  post (run _ <- HandleGeneral std_registry dev r; HandleGeneral std_registry dev r2) h
    (fun _ _ evs => exists c1 c2, evs = [Wrote c1; Called CUIMode; Wrote c2]
       /\ is_reply c1 (cmd_trx r) (success_ack r)
       /\ is_reply c2 (cmd_trx r2) (Pst general_RetUIMode [VU (mode (h_dev h))])).
Proof.
  intros Hk Hr Hr2. eapply post_then; [eapply setuimode_ignored, Hr|].
  intros h1 u e1 (D & c1 & -> & Hc1). eapply post_weaken; [eapply uimode_answer, Hr2|].
  intros h2 u2 e2 (c2 & -> & Hc2). exists c1, c2. split; [reflexivity|]. split; [exact Hc1|].
  destruct Hk as [Hk _]. destruct (Hk (h_dev h1)) as [Hu _]. now rewrite Hu, D in Hc2.
Qed.

Lemma DevGeneral_keeps : keeps_mode DevGeneral_device dg_uimode.
Proof. repeat split. Qed.

Lemma DevGeneral_answers s : u8 (dg_uimode s) -> answers_ok DevGeneral_device s.
Proof.
  intros H. split; [exact H|]. split; [cbn; unfold u8; lia|]. split.
  { intros l. cbn. repeat destruct (_ =? _)%N; unfold u8; lia. }
  repeat split; intros; cbn; unfold u8, u16; repeat destruct (_ =? _)%N; reflexivity.
Qed.

(** ** Tokens *)

Lemma token_acks {S} (dev : DeviceGeneral S) req l h :
  cmd_payload req = Some (PTokens l) -> Forall consistent_token l ->
  post (HandleGeneral std_registry dev req) h
    (fun _ _ evs => exists c acks, evs = map (fun t => Called (CSetToken t)) l ++ [Wrote c]
       /\ is_reply c (cmd_trx req) (PTokenAcks acks)
       /\ Forall2 (fun v a => ta_type a = tv_type v /\ ta_sub a = tv_sub v
            /\ match ta_ack a with
               | Some b => known_token (tv_type v) (tv_sub v) /\ ack_content (tv_token v) b
               | None => ~ known_token (tv_type v) (tv_sub v)
               end) l acks).
Proof.
  intros Hp Hl. eapply post_weaken; [apply tokens_reply, Hp|].
  intros h' u evs (c & acks & E & Hc & F). exists c, acks. split; [exact E|]. split; [exact Hc|].
  clear - F Hl. induction F as [|v a l acks (A1 & A2 & A3) F IH]; [constructor|].
  inversion Hl as [|? ? Hv Hl']; subst. apply Forall2_cons; [|exact (IH Hl')].
  split; [exact A1|]. split; [exact A2|]. rewrite A3. now apply ack_of_consistent.
Qed.

(** ** Certificates *)

Lemma certificate {S} (dev : DeviceGeneral S) reqs r h :
  Forall request_ok (reqs ++ [r]) ->
  post (serve (HandleGeneral std_registry dev) reqs) h (fun h1 _ _ =>
    post (HandleGeneral std_registry dev r) h1 (fun _ _ evs =>
      if match section r with Some (n, last, _) => (last <=? n)%N | None => false end
      then exists cert, certs evs = [cert]
           /\ ((exists pre r0 suf, reqs ++ [r] = pre ++ r0 :: suf /\ first_section r0
                  /\ Forall (fun r => ~ first_section r) suf /\ cert = sections_data (r0 :: suf))
               \/ (Forall (fun r => ~ first_section r) (reqs ++ [r])
                   /\ cert = h_cert h ++ sections_data (reqs ++ [r])))
      else certs evs = [])).
Proof.
  intros Hok. apply Forall_app in Hok as [Ho1 Ho2]. inversion Ho2 as [|? ? Hr _]; subst.
  eapply post_weaken; [apply serve_cert, Ho1|]. intros h1 u e1 Hc1.
  eapply post_weaken; [apply general_cert, Hr|]. intros h2 u2 e2 [_ Hc].
  destruct (section r) as [[[n last] d]|]; [|exact Hc].
  destruct (last <=? n)%N; [|exact Hc].
  eexists. split; [exact Hc|].
  assert (E : cert_next (h_cert h1) r = fold_left cert_next (reqs ++ [r]) (h_cert h)).
  { rewrite fold_left_app, Hc1. reflexivity. }
  rewrite E. destruct (cert_fold_cases (reqs ++ [r]) (h_cert h)) as [(pre & r0 & suf & A & B & C & D)|[A B]].
  - left. exists pre, r0, suf. auto.
  - right. auto.
Qed.

Lemma certificate_once {S} (dev : DeviceGeneral S) reqs ds h :
  Forall request_ok reqs -> ds <> [] -> sections reqs = whole_certificate ds ->
  post (serve (HandleGeneral std_registry dev) reqs) h (fun _ _ evs => certs evs = [List.concat ds]).
Proof.
  intros Hok Hne Hs. eapply post_weaken; [apply serve_hand_over, Hok|]. intros h' u evs ->.
  rewrite Hs. now apply hand_over_whole.
Qed.

(** ** Start of IDPS *)

Lemma start_then_send {S} (dev : DeviceGeneral S) r vs r2 h :
  is_request r general_StartIDPS vs -> is_request r2 general_EndIDPS [VU 0] ->
  post (run _ <- HandleGeneral std_registry dev r; HandleGeneral std_registry dev r2) h
    (fun _ _ evs => exists before c, evs = before ++ [Wrote c]
       /\ is_reply c (Some 1%N) (Pst general_GetDevAuthenticationInfo [])).
Proof.
  intros Hr Hr2. eapply post_then; [eapply start_idps, Hr|]. intros h1 u e1 (T & _).
  eapply post_weaken; [eapply end_idps, Hr2|]. intros h2 u2 e2 (rest & -> & H & _).
  destruct (H eq_refl) as (c1 & c2 & -> & _ & Hc2).
  exists (e1 ++ [Called (CEndIDPS 0); Wrote c1]), c2. split; [now rewrite <- app_assoc|].
  unfold next_auth in Hc2. rewrite T in Hc2. exact Hc2.
Qed.

(** ** What the device is asked and told *)

Lemma device_answers {S} (dev : DeviceGeneral S) r p h :
  device_answer dev (h_dev h) r p ->
  post (HandleGeneral std_registry dev r) h
    (fun _ _ evs => exists c, written evs = [c] /\ is_reply c (cmd_trx r) p).
Proof.
  assert (F : forall t q, payload_type q = Some t -> registered t = true ->
            is_reply (mkCmd (the_id t) (cmd_trx r) (Some q)) (cmd_trx r) q).
  { intros t q H1 H2. exists t. split; [exact H1|]. split; [now apply registered_in|]. split; reflexivity. }
  intros H. unfold HandleGeneral. destruct H as
    [vs H|vs H|vs a b c H E|l a b H E|vs H|c H|vs H|l H|vs H|vs H]; unfold is_request in H; rewrite H;
    cbv beta zeta iota; hrun; cbn [written flat_map app]; (eexists; split; [reflexivity|]).
  all: unfold fu in *; cbn [nth] in *; try rewrite E0 in E; try rewrite E in *;
    repeat match goal with X : (_, _) = (_, _) |- _ => injection X as ? ?; subst end;
    apply F; [reflexivity|vm_compute; reflexivity].
Qed.

Lemma device_called {S} (dev : DeviceGeneral S) r h :
  request_ok r ->
  post (HandleGeneral std_registry dev r) h
    (fun _ _ evs => calls evs
       = device_calls (snd (dev_UIMode dev (h_dev h)) =? 1)%N (h_cert h) (cmd_payload r)).
Proof.
  intros Hok. unfold request_ok in Hok. unfold HandleGeneral.
  by_payload r; cbv beta zeta iota.
  all: hrun.
  all: rewrite ?calls_tokens; change UIModeExtended with 1%N in *.
  all: cbn [device_calls calls flat_map app].
  all: try reflexivity.
  all: try (rewrite app_nil_r; reflexivity).
  all: try (rewrite E; reflexivity).
  all: try (apply (f_equal negb) in E; rewrite Bool.negb_involutive in E; rewrite E; reflexivity).
  all: fields Hok; unfold fu, fb in *; cbn [nth h_cert log] in *; try discriminate.
  all: try reflexivity.
  all: repeat match goal with
       | |- context[if ?b then _ else _] => let F := fresh "F" in destruct b eqn:F
       end; try reflexivity; try (exfalso; lia).
  all: subst; reflexivity.
Qed.

(** ** Text of track info replies *)

Lemma track_text_lost {S} clock r ty rest (h : hstate S) rt e :
  is_request r disp_GetIndexedPlayingTrackInfo (VU ty :: rest) -> (1 <= ty <= 7)%N ->
  post (HandleDispRemote std_registry clock r) h
    (fun _ _ evs => exists c, written evs = [c] /\ reply_type c = Some disp_RetIndexedPlayingTrackInfo
       /\ MarshalCmd rt e c
          = Ret (e, Ok ([x03; x13] ++ match cmd_trx r with
                                      | Some t => if e then trx_bytes t else []
                                      | None => [] end ++ [n2b ty]))).
Proof.
  intros Hr Hty. unfold is_request in Hr. unfold HandleDispRemote. rewrite Hr. cbv beta zeta iota.
  unfold fu. cbn [nth].
  assert (T : (ty = 1 \/ ty = 2 \/ ty = 3 \/ ty = 4 \/ ty = 5 \/ ty = 6 \/ ty = 7)%N) by lia.
  repeat destruct T as [->|T]; try subst ty; cbn [disp_track_info]; hrun; cbn [written flat_map app];
  (eexists; split; [reflexivity|]; split; [reflexivity|]).
  all: erewrite MarshalCmd_complete; [|left; reflexivity].
  all: unfold wire_trx; cbn [mode_after].
  all: set (i := the_id _); vm_compute in i; subst i.
  all: reflexivity.
Qed.

Lemma unknown_refused {S} (dev : DeviceGeneral S) req l h :
  cmd_payload req = Some (PUnknown l) ->
  post (HandleGeneral std_registry dev req) h
    (fun _ _ evs => exists c, evs = [Wrote c]
       /\ is_reply c (cmd_trx req) (Pst general_ACK [VU 5; VU (cmd_id req mod 65536 mod 256)])%N).
Proof.
  intros H. unfold HandleGeneral. rewrite H. hrun. eexists. split; [reflexivity|].
  exists general_ACK. split; [reflexivity|]. split; [apply registered_in; vm_compute; reflexivity|].
  split; [reflexivity|]. unfold ack, cmd8. now rewrite CmdID_eq.
Qed.

(** ** Effects of calls, status of acknowledgements *)

Lemma tell_tokens_calls {S} (dev : DeviceGeneral S) l s :
  tell_tokens dev s l = fold_left (after_call dev) (map CSetToken l) s.
Proof. revert s. induction l as [|t l IH]; intros s; [reflexivity|]. cbn [map fold_left tell_tokens after_call]. apply IH. Qed.

Lemma device_after {S} (dev : DeviceGeneral S) r h :
  post (HandleGeneral std_registry dev r) h
    (fun h' _ evs => h_dev h' = fold_left (after_call dev) (calls evs) (h_dev h)).
Proof.
  unfold HandleGeneral.
  by_payload r; cbv beta zeta iota.
  all: hrun.
  all: rewrite ?calls_tokens.
  all: cbn [calls flat_map app h_dev log counted].
  all: try reflexivity.
  rewrite app_nil_r. apply tell_tokens_calls.
Qed.

Ltac status_case :=
  cbn [written flat_map app]; repeat (apply Forall_cons; [try exact I; eexists; reflexivity|]); apply Forall_nil.

Lemma general_status {S} (dev : DeviceGeneral S) r h :
  post (HandleGeneral std_registry dev r) h
    (fun _ _ evs => Forall (acked_as (request_status (cmd_payload r))) (written evs)).
Proof.
  unfold HandleGeneral.
  by_payload r; cbv beta zeta iota; hrun; rewrite ?written_tokens; status_case.
Qed.

Lemma ext_status {S} r (h : hstate S) :
  post (HandleExtRemote std_registry r) h
    (fun _ _ evs => Forall (acked_as (request_status (cmd_payload r))) (written evs)).
Proof. unfold HandleExtRemote. by_payload r; cbv beta zeta iota; hrun; status_case. Qed.

Lemma disp_status {S} clock r (h : hstate S) :
  post (HandleDispRemote std_registry clock r) h
    (fun _ _ evs => Forall (acked_as (request_status (cmd_payload r))) (written evs)).
Proof. unfold HandleDispRemote. by_payload r; cbv beta zeta iota; hrun; status_case. Qed.

Lemma audio_status {S} r (h : hstate S) :
  post (HandleAudio std_registry r) h
    (fun _ _ evs => Forall (acked_as (request_status (cmd_payload r))) (written evs)).
Proof. unfold HandleAudio. by_payload r; cbv beta zeta iota; hrun; status_case. Qed.

Lemma packet_status {S} clock (dev : DeviceGeneral S) r h :
  post (handlePacket std_registry clock dev r) h
    (fun _ _ evs => Forall (acked_as (request_status (cmd_payload r))) (written evs)).
Proof.
  assert (A : forall a b, Forall (acked_as (request_status (cmd_payload r))) (written a) ->
              Forall (acked_as (request_status (cmd_payload r))) (written b) ->
              Forall (acked_as (request_status (cmd_payload r))) (written (a ++ b))).
  { intros a b Ha Hb. unfold written. rewrite flat_map_app. apply Forall_app. now split. }
  unfold handlePacket. cbv zeta.
  destruct (LingoID (cmd_id r) =? LingoGeneralID)%N;
    [|destruct (LingoID (cmd_id r) =? LingoDisplayRemoteID)%N;
      [|destruct (LingoID (cmd_id r) =? LingoExtRemoteID)%N;
        [|destruct (LingoID (cmd_id r) =? LingoDigitalAudioID)%N]]].
  - apply post_app; [exact A| |intros; apply general_status].
    unfold audio_Start. by_payload r; cbv beta zeta iota; hrun; status_case.
  - apply post_app; [exact A|apply disp_status|]. intros. apply post_ret. constructor.
  - apply ext_status.
  - apply audio_status.
  - apply post_ret. constructor.
Qed.

Lemma packet_after {S} clock (dev : DeviceGeneral S) r h :
  post (handlePacket std_registry clock dev r) h
    (fun h' _ evs => h_dev h' = fold_left (after_call dev) (calls evs) (h_dev h)).
Proof.
  unfold handlePacket. cbv zeta.
  destruct (LingoID (cmd_id r) =? LingoGeneralID)%N;
    [|destruct (LingoID (cmd_id r) =? LingoDisplayRemoteID)%N;
      [|destruct (LingoID (cmd_id r) =? LingoExtRemoteID)%N;
        [|destruct (LingoID (cmd_id r) =? LingoDigitalAudioID)%N]]].
  - apply post_seq. unfold audio_Start.
    apply (post_weaken _ _ (fun h1 _ e1 => h_dev h1 = h_dev h /\ calls e1 = [])).
    { by_payload r; cbv beta zeta iota; hrun; split; reflexivity. }
    intros h1 u e1 [D C]. eapply post_weaken; [apply device_after|]. intros h2 u2 e2 ->.
    unfold calls in *. now rewrite flat_map_app, C, D.
  - apply post_seq. eapply post_weaken; [apply disp_trx|]. intros h1 u e1 (_ & C & D & _).
    apply post_ret. rewrite app_nil_r, C. exact D.
  - eapply post_weaken; [apply ext_trx|]. intros h1 u e1 (_ & C & D & _). now rewrite C.
  - eapply post_weaken; [apply audio_trx|]. intros h1 u e1 (_ & C & D & _). now rewrite C.
  - apply post_ret. reflexivity.
Qed.

Lemma serve_after {S} clock (dev : DeviceGeneral S) reqs h :
  post (serve (handlePacket std_registry clock dev) reqs) h
    (fun h' _ evs => h_dev h' = fold_left (after_call dev) (calls evs) (h_dev h)).
Proof.
  revert h. induction reqs as [|r reqs IH]; intros h; cbn [serve]; [apply post_ret; reflexivity|].
  apply post_seq. eapply post_weaken; [apply packet_after|]. intros h1 u e1 E1.
  eapply post_weaken; [apply IH|]. intros h2 u2 e2 ->.
  unfold calls. now rewrite flat_map_app, fold_left_app, E1.
Qed.
