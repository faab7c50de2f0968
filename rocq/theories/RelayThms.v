(** Lemmas for C106. *)
From Coq Require Import ZifyBool ZifyNat ZifyN Lia.
From Verif Require Import Base BaseFacts GoTypes GoTypesFacts Types Payload PayloadFacts Util Lingo Command
  SpecPayload SpecCommand LingoFacts CommandFacts CommandThms WireFacts Handlers SpecHandlers HandlersFacts HandlersThms
  SpecProtocol ProtocolFacts ProtocolThms Server SpecServer ServerFacts ProtocolProps ReadFacts CommandProps SpecRelay.
#[local] Opaque std_registry.

(** ** Decoded payloads can be sent *)

Lemma take_length (k : byte) (r : bytes) : List.length (firstn (N.to_nat (b2n k)) r) <= 255.
Proof. rewrite firstn_length. pose proof (b2n_lt k). lia. Qed.

Lemma token_codable rt d v : token_value_unmarshal rt d = Ret (Ok v) -> List.length d <= 255 ->
  encodable_token v = true -> (forall l o d', tv_token v = TokIdentify l o d' -> List.length l <= 244) -> codable_token rt v.
Proof.
  unfold token_value_unmarshal. destruct (read_full 2 d) as [[idb|e] r] eqn:R; [|discriminate].
  apply read_full_inv in R as [-> L]. rewrite app_length, L.
  set (ty := b2n (nth 0 idb x00)). set (sub := b2n (nth 1 idb x00)).
  assert (U1 : u8 ty) by apply b2n_lt. assert (U2 : u8 sub) by apply b2n_lt.
  destruct (token_kind_of ty sub) eqn:K; intros E Ln En Id.
  - apply token_kind_identify in K as [K1 K2]. rewrite K1, K2 in E.
    unfold identify_unmarshal in E. destruct r as [|n r0]; [discriminate|].
    destruct (match read_full (N.to_nat (b2n n)) r0 with (Ok b, r) => (b, r) | (Err _, r) => (repeat x00 (N.to_nat (b2n n)), r) end) as [l r1].
    pose proof (read_uint_or0_bound 4 r1) as B1. destruct (read_uint_or0 4 r1) as [o r2].
    pose proof (read_uint_or0_bound 4 r2) as B2. destruct (read_uint_or0 4 r2) as [dd r3].
    injection E as <-. apply ct_identify; [exact (Id _ _ _ eq_refl)| |]; unfold u32; cbn [fst] in *; lia.
  - apply token_kind_caps in K as [K1 K2]. rewrite K1, K2 in E. injection E as <-.
    apply ct_struct; [constructor|unfold u8; lia|].
    unfold typed. cbn [layout have_types has_type]. pose proof (read_uint_or0_bound 8 r). lia.
  - destruct (accinfo_unmarshal r) as [t|e] eqn:A; [|discriminate].
    apply accinfo_value in A as (aty & av & ->). injection E as <-. discriminate En.
  - destruct r as [|b r]; [discriminate|]. cbn [eaprotocol_unmarshal bind] in E. injection E as <-. discriminate En.
  - destruct (binary_read t r) as [[vs|e] r2] eqn:B; [|discriminate]. cbn [fst] in E.
    injection E as <-. apply binary_read_ok in B as (n & b & _ & _ & _ & _ & Ht).
    apply ct_struct; [now apply token_kind_fixed|exact U2|exact Ht].
  - destruct rt; [discriminate|]. injection E as <-. apply ct_raw; auto; [now apply token_kind_none|lia].
Qed.

Lemma tokens_codable rt n : forall d l, tokens_unmarshal_loop rt n d = Ret (Ok l) ->
  forallb encodable_token l = true ->
  (forall a b x o d', In (mkTV a b (TokIdentify x o d')) l -> List.length x <= 244) ->
  Forall (codable_token rt) l /\ List.length l = n.
Proof.
  induction n as [|n IH]; intros d l; cbn [tokens_unmarshal_loop].
  - intros [= <-] _ _. auto.
  - destruct d as [|k r]; [discriminate|].
    destruct (token_value_unmarshal rt (firstn (N.to_nat (b2n k)) r)) as [[v|e]|] eqn:E; try discriminate.
    cbn [bind].
    destruct (tokens_unmarshal_loop rt n (skipn (N.to_nat (b2n k)) r)) as [[vs|e]|] eqn:E2; try discriminate.
    intros [= <-] En Id. cbn [forallb] in En. apply andb_prop in En as [En1 En2].
    destruct (IH _ _ E2 En2) as [H1 H2]. { intros a b x o d' I. exact (Id a b x o d' (or_intror I)). }
    split; [|cbn [List.length]; lia]. constructor; [|exact H1].
    apply (token_codable _ _ _ E (take_length k r) En1). intros x o d' T. destruct v as [a b t]. cbn [tv_token] in T. subst t.
    exact (Id _ _ _ _ _ (or_introl eq_refl)).
Qed.

Lemma acks_codable n : forall d l, acks_unmarshal_loop n d = Ok l -> Forall codable_ack l /\ List.length l = n.
Proof.
  induction n as [|n IH]; intros d l; cbn [acks_unmarshal_loop].
  - intros [= <-]. auto.
  - destruct d as [|k r]; [discriminate|].
    destruct (ack_unmarshal (firstn (N.to_nat (b2n k)) r)) as [a|e] eqn:E; [|discriminate].
    destruct (acks_unmarshal_loop n (skipn (N.to_nat (b2n k)) r)) as [vs|e] eqn:E2; [|discriminate].
    intros [= <-]. destruct (IH _ _ E2) as [H1 H2]. split; [|cbn [List.length]; lia]. constructor; [|exact H1].
    unfold ack_unmarshal in E. destruct (read_full 2 _) as [[idb|e] r'] eqn:R; [|discriminate].
    injection E as <-. apply read_full_inv in R as [R L]. pose proof (take_length k r) as T. rewrite R, app_length in T.
    constructor; [apply b2n_lt|apply b2n_lt|lia].
Qed.

Lemma buttons_not_registered id : ~ In (id, simple_ButtonStates) std_registry.
Proof.
  intros I. assert (T : forallb (fun e => negb (pty_eqb (snd e) simple_ButtonStates)) std_registry = true) by (vm_compute; reflexivity).
  rewrite forallb_forall in T. specialize (T _ I). vm_compute in T. discriminate T.
Qed.

Lemma payload_sendable rt t body used p id :
  payload_unmarshal rt t body = Ret (used, Ok p) -> encodable p = true -> complete_tokens p -> In (id, t) std_registry ->
  sendable rt p \/ (exists n vs, p = Pst t vs /\ fixed_size t n /\ typed t vs).
Proof.
  intros U En Co Reg.
  assert (Bin : forall t', Ret (false, match fst (binary_read t' body) with
                                      | Ok vs => Ok (Pst t' vs)
                                      | Err e => Err e
                                      end) = Ret (used, Ok p) -> sendable rt p \/ (exists n vs, p = Pst t' vs /\ fixed_size t' n /\ typed t' vs)).
  { intros u. destruct (binary_read u body) as [[vs|x] r] eqn:R; cbn [fst]; [|discriminate].
    intros [= <- <-]. apply binary_read_ok in R as (n & ? & F & _ & _ & _ & R). right. eauto 6. }
  destruct t; cbn [payload_unmarshal] in U; try (lazymatch type of U with context [binary_read ?u body] => exact (Bin u U) end); clear Bin; try left;
    try (injection U as <- <-; first [discriminate En|apply sd_string; cbn [In]; tauto]).
  - unfold modelnum_unmarshal in U. pose proof (read_uint_or0_bound 4 body) as B. destruct (read_uint_or0 4 body) as [i m].
    injection U as <- <-. apply sd_model. exact B.
  - destruct (devauthinfo_unmarshal body); [injection U as <- <-; discriminate En|discriminate U].
  - destruct (tokens_unmarshal rt body) as [[l|x]|] eqn:E; cbn [bind] in U; try discriminate U. injection U as <- <-.
    unfold tokens_unmarshal in E. destruct body as [|n r]; [discriminate E|].
    destruct (tokens_codable _ _ _ _ E En Co) as [F L]. apply sd_tokens; [|exact F]. rewrite L. pose proof (b2n_lt n). lia.
  - destruct (acks_unmarshal body) as [l|x] eqn:E; [injection U as <- <-|discriminate U].
    unfold acks_unmarshal in E. destruct body as [|n r]; [discriminate E|].
    destruct (acks_codable _ _ _ E) as [F L]. apply sd_acks; [|exact F]. rewrite L. pose proof (b2n_lt n). lia.
  - destruct (applaunch_unmarshal body); cbn [bind] in U; [injection U as <- <-; discriminate En|discriminate U].
  - destruct (buttons_unmarshal body) as [m|x] eqn:E; [injection U as <- <-|discriminate U].
    first [exfalso; exact (buttons_not_registered _ Reg)|apply sd_buttons; [cbn [In]; tauto|exact (buttons_unmarshal_u32 _ _ E)]].
  - destruct (buttons_unmarshal body) as [m|x] eqn:E; [injection U as <- <-|discriminate U].
    first [exfalso; exact (buttons_not_registered _ Reg)|apply sd_buttons; [cbn [In]; tauto|exact (buttons_unmarshal_u32 _ _ E)]].
  - destruct (buttons_unmarshal body) as [m|x] eqn:E; [injection U as <- <-|discriminate U].
    first [exfalso; exact (buttons_not_registered _ Reg)|apply sd_buttons; [cbn [In]; tauto|exact (buttons_unmarshal_u32 _ _ E)]].
  - destruct (buttons_unmarshal body) as [m|x] eqn:E; [injection U as <- <-|discriminate U].
    first [exfalso; exact (buttons_not_registered _ Reg)|apply sd_buttons; [cbn [In]; tauto|exact (buttons_unmarshal_u32 _ _ E)]].
  - unfold disp_info_unmarshal in U. destruct (read_uint_or0 1 body) as [ty r].
    destruct (state_info_type ty) as [t|] eqn:T; [|discriminate U].
    destruct (binary_read t r) as [[vs|x] r'] eqn:R; cbn [fst] in U; [injection U as <- <-|discriminate U].
    apply binary_read_ok in R as (n & ? & _ & _ & _ & _ & R). cbn [fst snd]. apply sd_state; [now apply state_info_type_in|exact R].
  - unfold disp_info_unmarshal in U. destruct (read_uint_or0 1 body) as [ty r].
    destruct (disp_track_info_type ty) as [t|] eqn:T; [|discriminate U].
    destruct (binary_read t r) as [[vs|x] r'] eqn:R; cbn [fst] in U; [injection U as <- <-|discriminate U].
    apply binary_read_ok in R as (n & ? & F & _ & _ & _ & R). cbn [fst snd]. apply sd_track; [|exact R].
    apply disp_track_info_type_in in T. apply in_app_or in T as [T|T]; [exact T|].
    apply text_infos_sel in T as (_ & _ & T). unfold fixed_size in F. congruence.
  - unfold ext_track_info_unmarshal in U. destruct body as [|b r]; [discriminate U|].
    destruct (binary_read (ext_track_info_type (b2n b)) r) as [[vs|x] r'] eqn:R; cbn [fst] in U; [injection U as <- <-|discriminate U].
    apply binary_read_ok in R as (n & ? & F & _ & _ & _ & R). apply sd_ext_info; [apply b2n_lt|apply ext_info_type_eq|exact R].
  - destruct (ext_artwork_unmarshal body) as [l|x] eqn:E; [injection U as <- <-|discriminate U].
    apply sd_artwork. exact (ext_artwork_loop_typed _ _ _ E).
  - injection U as <- <-. apply sd_rates. apply rates_unmarshal_u32.
Qed.

(** ** Commands *)

Lemma mode_twice e id : mode_after (mode_after e [id]) [id] = mode_after e [id].
Proof. cbn [mode_after]. destruct (controls id); reflexivity. Qed.

Lemma marshal_again rt e id tr p :
  MarshalCmd rt (mode_after e [id]) (mkCmd id tr (Some p)) = MarshalCmd rt e (mkCmd id tr (Some p)).
Proof. rewrite !MarshalCmd_eq, mode_twice. reflexivity. Qed.

Lemma trx_u16 x y : u16 (be_dec [x; y]).
Proof. pose proof (be_dec_bound [x; y]) as B. exact B. Qed.

(** What is decoded when there is an error and a payload: an unknown command. *)
Lemma decoded_unknown rt reg e pkt e' c x p :
  UnmarshalCmd rt reg e pkt = Ret (e', c, Some x) -> cmd_payload c = Some p ->
  exists id, packet_id pkt = Some id /\ e' = mode_after e [id] /\ c = mkCmd id None (Some (PUnknown (packet_body pkt))).
Proof.
  intros H Hp. destruct (packet_id pkt) as [id|] eqn:P.
  2:{ destruct (UnmarshalCmd_short rt reg e pkt P) as (y & E & _). rewrite E in H.
      injection H as <- <- <-. discriminate. }
  destruct (Lookup reg id (List.length (packet_body pkt)) (mode_after e [id])) as [[t b]|] eqn:L.
  2:{ rewrite (UnmarshalCmd_unknown _ _ _ _ _ P L) in H. injection H as <- <- <-. eauto. }
  rewrite (UnmarshalCmd_found _ _ _ _ _ _ _ P L) in H. cbv zeta in H.
  destruct (b && _); [injection H as <- <- <-; discriminate|].
  destruct (payload_unmarshal rt t _) as [[[|] [q|err]]|]; cbn [bind] in H; try discriminate;
    injection H as <- <- <-; discriminate.
Qed.

Lemma packet_parts pkt id : packet_id pkt = Some id -> pkt = id_prefix id ++ packet_body pkt /\ wire_id id.
Proof.
  intros P. pose proof (split_packet pkt) as S. destruct (split_id pkt) as [[pre b]|] eqn:SP; [|congruence].
  destruct S as (id' & P' & B & I & W). rewrite P in P'. injection P' as <-.
  split; [|exact W]. rewrite B, I. unfold split_id in SP. destruct (Nat.ltb _ _); [discriminate|].
  injection SP as <- <-. symmetry. apply firstn_skipn.
Qed.

Lemma relayed_unknown rt e pkt e' c x q :
  UnmarshalCmd rt std_registry e pkt = Ret (e', c, Some x) -> MarshalCmd rt e' c = Ret (e', Ok q) -> q = pkt.
Proof.
  intros U M. destruct (cmd_payload c) as [p|] eqn:P.
  2:{ destruct c as [id tr pay]. cbn [cmd_payload] in P. subst pay. rewrite nil_payload_fails in M. discriminate M. }
  destruct (decoded_unknown _ _ _ _ _ _ _ _ U P) as (id & I & -> & ->).
  destruct (packet_parts _ _ I) as [E W].
  rewrite MarshalCmd_eq in M. cbn [payload_marshaler payload_binary_write wire_trx app] in M. apply ret_ok in M as [_ <-].
  rewrite (marshal_id_prefix id (proj1 W)). symmetry. exact E.
Qed.

(** ACKDataDropped is never decoded without a number: 8 bytes are an ACKPending with one. *)
Lemma dropped_numbered rt e pkt e' id vs :
  UnmarshalCmd rt std_registry e pkt = Ret (e', mkCmd id None (Some (Pst general_ACKDataDropped vs)), None) -> False.
Proof.
  intros H. apply selection in H as (t & p & P & T & I & S). cbn [cmd_payload cmd_id cmd_trx] in *.
  injection P as <-. injection T as <-. cbv zeta in S.
  assert (Only : forall i, In (i, general_ACKDataDropped) std_registry -> i = 2%N).
  { intros i Hi. assert (T : forallb (fun e => negb (pty_eqb (snd e) general_ACKDataDropped) || (fst e =? 2)%N) std_registry = true) by (vm_compute; reflexivity).
    rewrite forallb_forall in T. specialize (T _ Hi). cbn [fst snd] in T.
    change (pty_eqb general_ACKDataDropped general_ACKDataDropped) with true in T. cbn [negb orb] in T. now apply N.eqb_eq. }
  assert (Ty : types_of std_registry 2 = [general_ACK; general_ACKPending; general_ACKDataDropped]) by (vm_compute; reflexivity).
  assert (Hid : id = 2%N).
  { apply Only. apply types_of_in. destruct S as [(pre & post & E & _)|(E & _)]; rewrite E; [apply in_or_app; right|]; now left. }
  subst id. rewrite Ty in S. destruct S as [(pre & post & E & M & F)|(E & _)]; [|discriminate E].
  destruct M as (m & Fx & Ln). unfold fixed_size in Fx. vm_compute in Fx. injection Fx as <-.
  destruct pre as [|a [|b [|c pre]]]; cbn [app] in E; try discriminate E.
  - injection E as <- <- _. apply (F general_ACKPending true); [now right; left|].
    exists 6. split; [reflexivity|lia].
  - injection E as _ _ _ E. destruct pre; discriminate E.
Qed.

Lemma relayed_same rt e pkt e' c x q :
  UnmarshalCmd rt std_registry e pkt = Ret (e', c, x) -> MarshalCmd rt e' c = Ret (e', Ok q) -> faithful e' c ->
  UnmarshalCmd rt std_registry e q = Ret (e', c, x).
Proof.
  intros U M [Nu Co]. destruct x as [x|].
  { rewrite (relayed_unknown _ _ _ _ _ _ _ U M). exact U. }
  pose proof U as U0.
  apply UnmarshalCmd_ok in U as (id & t & b & p & body & P & He & L & (used & D) & Hc).
  assert (C : c = mkCmd id (cmd_trx c) (Some p)) by (destruct b; [destruct Hc as (? & ? & _ & ->)|destruct Hc as [_ ->]]; reflexivity).
  assert (Tr : forall y, cmd_trx c = Some y -> u16 y).
  { intros y Ey. destruct b; [destruct Hc as (? & ? & _ & ->)|destruct Hc as [_ ->]]; cbn [cmd_trx] in Ey; [|discriminate Ey].
    injection Ey as <-. apply trx_u16. }
  assert (Reg : In (id, t) std_registry).
  { apply types_of_in. apply Lookup_Some in L as [(pre & post & E & _)|(E & _)]; rewrite E; [apply in_or_app; right|]; now left. }
  assert (Pl : cmd_payload c = Some p) by (rewrite C; reflexivity).
  destruct (decoded_wf _ _ _ _ _ _ _ _ U0 Pl) as (K1 & K2 & K3).
  rewrite C in M. rewrite He, marshal_again in M. rewrite <- He in M.
  pose proof (marshal_exactly rt e id (cmd_trx c) p K1 K2 K3) as X.
  destruct (encodable p) eqn:En; destruct X as [y X]; rewrite X in M; [|discriminate M].
  apply ret_ok in M as [_ ->]. 
  destruct (payload_sendable _ _ _ _ _ id D En (Co _ Pl) Reg) as [Sd|(n & vs & -> & Fx & Ty)].
  - pose proof (payload_unmarshal_type _ _ _ _ _ D) as PT.
    assert (Iff : cmd_trx c <> None <-> mode_after e [id] = true).
    { rewrite <- He. pose proof (selection _ _ _ _ _ _ U0) as (t' & p' & P' & T' & _ & S).
      rewrite Pl in P'. injection P' as <-. rewrite PT in T'. injection T' as <-. cbv zeta in S.
      assert (Fl : forall k n, ~ size_match t n k).
      { intros k n (m & F & _). destruct (sendable_roundtrip rt p Sd) as (t2 & pb & T2 & V & _). rewrite PT in T2. injection T2 as <-.
        unfold fixed_size in F. congruence. }
      destruct S as [(pre & post & _ & S & _)|(_ & S & _)]; [destruct (Fl _ _ S)|].
      rewrite <- S. destruct (cmd_trx c); split; congruence. }
    destruct (variable_roundtrip rt e id (cmd_trx c) p t Sd PT Reg Tr Iff) as (b' & M' & U').
    rewrite X in M'. apply ret_ok in M' as [_ ->]. rewrite C, He. exact U'.
  - assert (Or : t <> general_ACKDataDropped \/ (mode_after e [id] = true /\ cmd_trx c <> None)).
    { destruct Nu as [Nu|Nu].
      - left. intros ->. rewrite C, Nu in U0. exact (dropped_numbered _ _ _ _ _ _ U0).
      - destruct (cmd_trx c) as [y|] eqn:Ey; [right; rewrite <- He; split; [exact Nu|discriminate]|].
        left. intros ->. rewrite C in U0. exact (dropped_numbered _ _ _ _ _ _ U0). }
    destruct (fixed_roundtrip_gen rt e e id (cmd_trx c) t n vs Reg Fx Ty Tr Or) as (b' & M' & U').
    rewrite X in M'. apply ret_ok in M' as [_ ->]. rewrite U'. rewrite <- He. f_equal. f_equal. f_equal. rewrite C at 2. f_equal.
    destruct e'; [reflexivity|]. destruct Nu as [Nu|Nu]; [now rewrite Nu|discriminate Nu].
Qed.

(** ** Frames *)

Lemma dec_fun rt e ps cs e' cs2 e2 : dec rt e ps cs e' -> dec rt e ps cs2 e2 -> cs = cs2 /\ e' = e2.
Proof.
  intros D. revert cs2 e2. induction D as [m|m p ps m1 c x cs m' U _ IH]; intros cs2 e2 D2; inversion D2; subst; [auto|].
  match goal with H : UnmarshalCmd _ _ _ _ = _ |- _ => rewrite U in H; apply ret_all in H as (<- & <- & <-) end.
  match goal with H : dec rt m1 ps _ _ |- _ => destruct (IH _ _ H) as [<- <-] end. auto.
Qed.

Lemma conveys_fun rt c r r' : conveys rt c r -> conveys rt c r' -> forall e, reply_bytes e r = reply_bytes e r'.
Proof.
  intros A B e. destruct r as [i t b|], r' as [i' t' b'|].
  - pose proof (A e) as A1. rewrite (B e) in A1. now apply ret_ok in A1 as [_ ->].
  - destruct (B e) as [x B1]. rewrite (A e) in B1. discriminate B1.
  - destruct (A e) as [x A1]. rewrite (B e) in A1. discriminate A1.
  - reflexivity.
Qed.

Lemma conveys_all rt cs l l' : Forall2 (conveys rt) cs l -> Forall2 (conveys rt) cs l' ->
  forall e, map (fun r => frame_bytes (reply_bytes e r)) l = map (fun r => frame_bytes (reply_bytes e r)) l'.
Proof.
  intros A. revert l'. induction A as [|c r cs l C _ IH]; intros l' B e; inversion B; subst; [reflexivity|].
  cbn [map]. f_equal; [f_equal; eapply conveys_fun; eassumption|auto].
Qed.

Lemma relays_dec rt e ps e' qs : relays rt e ps e' qs -> exists cs, dec rt e ps cs e' /\ dec rt e qs cs e'.
Proof.
  induction 1 as [e|e p e1 c q ps e2 qs (x & U & M) F _ (cs & D1 & D2)].
  - exists []. split; apply dec_nil.
  - exists (c :: cs). split; [eapply dec_cons; eassumption|].
    eapply dec_cons; [|exact D2]. exact (relayed_same _ _ _ _ _ _ _ U M F).
Qed.

(** A memory is that of some state. *)
Lemma memory_state m : exists h : hstate DevGeneral, mem (numbered m) h = m /\ (dg_uimode (h_dev h) <= 1)%N.
Proof.
  destruct m as [n x l r].
  exists (mkH (mkDG (if x then 1 else 0)%N []) [] l r []).
  unfold mem. cbn. destruct x; split; try reflexivity; lia.
Qed.

Lemma frame_relayed rt clock m ps e' qs : relays rt (numbered m) ps e' qs ->
  receive_frame rt clock m qs = receive_frame rt clock m ps
  /\ exists m' fs, receive_frame rt clock m ps = Some (m', fs) /\ numbered m' = e'.
Proof.
  intros R. destruct (relays_dec _ _ _ _ _ R) as (cs & D1 & D2). destruct (memory_state m) as (h & M & U).
  pose proof (all_handled rt clock ps (numbered m) h U) as A. pose proof (all_handled rt clock qs (numbered m) h U) as B.
  rewrite M in A, B. unfold receive_frame.
  destruct (receive_all rt clock m ps) as [[m1 l1]|]; [|destruct (A _ _ D1)].
  destruct (receive_all rt clock m qs) as [[m2 l2]|]; [|destruct (B _ _ D2)].
  destruct A as (c1 & e1 & A1 & h1 & u1 & ev1 & Do1 & _ & X1 & F1). destruct B as (c2 & e2 & B1 & Q2).
  destruct (dec_fun _ _ _ _ _ _ _ D1 A1) as [<- <-]. destruct (dec_fun _ _ _ _ _ _ _ D2 B1) as [<- <-].
  pose proof (does_post _ _ _ _ _ _ Do1 Q2) as (_ & X2 & F2).
  assert (E : m2 = m1) by congruence. rewrite E. split.
  - f_equal. f_equal. apply (conveys_all rt _ _ _ F2 F1).
  - eexists. eexists. split; [reflexivity|]. rewrite <- X1. reflexivity.
Qed.

Lemma conversation_relayed rt clock e pss e' qss : relays_all rt e pss e' qss -> forall m, numbered m = e ->
  exists m' fs, conversation rt clock m pss = Some (m', fs) /\ conversation rt clock m qss = Some (m', fs).
Proof.
  induction 1 as [e|e ps e1 qs pss e2 qss R _ IH]; intros m E; [eexists; eexists; split; reflexivity|]. subst e.
  destruct (frame_relayed rt clock m ps e1 qs R) as (F & m1 & l1 & E1 & N). cbn [conversation]. rewrite F, E1.
  destruct (IH m1 N) as (m2 & l2 & -> & ->). eexists. eexists. split; reflexivity.
Qed.

(** ** Wire forms are unique *)

Lemma number_inj a : forall b, List.length a = List.length b -> number a = number b -> a = b.
Proof.
  intros b L E. rewrite !number_be_dec in E. rewrite <- (be_enc_dec a), <- (be_enc_dec b). congruence.
Qed.

Lemma field_wire_fun f v a b : field_wire f v a -> field_wire f v b -> a = b.
Proof.
  intros A B. inversion A; subst; inversion B; subst; try reflexivity; try lia; apply number_inj; congruence || lia.
Qed.

Lemma struct_wire_fun fs vs a : struct_wire fs vs a -> forall b, struct_wire fs vs b -> a = b.
Proof.
  induction 1 as [|f fs v vs a b F _ IH]; intros c W; inversion W; subst; [reflexivity|].
  f_equal; [eapply field_wire_fun; eassumption|auto].
Qed.

Lemma be32_fun n a b : be32 n a -> be32 n b -> a = b.
Proof. intros [A1 A2] [B1 B2]. apply number_inj; congruence. Qed.

Lemma token_wire_fun v a b : token_wire v a -> token_wire v b -> a = b.
Proof.
  intros A B. inversion A; subst; inversion B; subst; try reflexivity.
  - do 4 f_equal. f_equal; eapply be32_fun; eassumption.
  - do 2 f_equal. eapply struct_wire_fun; eassumption.
Qed.

Lemma ack_wire_fun v a b : ack_wire v a -> ack_wire v b -> a = b.
Proof. intros (l & A & ->) (l' & B & ->). congruence. Qed.

Lemma records_fun {A} (w : A -> bytes -> Prop) l a : (forall v x y, w v x -> w v y -> x = y) ->
  records w l a -> forall b, records w l b -> a = b.
Proof.
  intros F. induction 1 as [|x l a b W _ _ IH]; intros c R; inversion R; subst; [reflexivity|].
  match goal with H : w x ?y |- _ => rewrite (F _ _ _ W H) end. f_equal. f_equal. auto.
Qed.

Lemma sequence_fun {A} (w : A -> bytes -> Prop) l a : (forall v x y, w v x -> w v y -> x = y) ->
  sequence w l a -> forall b, sequence w l b -> a = b.
Proof.
  intros F. induction 1 as [|x l a b W _ IH]; intros c R; inversion R; subst; [reflexivity|].
  f_equal; [eapply F; eassumption|auto].
Qed.

Lemma stripped_le a b j k : a ++ repeat x00 j = b ++ repeat x00 k -> j <= k ->
  (List.length a = 1 \/ last a x00 <> x00) -> b <> [] -> a = b.
Proof.
  intros E L S NB. assert (Eb : a = b ++ repeat x00 (k - j)).
  { apply (app_inv_tail (repeat x00 j)). rewrite <- app_assoc, <- repeat_app. replace (k - j + j) with k by lia. exact E. }
  destruct (k - j) as [|n] eqn:K; [rewrite Eb; apply app_nil_r|]. exfalso. destruct S as [S|S].
  - rewrite Eb, app_length, repeat_length in S. destruct b; [now apply NB|cbn [List.length] in S; lia].
  - apply S. rewrite Eb. replace (Datatypes.S n) with (n + 1) by lia. rewrite repeat_app. cbn [repeat].
    rewrite app_assoc. apply last_last.
Qed.

Lemma button_wire_fun m a b : button_wire m a -> button_wire m b -> a = b.
Proof.
  intros (j & La & Na & NA & Sa) (k & Lb & Nb & NB & Sb).
  assert (E : a ++ repeat x00 j = b ++ repeat x00 k).
  { rewrite <- (rev_involutive (a ++ _)), <- (rev_involutive (b ++ _)). f_equal. apply number_inj; [|congruence].
    rewrite !rev_length, !app_length, !repeat_length. lia. }
  destruct (Nat.le_ge_cases j k) as [L|L]; [eapply stripped_le; eassumption|].
  symmetry. eapply stripped_le; [symmetry; exact E| | |]; assumption.
Qed.

Lemma payload_wire_fun p a b : payload_wire p a -> payload_wire p b -> a = b.
Proof.
  intros A B. inversion A; subst; inversion B; subst; try reflexivity;
    try match goal with
    | H : In ?t _, F : fixed_size ?t _ |- _ =>
        exfalso; cbn [In] in H; repeat (destruct H as [<-|H]; [discriminate F|]); contradiction
    | H : In ?t _, H2 : In ?t _ |- _ =>
        exfalso; cbn [In] in H, H2; repeat (destruct H as [<-|H]; [clear - H2; intuition discriminate|]); contradiction
    | F : fixed_size _ _ |- _ => discriminate F
    end;
    try (f_equal; eapply struct_wire_fun; eassumption).
  - f_equal. eapply be32_fun; eassumption.
  - eapply button_wire_fun; eassumption.
  - eapply sequence_fun; [|eassumption..]. apply be32_fun.
  - f_equal. eapply records_fun; [|eassumption..]. apply token_wire_fun.
  - f_equal. eapply records_fun; [|eassumption..]. apply ack_wire_fun.
  - eapply sequence_fun; [|eassumption..]. intros v x y X Y. eapply struct_wire_fun; eassumption.
Qed.

Lemma relayed_exact rt e p e' c q : relayed rt e p e' c q -> faithful e' c -> in_wire_form p c -> q = p.
Proof.
  intros (x & U & M) [Nu Co] (pay & b & P & W & E). destruct x as [x|].
  { exact (relayed_unknown _ _ _ _ _ _ _ U M). }
  pose proof U as U0.
  apply UnmarshalCmd_ok in U as (id & t & k & p' & body & I & He & L & (used & D) & Hc).
  assert (C : c = mkCmd id (cmd_trx c) (Some p')) by (destruct k; [destruct Hc as (? & ? & _ & ->)|destruct Hc as [_ ->]]; reflexivity).
  assert (Pl : cmd_payload c = Some p') by (rewrite C; reflexivity). rewrite P in Pl. injection Pl as <-.
  assert (Reg : In (id, t) std_registry).
  { apply types_of_in. apply Lookup_Some in L as [(pre & post & X & _)|(X & _)]; rewrite X; [apply in_or_app; right|]; now left. }
  destruct (decoded_wf _ _ _ _ _ _ _ _ U0 P) as (K1 & K2 & K3).
  rewrite C in M. pose proof (marshal_exactly rt e' id (cmd_trx c) pay K1 K2 K3) as X.
  destruct (encodable pay) eqn:En; destruct X as [y X]; [|rewrite X in M; discriminate M].
  assert (S : wire_specified rt pay).
  { destruct (payload_sendable _ _ _ _ _ id D En (Co _ P) Reg) as [Sd|(n & vs & -> & Fx & Ty)]; [now left|].
    right. right. exists t, vs, n. auto. }
  apply (marshal_wire _ _ _ _ _ _ _ (proj1 (std_wire_id _ _ Reg)) S) in M as (_ & pb & Wp & ->).
  rewrite (payload_wire_fun _ _ _ Wp W). rewrite E, C. cbn [cmd_id cmd_trx].
  destruct Nu as [-> | ->]; [destruct e'|]; reflexivity.
Qed.

(** What can be relayed. *)
Lemma relayed_when rt e p e' c x pay : UnmarshalCmd rt std_registry e p = Ret (e', c, x) -> cmd_payload c = Some pay ->
  encodable pay = true <-> exists q, relayed rt e p e' c q.
Proof.
  intros U P. destruct (decoded_wf _ _ _ _ _ _ _ _ U P) as (K1 & K2 & K3).
  assert (Hm : mode_after e' [cmd_id c] = e').
  { destruct (decoded_id _ _ _ _ _ _ _ U) as [I|[I N]].
    - assert (E : e' = mode_after e [cmd_id c]); [|rewrite E; apply mode_twice].
      destruct x as [x|].
      + destruct (decoded_unknown _ _ _ _ _ _ _ _ U P) as (id & I2 & -> & ->). reflexivity.
      + apply UnmarshalCmd_ok in U as (id & t & k & p' & body & I2 & -> & _). rewrite I in I2. injection I2 as <-. reflexivity.
    - destruct (UnmarshalCmd_short rt std_registry e p I) as (y & E & _). rewrite E in U. injection U as <- <- <-. discriminate P. }
  pose proof (marshal_exactly rt e' (cmd_id c) (cmd_trx c) pay K1 K2 K3) as X.
  assert (C : mkCmd (cmd_id c) (cmd_trx c) (Some pay) = c) by (rewrite <- P; destruct c; reflexivity).
  rewrite C, Hm in X. destruct (encodable pay); destruct X as [y X].
  - split; [|reflexivity]. intros _. exists y, x. auto.
  - split; [discriminate|]. intros (q & x' & _ & M). rewrite X in M. discriminate M.
Qed.
