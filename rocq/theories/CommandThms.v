(** Theorems about commands and the registry, in the form the properties need. *)
From Verif Require Import Base BaseFacts GoTypes GoTypesFacts Types Payload PayloadFacts Lingo SpecPayload
  Command SpecCommand LingoFacts CommandFacts.
From Coq Require Import ZifyBool ZifyNat ZifyN Permutation Sorted.
Ltac Zify.zify_post_hook ::= Z.div_mod_to_equations.
#[local] Opaque std_registry.

(** ** Lookup *)

Lemma Lookup_Some reg id n mode t b :
  Lookup reg id n mode = Some (mkLookup t b) ->
  (exists pre post, types_of reg id = pre ++ t :: post /\ size_match t n b
     /\ forall u c, In u pre -> ~ size_match u n c)
  \/ (types_of reg id = [t] /\ b = mode /\ forall c, ~ size_match t n c).
Proof.
  unfold Lookup. pose proof (lookup_by_size_spec (types_of reg id) n) as S.
  destruct (lookup_by_size (types_of reg id) n) as [[u c]|] eqn:L.
  - destruct S as (pre & post & m & E & Hm & Hn & Hp).
    intros [= -> ->]. left. exists pre, post. split; [exact E|]. split; [exists m; auto|].
    intros v d Hin (k & Hk & Hnk). specialize (Hp v k Hin Hk). destruct d; lia.
  - destruct (types_of reg id) as [|u [|v ts]] eqn:E; try discriminate.
    intros [= -> ->]. right. split; [reflexivity|]. split; [reflexivity|].
    intros c (k & Hk & Hnk). specialize (S t k (or_introl eq_refl) Hk). destruct c; lia.
Qed.

Lemma Lookup_None reg id n mode :
  Lookup reg id n mode = None <->
  (forall u c, In u (types_of reg id) -> ~ size_match u n c) /\ List.length (types_of reg id) <> 1.
Proof.
  unfold Lookup. pose proof (lookup_by_size_spec (types_of reg id) n) as S.
  destruct (lookup_by_size (types_of reg id) n) as [[u c]|] eqn:L.
  - destruct S as (pre & post & m & E & Hm & Hn & _). split; [discriminate|].
    intros [H _]. exfalso. apply (H u c); [rewrite E; apply in_or_app; right; now left|]. exists m. auto.
  - assert (N : forall u c, In u (types_of reg id) -> ~ size_match u n c).
    { intros u c Hin (k & Hk & Hnk). specialize (S u k Hin Hk). destruct c; lia. }
    destruct (types_of reg id) as [|u [|v ts]]; split; try discriminate.
    + intros _. split; [exact N | discriminate].
    + reflexivity.
    + intros [_ H]. simpl in H. lia.
    + intros _. split; [exact N | discriminate].
    + reflexivity.
Qed.

(** ** Types of decoded payloads *)

Lemma payload_unmarshal_type rt t body used p :
  payload_unmarshal rt t body = Ret (used, Ok p) -> payload_type p = Some t.
Proof.
  destruct t; cbn [payload_unmarshal];
    try (match goal with
         | |- context [fst (binary_read ?t body)] => destruct (fst (binary_read t body)); intros H; try discriminate; now injection H as <- <-
         end);
    try (intros H; injection H as <- <-; reflexivity).
  - destruct (modelnum_unmarshal body). intros H; injection H as <- <-; reflexivity.
  - destruct (devauthinfo_unmarshal body); intros H; try discriminate; injection H as <- <-; reflexivity.
  - destruct (tokens_unmarshal rt body) as [[l|x]|]; cbn [bind]; intros H; try discriminate; injection H as <- <-; reflexivity.
  - destruct (acks_unmarshal body); intros H; try discriminate; injection H as <- <-; reflexivity.
  - destruct (applaunch_unmarshal body); cbn [bind]; intros H; try discriminate; injection H as <- <-; reflexivity.
  - destruct (buttons_unmarshal body); intros H; try discriminate; injection H as <- <-; reflexivity.
  - destruct (buttons_unmarshal body); intros H; try discriminate; injection H as <- <-; reflexivity.
  - destruct (buttons_unmarshal body); intros H; try discriminate; injection H as <- <-; reflexivity.
  - destruct (buttons_unmarshal body); intros H; try discriminate; injection H as <- <-; reflexivity.
  - destruct (disp_info_unmarshal state_info_type body) as [[ty i]|x]; intros H; try discriminate; injection H as <- <-; reflexivity.
  - destruct (disp_info_unmarshal disp_track_info_type body) as [[ty i]|x]; intros H; try discriminate; injection H as <- <-; reflexivity.
  - unfold ext_track_info_unmarshal. destruct body as [|b r]; [intros H; discriminate|].
    destruct (fst (binary_read (ext_track_info_type (b2n b)) r)); intros H; try discriminate; injection H as <- <-; reflexivity.
  - destruct (ext_artwork_unmarshal body); intros H; try discriminate; injection H as <- <-; reflexivity.
Qed.

(** Decoded payloads are well formed and hold no nil interface. *)
Lemma consistent_not_nil l :
  Forall consistent_token l -> forallb (fun v => match tv_token v with TokNil => false | _ => true end) l = true.
Proof.
  intros H. apply forallb_forall. intros v Hin. rewrite Forall_forall in H. specialize (H v Hin).
  destruct H; reflexivity.
Qed.

Ltac inj_ok := intros H; try discriminate; injection H as <- <-.

Lemma payload_unmarshal_wf rt t body used p :
  payload_unmarshal rt t body = Ret (used, Ok p) -> well_formed p /\ nil_free p = true.
Proof.
  assert (U8 : forall b : byte, (b2n b <? 256 ^ N.of_nat 1)%N = true).
  { intros b. pose proof (b2n_lt b). lia. }
  assert (Bin : forall t, Ret (false, match fst (binary_read t body) with
                                      | Ok vs => Ok (Pst t vs)
                                      | Err e => Err e
                                      end) = Ret (used, Ok p) -> well_formed p /\ nil_free p = true).
  { intros u. destruct (binary_read u body) as [[vs|x] r] eqn:R; cbn [fst]; [|discriminate].
    intros [= <- <-]. apply binary_read_ok in R as (? & ? & _ & _ & _ & _ & R).
    split; [exact R | reflexivity]. }
  destruct t; cbn [payload_unmarshal];
    try apply Bin;
    try (intros H; injection H as <- <-; split; [unfold well_formed, typed; reflexivity | reflexivity]).
  - destruct (modelnum_unmarshal body) as [i m] eqn:E. inj_ok. split; [|reflexivity].
    unfold well_formed, typed. cbn [layout have_types has_type].
    pose proof (read_uint_or0_bound 4 body) as B. unfold modelnum_unmarshal in E. rewrite E in B. cbn [fst] in B. lia.
  - destruct (devauthinfo_unmarshal body) as [vs|x] eqn:E; inj_ok. split; [|reflexivity].
    unfold devauthinfo_unmarshal in E. destruct body as [|a [|b r]]; try discriminate.
    unfold well_formed, typed.
    destruct (2 <=? b2n a)%N.
    + destruct r as [|c [|d r]]; try discriminate. injection E as <-.
      cbn [layout have_types has_type]. now rewrite !U8.
    + injection E as <-. cbn [layout have_types has_type]. now rewrite !U8.
  - destruct (tokens_unmarshal rt body) as [[l|x]|] eqn:E; cbn [bind]; inj_ok. split; [exact I|].
    apply tokens_consistent in E as [E _]. now apply consistent_not_nil.
  - destruct (acks_unmarshal body) as [l|x] eqn:E; inj_ok. split; [exact I|].
    unfold acks_unmarshal in E. destruct body; [discriminate|]. apply acks_loop_some in E.
    apply forallb_forall. intros a Hin. rewrite Forall_forall in E. specialize (E a Hin).
    destruct (ta_ack a); congruence.
  - unfold applaunch_unmarshal. destruct body as [|a [|b [|c r]]]; cbn [bind]; inj_ok.
    split; [|reflexivity]. unfold well_formed, typed. cbn [layout have_types has_type]. now rewrite !U8.
  - destruct (buttons_unmarshal body) as [m|x] eqn:E; inj_ok. split; [|reflexivity].
    apply buttons_unmarshal_u32 in E. unfold u32 in E. unfold well_formed, typed. cbn [layout have_types has_type]. lia.
  - destruct (buttons_unmarshal body) as [m|x] eqn:E; inj_ok. split; [|reflexivity].
    apply buttons_unmarshal_u32 in E. unfold u32 in E. unfold well_formed, typed. cbn [layout have_types has_type]. lia.
  - destruct (buttons_unmarshal body) as [m|x] eqn:E; inj_ok. split; [|reflexivity].
    apply buttons_unmarshal_u32 in E. unfold u32 in E. unfold well_formed, typed. cbn [layout have_types has_type]. lia.
  - destruct (buttons_unmarshal body) as [m|x] eqn:E; inj_ok. split; [|reflexivity].
    apply buttons_unmarshal_u32 in E. unfold u32 in E. unfold well_formed, typed. cbn [layout have_types has_type]. lia.
  - unfold disp_info_unmarshal. destruct (read_uint_or0 1 body) as [ty r].
    destruct (state_info_type ty) as [t|]; [|intros H; discriminate].
    destruct (fst (binary_read t r)); inj_ok. split; [exact I | reflexivity].
  - unfold disp_info_unmarshal. destruct (read_uint_or0 1 body) as [ty r].
    destruct (disp_track_info_type ty) as [t|]; [|intros H; discriminate].
    destruct (fst (binary_read t r)); inj_ok. split; [exact I | reflexivity].
  - unfold ext_track_info_unmarshal. destruct body as [|b r]; [intros H; discriminate|].
    destruct (fst (binary_read (ext_track_info_type (b2n b)) r)); inj_ok. split; [exact I | reflexivity].
  - destruct (ext_artwork_unmarshal body) as [l|x]; inj_ok. split; [exact I | reflexivity].
  - inj_ok. split; [|reflexivity]. unfold well_formed, typed. cbn [layout have_types has_type].
    rewrite andb_true_r. apply forallb_forall. intros n Hin.
    pose proof (rates_unmarshal_u32 body) as F. rewrite Forall_forall in F. specialize (F n Hin).
    unfold u32 in F. lia.
Qed.

(** Everything about a packet that UnmarshalCmd decodes without error. *)
Lemma UnmarshalCmd_ok rt reg e pkt e' c :
  UnmarshalCmd rt reg e pkt = Ret (e', c, None) ->
  exists id t b p body,
    packet_id pkt = Some id /\ e' = mode_after e [id]
    /\ Lookup reg id (List.length (packet_body pkt)) e' = Some (mkLookup t b)
    /\ (exists used, payload_unmarshal rt t body = Ret (used, Ok p))
    /\ (if b then exists x y, packet_body pkt = x :: y :: body /\ c = mkCmd id (Some (be_dec [x; y])) (Some p)
        else packet_body pkt = body /\ c = mkCmd id None (Some p)).
Proof.
  destruct (packet_id pkt) as [id|] eqn:P.
  2:{ destruct (UnmarshalCmd_short rt reg e pkt P) as (x & -> & _). discriminate. }
  destruct (Lookup reg id (List.length (packet_body pkt)) (mode_after e [id])) as [[t b]|] eqn:L.
  2:{ rewrite (UnmarshalCmd_unknown _ _ _ _ _ P L). discriminate. }
  rewrite (UnmarshalCmd_found _ _ _ _ _ _ _ P L). cbv zeta.
  destruct b.
  - destruct (packet_body pkt) as [|x [|y body]] eqn:B; cbn [List.length andb]; try discriminate.
    change (S (S (List.length body)) <? 2) with false. cbn [firstn skipn].
    destruct (payload_unmarshal rt t body) as [[[|] [p|err]]|] eqn:U; cbn [bind]; try discriminate;
      intros [= <- <-]; exists id, t, true, p, body; repeat split; eauto.
  - cbn [andb].
    destruct (payload_unmarshal rt t (packet_body pkt)) as [[[|] [p|err]]|] eqn:U; cbn [bind]; try discriminate;
      intros [= <- <-]; exists id, t, false, p, (packet_body pkt); repeat split; eauto.
Qed.

Lemma selection rt reg e pkt e' c :
  UnmarshalCmd rt reg e pkt = Ret (e', c, None) ->
  exists t p, cmd_payload c = Some p /\ payload_type p = Some t
    /\ packet_id pkt = Some (cmd_id c)
    /\ let n := List.length (packet_body pkt) in
       let b := match cmd_trx c with Some _ => true | None => false end in
       (exists pre post, types_of reg (cmd_id c) = pre ++ t :: post /\ size_match t n b
          /\ forall u k, In u pre -> ~ size_match u n k)
       \/ (types_of reg (cmd_id c) = [t] /\ b = e' /\ forall k, ~ size_match t n k).
Proof.
  intros H. apply UnmarshalCmd_ok in H as (id & t & b & p & body & P & He & L & (used & U) & Hc).
  exists t, p. apply payload_unmarshal_type in U. apply Lookup_Some in L.
  destruct b.
  - destruct Hc as (x & y & _ & ->). cbn [cmd_payload cmd_id cmd_trx]. auto.
  - destruct Hc as (_ & ->). cbn [cmd_payload cmd_id cmd_trx]. auto.
Qed.

(** ** ACKDataDropped *)

Definition ACK_id : N := 2.

Lemma ackdatadropped_confused rt e tr vs :
  typed general_ACKDataDropped vs ->
  wire_trx e tr = [] ->
  exists b t vs', MarshalCmd rt e (mkCmd ACK_id tr (Some (Pst general_ACKDataDropped vs))) = Ret (e, Ok b)
    /\ forall e2, UnmarshalCmd rt std_registry e2 b
       = Ret (e2, mkCmd ACK_id (Some t) (Some (Pst general_ACKPending vs')), None).
Proof.
  intros Ht Hw. set (pb := enc_fields (layout general_ACKDataDropped) vs).
  assert (Hpb : payload_bytes rt (Pst general_ACKDataDropped vs) pb) by (right; split; reflexivity).
  assert (L : List.length pb = 8) by (now apply enc_fields_length).
  exists (marshalLingoCmdID ACK_id ++ wire_trx (mode_after e [ACK_id]) tr ++ pb).
  exists (be_dec (firstn 2 pb)), (dec_fields (layout general_ACKPending) (skipn 2 pb)).
  split; [rewrite (MarshalCmd_complete _ _ _ _ _ _ Hpb); reflexivity|].
  intros e2. change (mode_after e [ACK_id]) with e. rewrite Hw. cbn [app].
  assert (W : wire_id ACK_id) by (unfold wire_id, ACK_id; lia).
  rewrite marshal_id_prefix by apply W. destruct (packet_id_prefix ACK_id pb W) as [P1 P2].
  rewrite (UnmarshalCmd_found rt std_registry e2 _ ACK_id general_ACKPending true P1).
  - rewrite P2. cbv zeta. rewrite L. cbn [andb]. change (8 <? 2) with false. cbv iota.
    rewrite (fixed_unmarshal rt general_ACKPending 6 _ eq_refl).
    rewrite (binary_read_fixed general_ACKPending 6 _ eq_refl).
    assert (L2 : List.length (skipn 2 pb) = 6) by (rewrite skipn_length; lia).
    rewrite (read_full_ok 6 (skipn 2 pb)) by lia. cbn [bind fst].
    rewrite (firstn_all2 (skipn 2 pb)) by lia. reflexivity.
  - rewrite P2, L. reflexivity.
Qed.

(** ** Unknown commands *)

Lemma unknown_verbatim rt reg e pkt id :
  packet_id pkt = Some id ->
  (forall u c, In u (types_of reg id) -> ~ size_match u (List.length (packet_body pkt)) c) ->
  List.length (types_of reg id) <> 1 ->
  exists x, UnmarshalCmd rt reg e pkt
  = Ret (mode_after e [id], mkCmd id None (Some (PUnknown (packet_body pkt))), Some x).
Proof.
  intros P H1 H2. exists (errUnknownCmd id).
  apply UnmarshalCmd_unknown; auto. apply Lookup_None. auto.
Qed.

(** ** Panics *)

Definition launch_id : N := 100.
Definition tokens_id : N := 57.

Lemma UnmarshalCmd_panic rt e pkt :
  UnmarshalCmd rt std_registry e pkt = Panic <->
  exists id t pre body, packet_id pkt = Some id /\ In (id, t) std_registry
    /\ packet_body pkt = pre ++ body /\ List.length pre = (if e then 2 else 0)
    /\ crashing_body rt t body.
Proof.
  assert (Hcr : forall id t body, In (id, t) std_registry -> crashing_body rt t body ->
                 struct_size (layout t) = None /\ mode_after e [id] = e).
  { intros id t body Hin [[-> _]|[-> _]].
    - apply std_id_of in Hin. vm_compute in Hin. injection Hin as <-. auto.
    - apply std_id_of in Hin. vm_compute in Hin. injection Hin as <-. auto. }
  split.
  - intros H. destruct (packet_id pkt) as [id|] eqn:P.
    2:{ destruct (UnmarshalCmd_short rt std_registry e pkt P) as (x & E & _). congruence. }
    destruct (Lookup std_registry id (List.length (packet_body pkt)) (mode_after e [id])) as [[t b]|] eqn:L.
    2:{ rewrite (UnmarshalCmd_unknown _ _ _ _ _ P L) in H. discriminate H. }
    rewrite (UnmarshalCmd_found _ _ _ _ _ _ _ P L) in H. cbv zeta in H.
    destruct (b && (List.length (packet_body pkt) <? 2)) eqn:Sh; [discriminate H|].
    set (body := if b then skipn 2 (packet_body pkt) else packet_body pkt) in *.
    assert (U : payload_unmarshal rt t body = Panic).
    { destruct (payload_unmarshal rt t body) as [[[|] [p|err]]|]; cbn [bind] in H; try discriminate H. reflexivity. }
    apply payload_unmarshal_panic in U.
    assert (Hin : In (id, t) std_registry).
    { apply types_of_in. apply Lookup_Some in L as [(pre & post & E & _)|(E & _)].
      - rewrite E. apply in_or_app. right. now left.
      - rewrite E. now left. }
    destruct (Hcr _ _ _ Hin U) as [Hv Hm].
    rewrite (variable_lookup _ _ _ _ Hin Hv), Hm in L. injection L as <-.
    exists id, t, (if e then firstn 2 (packet_body pkt) else []), body.
    split; [reflexivity|]. split; [exact Hin|]. split; [|split].
    + unfold body. destruct e; [now rewrite firstn_skipn | reflexivity].
    + destruct e; [|reflexivity]. rewrite firstn_length. cbn [andb] in Sh. lia.
    + exact U.
  - intros (id & t & pre & body & P & Hin & Hb & Hl & Hc).
    destruct (Hcr _ _ _ Hin Hc) as [Hv Hm].
    rewrite (UnmarshalCmd_found rt std_registry e pkt id t e P).
    2:{ rewrite Hm. now apply variable_lookup. }
    cbv zeta. rewrite Hb. apply payload_unmarshal_panic in Hc. destruct e.
    + assert (Sh : List.length (pre ++ body) <? 2 = false) by (apply Nat.ltb_ge; rewrite app_length; lia).
      rewrite Sh. cbn [andb]. rewrite skipn_app_exact by auto. now rewrite Hc.
    + destruct pre; [|discriminate]. cbn [andb app]. now rewrite Hc.
Qed.

(** ** Short and long bodies of fixed-size types *)

Lemma fixed_body rt reg e pkt id t n :
  packet_id pkt = Some id -> types_of reg id = [t] -> fixed_size t n ->
  let e' := mode_after e [id] in
  let body := packet_body pkt in
  let m := List.length body in
  let need := n + (if e' then 2 else 0) in
  (m <> n -> m <> n + 2 -> m < need ->
   exists tr x, UnmarshalCmd rt reg e pkt = Ret (e', mkCmd id tr None, Some x))
  /\ (m <> n -> m <> n + 2 -> need <= m ->
      UnmarshalCmd rt reg e pkt
      = Ret (e', mkCmd id (if e' then Some (be_dec (firstn 2 body)) else None)
                   (Some (Pst t (dec_fields (layout t) (firstn n (if e' then skipn 2 body else body))))), None)).
Proof.
  intros P E Hn e' body m need.
  assert (HL : m <> n -> m <> n + 2 -> Lookup reg id m e' = Some (mkLookup t e')).
  { intros H1 H2. unfold Lookup. rewrite E. cbn [lookup_by_size]. unfold fixed_size in Hn. rewrite Hn.
    destruct (Nat.eqb_spec n m); [lia|]. destruct (Nat.eqb_spec (n + 2) m); [lia|]. reflexivity. }
  split.
  - intros H1 H2 H3. rewrite (UnmarshalCmd_found _ _ _ _ _ _ _ P (HL H1 H2)). fold e' body. cbv zeta.
    fold m. destruct (e' && (m <? 2)) eqn:Sh; [eauto|].
    set (b2 := if e' then skipn 2 body else body).
    assert (L2 : List.length b2 < n).
    { unfold b2, need in *. destruct e'; [rewrite skipn_length; fold m; cbn [andb] in Sh; lia | fold m; lia]. }
    rewrite (fixed_unmarshal rt t n _ Hn), (binary_read_fixed _ _ _ Hn), read_full_short by exact L2.
    cbn [fst bind]. eauto.
  - intros H1 H2 H3. rewrite (UnmarshalCmd_found _ _ _ _ _ _ _ P (HL H1 H2)). fold e' body. cbv zeta.
    fold m. assert (Sh : e' && (m <? 2) = false).
    { unfold need in H3. destruct e'; [|reflexivity]. cbn [andb]. apply Nat.ltb_ge. lia. }
    rewrite Sh. set (b2 := if e' then skipn 2 body else body).
    assert (L2 : n <= List.length b2).
    { unfold b2, need in *. destruct e'; [rewrite skipn_length; fold m; lia | fold m; lia]. }
    rewrite (fixed_unmarshal rt t n _ Hn), (binary_read_fixed _ _ _ Hn), read_full_ok by exact L2.
    reflexivity.
Qed.

(** ** What marshals *)

Lemma tokens_loop_encodable rt l :
  forallb (fun v => match tv_token v with TokNil => false | _ => true end) l = true ->
  if forallb encodable_token l
  then exists b, tokens_marshal_loop rt l = Ret (Ok b)
  else exists x, tokens_marshal_loop rt l = Ret (Err x).
Proof.
  induction l as [|v l IH]; intros Hn; [simpl; eauto|].
  cbn [forallb] in Hn. apply andb_prop in Hn as [Hv Hl]. specialize (IH Hl).
  cbn [forallb tokens_marshal_loop].
  assert (T : if encodable_token v then exists b, token_value_marshal rt v = Ret (Ok b)
              else exists x, token_value_marshal rt v = Ret (Err x)).
  { unfold encodable_token, token_value_marshal. destruct (tv_token v); try discriminate; eauto.
    destruct (struct_size (layout t)); eauto. }
  destruct (encodable_token v).
  - destruct T as [b ->]. cbn [andb bind]. destruct (forallb encodable_token l).
    + destruct IH as [bs ->]. cbn [bind]. eauto.
    + destruct IH as [x ->]. cbn [bind]. eauto.
  - destruct T as [x ->]. cbn [andb bind]. eauto.
Qed.

Lemma acks_loop_encodable rt l :
  forallb (fun a => match ta_ack a with Some _ => true | None => false end) l = true ->
  exists b, acks_marshal_loop rt l = Ret (Ok b).
Proof.
  induction l as [|a l IH]; intros H; [simpl; eauto|].
  cbn [forallb] in H. apply andb_prop in H as [Ha Hl]. destruct (IH Hl) as [bs E].
  cbn [acks_marshal_loop]. unfold ack_marshal. destruct (ta_ack a); [|discriminate].
  cbn [bind]. rewrite E. cbn [bind]. eauto.
Qed.

(** Registered struct types: has an encoding unless listed in [no_encoding]. *)
Definition struct_encodes (t : pty) : bool :=
  match struct_size (layout t) with
  | Some _ => true
  | None => existsb (pty_eqb t)
              [general_ReturniPodName; general_ReturniPodSerialNum; general_ReturniPodModelNum;
               simple_ButtonStates; simple_ContextButtonStatus; simple_VideoButtonStatus; simple_AudioButtonStatus;
               ext_ReturnIndexedPlayingTrackTitle; ext_ReturnIndexedPlayingTrackArtistName;
               ext_ReturnIndexedPlayingTrackAlbumName; audio_RetAccSampleRateCaps]
  end.

Definition special (t : pty) : bool :=
  existsb (fun f => match f with FStructs | FIface => true | _ => false end) (layout t).

Lemma std_no_encoding :
  forallb (fun e => special (snd e)
                    || Bool.eqb (negb (existsb (pty_eqb (snd e)) no_encoding)) (struct_encodes (snd e)))
    std_registry = true.
Proof. vm_compute. reflexivity. Qed.

Lemma typed_not_special t vs : typed t vs -> special t = false.
Proof.
  unfold typed, special. generalize (layout t) as fs. intros fs. revert vs.
  induction fs as [|f fs IH]; intros [|v vs] H; try discriminate; [reflexivity|].
  cbn [have_types] in H. apply andb_prop in H as [H1 H2]. cbn [existsb].
  rewrite (IH _ H2). destruct f; try reflexivity; destruct v; discriminate.
Qed.

Lemma have_cons f fs vs :
  have_types (f :: fs) vs = true ->
  exists v vs', vs = v :: vs' /\ has_type f v = true /\ have_types fs vs' = true.
Proof.
  destruct vs as [|v vs]; [discriminate|]. cbn [have_types]. intros H. apply andb_prop in H as [H1 H2]. eauto.
Qed.

Lemma have_nil vs : have_types [] vs = true -> vs = [].
Proof. destruct vs; [reflexivity | discriminate]. Qed.

Ltac shape Ht :=
  unfold typed in Ht; cbn [layout] in Ht;
  repeat (let v := fresh "v" in let Hv := fresh "Hv" in
          apply have_cons in Ht as (v & ? & -> & Hv & Ht); destruct v; try discriminate Hv; clear Hv);
  apply have_nil in Ht; subst.

Lemma struct_marshal rt t vs :
  typed t vs ->
  if struct_encodes t then exists b, payload_bytes rt (Pst t vs) b
  else payload_marshaler rt (Pst t vs) = None /\ exists x, payload_binary_write (Pst t vs) = Err x.
Proof.
  intros Ht. unfold struct_encodes. destruct (struct_size (layout t)) as [n|] eqn:S.
  - exists (enc_fields (layout t) vs). right. split; [eapply fixed_no_marshaler; exact S|].
    apply (binary_write_fixed _ _ _ S).
  - assert (W : exists x, payload_binary_write (Pst t vs) = Err x).
    { cbn [payload_binary_write]. unfold binary_write. rewrite S. eauto. }
    destruct t; try discriminate S; clear S;
      (match goal with
       | |- context [if ?c then _ else _] =>
           let r := eval vm_compute in c in change c with r; cbv iota
       end); try (split; [reflexivity | exact W]);
      shape Ht; eexists; left; reflexivity.
Qed.

Lemma marshal_exactly rt e id tr p :
  known_payload std_registry p -> well_formed p -> nil_free p = true ->
  if encodable p
  then exists b, MarshalCmd rt e (mkCmd id tr (Some p)) = Ret (mode_after e [id], Ok b)
  else exists x, MarshalCmd rt e (mkCmd id tr (Some p)) = Ret (mode_after e [id], Err x).
Proof.
  intros Hk Hw Hnil.
  assert (Good : forall b, payload_bytes rt p b ->
            exists b', MarshalCmd rt e (mkCmd id tr (Some p)) = Ret (mode_after e [id], Ok b')).
  { intros b Hb. eexists. apply MarshalCmd_complete. exact Hb. }
  assert (Bad : (exists x, payload_marshaler rt p = Some (Ret (Err x)))
                \/ (payload_marshaler rt p = None /\ exists x, payload_binary_write p = Err x) ->
            exists x, MarshalCmd rt e (mkCmd id tr (Some p)) = Ret (mode_after e [id], Err x)).
  { intros [[x E]|[E [x E2]]]; rewrite MarshalCmd_eq, E, ?E2; eexists; reflexivity. }
  destruct p as [t vs|l|l|ty i|l|ty i|ty i|l|l]; cbn [encodable].
  - unfold well_formed in Hw. destruct Hk as [i Hin].
    pose proof std_no_encoding as A. rewrite forallb_forall in A. specialize (A _ Hin). cbn [snd] in A.
    rewrite (typed_not_special _ _ Hw) in A. cbn [orb] in A. apply Bool.eqb_prop in A. rewrite A.
    pose proof (struct_marshal rt t vs Hw) as M. destruct (struct_encodes t).
    + destruct M as [b Hb]. eauto.
    + apply Bad. right. exact M.
  - pose proof (tokens_loop_encodable rt l Hnil) as T. destruct (forallb encodable_token l).
    + destruct T as [b E]. eapply Good. left. cbn [payload_marshaler]. unfold tokens_marshal. rewrite E. reflexivity.
    + destruct T as [x E]. apply Bad. left. exists x. cbn [payload_marshaler]. unfold tokens_marshal. rewrite E. reflexivity.
  - cbn [nil_free] in Hnil. rewrite Hnil. destruct (acks_loop_encodable rt l Hnil) as [b E].
    eapply Good. left. cbn [payload_marshaler]. unfold acks_marshal. rewrite E. reflexivity.
  - destruct i as [|t vs|t vs|l]; try discriminate Hnil.
    + destruct (struct_size (layout t)) as [n|] eqn:S.
      * eapply Good. left. cbn [payload_marshaler]. unfold ext_track_info_marshal. cbn [write_iface bind].
        unfold binary_write. rewrite S. reflexivity.
      * apply Bad. left. eexists. cbn [payload_marshaler]. unfold ext_track_info_marshal. cbn [write_iface bind].
        unfold binary_write. rewrite S. reflexivity.
    + destruct (struct_size (layout t)) as [n|] eqn:S.
      * eapply Good. left. cbn [payload_marshaler]. unfold ext_track_info_marshal. cbn [write_iface bind].
        unfold binary_write. rewrite S. reflexivity.
      * apply Bad. left. eexists. cbn [payload_marshaler]. unfold ext_track_info_marshal. cbn [write_iface bind].
        unfold binary_write. rewrite S. reflexivity.
    + eapply Good. left. reflexivity.
  - eapply Good. left. reflexivity.
  - assert (E : exists b, disp_info_marshal ty i = Ret (Ok b)).
    { unfold disp_info_marshal. destruct i as [|t vs|t vs|l]; try discriminate Hnil; cbn [write_iface bind];
        try destruct (binary_write t vs); eauto. }
    destruct E as [b E].
    assert (T : (match i with INil => false | _ => true end) = true) by (destruct i; auto).
    rewrite T. apply (Good b). left. cbn [payload_marshaler]. now rewrite E.
  - assert (E : exists b, disp_info_marshal ty i = Ret (Ok b)).
    { unfold disp_info_marshal. destruct i as [|t vs|t vs|l]; try discriminate Hnil; cbn [write_iface bind];
        try destruct (binary_write t vs); eauto. }
    destruct E as [b E].
    assert (T : (match i with INil => false | _ => true end) = true) by (destruct i; auto).
    rewrite T. apply (Good b). left. cbn [payload_marshaler]. now rewrite E.
  - apply Bad. right. split; [reflexivity|]. eexists. reflexivity.
  - eapply Good. right. split; reflexivity.
Qed.

Lemma nil_payload_fails rt e id tr :
  MarshalCmd rt e (mkCmd id tr None) = Ret (mode_after e [id], Err errNilPayload).
Proof. unfold MarshalCmd. cbn [cmd_id cmd_trx cmd_payload]. now rewrite handleCmdID_mode. Qed.

(** Whatever UnmarshalCmd returned can be given to MarshalCmd without a panic. *)
Lemma decoded_wf rt reg e pkt e' c x p :
  UnmarshalCmd rt reg e pkt = Ret (e', c, x) -> cmd_payload c = Some p ->
  known_payload reg p /\ well_formed p /\ nil_free p = true.
Proof.
  intros H Hp. destruct x as [x|].
  - (* only unknown commands have a payload next to an error *)
    destruct (packet_id pkt) as [id|] eqn:P.
    2:{ destruct (UnmarshalCmd_short rt reg e pkt P) as (y & E & _). rewrite E in H.
        injection H as <- <- <-. discriminate. }
    destruct (Lookup reg id (List.length (packet_body pkt)) (mode_after e [id])) as [[t b]|] eqn:L.
    2:{ rewrite (UnmarshalCmd_unknown _ _ _ _ _ P L) in H. injection H as <- <- <-.
        injection Hp as <-. unfold known_payload. simpl. auto. }
    rewrite (UnmarshalCmd_found _ _ _ _ _ _ _ P L) in H. cbv zeta in H.
    destruct (b && _); [injection H as <- <- <-; discriminate|].
    destruct (payload_unmarshal rt t _) as [[[|] [q|err]]|]; cbn [bind] in H; try discriminate;
      injection H as <- <- <-; discriminate.
  - apply UnmarshalCmd_ok in H as (id & t & b & q & body & P & He & L & (used & U) & Hc).
    assert (p = q).
    { destruct b; [destruct Hc as (? & ? & _ & ->) | destruct Hc as (_ & ->)]; cbn [cmd_payload] in Hp; congruence. }
    subst q. split; [|eapply payload_unmarshal_wf; exact U].
    unfold known_payload. rewrite (payload_unmarshal_type _ _ _ _ _ U). exists id.
    apply types_of_in. apply Lookup_Some in L as [(pre & post & E & _)|(E & _)]; rewrite E.
    + apply in_or_app. right. now left.
    + now left.
Qed.

Lemma decoded_marshal_no_panic rt e pkt e' c x e2 id tr p :
  UnmarshalCmd rt std_registry e pkt = Ret (e', c, x) -> cmd_payload c = Some p ->
  MarshalCmd rt e2 (mkCmd id tr (Some p)) <> Panic.
Proof.
  intros H Hp. destruct (decoded_wf _ _ _ _ _ _ _ _ H Hp) as (H1 & H2 & H3).
  pose proof (marshal_exactly rt e2 id tr p H1 H2 H3) as M.
  destruct (encodable p); destruct M as [? ->]; discriminate.
Qed.

(** ** Respond *)

Lemma Respond_spec reg req p :
  Respond reg req p
  = match payload_type p with
    | None => Panic
    | Some t => match id_of reg t with
                | Some id => Ret [mkCmd id (cmd_trx req) (Some p)]
                | None => Ret []
                end
    end.
Proof.
  unfold Respond, BuildCommand, LookupID. destruct (payload_type p) as [t|]; [|reflexivity].
  cbn [bind]. destruct (id_of reg t); reflexivity.
Qed.

(** ** Transaction numbers *)

Lemma trx_step_next c : (c < 2 ^ 32)%N ->
  trx_step c TNext = (((c + 1) mod 2 ^ 32)%N, Some ((c + 1) mod 65536)%N).
Proof.
  intros H. cbn [trx_step]. unfold TrxNext, NewTransaction. do 2 f_equal. lia.
Qed.

Lemma trx_exec_bound ths c log c' : trx_exec ths c log c' -> (c < 2 ^ 32)%N -> (c' < 2 ^ 32)%N.
Proof.
  induction 1 as [|ths i op rest c c1 r log c' Hi Hs _ IH]; auto. intros Hc. apply IH.
  destruct op; cbn [trx_step] in Hs.
  - unfold TrxNext in Hs. injection Hs as <- _. apply N.mod_lt. lia.
  - injection Hs as <- _. unfold TrxReset. lia.
Qed.

Lemma trx_exec_numbers ths c log c' :
  trx_exec ths c log c' -> (c < 2 ^ 32)%N ->
  (forall i op r, In (i, op, r) log -> op = TNext) ->
  forall k i op r, nth_error log k = Some (i, op, r) ->
    r = Some ((c + N.of_nat k + 1) mod 65536)%N.
Proof.
  induction 1 as [|ths i op rest c c1 r log c' Hi Hs _ IH]; intros Hc Hall k j op' r' Hk.
  - destruct k; discriminate.
  - assert (op = TNext) by (eapply Hall; left; reflexivity). subst op.
    rewrite trx_step_next in Hs by auto. injection Hs as <- <-.
    destruct k as [|k]; cbn [nth_error] in Hk.
    + injection Hk as _ _ <-. do 2 f_equal. lia.
    + assert (Hc1 : ((c + 1) mod 2 ^ 32 < 2 ^ 32)%N) by (apply N.mod_lt; lia).
      assert (Hall' : forall i op r, In (i, op, r) log -> op = TNext).
      { intros i0 op0 r0 Hin. eapply Hall. right. exact Hin. }
      rewrite (IH Hc1 Hall' k j op' r' Hk). f_equal. lia.
Qed.

Lemma trx_exec_distinct ths c log c' :
  trx_exec ths c log c' -> (c < 2 ^ 32)%N ->
  (forall i op r, In (i, op, r) log -> op = TNext) ->
  forall j k a b r, nth_error log j = Some (a, TNext, r) -> nth_error log k = Some (b, TNext, r) ->
    (N.of_nat j < N.of_nat k < N.of_nat j + 65536)%N -> False.
Proof.
  intros H Hc Hall j k a b r Hj Hk Hlt.
  pose proof (trx_exec_numbers _ _ _ _ H Hc Hall _ _ _ _ Hj) as Ej.
  pose proof (trx_exec_numbers _ _ _ _ H Hc Hall _ _ _ _ Hk) as Ek.
  rewrite Ej in Ek. injection Ek as Ek. lia.
Qed.

Lemma trx_exec_after_reset ths c pre i log c' j op r :
  trx_exec ths c (pre ++ (i, TReset, None) :: (j, op, r) :: log) c' ->
  op = TNext -> r = Some 1%N.
Proof.
  intros H ->. revert ths c H. induction pre as [|[[a o] x] pre IH]; intros ths c H.
  - inversion H as [|? ? ? ? ? ? ? ? ? ? Hs H2]; subst. cbn [trx_step] in Hs. injection Hs as <-.
    inversion H2 as [|? ? ? ? ? ? ? ? ? ? Hs2 _]; subst.
    rewrite trx_step_next in Hs2 by (unfold TrxReset; lia). injection Hs2 as _ <-. reflexivity.
  - inversion H as [|? ? ? ? ? ? ? ? ? ? ? H2]; subst. eapply IH. exact H2.
Qed.

(** ** Delta *)

Lemma trx_Delta_spec t d :
  u16 t -> exists r, trx_Delta (Some t) d = Some r /\ u16 r /\ (exists k, Z.of_N r = Z.of_N t + d + k * 65536)%Z.
Proof.
  intros H. cbn [trx_Delta]. eexists. split; [reflexivity|]. unfold u16 in *. split; [lia|].
  exists (- ((Z.of_N t + d) / 65536))%Z. lia.
Qed.

Lemma trx_Delta_inverse t d : u16 t -> trx_Delta (trx_Delta (Some t) d) (- d) = Some t.
Proof. intros H. cbn [trx_Delta]. unfold u16 in *. f_equal. lia. Qed.

(** ** Registry: order of the tables *)

Definition no_clash (a b : registry) : Prop :=
  forall id t u, In (id, t) a -> In (id, u) b -> False.

Lemma types_of_nil reg id : (forall t, ~ In (id, t) reg) -> types_of reg id = [].
Proof.
  intros H. destruct (types_of reg id) as [|t l] eqn:E; auto.
  exfalso. apply (H t). apply types_of_in. rewrite E. now left.
Qed.

Lemma types_of_swap a b id : no_clash a b -> types_of (a ++ b) id = types_of (b ++ a) id.
Proof.
  intros H. rewrite !types_of_app.
  destruct (types_of a id) as [|t l] eqn:E; [now rewrite app_nil_r|].
  assert (Hin : In (id, t) a) by (apply types_of_in; rewrite E; now left).
  rewrite (types_of_nil b id); [now rewrite app_nil_r|].
  intros u Hu. eapply H; eauto.
Qed.

Lemma tables_order tabs tabs' id :
  Permutation tabs tabs' ->
  (forall i j a b, nth_error tabs i = Some a -> nth_error tabs j = Some b -> i <> j -> no_clash a b) ->
  types_of (List.concat tabs) id = types_of (List.concat tabs') id.
Proof.
  intros P H.
  assert (H' : ForallOrdPairs no_clash tabs).
  { clear P tabs'. induction tabs as [|a tabs IH]; constructor.
    - rewrite Forall_forall. intros b Hin. apply In_nth_error in Hin as [j Hj].
      apply (H 0 (S j)); auto.
    - apply IH. intros i j x y Hi Hj Hne. apply (H (S i) (S j)); auto. }
  clear H. revert H'. induction P as [|a l l' P IH|a b l|l1 l2 l3 P1 IH1 P2 IH2]; intros H'.
  - reflexivity.
  - cbn [List.concat]. rewrite !types_of_app. f_equal. apply IH. now inversion H'.
  - cbn [List.concat]. rewrite !app_assoc. rewrite !(types_of_app (_ ++ _)). f_equal.
    apply types_of_swap. inversion H' as [|? ? Hf _]; subst. now inversion Hf.
  - rewrite IH1 by auto. apply IH2.
    (* no_clash is symmetric, so permuting preserves pairwise disjointness *)
    clear -P1 H'. induction P1 as [|a l l' P IH|a b l|l1 l2 l3 P1 IH1 P2 IH2]; auto.
    + inversion H' as [|? ? Hf Ho]; subst. constructor; auto.
      rewrite Forall_forall in *. intros x Hx. apply Hf. eapply Permutation_in; [apply Permutation_sym; exact P | exact Hx].
    + inversion H' as [|? ? Hf Ho]; subst. inversion Ho as [|? ? Hf2 Ho2]; subst.
      inversion Hf as [|? ? Hba Hf3]; subst.
      constructor; [constructor; auto|constructor; auto].
      intros id t u H1 H2. eapply Hba; eauto.
Qed.
