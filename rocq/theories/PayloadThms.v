(** Statements about the payload codecs in the vocabulary of SpecPayload. *)
From Coq Require Import ZifyBool ZifyNat ZifyN.
From Verif Require Import Base BaseFacts GoTypes GoTypesFacts Types Payload SpecPayload PayloadFacts WireFacts Util.
Ltac Zify.zify_post_hook ::= Z.div_mod_to_equations.

(** ** Buttons *)

Lemma button_types t : In t [simple_ContextButtonStatus; simple_VideoButtonStatus; simple_AudioButtonStatus] ->
  forall rt m data,
    payload_marshaler rt (Pst t [VU m; VBlank]) = Some (Ret (Ok (buttons_marshal m)))
    /\ payload_unmarshal rt t data
       = Ret (true, match buttons_unmarshal data with Ok m => Ok (Pst t [VU m; VBlank]) | Err e => Err e end).
Proof.
  intros H rt m data. cbn [In] in H. repeat (destruct H as [<-|H]; [split; reflexivity|]). destruct H.
Qed.

Lemma buttons_codec t rt m :
  In t [simple_ContextButtonStatus; simple_VideoButtonStatus; simple_AudioButtonStatus] -> u32 m ->
  exists b, payload_marshaler rt (Pst t [VU m; VBlank]) = Some (Ret (Ok b)) /\ button_wire m b
    /\ payload_unmarshal rt t b = Ret (true, Ok (Pst t [VU m; VBlank])).
Proof.
  intros Ht Hm. exists (buttons_marshal m). destruct (button_types t Ht rt m (buttons_marshal m)) as [E1 E2].
  split; [exact E1|]. split; [now apply button_wire_enc|]. rewrite E2, buttons_roundtrip by exact Hm. reflexivity.
Qed.

Lemma buttons_parse t rt data :
  In t [simple_ContextButtonStatus; simple_VideoButtonStatus; simple_AudioButtonStatus] ->
  match data with
  | [] => exists e, payload_unmarshal rt t data = Ret (true, Err e)
  | _ => payload_unmarshal rt t data = Ret (true, Ok (Pst t [VU (number (rev (firstn 4 data))); VBlank]))
  end.
Proof.
  intros Ht. destruct (button_types t Ht rt 0 data) as [_ E]. destruct data as [|b r].
  - rewrite E. cbn. eauto.
  - rewrite E, number_rev_le. set (d := b :: r).
    destruct (Nat.le_gt_cases 4 (List.length d)) as [H|H].
    + now rewrite (buttons_unmarshal_long d H).
    + rewrite (buttons_unmarshal_short d) by (try discriminate; lia).
      now rewrite firstn_all2 by lia.
Qed.

(** ** Token lists *)

Lemma tokens_loop_prefix rt l n :
  Forall (codable_token rt) l -> n <= List.length l ->
  exists bs, tokens_marshal_loop rt l = Ret (Ok bs)
    /\ tokens_unmarshal_loop rt n bs = Ret (Ok (firstn n l)).
Proof.
  intros H. revert n. induction H as [|v l Hv _ IH]; intros n Hn.
  - destruct n; [|cbn in Hn; lia]. exists []. split; reflexivity.
  - destruct (token_roundtrip _ _ Hv) as (b & Mb & Lb & Ub).
    cbn [tokens_marshal_loop]. rewrite Mb. cbn [bind].
    destruct n as [|n].
    + destruct (IH 0 (Nat.le_0_l _)) as (bs & -> & _). cbn [bind]. eexists. split; reflexivity.
    + cbn [List.length] in Hn. destruct (IH n) as (bs & -> & Eu); [lia|]. cbn [bind].
      eexists. split; [reflexivity|]. cbn [tokens_unmarshal_loop firstn].
      rewrite (b2n_len_small b 255) by lia. unfold len. rewrite Nat2N.id.
      rewrite firstn_app_exact, skipn_app_exact by reflexivity.
      rewrite Ub. cbn [bind]. rewrite Eu. reflexivity.
Qed.

(** Lists longer than 255 tokens: the count wraps. *)
Lemma tokens_wrap rt l :
  Forall (codable_token rt) l ->
  exists b, payload_marshaler rt (PTokens l) = Some (Ret (Ok b))
    /\ payload_unmarshal rt general_SetFIDTokenValues b
       = Ret (true, Ok (PTokens (firstn (N.to_nat (len l mod 256)) l))).
Proof.
  intros H. cbn [payload_marshaler payload_unmarshal]. unfold tokens_marshal, tokens_unmarshal.
  destruct (tokens_loop_prefix rt l (N.to_nat (len l mod 256)) H) as (bs & E1 & E2).
  { unfold len. lia. }
  rewrite E1. cbn [bind]. exists (n2b (len l) :: bs). split; [reflexivity|]. rewrite b2n_n2b, E2. reflexivity.
Qed.

Lemma tokens_unmarshal_consistent rt data l :
  payload_unmarshal rt general_SetFIDTokenValues data = Ret (true, Ok (PTokens l)) ->
  Forall consistent_token l /\ exists n r, data = n :: r /\ len l = b2n n.
Proof.
  cbn [payload_unmarshal]. intros H. apply (tokens_consistent rt).
  destruct (tokens_unmarshal rt data) as [[l'|e]|]; try discriminate. cbn [bind] in H.
  injection H as <-. reflexivity.
Qed.

Lemma sendable_payload rt p :
  sendable rt p ->
  exists t b, payload_type p = Some t
    /\ payload_marshaler rt p = Some (Ret (Ok b)) /\ payload_wire p b
    /\ payload_unmarshal rt t b = Ret (true, Ok p).
Proof.
  intros H. destruct (sendable_roundtrip rt p H) as (t & b & Ht & _ & Em & Eu).
  exists t, b. split; [exact Ht|]. split; [exact Em|]. split; [|exact Eu].
  eapply payload_wire_enc; eauto.
Qed.

(** ** Certificate sections *)

Lemma cert_section rt data :
  match data with
  | major :: minor :: r =>
      if (b2n major <? 2)%N
      then payload_unmarshal rt general_RetDevAuthenticationInfo data
           = Ret (true, Ok (Pst general_RetDevAuthenticationInfo
                              [VU (b2n major); VU (b2n minor); VU 0; VU 0; VBytes []]))
      else match r with
           | cur :: max :: cert =>
               payload_unmarshal rt general_RetDevAuthenticationInfo data
               = Ret (true, Ok (Pst general_RetDevAuthenticationInfo
                                  [VU (b2n major); VU (b2n minor); VU (b2n cur); VU (b2n max); VBytes cert]))
           | _ => exists e, payload_unmarshal rt general_RetDevAuthenticationInfo data = Ret (true, Err e)
           end
  | _ => exists e, payload_unmarshal rt general_RetDevAuthenticationInfo data = Ret (true, Err e)
  end.
Proof.
  destruct data as [|a [|b r]]; [eexists; reflexivity|eexists; reflexivity|].
  cbn [payload_unmarshal]. unfold devauthinfo_unmarshal.
  destruct (N.ltb_spec (b2n a) 2); destruct (N.leb_spec 2 (b2n a)); try lia; [reflexivity|].
  destruct r as [|c [|d r]]; [eexists; reflexivity|eexists; reflexivity|reflexivity].
Qed.

(** ** Info types *)

Lemma state_info_unknown rt ty data :
  ~ In (b2n ty) (map fst state_infos) ->
  exists e, payload_unmarshal rt disp_RetiPodStateInfo (ty :: data) = Ret (true, Err e).
Proof.
  intros H. cbn [payload_unmarshal]. unfold disp_info_unmarshal. rewrite read_uint1_cons.
  destruct (state_info_type (b2n ty)) as [t|] eqn:E; [|eauto].
  exfalso. apply H. change (b2n ty) with (fst (b2n ty, t)). apply in_map. now apply state_info_type_in.
Qed.

Lemma text_info_lost rt ty t vs :
  In (ty, t) text_track_infos ->
  payload_marshaler rt (PDispTrackInfo ty (IPtr t vs)) = Some (Ret (Ok [n2b ty])).
Proof.
  intros H. destruct (text_infos_sel _ _ H) as (_ & _ & Hs).
  cbn [payload_marshaler]. unfold disp_info_marshal. cbn [write_iface]. unfold binary_write. now rewrite Hs.
Qed.

(** ** Lists with tails *)

Lemma rates_tail rt l rest :
  Forall u32 l -> List.length rest < 4 ->
  exists b, payload_marshaler rt (Pst audio_RetAccSampleRateCaps [VU32s l]) = Some (Ret (Ok b))
    /\ sequence be32 l b
    /\ payload_unmarshal rt audio_RetAccSampleRateCaps (b ++ rest)
       = Ret (true, Ok (Pst audio_RetAccSampleRateCaps [VU32s l])).
Proof.
  intros Hl Hr. exists (rates_marshal l). split; [reflexivity|]. split; [now apply rates_wire_enc|].
  cbn [payload_unmarshal]. now rewrite rates_roundtrip_tail.
Qed.

Lemma artwork_tail rt l rest :
  Forall (typed ext_ArtworkFormat) l -> 0 < List.length rest < 7 ->
  exists b, payload_marshaler rt (PExtArtwork l) = Some (Ret (Ok b))
    /\ payload_unmarshal rt ext_RetArtworkFormats (b ++ rest) = Ret (true, Err UnexpectedEOF).
Proof.
  intros Hl Hr. exists (ext_artwork_marshal l). split; [reflexivity|].
  cbn [payload_unmarshal]. now rewrite ext_artwork_partial.
Qed.

(** ** util.go *)

Lemma bool_byte b : ByteToBool (BoolToByte b) = b.
Proof. now destruct b. Qed.
Lemma byte_bool n : ByteToBool n = true <-> n = 1%N.
Proof. apply N.eqb_eq. Qed.
