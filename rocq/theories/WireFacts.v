(** The encoders produce the wire forms of SpecPayload. *)
From Coq Require Import ZifyBool ZifyNat ZifyN.
From Verif Require Import Base BaseFacts GoTypes GoTypesFacts Types Payload SpecPayload PayloadFacts.
Ltac Zify.zify_post_hook ::= Z.div_mod_to_equations.

Lemma number_snoc l b : number (l ++ [b]) = (number l * 256 + b2n b)%N.
Proof.
  induction l as [|x l IH]; cbn [app number].
  - change (len (@nil byte)) with 0%N. lia.
  - rewrite IH, len_app. change (len [b]) with 1%N. rewrite N.pow_add_r. lia.
Qed.

Lemma number_be_dec l : number l = be_dec l.
Proof.
  induction l as [|b l IH] using rev_ind; [reflexivity|].
  now rewrite number_snoc, be_dec_snoc, IH.
Qed.

Lemma number_rev_le l : number (rev l) = le_dec l.
Proof.
  induction l as [|b l IH]; [reflexivity|]. cbn [rev le_dec]. rewrite number_snoc, IH. lia.
Qed.

Lemma be32_enc n : u32 n -> be32 n (be_enc 4 n).
Proof.
  intros H. split; [apply be_enc_length|]. rewrite number_be_dec. now apply be_dec_enc_small.
Qed.

Lemma pow2_256 k : (2 ^ (8 * Z.of_nat k))%Z = Z.of_N (256 ^ N.of_nat k).
Proof.
  rewrite N2Z.inj_pow, nat_N_Z. change (Z.of_N 256) with (2 ^ 8)%Z. rewrite <- Z.pow_mul_r by lia. reflexivity.
Qed.

Lemma field_wire_enc f v n : field_size f = Some n -> has_type f v = true -> field_wire f v (enc_field f v).
Proof.
  intros Hs Ht. destruct f, v; try discriminate; cbn [enc_field has_type] in *.
  - apply fw_unsigned; [apply be_enc_length|]. rewrite number_be_dec. apply be_dec_enc_small. lia.
  - assert (Hk : k <> 0) by lia.
    assert (P : (2 ^ (8 * Z.of_nat k) = 2 * 2 ^ (8 * Z.of_nat k - 1))%Z).
    { rewrite <- Z.pow_succ_r by lia. f_equal. lia. }
    assert (E : Z.of_N (number (be_enc k (z_enc k z))) = (z mod 2 ^ (8 * Z.of_nat k))%Z).
    { rewrite number_be_dec, be_dec_enc_small by apply z_enc_bound.
      unfold z_enc. rewrite Z2N.id; [reflexivity|]. apply Z.mod_pos_bound. rewrite pow2_256.
      assert (256 ^ N.of_nat k <> 0)%N by (apply N.pow_nonzero; lia). lia. }
    set (h := (2 ^ (8 * Z.of_nat k - 1))%Z) in *.
    destruct (Z_lt_le_dec z 0) as [Hz|Hz].
    + apply fw_negative; [apply be_enc_length|fold h; lia|]. rewrite E.
      rewrite <- (Z.mod_add z 1) by lia. rewrite Z.mul_1_l. apply Z.mod_small. lia.
    + apply fw_positive; [apply be_enc_length|fold h; lia|]. rewrite E. apply Z.mod_small. lia.
  - destruct b; constructor.
  - constructor. lia.
Qed.

Lemma struct_wire_enc fs vs n :
  struct_size fs = Some n -> have_types fs vs = true -> struct_wire fs vs (enc_fields fs vs).
Proof.
  revert vs n. induction fs as [|f fs IH]; intros [|v vs] n Hs Ht; try discriminate.
  - constructor.
  - apply struct_size_cons in Hs as (a & b & Ha & Hb & _). cbn [have_types] in Ht.
    apply andb_prop in Ht as [Hv Hvs]. cbn [enc_fields]. constructor; eauto using field_wire_enc.
Qed.

Lemma token_wire_enc rt v b :
  codable_token rt v -> token_value_marshal rt v = Ret (Ok b) -> token_wire v b /\ (len b < 256)%N.
Proof.
  intros H E. destruct (token_roundtrip _ _ H) as (b' & E' & L & _).
  rewrite E in E'. injection E' as <-. split; [|unfold len; lia].
  destruct H as [l o d Hl Ho Hd | ty sub t vs Hs Hu Ht | ty sub l Hrt Hty Hsub Hk Hl];
    unfold token_value_marshal in E; cbn [tv_token tv_type tv_sub] in E.
  - injection E as <-. exact (tw_identify l o d _ _ (be32_enc _ Ho) (be32_enc _ Hd)).
  - destruct (token_struct_fixed _ _ _ Hs) as (n & Hn & _). unfold fixed_size in Hn. rewrite Hn in E.
    injection E as <-. apply tw_struct. eapply struct_wire_enc; eauto.
  - injection E as <-. apply tw_raw.
Qed.

Lemma tokens_wire_enc rt l b :
  Forall (codable_token rt) l -> tokens_marshal_loop rt l = Ret (Ok b) -> records token_wire l b.
Proof.
  intros H. revert b. induction H as [|v l Hv Hl IH]; cbn [tokens_marshal_loop]; intros b E.
  - injection E as <-. constructor.
  - destruct (token_value_marshal rt v) as [[a|]|] eqn:Ev; try discriminate. cbn [bind] in E.
    destruct (tokens_marshal_loop rt l) as [[bs|]|] eqn:El; try discriminate. cbn [bind] in E.
    injection E as <-. destruct (token_wire_enc _ _ _ Hv Ev). constructor; auto.
Qed.

Lemma acks_wire_enc rt l b :
  Forall codable_ack l -> acks_marshal_loop rt l = Ret (Ok b) -> records ack_wire l b.
Proof.
  intros H. revert b. induction H as [|v l Hv Hl IH]; cbn [acks_marshal_loop]; intros b E.
  - injection E as <-. constructor.
  - destruct (ack_marshal rt v) as [[a|]|] eqn:Ev; try discriminate. cbn [bind] in E.
    destruct (acks_marshal_loop rt l) as [[bs|]|] eqn:El; try discriminate. cbn [bind] in E.
    injection E as <-. destruct Hv as [ty sub x Hty Hsub Hx]. unfold ack_marshal in Ev. cbn [ta_ack ta_type ta_sub] in Ev.
    injection Ev as <-. constructor; auto.
    + exists x. split; reflexivity.
    + unfold len. cbn [List.length app]. lia.
Qed.

Lemma rates_wire_enc l : Forall u32 l -> sequence be32 l (rates_marshal l).
Proof.
  induction 1 as [|n l Hn _ IH]; [constructor|].
  change (rates_marshal (n :: l)) with (be_enc 4 n ++ rates_marshal l).
  constructor; auto using be32_enc.
Qed.

Lemma artwork_wire_enc l :
  Forall (typed ext_ArtworkFormat) l -> sequence (struct_wire (layout ext_ArtworkFormat)) l (ext_artwork_marshal l).
Proof.
  induction 1 as [|f l Hf _ IH]; [constructor|].
  change (ext_artwork_marshal (f :: l)) with (enc_fields (layout ext_ArtworkFormat) f ++ ext_artwork_marshal l).
  constructor; auto. eapply struct_wire_enc; [reflexivity|exact Hf].
Qed.

Lemma button_wire_enc m : u32 m -> button_wire m (buttons_marshal m).
Proof.
  intros H. destruct (buttons_marshal_spec m H) as (k & E & Hn & Hl). exists k.
  assert (L : List.length (le_enc 4 m) = 4) by apply le_enc_length.
  rewrite E, app_length, repeat_length in L. split; [exact L|]. split; auto.
  rewrite number_rev_le, <- E, le_dec_enc. apply N.mod_small. exact H.
Qed.

Lemma write_ptr_fixed t n vs : fixed_size t n -> write_iface (IPtr t vs) = Ret (Ok (enc_fields (layout t) vs)).
Proof. intros H. cbn [write_iface]. now rewrite (binary_write_fixed _ _ _ H). Qed.

Lemma payload_wire_enc rt p b :
  sendable rt p -> payload_marshaler rt p = Some (Ret (Ok b)) -> payload_wire p b.
Proof.
  intros [t l Ht | id l Hid | t m Ht Hm | l Hl | l Hl Hf | l Hl Hf | ty t vs Hty Et Ht | l Hl
         | ty t vs Hin Ht | ty t vs Hin Ht] E.
  - pose proof (pw_string t l Ht) as W. cbn [In] in Ht.
    repeat (destruct Ht as [<-|Ht]; [injection E as <-; exact W|]). destruct Ht.
  - injection E as <-. apply pw_model. now apply be32_enc.
  - pose proof (pw_buttons t m _ Ht (button_wire_enc m Hm)) as W. cbn [In] in Ht.
    repeat (destruct Ht as [<-|Ht]; [injection E as <-; exact W|]). destruct Ht.
  - injection E as <-. apply pw_rates. now apply rates_wire_enc.
  - cbn [payload_marshaler] in E. unfold tokens_marshal in E.
    destruct (tokens_marshal_loop rt l) as [[bs|]|] eqn:El; try discriminate. injection E as <-.
    apply pw_tokens; [unfold len; lia|]. eapply tokens_wire_enc; eauto.
  - cbn [payload_marshaler] in E. unfold acks_marshal in E.
    destruct (acks_marshal_loop rt l) as [[bs|]|] eqn:El; try discriminate. injection E as <-.
    apply pw_acks; [unfold len; lia|]. eapply acks_wire_enc; eauto.
  - cbn [payload_marshaler] in E. unfold ext_track_info_marshal in E.
    assert (Hn : exists n, fixed_size t n).
    { subst t. destruct (ty =? 0)%N; [eexists; reflexivity|].
      destruct ((ty =? 3) || (ty =? 4))%N; eexists; reflexivity. }
    destruct Hn as [n Hn]. rewrite (write_ptr_fixed _ _ _ Hn) in E. injection E as <-.
    apply pw_ext_info. eapply struct_wire_enc; eauto.
  - injection E as <-. apply pw_artwork. now apply artwork_wire_enc.
  - destruct (state_infos_sel _ _ Hin) as (_ & _ & n & Hn).
    cbn [payload_marshaler] in E. unfold disp_info_marshal in E.
    rewrite (write_ptr_fixed _ _ _ Hn) in E. injection E as <-.
    apply pw_state. eapply struct_wire_enc; [exact Hn|exact Ht].
  - destruct (sized_infos_sel _ _ Hin) as (_ & _ & n & Hn).
    cbn [payload_marshaler] in E. unfold disp_info_marshal in E.
    rewrite (write_ptr_fixed _ _ _ Hn) in E. injection E as <-.
    apply pw_track. eapply struct_wire_enc; [exact Hn|exact Ht].
Qed.

Lemma field_reads_dec f n b :
  field_size f = Some n -> List.length b = n -> (forall k, f = FI k -> k <> 0) ->
  field_reads f (dec_field f b) b.
Proof.
  intros Hs Hl Hk. destruct f; try discriminate; injection Hs as <-; cbn [dec_field].
  - apply fr_wire, fw_unsigned; [exact Hl|apply number_be_dec].
  - specialize (Hk _ eq_refl). apply fr_wire. unfold z_dec. rewrite <- number_be_dec.
    assert (P : (2 ^ (8 * Z.of_nat k) = 2 * 2 ^ (8 * Z.of_nat k - 1))%Z).
    { rewrite <- Z.pow_succ_r by lia. f_equal. lia. }
    assert (B : (Z.of_N (number b) < 2 ^ (8 * Z.of_nat k))%Z).
    { rewrite number_be_dec, pow2_256, <- Hl. pose proof (be_dec_bound b). lia. }
    destruct (Z.ltb_spec (Z.of_N (number b)) (2 ^ (8 * Z.of_nat k - 1))).
    + apply fw_positive; auto. split; lia.
    + apply fw_negative; auto; lia.
  - destruct b as [|c [|]]; try discriminate Hl. cbn [hd].
    destruct (byte_eqb c x00) eqn:E; cbn [negb].
    + apply byte_eqb_eq in E. subst c. apply fr_wire, fw_false.
    + apply byte_eqb_neq in E. now apply fr_true.
  - apply fr_wire. now constructor.
Qed.

Lemma struct_reads_dec fs n b :
  struct_size fs = Some n -> List.length b = n -> (forall k, In (FI k) fs -> k <> 0) ->
  struct_reads fs (dec_fields fs b) b.
Proof.
  revert n b. induction fs as [|f fs IH]; intros n b Hs Hl Hk.
  - injection Hs as <-. destruct b; [constructor|discriminate].
  - apply struct_size_cons in Hs as (x & y & Hx & Hy & ->). cbn [dec_fields]. rewrite Hx.
    rewrite <- (firstn_skipn x b) at 3. constructor.
    + eapply field_reads_dec; [exact Hx| |].
      * rewrite firstn_length. lia.
      * intros k ->. apply Hk. now left.
    + eapply IH; [exact Hy| |].
      * rewrite skipn_length. lia.
      * intros k Hin. apply Hk. now right.
Qed.

Lemma layout_reads_dec t n b :
  fixed_size t n -> List.length b = n -> struct_reads (layout t) (dec_fields (layout t) b) b.
Proof. intros Hn Hl. eapply struct_reads_dec; eauto using layout_signed. Qed.
