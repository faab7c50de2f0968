(** Lemmas about the payload codecs. *)
From Verif Require Import Base BaseFacts GoTypes GoTypesFacts Types Payload SpecPayload.
From Coq Require Import ZifyBool ZifyNat ZifyN.
Ltac Zify.zify_post_hook ::= Z.div_mod_to_equations.

(** ** Types *)

Lemma nth_all_types t : nth_error all_types (pty_index t) = Some t.
Proof. destruct t; reflexivity. Qed.

Lemma pty_index_inj a b : pty_index a = pty_index b -> a = b.
Proof.
  intros H. pose proof (nth_all_types a) as Ha. rewrite H, nth_all_types in Ha. congruence.
Qed.

Lemma pty_eqb_eq a b : pty_eqb a b = true <-> a = b.
Proof.
  unfold pty_eqb. rewrite Nat.eqb_eq. split; [apply pty_index_inj | now intros ->].
Qed.

Lemma pty_eqb_refl a : pty_eqb a a = true.
Proof. now apply pty_eqb_eq. Qed.

Lemma pty_dec (a b : pty) : {a = b} + {a <> b}.
Proof.
  destruct (pty_eqb a b) eqn:E; [left; now apply pty_eqb_eq | right].
  intros ->. now rewrite pty_eqb_refl in E.
Qed.

Lemma in_all_types t : In t all_types.
Proof. eapply nth_error_In. apply nth_all_types. Qed.

Definition signed_ok (t : pty) : bool :=
  forallb (fun f => match f with FI 0 => false | _ => true end) (layout t).

Lemma layout_signed t k : In (FI k) (layout t) -> k <> 0.
Proof.
  assert (H : signed_ok t = true).
  { assert (A : forallb signed_ok all_types = true) by (vm_compute; reflexivity).
    rewrite forallb_forall in A. apply A, in_all_types. }
  unfold signed_ok in H. rewrite forallb_forall in H. intros Hin ->. now apply H in Hin.
Qed.

Lemma dec_fields_layout_typed t n l :
  fixed_size t n -> List.length l = n -> typed t (dec_fields (layout t) l).
Proof. intros. eapply dec_fields_typed; eauto. apply layout_signed. Qed.

(** ** encoding/binary *)

Lemma binary_write_fixed t n vs : fixed_size t n -> binary_write t vs = Ok (enc_fields (layout t) vs).
Proof. unfold fixed_size, binary_write. now intros ->. Qed.

Lemma binary_read_fixed t n l :
  fixed_size t n ->
  binary_read t l = match read_full n l with
                    | (Ok b, rest) => (Ok (dec_fields (layout t) b), rest)
                    | (Err e, rest) => (Err e, rest)
                    end.
Proof. unfold fixed_size, binary_read. now intros ->. Qed.

Lemma binary_roundtrip t n vs rest :
  fixed_size t n -> typed t vs ->
  binary_read t (enc_fields (layout t) vs ++ rest) = (Ok vs, rest).
Proof.
  intros Hn Ht. rewrite (binary_read_fixed _ _ _ Hn).
  rewrite read_full_app by (eapply enc_fields_length; eauto).
  now rewrite (dec_enc_fields _ _ _ Hn Ht).
Qed.

Lemma binary_read_ok t l vs rest :
  binary_read t l = (Ok vs, rest) ->
  exists n b, fixed_size t n /\ l = b ++ rest /\ List.length b = n /\ vs = dec_fields (layout t) b /\ typed t vs.
Proof.
  unfold binary_read. destruct (struct_size (layout t)) as [n|] eqn:E; [|discriminate].
  destruct (read_full n l) as [[b|e] r] eqn:R; [|discriminate].
  intros [= <- <-]. apply read_full_inv in R as [-> L].
  exists n, b. repeat split; auto. eapply dec_fields_layout_typed; eauto.
Qed.

Lemma read_uint_or0_app k n rest :
  (n < 256 ^ N.of_nat k)%N -> read_uint_or0 k (be_enc k n ++ rest) = (n, rest).
Proof.
  intros H. unfold read_uint_or0. rewrite read_full_app by apply be_enc_length.
  now rewrite be_dec_enc_small.
Qed.

Lemma read_uint_or0_bound k l : (fst (read_uint_or0 k l) < 256 ^ N.of_nat k)%N.
Proof.
  unfold read_uint_or0. destruct (read_full k l) as [[b|e] r] eqn:R; simpl.
  - apply read_full_inv in R as [_ <-]. apply be_dec_bound.
  - assert (256 ^ N.of_nat k <> 0)%N by (apply N.pow_nonzero; lia). lia.
Qed.

Lemma read_uint1_cons b l : read_uint_or0 1 (b :: l) = (b2n b, l).
Proof. reflexivity. Qed.

Lemma b2n_len_small {A} (l : list A) n : List.length l <= n -> n <= 255 -> b2n (n2b (len l)) = len l.
Proof. intros. apply b2n_n2b_small. unfold len. lia. Qed.

Lemma n2b_u8 n : u8 n -> b2n (n2b n) = n.
Proof. apply b2n_n2b_small. Qed.

(** ** Tokens *)

Lemma identify_roundtrip l o d :
  List.length l <= 255 -> u32 o -> u32 d ->
  identify_unmarshal (identify_marshal l o d) = Ok (TokIdentify l o d).
Proof.
  intros Hl Ho Hd. unfold identify_marshal, identify_unmarshal. cbn [app].
  rewrite (b2n_len_small _ 255) by lia. unfold len. rewrite Nat2N.id.
  rewrite read_full_app by reflexivity.
  rewrite read_uint_or0_app by exact Ho.
  rewrite <- (app_nil_r (be_enc 4 d)), read_uint_or0_app by exact Hd. reflexivity.
Qed.

Lemma token_kind_struct ty sub t :
  token_struct ty sub t ->
  (token_kind_of ty sub = KAccCaps /\ t = general_FIDAccCapsToken)
  \/ token_kind_of ty sub = KFixed t.
Proof. intros []; simpl; auto. Qed.

Lemma token_struct_fixed ty sub t : token_struct ty sub t -> exists n, fixed_size t n /\ n <= 14.
Proof. intros []; unfold fixed_size; eexists; split; try reflexivity; lia. Qed.

Lemma token_struct_u8 ty sub t : token_struct ty sub t -> u8 ty.
Proof. intros []; unfold u8; lia. Qed.

Ltac split_N n :=
  let p := fresh "p" in
  destruct n as [|p]; [|repeat (try (destruct p as [p|p|]))].

Lemma token_kind_none ty sub : token_kind_of ty sub = KNone <-> ~ known_token ty sub.
Proof.
  unfold known_token, token_kind_of. split.
  - intros H [->|[-> Hin]]; [discriminate|]. simpl in Hin.
    repeat (destruct Hin as [<-|Hin]; [discriminate|]). exact Hin.
  - intros H. destruct ty as [|[p|p|]]; try reflexivity.
    + destruct sub as [|q]; [exfalso; apply H; right; simpl; auto|].
      destruct (N.eq_dec (Npos q) 1) as [E|N1]; [exfalso; apply H; rewrite E; right; simpl; tauto|].
      destruct (N.eq_dec (Npos q) 2) as [E|N2]; [exfalso; apply H; rewrite E; right; simpl; tauto|].
      destruct (N.eq_dec (Npos q) 3) as [E|N3]; [exfalso; apply H; rewrite E; right; simpl; tauto|].
      destruct (N.eq_dec (Npos q) 4) as [E|N4]; [exfalso; apply H; rewrite E; right; simpl; tauto|].
      destruct (N.eq_dec (Npos q) 5) as [E|N5]; [exfalso; apply H; rewrite E; right; simpl; tauto|].
      destruct (N.eq_dec (Npos q) 7) as [E|N7]; [exfalso; apply H; rewrite E; right; simpl; tauto|].
      destruct (N.eq_dec (Npos q) 8) as [E|N8]; [exfalso; apply H; rewrite E; right; simpl; tauto|].
      do 4 (try (destruct q as [q|q|]; try reflexivity; try lia)).
    + exfalso. apply H. now left.
Qed.

Lemma token_roundtrip rt v :
  codable_token rt v ->
  exists b, token_value_marshal rt v = Ret (Ok b) /\ List.length b <= 255
            /\ token_value_unmarshal rt b = Ret (Ok v).
Proof.
  intros [l o d Hl Ho Hd | ty sub t vs Hs Hu Ht | ty sub l Hrt Hty Hsub Hk Hl].
  - eexists. split; [reflexivity|]. split.
    + unfold identify_marshal. rewrite !app_length, !be_enc_length. simpl. lia.
    + unfold token_value_unmarshal. rewrite read_full_app by reflexivity.
      cbn [nth app tv_type tv_sub]. change (b2n (n2b 0)) with 0%N. cbn [token_kind_of].
      rewrite identify_roundtrip; auto; lia.
  - destruct (token_struct_fixed _ _ _ Hs) as (n & Hn & Hle).
    pose proof (enc_fields_length _ _ _ Hn Ht) as L.
    exists ([n2b ty; n2b sub] ++ enc_fields (layout t) vs). split; [|split].
    + unfold token_value_marshal. cbn [tv_token tv_type tv_sub]. unfold fixed_size in Hn. now rewrite Hn.
    + rewrite app_length, L. simpl. lia.
    + unfold token_value_unmarshal. rewrite read_full_app by reflexivity. cbn [nth].
      rewrite (n2b_u8 _ (token_struct_u8 _ _ _ Hs)), (n2b_u8 _ Hu).
      destruct (token_kind_struct _ _ _ Hs) as [[-> ->] | ->].
      * (* accessory capabilities *)
        unfold typed in Ht. cbn [layout] in Ht |- *.
        destruct vs as [|v0 vs]; [discriminate|].
        cbn [have_types] in Ht. apply andb_prop in Ht as [Hv Hvs]. destruct vs; [|discriminate].
        destruct v0; try discriminate. cbn [enc_fields enc_field].
        rewrite read_uint_or0_app by (cbn [has_type] in Hv; lia). reflexivity.
      * rewrite <- (app_nil_r (enc_fields _ _)), (binary_roundtrip _ _ _ _ Hn Ht). reflexivity.
  - exists ([n2b ty; n2b sub] ++ l). split; [reflexivity|]. split.
    + rewrite app_length. simpl. lia.
    + unfold token_value_unmarshal. rewrite read_full_app by reflexivity. cbn [nth].
      rewrite (n2b_u8 _ Hty), (n2b_u8 _ Hsub).
      rewrite (proj2 (token_kind_none _ _) Hk), Hrt. reflexivity.
Qed.

Lemma tokens_loop_roundtrip rt l :
  Forall (codable_token rt) l ->
  exists bs, tokens_marshal_loop rt l = Ret (Ok bs)
    /\ tokens_unmarshal_loop rt (List.length l) bs = Ret (Ok l).
Proof.
  induction 1 as [|v l Hv _ (bs & Em & Eu)]; [now exists []|].
  destruct (token_roundtrip _ _ Hv) as (b & Mb & Lb & Ub).
  exists (n2b (len b) :: b ++ bs). cbn [tokens_marshal_loop tokens_unmarshal_loop List.length].
  rewrite Mb. cbn [bind]. rewrite Em. cbn [bind]. split; [reflexivity|].
  rewrite (b2n_len_small b 255) by lia. unfold len. rewrite Nat2N.id.
  rewrite firstn_app_exact, skipn_app_exact by reflexivity.
  rewrite Ub. cbn [bind]. rewrite Eu. reflexivity.
Qed.

Lemma tokens_roundtrip rt l :
  List.length l <= 255 -> Forall (codable_token rt) l ->
  exists bs, tokens_marshal rt l = Ret (Ok bs) /\ tokens_unmarshal rt bs = Ret (Ok l).
Proof.
  intros Hl Hf. destruct (tokens_loop_roundtrip _ _ Hf) as (bs & Em & Eu).
  exists (n2b (len l) :: bs). unfold tokens_marshal, tokens_unmarshal. rewrite Em. split; [reflexivity|].
  rewrite (b2n_len_small l 255) by lia. unfold len. rewrite Nat2N.id. exact Eu.
Qed.

Lemma token_kind_fixed ty sub t : token_kind_of ty sub = KFixed t -> token_struct ty sub t.
Proof.
  unfold token_kind_of. destruct ty as [|[p|p|]]; try discriminate.
  - destruct sub as [|q]; try discriminate.
    do 4 (try (destruct q as [q|q|]; try discriminate)); intros [= <-]; constructor.
  - intros [= <-]. constructor.
Qed.

Lemma token_kind_caps ty sub : token_kind_of ty sub = KAccCaps -> ty = 0%N /\ sub = 1%N.
Proof.
  unfold token_kind_of. destruct ty as [|[p|p|]]; try discriminate.
  destruct sub as [|q]; try discriminate. do 4 (try (destruct q as [q|q|]; try discriminate)); auto.
Qed.
Lemma token_kind_identify ty sub : token_kind_of ty sub = KIdentify -> ty = 0%N /\ sub = 0%N.
Proof.
  unfold token_kind_of. destruct ty as [|[p|p|]]; try discriminate.
  destruct sub as [|q]; auto. do 4 (try (destruct q as [q|q|]; try discriminate)).
Qed.
Lemma token_kind_accinfo ty sub : token_kind_of ty sub = KAccInfo -> ty = 0%N /\ sub = 2%N.
Proof.
  unfold token_kind_of. destruct ty as [|[p|p|]]; try discriminate.
  destruct sub as [|q]; try discriminate. do 4 (try (destruct q as [q|q|]; try discriminate)); auto.
Qed.
Lemma token_kind_ea ty sub : token_kind_of ty sub = KEAProtocol <-> ty = 0%N /\ sub = 4%N.
Proof.
  split; [|intros [-> ->]; reflexivity].
  unfold token_kind_of. destruct ty as [|[p|p|]]; try discriminate.
  destruct sub as [|q]; try discriminate. do 4 (try (destruct q as [q|q|]; try discriminate)); auto.
Qed.

Lemma accinfo_value data tok :
  accinfo_unmarshal data = Ok tok -> exists ty v, tok = TokAccInfo ty (Some v).
Proof.
  unfold accinfo_unmarshal. destruct (read_uint_or0 1 data) as [ty r].
  destruct ty as [|q]; [discriminate|].
  do 4 (try (destruct q as [q|q|]; try discriminate)); intros [= <-]; eauto.
Qed.

Lemma token_consistent rt data v :
  token_value_unmarshal rt data = Ret (Ok v) -> consistent_token v.
Proof.
  unfold token_value_unmarshal. destruct (read_full 2 data) as [[idb|e] r]; [|discriminate].
  set (ty := b2n (nth 0 idb x00)). set (sub := b2n (nth 1 idb x00)).
  destruct (token_kind_of ty sub) eqn:K.
  - apply token_kind_identify in K as [-> ->].
    unfold identify_unmarshal. destruct r as [|n r0]; [discriminate|].
    destruct (read_full _ r0) as [[b|e2] r1];
      destruct (read_uint_or0 4 r1) as [o r2]; destruct (read_uint_or0 4 r2) as [d r3];
      intros [= <-]; constructor.
  - apply token_kind_caps in K as [-> ->]. intros [= <-]. constructor; [constructor|].
    unfold typed. cbn [layout have_types has_type].
    pose proof (read_uint_or0_bound 8 r). lia.
  - apply token_kind_accinfo in K as [-> ->].
    destruct (accinfo_unmarshal r) as [t|e] eqn:E; [|discriminate].
    apply accinfo_value in E as (aty & av & ->). intros [= <-]. constructor.
  - apply token_kind_ea in K as [-> ->].
    destruct r as [|b r]; [discriminate|]. intros [= <-]. constructor.
  - destruct (binary_read t r) as [[vs|e] r2] eqn:E; [|discriminate].
    intros [= <-]. apply binary_read_ok in E as (n & b & _ & _ & _ & _ & Ht).
    constructor; auto. now apply token_kind_fixed.
  - destruct rt; [discriminate|]. intros [= <-]. constructor. now apply token_kind_none.
Qed.

Lemma tokens_loop_consistent rt n data l :
  tokens_unmarshal_loop rt n data = Ret (Ok l) -> Forall consistent_token l /\ List.length l = n.
Proof.
  revert data l; induction n as [|n IH]; intros data l; cbn [tokens_unmarshal_loop].
  - intros [= <-]. auto.
  - destruct data as [|k r]; [discriminate|].
    destruct (token_value_unmarshal rt (firstn (N.to_nat (b2n k)) r)) as [[v|e]|] eqn:E; try discriminate.
    cbn [bind].
    destruct (tokens_unmarshal_loop rt n (skipn (N.to_nat (b2n k)) r)) as [[vs|e]|] eqn:E2; try discriminate.
    intros [= <-]. destruct (IH _ _ E2) as [H1 H2]. split; [|simpl; lia].
    constructor; auto. eapply token_consistent; eauto.
Qed.

Lemma tokens_consistent rt data l :
  tokens_unmarshal rt data = Ret (Ok l) ->
  Forall consistent_token l /\ exists n r, data = n :: r /\ len l = b2n n.
Proof.
  unfold tokens_unmarshal. destruct data as [|n r]; [discriminate|].
  intros H. apply tokens_loop_consistent in H as [H1 H2]. split; auto.
  exists n, r. split; auto. unfold len. lia.
Qed.

(** ** Acks *)

Lemma ack_roundtrip rt a :
  codable_ack a ->
  exists b, ack_marshal rt a = Ret (Ok b) /\ List.length b <= 255 /\ ack_unmarshal b = Ok a.
Proof.
  intros [ty sub b Hty Hsub Hl]. exists ([n2b ty; n2b sub] ++ b). split; [reflexivity|]. split.
  - rewrite app_length. simpl. lia.
  - unfold ack_unmarshal. rewrite read_full_app by reflexivity. cbn [nth].
    now rewrite (n2b_u8 _ Hty), (n2b_u8 _ Hsub).
Qed.

Lemma acks_loop_roundtrip rt l :
  Forall codable_ack l ->
  exists bs, acks_marshal_loop rt l = Ret (Ok bs) /\ acks_unmarshal_loop (List.length l) bs = Ok l.
Proof.
  induction 1 as [|v l Hv _ (bs & Em & Eu)]; [now exists []|].
  destruct (ack_roundtrip rt _ Hv) as (b & Mb & Lb & Ub).
  exists (n2b (len b) :: b ++ bs). cbn [acks_marshal_loop acks_unmarshal_loop List.length].
  rewrite Mb. cbn [bind]. rewrite Em. cbn [bind]. split; [reflexivity|].
  rewrite (b2n_len_small b 255) by lia. unfold len. rewrite Nat2N.id.
  rewrite firstn_app_exact, skipn_app_exact by reflexivity.
  rewrite Ub, Eu. reflexivity.
Qed.

Lemma acks_roundtrip rt l :
  List.length l <= 255 -> Forall codable_ack l ->
  exists bs, acks_marshal rt l = Ret (Ok bs) /\ acks_unmarshal bs = Ok l.
Proof.
  intros Hl Hf. destruct (acks_loop_roundtrip rt _ Hf) as (bs & Em & Eu).
  exists (n2b (len l) :: bs). unfold acks_marshal, acks_unmarshal. rewrite Em. split; [reflexivity|].
  rewrite (b2n_len_small l 255) by lia. unfold len. rewrite Nat2N.id. exact Eu.
Qed.

Lemma acks_loop_some n data l :
  acks_unmarshal_loop n data = Ok l -> Forall (fun a => ta_ack a <> None) l.
Proof.
  revert data l; induction n as [|n IH]; intros data l; cbn [acks_unmarshal_loop].
  - intros [= <-]. auto.
  - destruct data as [|k r]; [discriminate|].
    destruct (ack_unmarshal (firstn (N.to_nat (b2n k)) r)) as [a|e] eqn:E; try discriminate.
    destruct (acks_unmarshal_loop n (skipn (N.to_nat (b2n k)) r)) as [vs|e] eqn:E2; try discriminate.
    intros [= <-]. constructor; [|eapply IH; eauto].
    unfold ack_unmarshal in E. destruct (read_full 2 _) as [[b|e] r2]; [|discriminate].
    injection E as <-. discriminate.
Qed.

(** ** Buttons *)

Lemma le_enc_split k j n : le_enc (k + j) n = le_enc k n ++ le_enc j (n / 256 ^ N.of_nat k).
Proof.
  revert n; induction k as [|k IH]; intros n.
  - cbn [le_enc app plus]. change (256 ^ N.of_nat 0)%N with 1%N. now rewrite N.div_1_r.
  - cbn [le_enc app plus]. rewrite IH, pow256_S.
    rewrite (N.mul_comm _ 256), N.div_div; [reflexivity | lia | apply N.pow_nonzero; lia].
Qed.

Lemma le_enc_zero j : le_enc j 0 = repeat x00 j.
Proof. induction j as [|j IH]; cbn [le_enc repeat]; [reflexivity|]. change (0 / 256)%N with 0%N. now rewrite IH. Qed.


Lemma size_bounds n : (n < 2 ^ N.size n)%N.
Proof. apply N.size_gt. Qed.

Lemma size_pow_le n k : (N.size n <= k)%N -> (n < 2 ^ k)%N.
Proof.
  intros H. eapply N.lt_le_trans; [apply N.size_gt|]. apply N.pow_le_mono_r; lia.
Qed.

Lemma pow_size_le n k : n <> 0%N -> (k < N.size n)%N -> (2 ^ k <= n)%N.
Proof.
  intros Hn H. rewrite N.size_log2 in H by auto.
  apply N.log2_le_pow2; lia.
Qed.

Lemma pow_256_2 k : (256 ^ k = 2 ^ (8 * k))%N.
Proof. change 256%N with (2 ^ 8)%N. now rewrite <- N.pow_mul_r. Qed.

Definition button_bytes (m : N) : N := N.max 1 ((N.size m + 7) / 8).

Lemma buttons_marshal_eq m : buttons_marshal m = firstn (N.to_nat (button_bytes m)) (le_enc 4 m).
Proof.
  unfold buttons_marshal, button_bytes, bits_len.
  destruct (N.eqb_spec ((N.size m + 7) / 8) 0) as [->|H]; [reflexivity|].
  now rewrite N.max_r by lia.
Qed.

Lemma button_bytes_le m : u32 m -> (1 <= button_bytes m <= 4)%N.
Proof.
  unfold u32, button_bytes. intros H.
  assert (N.size m <= 32)%N.
  { destruct (N.eq_dec m 0) as [->|Hm]; [simpl; lia|].
    destruct (N.le_gt_cases (N.size m) 32); auto.
    pose proof (pow_size_le m 32 Hm). lia. }
  lia.
Qed.

(** The encoding is the 4 little-endian bytes without the trailing zero bytes. *)
Lemma buttons_marshal_spec m :
  u32 m ->
  exists k, le_enc 4 m = buttons_marshal m ++ repeat x00 k
    /\ buttons_marshal m <> []
    /\ (List.length (buttons_marshal m) = 1 \/ last (buttons_marshal m) x00 <> x00).
Proof.
  intros Hm. pose proof (button_bytes_le _ Hm) as Hb.
  rewrite buttons_marshal_eq. set (k := N.to_nat (button_bytes m)).
  assert (Hk : 1 <= k <= 4) by lia.
  assert (E : le_enc 4 m = le_enc k m ++ le_enc (4 - k) (m / 256 ^ N.of_nat k)).
  { replace 4 with (k + (4 - k)) at 1 by lia. apply le_enc_split. }
  assert (Z0 : (m / 256 ^ N.of_nat k = 0)%N).
  { apply N.div_small. rewrite pow_256_2. apply size_pow_le. unfold k, button_bytes. lia. }
  rewrite Z0, le_enc_zero in E.
  assert (F : firstn k (le_enc 4 m) = le_enc k m).
  { rewrite E. apply firstn_app_exact. now rewrite le_enc_length. }
  exists (4 - k). rewrite F. split; [exact E|].
  destruct k as [|j] eqn:Ek; [lia|]. split.
  - cbn [le_enc]. discriminate.
  - destruct j as [|j]; [left; reflexivity|right].
    replace (S (S j)) with (S j + 1) by lia. rewrite le_enc_split.
    change (le_enc 1 (m / 256 ^ N.of_nat (S j))) with [n2b (m / 256 ^ N.of_nat (S j))].
    rewrite last_last. intros H. apply (f_equal b2n) in H. rewrite b2n_n2b in H.
    change (b2n x00) with 0%N in H.
    assert (Hsz : (8 * N.of_nat (S j) < N.size m)%N) by (unfold button_bytes in *; lia).
    assert (Hlo : (256 ^ N.of_nat (S j) <= m)%N).
    { rewrite pow_256_2. apply pow_size_le; [|lia]. intros ->. simpl in Hsz. lia. }
    assert (Hhi : (m < 256 ^ N.of_nat (S (S j)))%N).
    { rewrite pow_256_2. apply size_pow_le. unfold button_bytes in *. lia. }
    rewrite pow256_S in Hhi.
    set (q := (256 ^ N.of_nat (S j))%N) in *.
    assert (Hq : (1 <= m / q)%N) by (apply N.div_le_lower_bound; lia).
    assert (Hq2 : (m / q < 256)%N) by (apply N.div_lt_upper_bound; lia).
    rewrite N.mod_small in H by lia. lia.
Qed.

Lemma copy_zeroed_short n l : List.length l <= n -> copy_zeroed n l = l ++ repeat x00 (n - List.length l).
Proof. intros H. unfold copy_zeroed. now rewrite firstn_all2 by lia. Qed.

Lemma copy_zeroed_long n l : n <= List.length l -> copy_zeroed n l = firstn n l.
Proof.
  intros H. unfold copy_zeroed. replace (n - List.length l) with 0 by lia. apply app_nil_r.
Qed.

Lemma buttons_roundtrip m : u32 m -> buttons_unmarshal (buttons_marshal m) = Ok m.
Proof.
  intros Hm. destruct (buttons_marshal_spec m Hm) as (k & E & Hne & _).
  assert (L : List.length (buttons_marshal m) + k = 4).
  { apply (f_equal (@List.length _)) in E. rewrite le_enc_length, app_length, repeat_length in E. lia. }
  assert (C : copy_zeroed 4 (buttons_marshal m) = le_enc 4 m).
  { rewrite copy_zeroed_short by lia. rewrite E. do 2 f_equal. lia. }
  unfold buttons_unmarshal. destruct (buttons_marshal m) eqn:B; [congruence|].
  rewrite C. f_equal. rewrite le_dec_enc. apply N.mod_small. exact Hm.
Qed.

Lemma buttons_unmarshal_short l :
  l <> [] -> List.length l <= 4 -> buttons_unmarshal l = Ok (le_dec l).
Proof.
  intros Hne Hl. unfold buttons_unmarshal. destruct l as [|b l]; [congruence|].
  rewrite copy_zeroed_short by auto. rewrite le_dec_app, le_dec_zeros. f_equal. lia.
Qed.

Lemma buttons_unmarshal_long l :
  4 <= List.length l -> buttons_unmarshal l = Ok (le_dec (firstn 4 l)).
Proof.
  intros Hl. unfold buttons_unmarshal. destruct l as [|b l]; [simpl in Hl; lia|].
  now rewrite copy_zeroed_long by auto.
Qed.

Lemma buttons_unmarshal_u32 l m : buttons_unmarshal l = Ok m -> u32 m.
Proof.
  unfold buttons_unmarshal. destruct l as [|b l]; [discriminate|]. intros [= <-].
  pose proof (le_dec_bound (copy_zeroed 4 (b :: l))) as H. rewrite copy_zeroed_length in H. exact H.
Qed.

(** ** Sample rates *)

Lemma rates_length l : List.length (rates_marshal l) = 4 * List.length l.
Proof.
  unfold rates_marshal. induction l as [|n l IH]; [reflexivity|].
  cbn [flat_map List.length]. rewrite app_length, be_enc_length, IH. lia.
Qed.

Lemma dec_u32s_rates l rest :
  Forall u32 l -> dec_u32s (List.length l) (rates_marshal l ++ rest) = l.
Proof.
  intros H. induction H as [|n l Hn _ IH]; [reflexivity|].
  unfold rates_marshal in *. cbn [flat_map List.length dec_u32s]. rewrite <- app_assoc.
  rewrite firstn_app_exact, skipn_app_exact by now rewrite be_enc_length.
  rewrite be_dec_enc_small by exact Hn. now rewrite IH.
Qed.

(** Up to 3 trailing bytes are ignored. *)
Lemma rates_roundtrip_tail l rest :
  Forall u32 l -> List.length rest < 4 -> rates_unmarshal (rates_marshal l ++ rest) = l.
Proof.
  intros H Hr. unfold rates_unmarshal.
  rewrite app_length, rates_length.
  replace ((4 * List.length l + List.length rest) / 4) with (List.length l) by lia.
  now apply dec_u32s_rates.
Qed.

Lemma rates_roundtrip l : Forall u32 l -> rates_unmarshal (rates_marshal l) = l.
Proof.
  intros H. rewrite <- (app_nil_r (rates_marshal l)). apply rates_roundtrip_tail; [auto | simpl; lia].
Qed.

Lemma dec_u32s_u32 n l : 4 * n <= List.length l -> Forall u32 (dec_u32s n l).
Proof.
  revert l; induction n as [|n IH]; intros l H; cbn [dec_u32s]; constructor.
  - pose proof (be_dec_bound (firstn 4 l)) as B. rewrite firstn_length, Nat.min_l in B by lia. exact B.
  - apply IH. rewrite skipn_length. lia.
Qed.

Lemma rates_unmarshal_u32 l : Forall u32 (rates_unmarshal l).
Proof. apply dec_u32s_u32. lia. Qed.

(** ** Artwork formats *)

Lemma artwork_fixed : fixed_size ext_ArtworkFormat 7.
Proof. reflexivity. Qed.

Lemma ext_artwork_loop_app fuel l rest :
  Forall (typed ext_ArtworkFormat) l -> List.length l <= fuel ->
  ext_artwork_loop fuel (ext_artwork_marshal l ++ rest)
  = match ext_artwork_loop (fuel - List.length l) rest with
    | Ok fs => Ok (l ++ fs)
    | Err e => Err e
    end.
Proof.
  intros H. revert fuel. induction H as [|f l Hf _ IH]; intros fuel Hl.
  - cbn [ext_artwork_marshal flat_map app List.length]. rewrite Nat.sub_0_r.
    now destruct (ext_artwork_loop fuel rest).
  - destruct fuel as [|fuel]; [simpl in Hl; lia|].
    cbn [ext_artwork_loop List.length Nat.sub].
    unfold ext_artwork_marshal. cbn [flat_map]. rewrite <- app_assoc.
    rewrite (binary_roundtrip _ _ _ _ artwork_fixed Hf).
    fold (ext_artwork_marshal l). rewrite IH by (simpl in Hl; lia).
    now destruct (ext_artwork_loop (fuel - List.length l) rest).
Qed.

Lemma ext_artwork_length l :
  Forall (typed ext_ArtworkFormat) l -> List.length (ext_artwork_marshal l) = 7 * List.length l.
Proof.
  unfold ext_artwork_marshal.
  induction 1 as [|f l Hf _ IH]; [reflexivity|]. cbn [flat_map List.length].
  rewrite app_length, IH, (enc_fields_length _ _ _ artwork_fixed Hf). lia.
Qed.

Lemma ext_artwork_roundtrip l :
  Forall (typed ext_ArtworkFormat) l -> ext_artwork_unmarshal (ext_artwork_marshal l) = Ok l.
Proof.
  intros H. unfold ext_artwork_unmarshal.
  rewrite <- (app_nil_r (ext_artwork_marshal l)) at 2.
  rewrite ext_artwork_loop_app by (auto; rewrite ext_artwork_length by auto; lia).
  rewrite ext_artwork_length by auto.
  replace (7 * List.length l + 1 - List.length l) with (S (6 * List.length l)) by lia.
  cbn [ext_artwork_loop]. cbn. now rewrite app_nil_r.
Qed.

Lemma ext_artwork_partial l rest :
  Forall (typed ext_ArtworkFormat) l -> 0 < List.length rest < 7 ->
  ext_artwork_unmarshal (ext_artwork_marshal l ++ rest) = Err UnexpectedEOF.
Proof.
  intros H Hr. unfold ext_artwork_unmarshal.
  rewrite ext_artwork_loop_app by (auto; rewrite app_length, ext_artwork_length by auto; lia).
  rewrite app_length, ext_artwork_length by auto.
  set (fuel := 7 * List.length l + List.length rest + 1 - List.length l).
  destruct fuel as [|fuel'] eqn:E; [lia|].
  cbn [ext_artwork_loop]. rewrite (binary_read_fixed _ _ _ artwork_fixed).
  rewrite read_full_short by lia. destruct rest; [simpl in Hr; lia|]. reflexivity.
Qed.

(** The fuel of the loop is never exhausted. *)
Lemma ext_artwork_fuel_enough fuel data :
  List.length data < fuel -> ext_artwork_loop fuel data <> Err (ErrMsg "out of fuel").
Proof.
  revert data; induction fuel as [|fuel IH]; intros data H; [lia|].
  cbn [ext_artwork_loop]. rewrite (binary_read_fixed _ _ _ artwork_fixed).
  destruct (read_full 7 data) as [[b|e] r] eqn:R.
  - apply read_full_inv in R as [-> L]. rewrite app_length in H.
    specialize (IH r ltac:(lia)). destruct (ext_artwork_loop fuel r); congruence.
  - apply read_full_err in R as (_ & _ & _ & [-> | ->]); discriminate.
Qed.

Lemma ext_artwork_fuel data : ext_artwork_unmarshal data <> Err (ErrMsg "out of fuel").
Proof. apply ext_artwork_fuel_enough. lia. Qed.

Lemma ext_artwork_loop_typed fuel data l :
  ext_artwork_loop fuel data = Ok l -> Forall (typed ext_ArtworkFormat) l.
Proof.
  revert data l; induction fuel as [|fuel IH]; intros data l; [discriminate|].
  cbn [ext_artwork_loop].
  destruct (binary_read ext_ArtworkFormat data) as [[f|e] r] eqn:R.
  - destruct (ext_artwork_loop fuel r) as [fs|e] eqn:E; [|discriminate].
    intros [= <-]. constructor; [|eauto]. apply binary_read_ok in R as (n & b & _ & _ & _ & _ & H). exact H.
  - destruct e; intros H; try discriminate. injection H as <-. constructor.
Qed.

(** ** Info payloads *)

Definition fixed_info (t : pty) : Prop := exists n, fixed_size t n.

Lemma state_infos_sel ty t :
  In (ty, t) state_infos -> u8 ty /\ state_info_type ty = Some t /\ fixed_info t.
Proof.
  intros H. unfold state_infos in H.
  repeat (destruct H as [[= <- <-]|H]; [split; [unfold u8; lia|split; [reflexivity|eexists; reflexivity]]|]).
  destruct H.
Qed.

Lemma state_info_type_in ty t : state_info_type ty = Some t -> In (ty, t) state_infos.
Proof.
  unfold state_info_type. destruct ty as [|p]; [intros [= <-]; simpl; tauto|].
  do 5 (try (destruct p as [p|p|]; try discriminate));
    intros [= <-]; unfold state_infos; simpl; tauto.
Qed.

Lemma sized_infos_sel ty t :
  In (ty, t) sized_track_infos -> u8 ty /\ disp_track_info_type ty = Some t /\ fixed_info t.
Proof.
  intros H. unfold sized_track_infos in H.
  repeat (destruct H as [[= <- <-]|H]; [split; [unfold u8; lia|split; [reflexivity|eexists; reflexivity]]|]).
  destruct H.
Qed.

Lemma text_infos_sel ty t :
  In (ty, t) text_track_infos -> u8 ty /\ disp_track_info_type ty = Some t /\ struct_size (layout t) = None.
Proof.
  intros H. unfold text_track_infos in H.
  repeat (destruct H as [[= <- <-]|H]; [split; [unfold u8; lia|split; reflexivity]|]).
  destruct H.
Qed.

Lemma disp_track_info_type_in ty t :
  disp_track_info_type ty = Some t -> In (ty, t) (sized_track_infos ++ text_track_infos).
Proof.
  unfold disp_track_info_type. destruct ty as [|p]; [intros [= <-]; simpl; tauto|].
  do 4 (try (destruct p as [p|p|]; try discriminate)); intros [= <-]; simpl; tauto.
Qed.

Lemma disp_info_roundtrip sel ty t vs :
  u8 ty -> sel ty = Some t -> fixed_info t -> typed t vs ->
  exists b, disp_info_marshal ty (IPtr t vs) = Ret (Ok b)
    /\ disp_info_unmarshal sel b = Ok (ty, IPtr t vs).
Proof.
  intros Hty Hsel [n Hn] Ht. unfold disp_info_marshal. cbn [write_iface bind].
  rewrite (binary_write_fixed _ _ _ Hn). eexists. split; [reflexivity|].
  unfold disp_info_unmarshal. rewrite read_uint1_cons, (n2b_u8 _ Hty), Hsel.
  rewrite <- (app_nil_r (enc_fields _ _)), (binary_roundtrip _ _ _ _ Hn Ht). reflexivity.
Qed.

Lemma ext_info_roundtrip ty vs :
  u8 ty -> typed (ext_track_info_type ty) vs ->
  exists b, ext_track_info_marshal ty (IPtr (ext_track_info_type ty) vs) = Ret (Ok b)
    /\ ext_track_info_unmarshal b = Ok (PExtTrackInfo ty (IPtr (ext_track_info_type ty) vs)).
Proof.
  intros Hty Ht. set (t := ext_track_info_type ty) in *.
  assert (Hf : exists n, fixed_size t n).
  { unfold t, ext_track_info_type. destruct ty as [|p]; [eexists; reflexivity|].
    do 3 (try (destruct p as [p|p|])); eexists; reflexivity. }
  destruct Hf as [n Hn]. unfold ext_track_info_marshal. cbn [write_iface bind].
  rewrite (binary_write_fixed _ _ _ Hn). eexists. split; [reflexivity|].
  unfold ext_track_info_unmarshal. rewrite (n2b_u8 _ Hty). fold t.
  rewrite <- (app_nil_r (enc_fields _ _)), (binary_roundtrip _ _ _ _ Hn Ht). reflexivity.
Qed.

(** ** Dispatch *)

Lemma fixed_no_marshaler rt t n vs : fixed_size t n -> payload_marshaler rt (Pst t vs) = None.
Proof. destruct t; try discriminate; reflexivity. Qed.

Lemma fixed_unmarshal rt t n data :
  fixed_size t n ->
  payload_unmarshal rt t data
  = Ret (false, match fst (binary_read t data) with Ok vs => Ok (Pst t vs) | Err e => Err e end).
Proof. destruct t; try discriminate; reflexivity. Qed.

Lemma modelnum_roundtrip id l : u32 id -> modelnum_unmarshal (modelnum_marshal id l) = (id, l).
Proof. intros H. apply read_uint_or0_app. exact H. Qed.

Lemma ext_info_choice ty :
  (if (ty =? 0)%N then ext_TrackCaps
   else if ((ty =? 3) || (ty =? 4))%N then ext_TrackLongText else anon_struct)
  = ext_track_info_type ty.
Proof.
  destruct ty as [|p]; [reflexivity|]. do 3 (try (destruct p as [p|p|])); reflexivity.
Qed.

Lemma sendable_roundtrip rt p :
  sendable rt p ->
  exists t b, payload_type p = Some t /\ struct_size (layout t) = None
    /\ payload_marshaler rt p = Some (Ret (Ok b))
    /\ payload_unmarshal rt t b = Ret (true, Ok p).
Proof.
  intros [t l Ht | id l Hid | t m Ht Hm | l Hl | l Hl Hf | l Hl Hf | ty t vs Hty -> Ht | l Hl
         | ty t vs Hin Ht | ty t vs Hin Ht].
  - exists t, l. cbn [In] in Ht.
    repeat (destruct Ht as [<-|Ht]; [repeat split; reflexivity|]). destruct Ht.
  - exists general_ReturniPodModelNum. eexists. split; [reflexivity|]. split; [reflexivity|].
    split; [reflexivity|]. cbn [payload_unmarshal]. now rewrite modelnum_roundtrip.
  - exists t. exists (buttons_marshal m). cbn [In] in Ht.
    repeat (destruct Ht as [<-|Ht];
            [split; [reflexivity|split; [reflexivity|split; [reflexivity|]]];
             cbn [payload_unmarshal]; now rewrite buttons_roundtrip|]).
    destruct Ht.
  - exists audio_RetAccSampleRateCaps. eexists. split; [reflexivity|]. split; [reflexivity|].
    split; [reflexivity|]. cbn [payload_unmarshal]. now rewrite rates_roundtrip.
  - destruct (tokens_roundtrip rt l Hl Hf) as (bs & Em & Eu).
    exists general_SetFIDTokenValues, bs. cbn [payload_type payload_marshaler payload_unmarshal].
    rewrite Em, Eu. repeat split; reflexivity.
  - destruct (acks_roundtrip rt l Hl Hf) as (bs & Em & Eu).
    exists general_RetFIDTokenValueACKs, bs. cbn [payload_type payload_marshaler payload_unmarshal].
    rewrite Em, Eu. repeat split; reflexivity.
  - rewrite ext_info_choice in *. destruct (ext_info_roundtrip ty vs Hty Ht) as (b & Em & Eu).
    exists ext_ReturnIndexedPlayingTrackInfo, b. cbn [payload_type payload_marshaler payload_unmarshal].
    rewrite Em, Eu. repeat split; reflexivity.
  - exists ext_RetArtworkFormats. eexists. split; [reflexivity|]. split; [reflexivity|].
    split; [reflexivity|]. cbn [payload_unmarshal]. now rewrite ext_artwork_roundtrip.
  - destruct (state_infos_sel _ _ Hin) as (Hu & Hs & Hf).
    destruct (disp_info_roundtrip state_info_type ty t vs Hu Hs Hf Ht) as (b & Em & Eu).
    exists disp_RetiPodStateInfo, b. cbn [payload_type payload_marshaler payload_unmarshal].
    rewrite Em, Eu. repeat split; reflexivity.
  - destruct (sized_infos_sel _ _ Hin) as (Hu & Hs & Hf).
    destruct (disp_info_roundtrip disp_track_info_type ty t vs Hu Hs Hf Ht) as (b & Em & Eu).
    exists disp_RetIndexedPlayingTrackInfo, b. cbn [payload_type payload_marshaler payload_unmarshal].
    rewrite Em, Eu. repeat split; reflexivity.
Qed.
