(** The decoders understand exactly what SpecPayload's reading relations say. *)
From Coq Require Import ZifyBool ZifyNat ZifyN.
From Verif Require Import Base BaseFacts GoTypes GoTypesFacts Types Payload SpecPayload PayloadFacts WireFacts.
Ltac Zify.zify_post_hook ::= Z.div_mod_to_equations.

(** ** Structs *)

Lemma field_reads_inv f v b n :
  field_size f = Some n -> field_reads f v b -> List.length b = n /\ dec_field f b = v.
Proof.
  intros Hs H. destruct H as [f v b H|c H].
  - destruct H as [k n0 b Hl Hn|k z b Hl Hz Hn|k z b Hl Hz Hn| | |m l Hl]; injection Hs as <-;
      cbn [dec_field]; (split; [assumption || reflexivity|]).
    + now rewrite <- number_be_dec, Hn.
    + unfold z_dec. rewrite <- number_be_dec, Hn. f_equal.
      destruct (Z.ltb_spec z (2 ^ (8 * Z.of_nat k - 1))); lia.
    + unfold z_dec. rewrite <- number_be_dec, Hn. f_equal.
      assert (Hk : k <> 0).
      { intros ->. destruct b; [|discriminate Hl]. cbn [number] in Hn.
        change (2 ^ (8 * Z.of_nat 0))%Z with 1%Z in Hn.
        change (2 ^ (8 * Z.of_nat 0 - 1))%Z with 0%Z in Hz. lia. }
      assert (P : (2 ^ (8 * Z.of_nat k) = 2 * 2 ^ (8 * Z.of_nat k - 1))%Z).
      { rewrite <- Z.pow_succ_r by lia. f_equal. lia. }
      destruct (Z.ltb_spec (z + 2 ^ (8 * Z.of_nat k)) (2 ^ (8 * Z.of_nat k - 1))); lia.
    + reflexivity.
    + reflexivity.
    + reflexivity.
  - injection Hs as <-. split; [reflexivity|]. cbn [dec_field hd].
    destruct (byte_eqb c x00) eqn:E; [|reflexivity]. apply byte_eqb_eq in E. contradiction.
Qed.

Lemma struct_reads_inv fs vs b :
  struct_reads fs vs b -> forall n, struct_size fs = Some n ->
  List.length b = n /\ dec_fields fs b = vs.
Proof.
  induction 1 as [|f fs v vs a b Hf Hs IH]; intros n Hn.
  - injection Hn as <-. auto.
  - apply struct_size_cons in Hn as (x & y & Hx & Hy & ->).
    destruct (field_reads_inv _ _ _ _ Hx Hf) as [La Da]. destruct (IH _ Hy) as [Lb Db].
    split; [rewrite app_length; lia|]. cbn [dec_fields]. rewrite Hx.
    rewrite firstn_app, skipn_app, La, Nat.sub_diag, firstn_all2, skipn_all2 by lia.
    cbn [firstn skipn app]. rewrite app_nil_r. congruence.
Qed.

Lemma binary_read_iff t n r vs rest :
  fixed_size t n ->
  (binary_read t r = (Ok vs, rest) <-> exists b, r = b ++ rest /\ struct_reads (layout t) vs b).
Proof.
  intros Hn. unfold binary_read. rewrite Hn. split.
  - destruct (read_full n r) as [[b|e] q] eqn:E; [|discriminate]. intros [= <- <-].
    apply read_full_inv in E as [-> L]. exists b. split; auto. eapply layout_reads_dec; eauto.
  - intros (b & -> & H). destruct (struct_reads_inv _ _ _ H _ Hn) as [L D].
    rewrite read_full_app by exact L. now rewrite D.
Qed.

Lemma binary_read_fst t n r vs :
  fixed_size t n ->
  (fst (binary_read t r) = Ok vs <-> exists b rest, r = b ++ rest /\ struct_reads (layout t) vs b).
Proof.
  intros Hn. split.
  - destruct (binary_read t r) as [x rest] eqn:E. cbn [fst]. intros ->.
    apply (binary_read_iff _ _ _ _ _ Hn) in E as (b & ? & ?). eauto.
  - intros (b & rest & Hr). assert (E : binary_read t r = (Ok vs, rest)).
    { apply (binary_read_iff _ _ _ _ _ Hn). eauto. }
    now rewrite E.
Qed.

(** ** Pieces *)

Lemma chunk_fun k r b rest : chunk k r b rest -> forall b' rest', chunk k r b' rest' -> b = b' /\ rest = rest'.
Proof.
  intros H b' rest' H'. destruct H as [b rest L|r L].
  - inversion H' as [c rest2 L2 E|r2 L2 E]; subst.
    + apply app_eq_app in E as (l & [[-> ->]|[-> ->]]); rewrite app_length in *;
        destruct l; cbn [List.length] in *; try lia; now rewrite ?app_nil_r.
    + rewrite app_length in L2. lia.
  - inversion H' as [c rest2 L2 E|r2 L2 E]; subst; auto. rewrite app_length in L. lia.
Qed.

Lemma read_full_chunk k r : chunk k r (match fst (read_full k r) with Ok b => b | Err _ => repeat x00 k end)
                                    (snd (read_full k r)).
Proof.
  destruct (read_full k r) as [[b|e] q] eqn:E; cbn [fst snd].
  - apply read_full_inv in E as [-> L]. now constructor.
  - apply read_full_err in E as (L & -> & _). now constructor.
Qed.

Lemma be_dec_zeros k : be_dec (repeat x00 k) = 0%N.
Proof.
  rewrite <- number_be_dec. induction k as [|k IH]; [reflexivity|].
  cbn [repeat number]. rewrite IH. change (b2n x00) with 0%N. lia.
Qed.

Lemma read_uint_chunk k r n rest :
  read_uint_or0 k r = (n, rest) <-> exists b, chunk k r b rest /\ n = number b.
Proof.
  assert (H : exists b, chunk k r b (snd (read_uint_or0 k r)) /\ fst (read_uint_or0 k r) = number b).
  { unfold read_uint_or0. pose proof (read_full_chunk k r) as C.
    destruct (read_full k r) as [[b|e] q]; cbn [fst snd] in *; eexists; (split; [exact C|]).
    - symmetry. apply number_be_dec.
    - now rewrite number_be_dec, be_dec_zeros. }
  destruct H as (b & C & E). destruct (read_uint_or0 k r) as [m q]. cbn [fst snd] in *. split.
  - intros [= <- <-]. eauto.
  - intros (b' & C' & ->). destruct (chunk_fun _ _ _ _ C _ _ C') as [<- <-]. congruence.
Qed.

Lemma padded_iff k r v : padded k r v <-> v = copy_zeroed k r.
Proof.
  split.
  - intros [b rest L|r' n L].
    + rewrite copy_zeroed_long by (rewrite app_length; lia).
      rewrite firstn_app, L, Nat.sub_diag, firstn_all2 by lia. cbn [firstn]. now rewrite app_nil_r.
    + rewrite copy_zeroed_short by lia. do 2 f_equal. lia.
  - intros ->. destruct (le_lt_dec k (List.length r)) as [L|L].
    + rewrite copy_zeroed_long by exact L. rewrite <- (firstn_skipn k r) at 1. apply pad_full.
      rewrite firstn_length. lia.
    + rewrite copy_zeroed_short by lia. apply pad_short. lia.
Qed.

Lemma c_text_iff r v : c_text r v <-> v = read_cstring r.
Proof.
  unfold read_cstring. split.
  - intros [a rest H|a H].
    + rewrite index_byte_app by exact H.
      replace (List.length a + 1) with (List.length (a ++ [x00])) by (rewrite app_length; reflexivity).
      change (a ++ x00 :: rest) with (a ++ [x00] ++ rest). rewrite app_assoc.
      rewrite firstn_app, Nat.sub_diag, firstn_all2 by lia. cbn [firstn]. now rewrite app_nil_r.
    + apply index_byte_none in H. now rewrite H.
  - intros ->. destruct (index_byte x00 r) as [i|] eqn:E.
    + apply index_byte_some in E. destruct E as (a & rest & -> & H & L).
      replace (i + 1) with (List.length (a ++ [x00])) by (rewrite app_length; cbn; lia).
      change (a ++ x00 :: rest) with (a ++ [x00] ++ rest) at 2. rewrite app_assoc.
      rewrite firstn_app, Nat.sub_diag, firstn_all2 by lia. cbn [firstn]. rewrite app_nil_r.
      now constructor.
    + apply index_byte_none in E. now constructor.
Qed.

(** ** Tokens *)

Lemma identify_iff r t :
  identify_unmarshal r = Ok t <->
  exists n r0 l r1 o r2 d r3, r = n :: r0 /\ chunk (N.to_nat (b2n n)) r0 l r1 /\ chunk 4 r1 o r2
    /\ chunk 4 r2 d r3 /\ t = TokIdentify l (number o) (number d).
Proof.
  destruct r as [|n r0]; cbn [identify_unmarshal].
  - split; [discriminate|]. intros (? & ? & ? & ? & ? & ? & ? & ? & E & _). discriminate E.
  - pose proof (read_full_chunk (N.to_nat (b2n n)) r0) as C1.
    assert (E1 : (match read_full (N.to_nat (b2n n)) r0 with
                  | (Ok b, r) => (b, r)
                  | (Err _, r) => (repeat x00 (N.to_nat (b2n n)), r)
                  end) = (match fst (read_full (N.to_nat (b2n n)) r0) with
                          | Ok b => b | Err _ => repeat x00 (N.to_nat (b2n n)) end,
                          snd (read_full (N.to_nat (b2n n)) r0))).
    { destruct (read_full _ r0) as [[]]; reflexivity. }
    rewrite E1. clear E1. revert C1.
    generalize (match fst (read_full (N.to_nat (b2n n)) r0) with
                | Ok b => b | Err _ => repeat x00 (N.to_nat (b2n n)) end).
    generalize (snd (read_full (N.to_nat (b2n n)) r0)). intros r1 l C1.
    destruct (read_uint_or0 4 r1) as [o' r2] eqn:E2. apply read_uint_chunk in E2 as (o & C2 & ->).
    destruct (read_uint_or0 4 r2) as [d' r3] eqn:E3. apply read_uint_chunk in E3 as (d & C3 & ->).
    split.
    + intros [= <-]. exists n, r0, l, r1, o, r2, d, r3. auto.
    + intros (n' & r0' & l' & r1' & o' & r2' & d' & r3' & E & D1 & D2 & D3 & ->).
      injection E as <- <-.
      destruct (chunk_fun _ _ _ _ C1 _ _ D1) as [<- <-].
      destruct (chunk_fun _ _ _ _ C2 _ _ D2) as [<- <-].
      destruct (chunk_fun _ _ _ _ C3 _ _ D3) as [<- <-]. reflexivity.
Qed.

Lemma read_byte_chunk n r : read_uint_or0 1 (n :: r) = (b2n n, r).
Proof.
  apply read_uint_chunk. exists [n]. split; [exact (chunk_full 1 [n] r eq_refl)|].
  cbn [number]. change (len (@nil byte)) with 0%N. lia.
Qed.

Definition info_body (ty : N) (r : bytes) : option bytes :=
  if ((ty =? 1) || (ty =? 6) || (ty =? 7) || (ty =? 8))%N then Some (read_cstring r)
  else if ((ty =? 4) || (ty =? 5))%N then Some (copy_zeroed 3 r)
  else if (ty =? 9)%N then Some (copy_zeroed 2 r)
  else if ((ty =? 11) || (ty =? 12))%N then Some (copy_zeroed 4 r)
  else None.

Lemma accinfo_body n r :
  accinfo_unmarshal (n :: r)
  = match info_body (b2n n) r with
    | Some v => Ok (TokAccInfo (b2n n) (Some v))
    | None => Err errAccInfoType
    end.
Proof.
  unfold accinfo_unmarshal. rewrite read_byte_chunk. unfold info_body.
  destruct (b2n n) as [|p]; [reflexivity|].
  do 4 (destruct p as [p|p|]; try reflexivity).
Qed.

Lemma info_body_iff ty r v : info_body ty r = Some v <-> info_reads ty r v.
Proof.
  unfold info_body. split.
  - destruct ((ty =? 1) || (ty =? 6) || (ty =? 7) || (ty =? 8))%N eqn:E1.
    { intros [= <-]. apply ir_text; [cbn [In]; lia|now apply c_text_iff]. }
    destruct ((ty =? 4) || (ty =? 5))%N eqn:E2.
    { intros [= <-]. apply ir_version; [cbn [In]; lia|now apply padded_iff]. }
    destruct (ty =? 9)%N eqn:E3.
    { intros [= <-]. apply N.eqb_eq in E3. subst ty. apply ir_size. now apply padded_iff. }
    destruct ((ty =? 11) || (ty =? 12))%N eqn:E4; [|discriminate].
    intros [= <-]. apply ir_flags; [cbn [In]; lia|now apply padded_iff].
  - intros [ty' r' v' H C|ty' r' v' H C|r' v' C|ty' r' v' H C]; cbn [In] in *;
      [apply c_text_iff in C|apply padded_iff in C..]; subst v';
      repeat (destruct H as [<-|H]; [reflexivity|]); try contradiction; reflexivity.
Qed.

Lemma accinfo_iff r t :
  accinfo_unmarshal r = Ok t <->
  exists n r0 v, r = n :: r0 /\ info_reads (b2n n) r0 v /\ t = TokAccInfo (b2n n) (Some v).
Proof.
  destruct r as [|n r0].
  - split; [discriminate|]. intros (? & ? & ? & E & _). discriminate E.
  - rewrite accinfo_body. split.
    + destruct (info_body (b2n n) r0) as [v|] eqn:E; [|discriminate]. intros [= <-].
      apply info_body_iff in E. eauto 6.
    + intros (n' & r0' & v & [= <- <-] & H & ->). apply info_body_iff in H. now rewrite H.
Qed.

Lemma byte_of_b2n b n : b2n b = n -> (n < 256)%N -> b = n2b n.
Proof. intros <- _. symmetry. apply n2b_b2n. Qed.

Ltac byte_is b :=
  match goal with
  | H : b2n b = ?n |- _ => apply byte_of_b2n in H; [|lia]; vm_compute in H; subst b
  end.

Lemma token_kind_cases ty sub :
  match token_kind_of ty sub with
  | KIdentify => ty = 0 /\ sub = 0
  | KAccCaps => ty = 0 /\ sub = 1
  | KAccInfo => ty = 0 /\ sub = 2
  | KEAProtocol => ty = 0 /\ sub = 4
  | KFixed t => token_struct ty sub t /\ t <> general_FIDAccCapsToken /\ exists n, fixed_size t n
  | KNone => ~ known_token ty sub
  end%N.
Proof.
  unfold known_token, token_kind_of.
  destruct ty as [|[p|p|]].
  - destruct sub as [|p]; [auto|].
    do 4 (try destruct p as [p|p|]);
      first [ split; reflexivity
            | split; [constructor|split; [discriminate|eexists; reflexivity]]
            | intros [H|[_ H]]; [discriminate H|]; cbn [In] in H; lia ].
  - intros [H|[H _]]; discriminate H.
  - intros [H|[H _]]; discriminate H.
  - split; [constructor|split; [discriminate|eexists; reflexivity]].
Qed.

Lemma token_struct_kind ty sub t :
  token_struct ty sub t -> t <> general_FIDAccCapsToken -> token_kind_of ty sub = KFixed t.
Proof. intros [] H; try reflexivity. contradiction. Qed.

Lemma token_reads_iff rt x v : token_value_unmarshal rt x = Ret (Ok v) <-> token_reads rt v x.
Proof.
  unfold token_value_unmarshal. destruct x as [|a [|b r]].
  - cbn [read_full]. split; [discriminate|]. intros H. inversion H.
  - cbn [read_full]. cbn. split; [discriminate|]. intros H. inversion H.
  - rewrite read_full_ok by (cbn [List.length]; lia). cbn [firstn skipn nth].
    pose proof (token_kind_cases (b2n a) (b2n b)) as K.
    destruct (token_kind_of (b2n a) (b2n b)) eqn:Ek.
    + destruct K as [Ka Kb]. byte_is a. byte_is b. split.
      * destruct (identify_unmarshal r) as [t|] eqn:E; [|discriminate]. intros [= <-].
        apply identify_iff in E as (n & r0 & l & r1 & o & r2 & d & r3 & -> & C1 & C2 & C3 & ->).
        eapply tr_identify; eauto.
      * intros H. inversion H as [n r0 l r1 o r2 d r3 C1 C2 C3| | | |? ? ? ? ? ? Hs|? ? ? ? Hk]; subst.
        { assert (E : identify_unmarshal (n :: r0) = Ok (TokIdentify l (number o) (number d))).
          { apply identify_iff. exists n, r0, l, r1, o, r2, d, r3. auto. }
          rewrite E. reflexivity. }
        { inversion Hs. }
        { exfalso. apply Hk. right. cbn [In]. auto. }
    + destruct K as [Ka Kb]. byte_is a. byte_is b. split.
      * destruct (read_uint_or0 8 r) as [n rest] eqn:E. apply read_uint_chunk in E as (w & C & ->).
        cbn [fst]. intros [= <-]. eapply tr_caps; eauto.
      * intros H. inversion H as [|r0 w rest C| | |? ? ? ? ? ? Hs Hn|? ? ? ? Hk]; subst.
        { assert (E : read_uint_or0 8 r = (number w, rest)) by (apply read_uint_chunk; eauto).
          rewrite E. reflexivity. }
        { inversion Hs; subst; contradiction. }
        { exfalso. apply Hk. right. cbn [In]. auto. }
    + destruct K as [Ka Kb]. byte_is a. byte_is b. split.
      * destruct (accinfo_unmarshal r) as [t|] eqn:E; [|discriminate]. intros [= <-].
        apply accinfo_iff in E as (n & r0 & w & -> & Hi & ->). now apply tr_info.
      * intros H. inversion H as [| |ty r0 w Hi| |? ? ? ? ? ? Hs|? ? ? ? Hk]; subst.
        { assert (E : accinfo_unmarshal (ty :: r0) = Ok (TokAccInfo (b2n ty) (Some w))).
          { apply accinfo_iff. eauto 6. }
          rewrite E. reflexivity. }
        { inversion Hs. }
        { exfalso. apply Hk. right. cbn [In]. auto. }
    + destruct K as [Ka Kb]. byte_is a. byte_is b. split.
      * destruct r as [|i s]; cbn [eaprotocol_unmarshal bind]; [discriminate|].
        intros [= <-]. apply tr_protocol.
      * intros H. inversion H as [| | | |? ? ? ? ? ? Hs|? ? ? ? Hk]; subst.
        { reflexivity. }
        { inversion Hs. }
        { exfalso. apply Hk. right. cbn [In]. auto 10. }
    + destruct K as (Hs & Hne & n & Hn). split.
      * destruct (fst (binary_read t r)) as [vs|] eqn:E; [|discriminate]. intros [= <-].
        apply (binary_read_fst _ _ _ _ Hn) in E as (w & rest & -> & Hw). now apply tr_struct.
      * intros H. inversion H as [? ? ? ? ? ? ? ? ? ? ? E1 E2| ? ? ? ? E1 E2|? ? ? ? E1 E2|? ? E1 E2
                                 |a' b' t' vs w rest Hs' Hne' Hw|? ? ? ? Hk]; subst.
        1-4: exfalso; cbn in Ek; discriminate Ek.
        { rewrite (token_struct_kind _ _ _ Hs' Hne') in Ek. injection Ek as <-.
          assert (E : fst (binary_read t' (w ++ rest)) = Ok vs) by (apply (binary_read_fst _ _ _ _ Hn); eauto).
          rewrite E. reflexivity. }
        { exfalso. apply Hk. destruct Hs; unfold known_token; cbn [In]; auto 12. }
    + split.
      * destruct rt; [discriminate|]. intros [= <-]. now apply tr_raw.
      * intros H. inversion H as [? ? ? ? ? ? ? ? ? ? ? E1 E2| ? ? ? ? E1 E2|? ? ? ? E1 E2|? ? E1 E2
                                 |a' b' t' vs w rest Hs' Hne' Hw|? ? ? Hrt Hk]; subst.
        1-4: exfalso; cbn in Ek; discriminate Ek.
        { rewrite (token_struct_kind _ _ _ Hs' Hne') in Ek. discriminate Ek. }
        { reflexivity. }
Qed.

Lemma tokens_read_iff rt n r l :
  tokens_unmarshal_loop rt n r = Ret (Ok l) <-> records_read (token_reads rt) n l r.
Proof.
  revert r l. induction n as [|n IH]; intros r l; cbn [tokens_unmarshal_loop].
  - split.
    + intros [= <-]. constructor.
    + intros H. inversion H. reflexivity.
  - destruct r as [|k r].
    + split; [discriminate|]. intros H. inversion H.
    + split.
      * destruct (token_value_unmarshal rt _) as [[v|]|] eqn:E; try discriminate. cbn [bind].
        apply token_reads_iff in E.
        destruct (tokens_unmarshal_loop rt n _) as [[vs|]|] eqn:El; try discriminate. cbn [bind].
        intros [= <-]. apply IH in El. destruct (le_lt_dec (N.to_nat (b2n k)) (List.length r)) as [L|L].
        { rewrite <- (firstn_skipn (N.to_nat (b2n k)) r). apply rr_cons; auto. rewrite firstn_length. lia. }
        { rewrite skipn_all2 in El by lia. rewrite firstn_all2 in E by lia.
          inversion El; subst; [now apply rr_cut]. }
      * intros H. inversion H as [|n' x l' k' a b La Hx Hl|x k' a La Hx]; subst.
        { rewrite <- La. rewrite firstn_app, skipn_app, Nat.sub_diag, firstn_all2, skipn_all2 by lia.
          cbn [firstn skipn app]. rewrite app_nil_r.
          apply token_reads_iff in Hx. rewrite Hx. cbn [bind]. apply IH in Hl. now rewrite Hl. }
        { rewrite firstn_all2, skipn_all2 by lia. apply token_reads_iff in Hx. rewrite Hx. reflexivity. }
Qed.

Lemma ack_reads_iff x a : ack_unmarshal x = Ok a <-> ack_reads a x.
Proof.
  unfold ack_unmarshal. destruct x as [|b [|c r]].
  - cbn [read_full]. split; [discriminate|]. intros H. inversion H.
  - cbn [read_full]. cbn. split; [discriminate|]. intros H. inversion H.
  - rewrite read_full_ok by (cbn [List.length]; lia). cbn [firstn skipn nth]. split.
    + intros [= <-]. constructor.
    + intros H. inversion H. reflexivity.
Qed.

Lemma acks_read_iff n r l : acks_unmarshal_loop n r = Ok l <-> records_read ack_reads n l r.
Proof.
  revert r l. induction n as [|n IH]; intros r l; cbn [acks_unmarshal_loop].
  - split.
    + intros [= <-]. constructor.
    + intros H. inversion H. reflexivity.
  - destruct r as [|k r].
    + split; [discriminate|]. intros H. inversion H.
    + split.
      * destruct (ack_unmarshal _) as [v|] eqn:E; try discriminate.
        apply ack_reads_iff in E.
        destruct (acks_unmarshal_loop n _) as [vs|] eqn:El; try discriminate.
        intros [= <-]. apply IH in El. destruct (le_lt_dec (N.to_nat (b2n k)) (List.length r)) as [L|L].
        { rewrite <- (firstn_skipn (N.to_nat (b2n k)) r). apply rr_cons; auto. rewrite firstn_length. lia. }
        { rewrite skipn_all2 in El by lia. rewrite firstn_all2 in E by lia.
          inversion El; subst; [now apply rr_cut]. }
      * intros H. inversion H as [|n' x l' k' a b La Hx Hl|x k' a La Hx]; subst.
        { rewrite <- La. rewrite firstn_app, skipn_app, Nat.sub_diag, firstn_all2, skipn_all2 by lia.
          cbn [firstn skipn app]. rewrite app_nil_r.
          apply ack_reads_iff in Hx. rewrite Hx. apply IH in Hl. now rewrite Hl. }
        { rewrite firstn_all2, skipn_all2 by lia. apply ack_reads_iff in Hx. rewrite Hx. reflexivity. }
Qed.

(** ** Payloads *)

Lemma be32_seq_length l b : sequence be32 l b -> List.length b = 4 * List.length l.
Proof. induction 1 as [|x l a b [L _] _ IH]; [reflexivity|]. rewrite app_length, L, IH. cbn [List.length]. lia. Qed.

Lemma dec_u32s_seq l b : sequence be32 l b -> forall rest, dec_u32s (List.length l) (b ++ rest) = l.
Proof.
  induction 1 as [|x l a b [L E] _ IH]; intros rest; [reflexivity|].
  cbn [List.length dec_u32s]. rewrite <- app_assoc.
  rewrite firstn_app, skipn_app, L, Nat.sub_diag, firstn_all2, skipn_all2 by lia.
  cbn [firstn skipn app]. rewrite app_nil_r, <- number_be_dec, E, IH. reflexivity.
Qed.

Lemma rates_reads l b rest : sequence be32 l b -> List.length rest < 4 -> rates_unmarshal (b ++ rest) = l.
Proof.
  intros H Hr. unfold rates_unmarshal. rewrite app_length, (be32_seq_length _ _ H).
  replace ((4 * List.length l + List.length rest) / 4) with (List.length l) by lia. now apply dec_u32s_seq.
Qed.

Lemma dec_u32s_reads n r : 4 * n <= List.length r -> sequence be32 (dec_u32s n r) (firstn (4 * n) r).
Proof.
  revert r. induction n as [|n IH]; intros r H; cbn [dec_u32s].
  - rewrite Nat.mul_0_r. constructor.
  - assert (E : firstn (4 * S n) r = firstn 4 r ++ firstn (4 * n) (skipn 4 r)).
    { rewrite <- (firstn_skipn 4 r) at 1. rewrite firstn_app, firstn_length, Nat.min_l by lia.
      rewrite firstn_all2 by (rewrite firstn_length; lia). do 2 f_equal. lia. }
    rewrite E. constructor.
    + split; [rewrite firstn_length; lia|apply number_be_dec].
    + apply IH. rewrite skipn_length. lia.
Qed.

Lemma artwork_reads fuel r l :
  List.length r < fuel ->
  (ext_artwork_loop fuel r = Ok l <-> sequence (struct_reads (layout ext_ArtworkFormat)) l r).
Proof.
  revert r l. induction fuel as [|fuel IH]; intros r l Hf; [lia|]. cbn [ext_artwork_loop].
  destruct (binary_read ext_ArtworkFormat r) as [[f|e] rest] eqn:E.
  - apply (binary_read_iff _ _ _ _ _ artwork_fixed) in E as (b & -> & Hb).
    assert (L : List.length b = 7) by (eapply struct_reads_inv; [exact Hb|reflexivity]).
    rewrite app_length in Hf. split.
    + destruct (ext_artwork_loop fuel rest) as [fs|] eqn:El; [|discriminate]. intros [= <-].
      constructor; auto. apply IH; auto. lia.
    + intros H. inversion H as [E1 E2|x l' a b' Hx Hl E1 E2]; subst.
      { apply (f_equal (@List.length _)) in E2. rewrite app_length in E2. cbn [List.length] in E2. lia. }
      assert (La : List.length a = 7) by (eapply struct_reads_inv; [exact Hx|reflexivity]).
      assert (a = b /\ b' = rest) as [-> ->].
      { apply app_eq_app in E2 as (q & [[-> ->]|[-> ->]]); rewrite app_length in *;
          destruct q; cbn [List.length] in *; try lia; now rewrite ?app_nil_r. }
      assert (x = f) as ->.
      { destruct (struct_reads_inv _ _ _ Hx 7 eq_refl) as [_ <-].
        destruct (struct_reads_inv _ _ _ Hb 7 eq_refl) as [_ <-]. reflexivity. }
      apply IH in Hl; [|lia]. now rewrite Hl.
  - rewrite (binary_read_fixed _ _ _ artwork_fixed) in E.
    destruct (read_full 7 r) as [[b|e'] q] eqn:R; [discriminate|]. injection E as <- <-.
    apply read_full_err in R as (L & _ & He & Hor). split.
    + destruct e'; intros H; try discriminate H. injection H as <-.
      rewrite (proj1 He eq_refl). constructor.
    + intros H. inversion H as [E1 E2|x l' a b' Hx Hl E1 E2]; subst.
      { destruct Hor as [->| ->]; [reflexivity|]. exfalso.
        assert (UnexpectedEOF = EOF) by now apply He. discriminate. }
      assert (La : List.length a = 7) by (eapply struct_reads_inv; [exact Hx|reflexivity]).
      rewrite app_length in L. lia.
Qed.

Lemma ext_info_type_eq ty :
  ext_track_info_type ty = (if (ty =? 0)%N then ext_TrackCaps
         else if ((ty =? 3) || (ty =? 4))%N then ext_TrackLongText else anon_struct).
Proof.
  unfold ext_track_info_type. destruct ty as [|p]; [reflexivity|].
  do 3 (destruct p as [p|p|]; try reflexivity).
Qed.

Lemma ext_info_type_fixed ty : exists n, fixed_size (ext_track_info_type ty) n.
Proof.
  rewrite ext_info_type_eq. destruct (ty =? 0)%N; [eexists; reflexivity|].
  destruct ((ty =? 3) || (ty =? 4))%N; eexists; reflexivity.
Qed.

Lemma ext_info_reads r p :
  ext_track_info_unmarshal r = Ok p <->
  exists ty t vs b rest, r = ty :: b ++ rest /\ t = ext_track_info_type (b2n ty)
    /\ struct_reads (layout t) vs b /\ p = PExtTrackInfo (b2n ty) (IPtr t vs).
Proof.
  destruct r as [|ty r]; cbn [ext_track_info_unmarshal].
  - split; [discriminate|]. intros (? & ? & ? & ? & ? & E & _). discriminate E.
  - destruct (ext_info_type_fixed (b2n ty)) as [n Hn]. split.
    + destruct (fst (binary_read _ r)) as [vs|] eqn:E; [|discriminate]. intros [= <-].
      apply (binary_read_fst _ _ _ _ Hn) in E as (b & rest & -> & H). eauto 10.
    + intros (ty' & t & vs & b & rest & [= <- ->] & -> & H & ->).
      assert (E : fst (binary_read (ext_track_info_type (b2n ty)) (b ++ rest)) = Ok vs)
        by (apply (binary_read_fst _ _ _ _ Hn); eauto).
      now rewrite E.
Qed.

(** The two info decoders: [ok] lists the types that can be read at all, [sel] selects among
    them and others that have no fixed size. *)
Lemma info_reads_iff (sel : N -> option pty) (ok : list (N * pty)) r ty i :
  (forall a t, In (a, t) ok -> sel a = Some t /\ exists n, fixed_size t n) ->
  (forall a t, sel a = Some t -> In (a, t) ok \/ struct_size (layout t) = None) ->
  (exists t n, sel 0%N = Some t /\ fixed_size t (S n)) ->
  disp_info_unmarshal sel r = Ok (ty, i) <->
  exists c t vs b rest, r = c :: b ++ rest /\ In (b2n c, t) ok /\ struct_reads (layout t) vs b
    /\ ty = b2n c /\ i = IPtr t vs.
Proof.
  intros Hok Hsel Hz. unfold disp_info_unmarshal. destruct r as [|c r].
  - split.
    + destruct Hz as (t & n & Et & Hn). change (read_uint_or0 1 []) with (0%N, @nil byte). cbv beta iota zeta.
      rewrite Et, (binary_read_fixed _ _ _ Hn), read_full_short by (cbn [List.length]; lia). discriminate.
    + intros (? & ? & ? & ? & ? & E & _). discriminate E.
  - rewrite read_byte_chunk. split.
    + destruct (sel (b2n c)) as [t|] eqn:Es; [|discriminate].
      destruct (Hsel _ _ Es) as [Hin|Hno].
      * destruct (Hok _ _ Hin) as (_ & n & Hn).
        destruct (fst (binary_read t r)) as [vs|] eqn:E; [|discriminate]. intros [= <- <-].
        apply (binary_read_fst _ _ _ _ Hn) in E as (b & rest & -> & H). eauto 12.
      * unfold binary_read. rewrite Hno. discriminate.
    + intros (c' & t & vs & b & rest & [= <- ->] & Hin & H & -> & ->).
      destruct (Hok _ _ Hin) as (Es & n & Hn). rewrite Es.
      assert (E : fst (binary_read t (b ++ rest)) = Ok vs) by (apply (binary_read_fst _ _ _ _ Hn); eauto).
      now rewrite E.
Qed.

Lemma state_reads_iff r ty i :
  disp_info_unmarshal state_info_type r = Ok (ty, i) <->
  exists c t vs b rest, r = c :: b ++ rest /\ In (b2n c, t) state_infos /\ struct_reads (layout t) vs b
    /\ ty = b2n c /\ i = IPtr t vs.
Proof.
  apply info_reads_iff.
  - intros a t H. apply state_infos_sel in H as (_ & H & n & Hn). split; [exact H|]. exists n. exact Hn.
  - intros a t H. left. now apply state_info_type_in.
  - eexists _, _. split; reflexivity.
Qed.

Lemma track_reads_iff r ty i :
  disp_info_unmarshal disp_track_info_type r = Ok (ty, i) <->
  exists c t vs b rest, r = c :: b ++ rest /\ In (b2n c, t) sized_track_infos /\ struct_reads (layout t) vs b
    /\ ty = b2n c /\ i = IPtr t vs.
Proof.
  apply info_reads_iff.
  - intros a t H. apply sized_infos_sel in H as (_ & H & n & Hn). split; [exact H|]. exists n. exact Hn.
  - intros a t H. apply disp_track_info_type_in in H. apply in_app_or in H as [H|H]; [auto|].
    right. unfold text_track_infos in H.
    repeat (destruct H as [[= <- <-]|H]; [reflexivity|]). destruct H.
  - eexists _, _. split; reflexivity.
Qed.

Lemma buttons_read r m : buttons_unmarshal r = Ok m <-> exists b, r <> [] /\ padded 4 r b /\ m = number (rev b).
Proof.
  unfold buttons_unmarshal. destruct r as [|c r].
  - split; [discriminate|]. intros (b & H & _). congruence.
  - split.
    + intros [= <-]. exists (copy_zeroed 4 (c :: r)). split; [discriminate|]. split; [now apply padded_iff|].
      symmetry. apply number_rev_le.
    + intros (b & _ & H & ->). apply padded_iff in H. subst b. now rewrite number_rev_le.
Qed.

Lemma payload_reads_complete rt t r p :
  payload_reads rt t r p -> exists used, payload_unmarshal rt t r = Ret (used, Ok p).
Proof.
  intros H.
  destruct H as [t n vs b rest Hn H|t l Ht|r b l C|maj min rest H|maj min cur max cert H|a b c l|n r l H|n r l H
                |t r b Ht Hr Hp|ty t vs b rest Et H|l b H|ty t vs b rest Hin H|ty t vs b rest Hin H|l b rest H Hl].
  - exists false. rewrite (fixed_unmarshal _ _ _ _ Hn).
    assert (E : fst (binary_read t (b ++ rest)) = Ok vs) by (apply (binary_read_fst _ _ _ _ Hn); eauto).
    now rewrite E.
  - exists true. cbn [In] in Ht. repeat (destruct Ht as [<-|Ht]; [reflexivity|]). destruct Ht.
  - exists true. cbn [payload_unmarshal]. unfold modelnum_unmarshal.
    assert (E : read_uint_or0 4 r = (number b, l)) by (apply read_uint_chunk; eauto).
    now rewrite E.
  - exists true. cbn [payload_unmarshal]. unfold devauthinfo_unmarshal.
    now rewrite (proj2 (N.leb_gt 2 (b2n maj))) by exact H.
  - exists true. cbn [payload_unmarshal]. unfold devauthinfo_unmarshal.
    now rewrite (proj2 (N.leb_le 2 (b2n maj))) by exact H.
  - exists true. reflexivity.
  - exists true. cbn [payload_unmarshal]. unfold tokens_unmarshal. apply tokens_read_iff in H. now rewrite H.
  - exists true. cbn [payload_unmarshal]. unfold acks_unmarshal. apply acks_read_iff in H. now rewrite H.
  - exists true.
    assert (E : buttons_unmarshal r = Ok (number (rev b))) by (apply buttons_read; eauto).
    cbn [In] in Ht.
    repeat (destruct Ht as [<-|Ht]; [cbn [payload_unmarshal]; now rewrite E|]). destruct Ht.
  - exists true. cbn [payload_unmarshal]. rewrite <- ext_info_type_eq in Et.
    assert (E : ext_track_info_unmarshal (ty :: b ++ rest) = Ok (PExtTrackInfo (b2n ty) (IPtr t vs)))
      by (apply ext_info_reads; eauto 10).
    now rewrite E.
  - exists true. cbn [payload_unmarshal]. unfold ext_artwork_unmarshal.
    apply (artwork_reads (List.length b + 1)) in H; [|lia]. now rewrite H.
  - exists true. cbn [payload_unmarshal].
    assert (E : disp_info_unmarshal state_info_type (ty :: b ++ rest) = Ok (b2n ty, IPtr t vs))
      by (apply state_reads_iff; eauto 12).
    now rewrite E.
  - exists true. cbn [payload_unmarshal].
    assert (E : disp_info_unmarshal disp_track_info_type (ty :: b ++ rest) = Ok (b2n ty, IPtr t vs))
      by (apply track_reads_iff; eauto 12).
    now rewrite E.
  - exists true. cbn [payload_unmarshal]. now rewrite (rates_reads _ _ _ H Hl).
Qed.

Lemma ret_ok_inj {A} (u u' : bool) (p p' : A) : Ret (u, Ok p) = Ret (u', Ok p') -> p = p'.
Proof. intros H. injection H as _ E. exact E. Qed.

Lemma payload_reads_sound rt t r used p :
  payload_unmarshal rt t r = Ret (used, Ok p) -> payload_reads rt t r p.
Proof.
  destruct (struct_size (layout t)) as [n|] eqn:Hn.
  - rewrite (fixed_unmarshal _ _ _ _ Hn). destruct (fst (binary_read t r)) as [vs|] eqn:E; [|discriminate].
    intros H. apply ret_ok_inj in H. subst p.
    apply (binary_read_fst _ _ _ _ Hn) in E as (b & rest & -> & Hb). now apply (py_fixed rt t n).
  - destruct t; try discriminate Hn; clear Hn; cbn [payload_unmarshal];
      try (intros H; discriminate H);
      try (intros H; apply ret_ok_inj in H; subst p; apply py_string; cbn [In]; tauto);
      try (destruct (buttons_unmarshal r) as [m|] eqn:E; [|discriminate];
           intros H; apply ret_ok_inj in H; subst p; apply buttons_read in E as (b & Hr & Hp & ->);
           apply py_buttons; auto; cbn [In]; tauto).
    + destruct (modelnum_unmarshal r) as [id m] eqn:E. intros H. apply ret_ok_inj in H. subst p.
      apply read_uint_chunk in E as (b & C & ->). now apply py_model.
    + unfold devauthinfo_unmarshal. destruct r as [|maj [|min r]]; try discriminate.
      destruct (N.leb_spec 2 (b2n maj)) as [L|L].
      * destruct r as [|cur [|max cert]]; try discriminate. intros H. apply ret_ok_inj in H. subst p.
        now apply py_auth2.
      * intros H. apply ret_ok_inj in H. subst p. now apply py_auth1.
    + unfold tokens_unmarshal. destruct r as [|n r]; [discriminate|].
      destruct (tokens_unmarshal_loop rt _ r) as [[l|]|] eqn:E; try discriminate.
      intros H. apply ret_ok_inj in H. subst p. apply tokens_read_iff in E. now apply py_tokens.
    + unfold acks_unmarshal. destruct r as [|n r]; [discriminate|].
      destruct (acks_unmarshal_loop _ r) as [l|] eqn:E; try discriminate.
      intros H. apply ret_ok_inj in H. subst p. apply acks_read_iff in E. now apply py_acks.
    + destruct r as [|a [|b [|c l]]]; try discriminate.
      intros H. apply ret_ok_inj in H. subst p. apply py_launch.
    + destruct (disp_info_unmarshal state_info_type r) as [[ty i]|] eqn:E; [|discriminate].
      intros H. apply ret_ok_inj in H. subst p.
      apply state_reads_iff in E as (c & t & vs & b & rest & -> & Hin & Hb & -> & ->). now apply py_state.
    + destruct (disp_info_unmarshal disp_track_info_type r) as [[ty i]|] eqn:E; [|discriminate].
      intros H. apply ret_ok_inj in H. subst p.
      apply track_reads_iff in E as (c & t & vs & b & rest & -> & Hin & Hb & -> & ->). now apply py_track.
    + destruct (ext_track_info_unmarshal r) as [q|] eqn:E; [|discriminate].
      intros H. apply ret_ok_inj in H. subst p.
      apply ext_info_reads in E as (c & t & vs & b & rest & -> & Ht & Hb & ->).
      apply py_ext_info; auto. now rewrite <- ext_info_type_eq.
    + destruct (ext_artwork_unmarshal r) as [l|] eqn:E; [|discriminate].
      intros H. apply ret_ok_inj in H. subst p. apply artwork_reads in E; [|lia]. now apply py_artwork.
    + intros H. apply ret_ok_inj in H. subst p.
      pose proof (dec_u32s_reads (List.length r / 4) r ltac:(lia)) as S1.
      rewrite <- (firstn_skipn (4 * (List.length r / 4)) r) at 1. apply py_rates; [exact S1|].
      rewrite skipn_length. lia.
Qed.

Lemma payload_reads_iff rt t r p :
  (exists used, payload_unmarshal rt t r = Ret (used, Ok p)) <-> payload_reads rt t r p.
Proof.
  split; [intros [u H]; eapply payload_reads_sound; eauto|apply payload_reads_complete].
Qed.
