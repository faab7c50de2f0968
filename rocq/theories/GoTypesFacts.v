(** Lemmas about encoding/binary on struct layouts. *)
From Verif Require Import Base BaseFacts GoTypes.
From Coq Require Import ZifyBool ZifyNat ZifyN.
Ltac Zify.zify_post_hook ::= Z.div_mod_to_equations.

Lemma field_size_enc f v n :
  field_size f = Some n -> has_type f v = true -> List.length (enc_field f v) = n.
Proof.
  destruct f, v; simpl; intros [= <-] H; try discriminate; try apply be_enc_length; auto.
  now apply Nat.eqb_eq.
Qed.

Lemma dec_enc_field f v n :
  field_size f = Some n -> has_type f v = true -> dec_field f (enc_field f v) = v.
Proof.
  destruct f, v; cbn [field_size has_type enc_field dec_field]; intros [= <-] H; try discriminate; f_equal.
  - apply be_dec_enc_small. lia.
  - rewrite be_dec_enc_small by apply z_enc_bound. apply z_dec_enc; lia.
  - destruct b; reflexivity.
Qed.

Lemma struct_size_cons f fs n :
  struct_size (f :: fs) = Some n ->
  exists a b, field_size f = Some a /\ struct_size fs = Some b /\ n = a + b.
Proof.
  simpl. destruct (field_size f) as [a|], (struct_size fs) as [b|]; try discriminate.
  intros [= <-]. now exists a, b.
Qed.

Lemma enc_fields_length fs vs n :
  struct_size fs = Some n -> have_types fs vs = true -> List.length (enc_fields fs vs) = n.
Proof.
  revert vs n; induction fs as [|f fs IH]; intros [|v vs] n Hs Ht; try discriminate.
  - now injection Hs as <-.
  - apply struct_size_cons in Hs as (a & b & Ha & Hb & ->).
    simpl in Ht. apply andb_prop in Ht as [Hv Hvs].
    cbn [enc_fields]. rewrite app_length, (field_size_enc _ _ _ Ha Hv), (IH _ _ Hb Hvs). reflexivity.
Qed.

Lemma dec_enc_fields fs vs n :
  struct_size fs = Some n -> have_types fs vs = true -> dec_fields fs (enc_fields fs vs) = vs.
Proof.
  revert vs n; induction fs as [|f fs IH]; intros [|v vs] n Hs Ht; try discriminate.
  - reflexivity.
  - apply struct_size_cons in Hs as (a & b & Ha & Hb & ->).
    simpl in Ht. apply andb_prop in Ht as [Hv Hvs].
    cbn [enc_fields dec_fields]. rewrite Ha.
    pose proof (field_size_enc _ _ _ Ha Hv) as L.
    rewrite firstn_app_exact, skipn_app_exact by auto.
    rewrite (dec_enc_field _ _ _ Ha Hv), (IH _ _ Hb Hvs). reflexivity.
Qed.

(** Decoding gives well-typed values. *)
Lemma dec_field_typed f n l :
  field_size f = Some n -> List.length l = n -> (forall k, f = FI k -> k <> 0) ->
  has_type f (dec_field f l) = true.
Proof.
  destruct f; cbn [field_size has_type dec_field]; intros [= <-] H Hk; auto.
  - pose proof (be_dec_bound l). rewrite H in *. lia.
  - pose proof (be_dec_bound l). rewrite H in *.
    assert (k <> 0) by now apply Hk.
    pose proof (z_dec_range k (be_dec l)). lia.
  - lia.
Qed.

Lemma dec_fields_typed fs n l :
  struct_size fs = Some n -> List.length l = n -> (forall k, In (FI k) fs -> k <> 0) ->
  have_types fs (dec_fields fs l) = true.
Proof.
  revert n l; induction fs as [|f fs IH]; intros n l Hs Hl Hk; [reflexivity|].
  apply struct_size_cons in Hs as (a & b & Ha & Hb & ->).
  cbn [dec_fields have_types]. rewrite Ha. apply andb_true_intro. split.
  - apply dec_field_typed with a; auto.
    + rewrite firstn_length. lia.
    + intros k ->. apply Hk. now left.
  - apply IH with b; auto.
    + rewrite skipn_length. lia.
    + intros k H. apply Hk. now right.
Qed.

(** The re-encoding of decoded bytes gives them back, except that any non-zero bool becomes 1. *)
Lemma enc_dec_fields fs n l :
  struct_size fs = Some n -> List.length l = n -> ~ In FBool fs -> (forall k, In (FI k) fs -> k <> 0) ->
  enc_fields fs (dec_fields fs l) = l.
Proof.
  revert n l; induction fs as [|f fs IH]; intros n l Hs Hl Hb Hk.
  - injection Hs as <-. now destruct l.
  - apply struct_size_cons in Hs as (a & b & Ha & Hb' & ->).
    cbn [enc_fields dec_fields]. rewrite Ha.
    rewrite (IH b); auto.
    2: rewrite skipn_length; lia.
    2: intros H; apply Hb; now right.
    2: intros k H; apply Hk; now right.
    rewrite <- (firstn_skipn a l) at 3. f_equal.
    assert (L : List.length (firstn a l) = a) by (rewrite firstn_length; lia).
    destruct f; simpl in Ha; try discriminate; injection Ha as <-; cbn [enc_field dec_field]; auto.
    + rewrite <- L at 1. apply be_enc_dec.
    + assert (Hk0 : k <> 0) by (apply Hk; now left).
      set (x := firstn k l) in *.
      assert (E : z_enc k (z_dec k (be_dec x)) = be_dec x).
      { pose proof (be_dec_bound x) as B. rewrite L in B.
        unfold z_enc, z_dec.
        assert (E2 : (2 ^ (8 * Z.of_nat k) = 2 * 2 ^ (8 * Z.of_nat k - 1))%Z).
        { rewrite <- Z.pow_succ_r by lia. f_equal. lia. }
        assert (H2 : Z.of_N (256 ^ N.of_nat k) = (2 ^ (8 * Z.of_nat k))%Z).
        { rewrite N2Z.inj_pow, nat_N_Z. change (Z.of_N 256) with (2 ^ 8)%Z.
          rewrite <- Z.pow_mul_r by lia. reflexivity. }
        rewrite E2 in *. set (h := (2 ^ (8 * Z.of_nat k - 1))%Z) in *.
        destruct (Z.ltb_spec (Z.of_N (be_dec x)) h).
        - rewrite Z.mod_small by lia. lia.
        - replace ((Z.of_N (be_dec x) - 2 * h) mod (2 * h))%Z with (Z.of_N (be_dec x)); [lia|].
          apply Z.mod_unique with (q := (-1)%Z); lia. }
      rewrite E. rewrite <- L at 1. apply be_enc_dec.
    + exfalso. apply Hb. now left.
Qed.

Lemma read_full_ok n l : n <= List.length l -> read_full n l = (Ok (firstn n l), skipn n l).
Proof.
  destruct n as [|n]; [reflexivity|]. destruct l as [|b l]; simpl; [lia|].
  intros H. destruct (Nat.leb_spec n (List.length l)); [reflexivity | lia].
Qed.

Lemma read_full_app n a b : List.length a = n -> read_full n (a ++ b) = (Ok a, b).
Proof.
  intros H. rewrite read_full_ok by (rewrite app_length; lia).
  now rewrite firstn_app_exact, skipn_app_exact by auto.
Qed.

Lemma read_full_short n l :
  List.length l < n -> read_full n l = (Err (match l with [] => EOF | _ => UnexpectedEOF end), []).
Proof.
  destruct n as [|n]; [lia|]. destruct l as [|b l]; simpl; [reflexivity|].
  intros H. destruct (Nat.leb_spec n (List.length l)); [lia | reflexivity].
Qed.

Lemma read_full_inv n l b r :
  read_full n l = (Ok b, r) -> l = b ++ r /\ List.length b = n.
Proof.
  destruct (le_lt_dec n (List.length l)) as [H|H].
  - rewrite read_full_ok by auto. intros [= <- <-]. split; [now rewrite firstn_skipn|].
    rewrite firstn_length. lia.
  - rewrite read_full_short by auto. discriminate.
Qed.

Lemma read_full_err n l e r :
  read_full n l = (Err e, r) -> List.length l < n /\ r = [] /\ (e = EOF <-> l = []) /\ (e = EOF \/ e = UnexpectedEOF).
Proof.
  destruct (le_lt_dec n (List.length l)) as [H|H].
  - rewrite read_full_ok by auto. discriminate.
  - rewrite read_full_short by auto. intros [= <- <-].
    destruct l; repeat split; auto; discriminate.
Qed.
