(** Lemmas about Base.v. *)
From Verif Require Import Base.
From Coq Require Import ZifyBool ZifyNat ZifyN.
Ltac Zify.zify_post_hook ::= Z.div_mod_to_equations.

Lemma b2n_lt (b : byte) : (b2n b < 256)%N.
Proof. unfold b2n. pose proof (Byte.to_N_bounded b). lia. Qed.

Lemma b2n_n2b (n : N) : b2n (n2b n) = (n mod 256)%N.
Proof.
  unfold b2n, n2b.
  destruct (Byte.of_N (n mod 256)) as [b|] eqn:E.
  - now apply Byte.to_of_N.
  - apply Byte.of_N_None_iff in E. lia.
Qed.

Lemma n2b_b2n (b : byte) : n2b (b2n b) = b.
Proof.
  unfold n2b, b2n. pose proof (Byte.to_N_bounded b).
  rewrite N.mod_small by lia. now rewrite Byte.of_to_N.
Qed.

Lemma n2b_mod (n : N) : n2b (n mod 256) = n2b n.
Proof. unfold n2b. now rewrite N.mod_mod by lia. Qed.

Lemma b2n_inj (a b : byte) : b2n a = b2n b -> a = b.
Proof. intros H. rewrite <- (n2b_b2n a), <- (n2b_b2n b). now rewrite H. Qed.

Lemma b2n_n2b_small (n : N) : (n < 256)%N -> b2n (n2b n) = n.
Proof. intros H. rewrite b2n_n2b. now apply N.mod_small. Qed.

Lemma byte_eqb_eq (a b : byte) : byte_eqb a b = true <-> a = b.
Proof.
  unfold byte_eqb. rewrite N.eqb_eq. split; [apply b2n_inj | now intros ->].
Qed.

Lemma byte_eqb_refl (a : byte) : byte_eqb a a = true.
Proof. now apply byte_eqb_eq. Qed.

Lemma byte_eqb_neq (a b : byte) : byte_eqb a b = false <-> a <> b.
Proof.
  rewrite <- byte_eqb_eq. destruct (byte_eqb a b); split; congruence.
Qed.

Lemma byte_dec (a b : byte) : {a = b} + {a <> b}.
Proof.
  destruct (byte_eqb a b) eqn:E; [left; now apply byte_eqb_eq | right; now apply byte_eqb_neq].
Qed.

(** ** Big endian *)

Lemma be_enc_length k n : List.length (be_enc k n) = k.
Proof.
  revert n; induction k as [|k IH]; intros n; simpl; [reflexivity|].
  rewrite app_length, IH. simpl. lia.
Qed.

Lemma be_dec_snoc l b : be_dec (l ++ [b]) = (be_dec l * 256 + b2n b)%N.
Proof. unfold be_dec. now rewrite fold_left_app. Qed.

Lemma pow256_S k : (256 ^ N.of_nat (S k) = 256 ^ N.of_nat k * 256)%N.
Proof. rewrite Nat2N.inj_succ, N.pow_succ_r'. lia. Qed.

Lemma be_dec_enc k n : be_dec (be_enc k n) = (n mod 256 ^ N.of_nat k)%N.
Proof.
  revert n; induction k as [|k IH]; intros n.
  - simpl. change (256 ^ N.of_nat 0)%N with 1%N. now rewrite N.mod_1_r.
  - cbn [be_enc]. rewrite be_dec_snoc, IH, b2n_n2b, pow256_S.
    assert (256 ^ N.of_nat k <> 0)%N by (apply N.pow_nonzero; lia).
    rewrite (N.mul_comm (256 ^ N.of_nat k) 256).
    rewrite N.mod_mul_r by lia. lia.
Qed.

Lemma be_dec_enc_small k n : (n < 256 ^ N.of_nat k)%N -> be_dec (be_enc k n) = n.
Proof. intros H. rewrite be_dec_enc. now apply N.mod_small. Qed.

Lemma be_dec_bound l : (be_dec l < 256 ^ N.of_nat (List.length l))%N.
Proof.
  induction l as [|b l IH] using rev_ind.
  - vm_compute. reflexivity.
  - rewrite be_dec_snoc, app_length. cbn [List.length]. rewrite Nat.add_1_r, pow256_S.
    pose proof (b2n_lt b). lia.
Qed.

Lemma n2b_snoc_hi l b : ((be_dec l * 256 + b2n b) / 256 = be_dec l)%N.
Proof. pose proof (b2n_lt b). lia. Qed.

Lemma be_enc_dec l : be_enc (List.length l) (be_dec l) = l.
Proof.
  induction l as [|b l IH] using rev_ind; [reflexivity|].
  rewrite app_length, be_dec_snoc. cbn [List.length]. rewrite Nat.add_1_r. cbn [be_enc].
  rewrite n2b_snoc_hi, IH. f_equal.
  rewrite <- n2b_mod. f_equal.
  replace ((be_dec l * 256 + b2n b) mod 256)%N with (b2n b) by (pose proof (b2n_lt b); lia).
  now rewrite n2b_b2n.
Qed.

Lemma be_enc_inj k m n :
  (m < 256 ^ N.of_nat k)%N -> (n < 256 ^ N.of_nat k)%N -> be_enc k m = be_enc k n -> m = n.
Proof.
  intros Hm Hn H. rewrite <- (be_dec_enc_small k m Hm), <- (be_dec_enc_small k n Hn). now rewrite H.
Qed.

Lemma be_enc_2 n : be_enc 2 n = [n2b (n / 256); n2b n].
Proof. reflexivity. Qed.

Lemma be_dec_2 a b : be_dec [a; b] = (b2n a * 256 + b2n b)%N.
Proof. unfold be_dec. cbn [fold_left]. lia. Qed.

(** ** Little endian *)

Lemma le_enc_length k n : List.length (le_enc k n) = k.
Proof. revert n; induction k as [|k IH]; intros n; simpl; auto. Qed.

Lemma le_dec_enc k n : le_dec (le_enc k n) = (n mod 256 ^ N.of_nat k)%N.
Proof.
  revert n; induction k as [|k IH]; intros n.
  - simpl. change (256 ^ N.of_nat 0)%N with 1%N. now rewrite N.mod_1_r.
  - cbn [le_enc le_dec]. rewrite IH, b2n_n2b, pow256_S.
    assert (256 ^ N.of_nat k <> 0)%N by (apply N.pow_nonzero; lia).
    rewrite (N.mul_comm (256 ^ N.of_nat k) 256).
    rewrite N.mod_mul_r by lia. lia.
Qed.

Lemma le_dec_app a b : le_dec (a ++ b) = (le_dec a + 256 ^ N.of_nat (List.length a) * le_dec b)%N.
Proof.
  induction a as [|x a IH]; cbn [app le_dec List.length].
  - change (256 ^ N.of_nat 0)%N with 1%N. lia.
  - rewrite IH, pow256_S. lia.
Qed.

Lemma le_dec_zeros n : le_dec (repeat x00 n) = 0%N.
Proof. induction n as [|n IH]; simpl; [reflexivity|]. rewrite IH. reflexivity. Qed.

Lemma le_dec_bound l : (le_dec l < 256 ^ N.of_nat (List.length l))%N.
Proof.
  induction l as [|b l IH]; [vm_compute; reflexivity|].
  cbn [le_dec List.length]. rewrite pow256_S. pose proof (b2n_lt b). lia.
Qed.

(** ** Two's complement *)

Lemma pow8_pos k : (0 < 2 ^ (8 * Z.of_nat k))%Z.
Proof. apply Z.pow_pos_nonneg; lia. Qed.

Lemma z_enc_bound k z : (z_enc k z < 256 ^ N.of_nat k)%N.
Proof.
  unfold z_enc. pose proof (pow8_pos k).
  assert (H1 : (0 <= z mod 2 ^ (8 * Z.of_nat k) < 2 ^ (8 * Z.of_nat k))%Z) by (apply Z.mod_pos_bound; lia).
  assert (H2 : Z.of_N (256 ^ N.of_nat k) = (2 ^ (8 * Z.of_nat k))%Z).
  { rewrite N2Z.inj_pow, nat_N_Z. change (Z.of_N 256) with (2 ^ 8)%Z.
    rewrite <- Z.pow_mul_r by lia. reflexivity. }
  lia.
Qed.

Lemma z_dec_enc k z :
  k <> 0 -> (- 2 ^ (8 * Z.of_nat k - 1) <= z < 2 ^ (8 * Z.of_nat k - 1))%Z -> z_dec k (z_enc k z) = z.
Proof.
  intros Hk Hz. unfold z_dec, z_enc.
  assert (E : (2 ^ (8 * Z.of_nat k) = 2 * 2 ^ (8 * Z.of_nat k - 1))%Z).
  { rewrite <- Z.pow_succ_r by lia. f_equal. lia. }
  rewrite E. set (h := (2 ^ (8 * Z.of_nat k - 1))%Z) in *.
  assert (0 < h)%Z by (apply Z.pow_pos_nonneg; lia).
  rewrite Z2N.id by (apply Z.mod_pos_bound; lia).
  destruct (Z_lt_dec z 0) as [Hneg|Hpos].
  - replace (z mod (2 * h))%Z with (z + 2 * h)%Z.
    + destruct (Z.ltb_spec (z + 2 * h) h); lia.
    + apply Z.mod_unique with (q := (-1)%Z); lia.
  - rewrite Z.mod_small by lia. destruct (Z.ltb_spec z h); lia.
Qed.

Lemma z_dec_range k n :
  k <> 0 -> (n < 256 ^ N.of_nat k)%N ->
  (- 2 ^ (8 * Z.of_nat k - 1) <= z_dec k n < 2 ^ (8 * Z.of_nat k - 1))%Z.
Proof.
  intros Hk Hn. unfold z_dec.
  assert (E : (2 ^ (8 * Z.of_nat k) = 2 * 2 ^ (8 * Z.of_nat k - 1))%Z).
  { rewrite <- Z.pow_succ_r by lia. f_equal. lia. }
  assert (H2 : Z.of_N (256 ^ N.of_nat k) = (2 ^ (8 * Z.of_nat k))%Z).
  { rewrite N2Z.inj_pow, nat_N_Z. change (Z.of_N 256) with (2 ^ 8)%Z.
    rewrite <- Z.pow_mul_r by lia. reflexivity. }
  set (h := (2 ^ (8 * Z.of_nat k - 1))%Z) in *.
  assert (0 < h)%Z by (apply Z.pow_pos_nonneg; lia).
  destruct (Z.ltb_spec (Z.of_N n) h); lia.
Qed.

(** ** Lists *)

Lemma index_byte_none b l : index_byte b l = None <-> ~ In b l.
Proof.
  induction l as [|c l IH]; simpl.
  - tauto.
  - destruct (byte_eqb c b) eqn:E.
    + apply byte_eqb_eq in E. split; [discriminate | intros H; exfalso; auto].
    + apply byte_eqb_neq in E. destruct (index_byte b l) eqn:F.
      * split; [discriminate|]. intros H.
        assert (Hn : Some n = None) by (apply IH; tauto). discriminate.
      * split; [|reflexivity]. intros _ [H|H]; [congruence|]. now apply (proj1 IH).
Qed.

Lemma index_byte_some b l i :
  index_byte b l = Some i <->
  exists pre post, l = pre ++ b :: post /\ ~ In b pre /\ List.length pre = i.
Proof.
  revert i; induction l as [|c l IH]; intros i; simpl.
  - split; [discriminate|]. intros (pre & post & H & _). destruct pre; discriminate.
  - destruct (byte_eqb c b) eqn:E.
    + apply byte_eqb_eq in E. subst c. split.
      * intros [= <-]. exists [], l. simpl. tauto.
      * intros (pre & post & H & Hn & Hl). destruct pre as [|x pre].
        { simpl in Hl. now subst. }
        exfalso. simpl in H. injection H as -> _. apply Hn. now left.
    + apply byte_eqb_neq in E. destruct (index_byte b l) eqn:F.
      * split.
        { intros [= <-]. destruct (proj1 (IH n) eq_refl) as (pre & post & -> & Hn & Hl).
          exists (c :: pre), post. simpl. split; [reflexivity|]. split; [|lia]. intros [H|H]; auto. }
        { intros (pre & post & H & Hn & Hl). destruct pre as [|x pre]; simpl in H.
          - injection H as -> _. congruence.
          - injection H as -> ->. f_equal. destruct i as [|i]; [discriminate|].
            f_equal. enough (Some n = Some i) by congruence.
            apply IH. exists pre, post. split; [reflexivity|]. split; [|simpl in Hl; lia].
            intros Hi; apply Hn; now right. }
      * split; [discriminate|].
        intros (pre & post & H & Hn & Hl). destruct pre as [|x pre]; simpl in H.
        { injection H as -> _. congruence. }
        injection H as -> ->.
        assert (Hnone : ~ In b (pre ++ b :: post)) by now apply index_byte_none.
        exfalso. apply Hnone. apply in_or_app. right. now left.
Qed.

Lemma index_byte_app b pre post :
  ~ In b pre -> index_byte b (pre ++ b :: post) = Some (List.length pre).
Proof. intros H. apply index_byte_some. exists pre, post. auto. Qed.

Lemma skipn_app_exact {A} (a b : list A) n : n = List.length a -> skipn n (a ++ b) = b.
Proof. intros ->. rewrite skipn_app, skipn_all, Nat.sub_diag. reflexivity. Qed.

Lemma firstn_app_exact {A} (a b : list A) n : n = List.length a -> firstn n (a ++ b) = a.
Proof. intros ->. rewrite firstn_app, firstn_all, Nat.sub_diag. simpl. apply app_nil_r. Qed.

Lemma len_app {A} (a b : list A) : len (a ++ b) = (len a + len b)%N.
Proof. unfold len. rewrite app_length. lia. Qed.

Lemma copy_zeroed_length n src : List.length (copy_zeroed n src) = n.
Proof. unfold copy_zeroed. rewrite app_length, firstn_length, repeat_length. lia. Qed.
