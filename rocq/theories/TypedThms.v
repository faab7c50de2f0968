(** Meaning of [typed] and [fixed_size]: the values with a wire form, and its length. *)
From Coq Require Import ZifyBool ZifyNat ZifyN Lia.
From Verif Require Import Base BaseFacts GoTypes GoTypesFacts Types Payload SpecPayload PayloadFacts WireFacts.

Lemma number_bound b : (number b < 256 ^ N.of_nat (List.length b))%N.
Proof.
  induction b as [|x b IH]; [reflexivity|]. cbn [number List.length].
  replace (N.of_nat (S (List.length b))) with (1 + N.of_nat (List.length b))%N by lia.
  rewrite N.pow_add_r. pose proof (Byte.to_N_bounded x) as B.
  assert (X : (b2n x <= 255)%N) by (unfold b2n; exact B).
  unfold len. change (256 ^ 1)%N with 256%N. nia.
Qed.

Lemma field_wire_typed f v b : field_wire f v b -> has_type f v = true /\ field_size f = Some (List.length b).
Proof.
  destruct 1 as [k n b L E|k z b L Z0 E|k z b L Z0 E| | |n l L]; cbn [has_type field_size List.length].
  - subst. split; [|reflexivity]. apply N.ltb_lt. apply number_bound.
  - subst k. split; [|reflexivity]. destruct b as [|x b]; [cbn in Z0; lia|]. cbn [Nat.ltb Nat.leb List.length] in *. lia.
  - subst k. split; [|reflexivity]. destruct b as [|x b]; [cbn in Z0; lia|]. cbn [Nat.ltb Nat.leb List.length] in *. lia.
  - auto.
  - auto.
  - subst. split; [apply Nat.eqb_refl|reflexivity].
Qed.

Lemma struct_wire_typed fs vs b : struct_wire fs vs b -> have_types fs vs = true /\ struct_size fs = Some (List.length b).
Proof.
  induction 1 as [|f fs v vs a b F _ [T Z]]; [auto|]. destruct (field_wire_typed f v a F) as [Tf Zf].
  cbn [have_types struct_size]. rewrite Tf, T, Zf, Z, app_length. auto.
Qed.

Theorem typed_iff t vs n : fixed_size t n -> typed t vs <-> exists b, struct_wire (layout t) vs b.
Proof.
  intros F. split.
  - intros T. exists (enc_fields (layout t) vs). eapply struct_wire_enc; eassumption.
  - intros (b & W). apply (struct_wire_typed _ _ _ W).
Qed.

Theorem wire_length t vs b : struct_wire (layout t) vs b -> fixed_size t (List.length b).
Proof. intros W. apply (struct_wire_typed _ _ _ W). Qed.

Lemma zero_typed fs : Forall scalar fs -> exists vs, have_types fs vs = true.
Proof.
  induction 1 as [|f fs F _ (vs & IH)]; [exists []; reflexivity|].
  destruct F as [k|k K| |n].
  - exists (VU 0 :: vs). cbn [have_types has_type]. rewrite IH, andb_true_r. apply N.ltb_lt.
    assert (256 ^ N.of_nat k <> 0)%N by (apply N.pow_nonzero; lia). lia.
  - exists (VI 0 :: vs). cbn [have_types has_type]. rewrite IH, andb_true_r.
    assert (0 < 2 ^ (8 * Z.of_nat k - 1))%Z by (apply Z.pow_pos_nonneg; lia). lia.
  - exists (VBool true :: vs). cbn [have_types has_type]. now rewrite IH.
  - exists (VArr (repeat x00 n) :: vs). cbn [have_types has_type]. rewrite IH, repeat_length, Nat.eqb_refl. reflexivity.
Qed.

Lemma scalar_size fs : Forall scalar fs -> exists n, struct_size fs = Some n.
Proof.
  induction 1 as [|f fs F _ (n & IH)]; [exists 0; reflexivity|].
  destruct F; cbn [struct_size field_size]; rewrite IH; eauto.
Qed.

(** No field of a Go struct is an integer of no bytes. *)
Definition proper_field (f : fty) : bool := match f with FI 0 => false | _ => true end.

Lemma size_scalar fs n : forallb proper_field fs = true -> struct_size fs = Some n -> Forall scalar fs.
Proof.
  revert n. induction fs as [|f fs IH]; intros n P E; [constructor|]. cbn [forallb] in P. apply andb_prop in P as [Pf P].
  apply struct_size_cons in E as (a & b & Ea & Eb & _). constructor; [|eauto].
  destruct f; try discriminate Ea; constructor; try lia. cbn in Pf. destruct k; [discriminate|lia].
Qed.

Lemma all_proper_fields t : forallb proper_field (layout t) = true.
Proof. destruct t; reflexivity. Qed.

Theorem fixed_iff t : (exists n, fixed_size t n) <-> Forall scalar (layout t).
Proof.
  split; [intros (n & E); exact (size_scalar _ n (all_proper_fields t) E)|apply scalar_size].
Qed.

(** Every type of fixed size has values. *)
Theorem fixed_inhabited t n : fixed_size t n -> exists vs b, struct_wire (layout t) vs b /\ List.length b = n.
Proof.
  intros F. destruct (zero_typed (layout t)) as (vs & T); [apply fixed_iff; eauto|].
  destruct (proj1 (typed_iff t vs n F) T) as (b & W). exists vs, b. split; [exact W|].
  pose proof (wire_length t vs b W) as L. unfold fixed_size in *. congruence.
Qed.

Theorem size_iff t n :
  fixed_size t n <-> Forall scalar (layout t) /\ forall vs b, struct_wire (layout t) vs b -> List.length b = n.
Proof.
  split.
  - intros F. split; [apply fixed_iff; eauto|]. intros vs b W. pose proof (wire_length t vs b W) as L.
    unfold fixed_size in *. congruence.
  - intros [S H]. apply fixed_iff in S as (m & F). destruct (fixed_inhabited t m F) as (vs & b & W & L).
    rewrite (H vs b W) in L. now subst.
Qed.
