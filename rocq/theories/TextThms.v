(** Theorems about the texts shown to users. *)
From Coq Require Import Ascii Permutation ZifyBool ZifyNat ZifyN Lia.
From Verif Require Import Base BaseFacts GoTypes Types Payload Lingo Text SpecText TextFacts.
Local Open Scope string_scope.

(** ** Decimal numbers *)
Lemma format_dec_numeral fuel : forall n, (n < 10 ^ N.of_nat fuel)%N -> 0 < fuel ->
  numeral DEC (format_dec fuel n) n /\ format_dec fuel n <> "" /\ (String.length (format_dec fuel n) <> 1 -> (10 <= n)%N /\ (10 ^ N.of_nat (String.length (format_dec fuel n) - 1) <= n)%N).
Proof.
  induction fuel as [|fuel IH]; intros n L F; [lia|]. cbn [format_dec]. destruct (N.ltb_spec n 10) as [S1|S1].
  - split; [|split; [discriminate|cbn [String.length]; lia]].
    replace n with (0 * N.of_nat (String.length DEC) + n)%N at 2 by lia.
    apply (num_snoc DEC "" 0%N); [apply num_nil|]. apply dec_digit_get. exact S1.
  - replace (N.of_nat (Datatypes.S fuel)) with (N.succ (N.of_nat fuel)) in L by lia. rewrite N.pow_succ_r in L by lia.
    assert (F' : 0 < fuel) by (destruct fuel; [cbn in L; lia|lia]).
    pose proof (N.div_mod n 10 ltac:(lia)) as DM. pose proof (N.mod_lt n 10 ltac:(lia)) as ML.
    destruct (IH (n / 10)%N) as (A & B & C); [apply N.div_lt_upper_bound; lia|exact F'|]. split; [|split].
    + rewrite DM at 3. rewrite (N.mul_comm 10).
      apply (num_snoc DEC); [exact A|]. apply dec_digit_get. exact ML.
    + destruct (format_dec fuel (n / 10)); discriminate.
    + intros _. split; [exact S1|]. rewrite sapp_length. cbn [String.length].
      destruct (Nat.eq_dec (String.length (format_dec fuel (n / 10))) 1) as [->|NE]; [cbn; lia|].
      destruct (C NE) as [_ C2]. revert C2 B NE. generalize (format_dec fuel (n / 10)). intros s C2 B NE.
      destruct s as [|x s]; [contradiction|]. cbn [String.length] in *.
      replace (Datatypes.S (String.length s) + 1 - 1) with (Datatypes.S (String.length s)) by lia.
      replace (Datatypes.S (String.length s) - 1) with (String.length s) in C2 by lia.
      replace (N.of_nat (Datatypes.S (String.length s))) with (N.succ (N.of_nat (String.length s))) by lia. rewrite N.pow_succ_r by lia. lia.
Qed.
Lemma FormatInt_numeral n : numeral DEC (FormatInt n) n /\ FormatInt n <> ""
  /\ (String.length (FormatInt n) <> 1 -> String.get 0 (FormatInt n) <> Some "0"%char).
Proof.
  unfold FormatInt. destruct (format_dec_numeral (Datatypes.S (N.to_nat (N.size n))) n) as (A & B & C).
  - eapply N.lt_le_trans; [apply size_bounds|]. apply N.le_trans with (10 ^ N.size n)%N.
    + apply N.pow_le_mono_l. lia.
    + apply N.pow_le_mono_r; lia.
  - lia.
  - split; [exact A|]. split; [exact B|]. intros NE. apply (numeral_bound DEC _ n); [left; reflexivity|exact A|exact B|].
    change (base DEC) with 10%N. exact (proj2 (C NE)).
Qed.
Lemma FormatInt_decimal n : decimal 1 n (FormatInt n).
Proof.
  destruct (FormatInt_numeral n) as (A & B & C). split; [exact A|]. destruct (FormatInt n) as [|x s]; [contradiction|].
  split; [cbn [String.length]; lia|]. intros L. apply C. lia.
Qed.

Lemma zeros_length k : String.length (zeros k) = k.
Proof. induction k as [|k IH]; [reflexivity|]. cbn. now rewrite IH. Qed.
Lemma zeros_snoc k : zeros k ++ "0" = zeros (Datatypes.S k).
Proof. induction k as [|k IH]; [reflexivity|]. change (zeros (Datatypes.S k)) with (String "0" (zeros k)) at 1. cbn [append]. now rewrite IH. Qed.
Lemma zeros_numeral k : numeral DEC (zeros k) 0.
Proof.
  induction k as [|k IH]; [apply num_nil|]. rewrite <- zeros_snoc.
  change 0%N with (0 * N.of_nat (String.length DEC) + 0)%N. apply num_snoc; [exact IH|reflexivity].
Qed.
Lemma numeral_zeros z s n : numeral DEC z 0 -> numeral DEC s n -> numeral DEC (z ++ s) n.
Proof. intros Z H. induction H as [|s n c d H IH E]; [rewrite sapp_nil; exact Z|]. rewrite <- sapp_assoc. apply num_snoc; assumption. Qed.
Lemma fmt_dec0_decimal w n : 1 <= w -> decimal w n (fmt_dec0 w (Z.of_N n)).
Proof.
  intros W. unfold fmt_dec0. destruct (Z.ltb_spec (Z.of_N n) 0) as [L|_]; [lia|].
  replace (Z.to_N (Z.abs (Z.of_N n))) with n by lia. destruct (FormatInt_numeral n) as (A & B & C).
  split; [apply numeral_zeros; [apply zeros_numeral|exact A]|]. rewrite sapp_length, zeros_length. split; [lia|].
  intros L. replace (w - String.length (FormatInt n)) with 0 by lia. cbn [zeros append]. apply C. lia.
Qed.
Lemma decimal_value w w' n n' s : decimal w n s -> decimal w' n' s -> n = n'.
Proof. apply (written_value DEC). left. reflexivity. Qed.

(** ** Names *)
Definition strings_ok (f : N -> outcome string) (names : list (N * string)) (ty : string) : Prop :=
  forall i, exists s, f i = Ret s /\ text_of names ty i s.

Ltac notin := intros HIn; vm_compute in HIn; repeat (destruct HIn as [HIn|HIn]; [lia|]); exact HIn.
Ltac named := eexists; split; [reflexivity|]; apply text_named; vm_compute; tauto.
Ltac numbered := eexists; split; [reflexivity|]; change (?t ++ "(" ++ ?d ++ ")") with (t ++ "(" ++ d ++ ")");
  apply text_number; [notin|apply FormatInt_decimal].
Ltac numbered_as ty i := exists (ty ++ "(" ++ FormatInt i ++ ")"); split; [reflexivity|]; apply text_number; [notin|apply FormatInt_decimal].

Lemma LingoBit_ok : strings_ok LingoBit_String LingoBit_names "LingoBit".
Proof.
  intros i. unfold LingoBit_String.
  repeat match goal with |- context [(i =? ?k)%N] => destruct (N.eqb_spec i k) as [->|]; [named|] end.
  numbered_as "LingoBit" i.
Qed.

Lemma upto (P : N -> Prop) (k : nat) : Forall P (map N.of_nat (List.seq 0 k)) -> forall i, (i < N.of_nat k)%N -> P i.
Proof.
  intros F i L. rewrite Forall_forall in F. apply F. apply in_map_iff. exists (N.to_nat i). split; [lia|]. apply in_seq. lia.
Qed.
Ltac each := vm_compute map; repeat (apply Forall_cons; [named|]); apply Forall_nil.

Lemma AccInfoType_ok : strings_ok AccInfoType_String AccInfoType_names "AccInfoType".
Proof.
  intros i. unfold AccInfoType_String. destruct (N.eqb_spec i 1) as [->|]; [named|].
  destruct (N.leb_spec 4 i) as [A|A]; cbn [andb]; [destruct (N.leb_spec i 9) as [B|B]; cbn [andb]|]; try numbered_as "AccInfoType" i.
  assert (exists j, i = j + 4 /\ j < N.of_nat 6)%N as (j & Ej & L) by (exists (i - 4)%N; lia).
  subst i. replace (j + 4 - 4)%N with j by lia. clear - L. revert j L. apply upto. each.
Qed.
Lemma AccCapBit_ok : strings_ok AccCapBit_String AccCapBit_names "AccCapBit".
Proof.
  intros i. unfold AccCapBit_String.
  destruct (N.leb_spec 1 i) as [A|A]; cbn [andb]; [destruct (N.leb_spec i 2) as [B|B]; cbn [andb]|].
  - assert (i = 1 \/ i = 2)%N as [-> | ->] by lia; named.
  - repeat match goal with |- context [(i =? ?k)%N] => destruct (N.eqb_spec i k) as [->|]; [named|] end; numbered_as "AccCapBit" i.
  - repeat match goal with |- context [(i =? ?k)%N] => destruct (N.eqb_spec i k) as [->|]; [named|] end; numbered_as "AccCapBit" i.
Qed.
Lemma button_find_none l i : button_find l i = None -> ~ In i (map fst l).
Proof.
  induction l as [|[k ab] l IH]; intros E; [intros []|]. cbn [button_find] in E. destruct (N.eqb_spec k i); [discriminate|].
  cbn [map fst In]. intros [C|C]; [contradiction|]. exact (IH E C).
Qed.
Lemma button_find_some l i ab : button_find l i = Some ab -> In (i, ab) l.
Proof.
  induction l as [|[k ab'] l IH]; intros E; [discriminate|]. cbn [button_find] in E. destruct (N.eqb_spec k i) as [->|].
  - injection E as ->. left. reflexivity.
  - right. exact (IH E).
Qed.
Lemma ContextButtonBit_ok : strings_ok ContextButtonBit_String ContextButtonBit_names "ContextButtonBit".
Proof.
  intros i. unfold ContextButtonBit_String. destruct (button_find ContextButtonBit_map i) as [[a b]|] eqn:E.
  - apply button_find_some in E.
    assert (F : Forall (fun p => exists s, str_slice ContextButtonBit_name (fst (snd p)) (snd (snd p)) = Ret s /\ text_of ContextButtonBit_names "ContextButtonBit" (fst p) s) ContextButtonBit_map).
    { unfold ContextButtonBit_map. repeat (apply Forall_cons; [named|]). apply Forall_nil. }
    rewrite Forall_forall in F. exact (F _ E).
  - apply button_find_none in E. exists ("ContextButtonBit" ++ "(" ++ FormatInt i ++ ")"). split; [reflexivity|].
    apply text_number; [|apply FormatInt_decimal]. exact E.
Qed.
Lemma InfoType_ok : strings_ok InfoType_String InfoType_names "InfoType".
Proof.
  intros i. unfold InfoType_String. destruct (N.leb_spec i 9) as [B|B].
  { assert (L : (i < N.of_nat 10)%N) by lia. clear B. revert i L. apply upto. each. }
  destruct (N.leb_spec 11 i) as [A|A]; cbn [andb]; [destruct (N.leb_spec i 16) as [C|C]; cbn [andb]|]; try numbered_as "InfoType" i.
  assert (exists j, i = j + 11 /\ j < N.of_nat 6)%N as (j & Ej & L) by (exists (i - 11)%N; lia).
  subst i. replace (j + 11 - 11)%N with j by lia. clear - L. revert j L. apply upto. each.
Qed.
Lemma PlayStatusType_ok : strings_ok PlayStatusType_String PlayStatusType_names "PlayStatusType".
Proof.
  intros i. unfold PlayStatusType_String. change (N.of_nat (List.length PlayStatusType_index) - 1)%N with 6%N.
  destruct (N.leb_spec 6 i) as [B|B]; [numbered_as "PlayStatusType" i|].
  assert (L : (i < N.of_nat 6)%N) by lia. clear B. revert i L. apply upto. each.
Qed.
Lemma TrackInfoType_ok : strings_ok TrackInfoType_String TrackInfoType_names "TrackInfoType".
Proof.
  intros i. unfold TrackInfoType_String. change (N.of_nat (List.length TrackInfoType_index) - 1)%N with 9%N.
  destruct (N.leb_spec 9 i) as [B|B]; [numbered_as "TrackInfoType" i|].
  assert (L : (i < N.of_nat 9)%N) by lia. clear B. revert i L. apply upto. each.
Qed.

(** Distinct values have distinct texts. *)
Fixpoint has_char (c : ascii) (s : string) : bool :=
  match s with "" => false | String x s' => (Ascii.eqb x c || has_char c s')%bool end.
Lemma has_char_app c a b : has_char c (a ++ b) = (has_char c a || has_char c b)%bool.
Proof. induction a as [|x a IH]; [reflexivity|]. cbn [append has_char]. rewrite IH. apply Bool.orb_assoc. Qed.
Definition plain_names (names : list (N * string)) : bool :=
  forallb (fun p => negb (has_char "(" (snd p)) && negb (has_char " " (snd p)) && negb (String.eqb (snd p) ""))%bool names.
Fixpoint distinct (l : list string) : bool :=
  match l with [] => true | x :: l' => (negb (existsb (String.eqb x) l') && distinct l')%bool end.
Lemma distinct_fst (names : list (N * string)) i j s :
  distinct (map snd names) = true -> In (i, s) names -> In (j, s) names -> i = j.
Proof.
  induction names as [|[k t] names IH]; intros D A B; [destruct A|]. cbn [map snd distinct] in D.
  apply andb_prop in D as [D1 D2]. apply Bool.negb_true_iff in D1.
  assert (N1 : forall n, ~ In (n, t) names).
  { intros n HIn. assert (T : existsb (String.eqb t) (map snd names) = true).
    { apply existsb_exists. exists t. split; [apply (in_map snd) in HIn; exact HIn|apply String.eqb_refl]. }
    rewrite T in D1. discriminate. }
  destruct A as [A|A]; destruct B as [B|B].
  - congruence.
  - injection A as -> ->. destruct (N1 _ B).
  - injection B as -> ->. destruct (N1 _ A).
  - exact (IH D2 A B).
Qed.
Lemma text_of_inj names ty i j s :
  plain_names names = true -> distinct (map snd names) = true ->
  text_of names ty i s -> text_of names ty j s -> i = j.
Proof.
  intros P D [s1 H1|d N1 H1] H2.
  - remember s1 as s2 eqn:E2 in H2. destruct H2 as [s2 H2|d' N2 H2].
    + subst s2. exact (distinct_fst _ _ _ _ D H1 H2).
    + exfalso. unfold plain_names in P. rewrite forallb_forall in P. specialize (P _ H1). cbn [snd] in P. rewrite <- E2 in P.
      rewrite !has_char_app in P. cbn [has_char] in P. rewrite !Bool.orb_true_r in P. discriminate.
  - remember (ty ++ "(" ++ d ++ ")") as s2 eqn:E2 in H2. destruct H2 as [s2 H2|d' N2 H2].
    + exfalso. unfold plain_names in P. rewrite forallb_forall in P. specialize (P _ H2). cbn [snd] in P. rewrite E2 in P.
      rewrite !has_char_app in P. cbn [has_char] in P. rewrite !Bool.orb_true_r in P. discriminate.
    + apply sapp_cancel in E2. apply sapp_cancel in E2. apply sapp_inj_right in E2. subst d'. exact (decimal_value _ _ _ _ _ H1 H2).
Qed.

(** ** Masks *)
Lemma separated_Join sep l : separated sep l (Join sep l).
Proof. induction l as [|a [|b l] IH]; [apply sep_none|apply sep_one|]. unfold Join in *. cbn [String.concat]. apply sep_more. exact IH. Qed.

Lemma land_bit m i : (i < 32)%N -> (N.land m (N.shiftl 1 i mod 2 ^ 32) =? 0)%N = negb (N.testbit m i).
Proof.
  intros L. rewrite N.shiftl_1_l, N.mod_small by (apply N.pow_lt_mono_r; lia).
  destruct (N.testbit m i) eqn:T; cbn [negb].
  - apply N.eqb_neq. intros E. apply (f_equal (fun x => N.testbit x i)) in E. rewrite N.land_spec, T, N.pow2_bits_true, N.bits_0 in E. discriminate.
  - apply N.eqb_eq. apply N.bits_inj. intros k. rewrite N.land_spec, N.bits_0. destruct (N.eq_dec k i) as [->|NE]; [now rewrite T|].
    rewrite N.pow2_bits_false by congruence. apply Bool.andb_false_r.
Qed.
Lemma mask_labels_ok f names ty m : strings_ok f names ty ->
  forall n i, i + n <= 32 -> exists labels, mask_labels f m (N.of_nat i) n = Ret labels
    /\ Forall2 (fun i l => text_of names ty (2 ^ i) l) (filter (N.testbit m) (map N.of_nat (List.seq i n))) labels.
Proof.
  intros OK. induction n as [|n IH]; intros i L.
  - exists []. split; [reflexivity|apply Forall2_nil].
  - cbn [mask_labels List.seq map filter]. rewrite land_bit by lia.
    destruct (IH (Datatypes.S i) ltac:(lia)) as (labels & E & F). replace (N.of_nat i + 1)%N with (N.of_nat (Datatypes.S i)) by lia. rewrite E.
    destruct (N.testbit m (N.of_nat i)); cbn [negb].
    + destruct (OK (N.shiftl 1 (N.of_nat i) mod 2 ^ 32)%N) as (s & Es & Ts). rewrite Es. cbn [bind].
      exists (s :: labels). split; [reflexivity|]. apply Forall2_cons; [|exact F].
      rewrite N.shiftl_1_l, N.mod_small in Ts by (apply N.pow_lt_mono_r; lia). exact Ts.
    + exists labels. split; [reflexivity|exact F].
Qed.
Lemma mask_ok f names ty m : strings_ok f names ty ->
  exists s, (do labels <- mask_labels f m 0 32; Ret (Join " | " labels)) = Ret s /\ mask_text names ty m s.
Proof.
  intros OK. destruct (mask_labels_ok f names ty m OK 32 0 ltac:(lia)) as (labels & E & F). change (N.of_nat 0) with 0%N in E.
  rewrite E. cbn [bind]. eexists. split; [reflexivity|]. exists labels. split; [exact F|apply separated_Join].
Qed.

(** Labels are not empty and have no blanks. *)
Definition label_ok (s : string) : Prop := s <> "" /\ has_char " " s = false.
Lemma numeral_chars digits s n : has_char " " digits = false -> numeral digits s n -> has_char " " s = false.
Proof.
  intros D H. induction H as [|s n c d H IH E]; [reflexivity|]. rewrite has_char_app, IH. cbn [has_char orb]. rewrite Bool.orb_false_r.
  destruct (Ascii.eqb_spec c " ") as [->|]; [|reflexivity]. exfalso.
  enough (G : forall l k, String.get k l = Some " "%char -> has_char " " l = true) by (rewrite (G _ _ E) in D; discriminate).
  clear. induction l as [|x l IH]; intros k E; [destruct k; discriminate|]. cbn [has_char]. destruct k as [|k]; cbn [String.get] in E.
  - injection E as ->. reflexivity.
  - rewrite (IH _ E). apply Bool.orb_true_r.
Qed.
Lemma text_of_label names ty i s : plain_names names = true -> has_char " " ty = false -> text_of names ty i s -> label_ok s.
Proof.
  intros P T [s' H|d _ (H & _)].
  - unfold plain_names in P. rewrite forallb_forall in P. specialize (P _ H). cbn [snd] in P.
    apply andb_prop in P as [P P3]. apply andb_prop in P as [_ P2]. split; [intros ->; discriminate|]. now apply Bool.negb_true_iff in P2.
  - split; [destruct ty; discriminate|]. rewrite !has_char_app, T. cbn [has_char Ascii.eqb orb].
    rewrite (numeral_chars "0123456789" _ _ eq_refl H). reflexivity.
Qed.
Lemma split_blank a : forall b x y, has_char " " a = false -> has_char " " b = false ->
  a ++ String " " x = b ++ String " " y -> a = b /\ x = y.
Proof.
  induction a as [|c a IH]; intros [|d b] x y A B E; cbn [append has_char] in *.
  - injection E as ->. split; reflexivity.
  - injection E as E1 E2. subst d. cbn in B. discriminate.
  - injection E as E1 E2. subst c. cbn in A. discriminate.
  - injection E as -> E. apply Bool.orb_false_elim in A as [_ A]. apply Bool.orb_false_elim in B as [_ B].
    destruct (IH _ _ _ A B E) as [-> ->]. split; reflexivity.
Qed.
Lemma separated_inj l s : separated " | " l s -> Forall label_ok l ->
  forall l', separated " | " l' s -> Forall label_ok l' -> l = l'.
Proof.
  induction 1 as [|a|a b l r H IH]; intros F l' H' F'.
  - inversion H' as [|a' E|a' b' l2 r' H2 E]; subst; [reflexivity| |].
    + apply Forall_inv in F'. destruct F' as [F' _]. contradiction.
    + apply Forall_inv in F'. destruct F' as [F' _]. destruct a'; [contradiction|discriminate].
  - apply Forall_inv in F. destruct F as [F1 F2].
    inversion H' as [E|a' E|a' b' l2 r' H2 E]; subst; [contradiction|reflexivity|].
    exfalso. rewrite has_char_app in F2. cbn in F2. rewrite Bool.orb_true_r in F2. discriminate.
  - pose proof (Forall_inv F) as [F1 F2]. pose proof (Forall_inv_tail F) as F3.
    remember (a ++ " | " ++ r) as s eqn:E. destruct H' as [|a'|a' b' l2 r' H2].
    + destruct a; [contradiction|discriminate].
    + subst a'. apply Forall_inv in F'. destruct F' as [_ F']. rewrite has_char_app in F'. cbn in F'. rewrite Bool.orb_true_r in F'. discriminate.
    + pose proof (Forall_inv F') as [_ F4]. cbn [append] in E.
      destruct (split_blank _ _ _ _ F4 F2 E) as [-> E2]. injection E2 as ->. f_equal.
      exact (IH F3 _ H2 (Forall_inv_tail F')).
Qed.
Lemma bits_set_inj m m' : (m < 2 ^ 32)%N -> (m' < 2 ^ 32)%N -> bits_set m = bits_set m' -> m = m'.
Proof.
  intros L L' E. apply N.bits_inj. intros k. destruct (N.ltb_spec k 32) as [K|K].
  - assert (A : forall x, N.testbit x k = true <-> In k (bits_set x)).
    { intros x. unfold bits_set. rewrite filter_In. split; [intros T; split; [|exact T]|tauto].
      apply in_map_iff. exists (N.to_nat k). split; [lia|]. apply in_seq. lia. }
    pose proof (A m) as A1. pose proof (A m') as A2. rewrite E in A1.
    destruct (N.testbit m k), (N.testbit m' k); try reflexivity; tauto || (exfalso; intuition discriminate).
  - assert (B : forall x, (x < 2 ^ 32)%N -> N.testbit x k = false).
    { intros x Hx. destruct (N.eq_dec x 0) as [->|NZ]; [apply N.bits_0|]. apply N.bits_above_log2.
      apply N.lt_le_trans with 32%N; [|exact K]. apply N.log2_lt_pow2; lia. }
    rewrite (B _ L), (B _ L'). reflexivity.
Qed.
Lemma texts_inj names ty : plain_names names = true -> distinct (map snd names) = true -> forall l labels,
  Forall2 (fun i s => text_of names ty (2 ^ i) s) l labels ->
  forall l', Forall2 (fun i s => text_of names ty (2 ^ i) s) l' labels -> l = l'.
Proof.
  intros P D. induction 1 as [|i s l labels T F IH]; intros l' F'; inversion F' as [|i' ? l2 ? T' F2]; subst; [reflexivity|].
  f_equal; [|exact (IH _ F2)]. pose proof (text_of_inj _ _ _ _ _ P D T T') as E. apply N.pow_inj_r in E; [exact E|lia].
Qed.
Lemma mask_text_inj names ty m m' s : plain_names names = true -> distinct (map snd names) = true -> has_char " " ty = false ->
  (m < 2 ^ 32)%N -> (m' < 2 ^ 32)%N -> mask_text names ty m s -> mask_text names ty m' s -> m = m'.
Proof.
  intros P D T L L' (labels & F & S1) (labels' & F' & S2).
  assert (G : forall l labels, Forall2 (fun i s => text_of names ty (2 ^ i) s) l labels -> Forall label_ok labels).
  { clear - P T. induction 1 as [|i s l labels H F IH]; [apply Forall_nil|]. apply Forall_cons; [|exact IH].
    exact (text_of_label _ _ _ _ P T H). }
  rewrite <- (separated_inj _ _ S1 (G _ _ F) _ S2 (G _ _ F')) in F'.
  apply bits_set_inj; [exact L|exact L'|]. exact (texts_inj _ _ P D _ _ F _ F').
Qed.

(** ** Ids and transactions *)
Lemma numeral_no_comma s n : numeral HEX s n -> has_char "," s = false.
Proof.
  intros H. induction H as [|s n c d H IH E]; [reflexivity|]. rewrite has_char_app, IH. cbn [has_char orb]. rewrite Bool.orb_false_r.
  pose proof (get_some _ _ _ E) as L. cbn [HEX String.length] in L. revert E. generalize (N.to_nat d) L. intros k Lk E.
  do 16 (destruct k as [|k]; [injection E as <-; reflexivity|]). lia.
Qed.
Lemma split_char c a : forall b x y, has_char c a = false -> has_char c b = false ->
  a ++ String c x = b ++ String c y -> a = b /\ x = y.
Proof.
  induction a as [|d a IH]; intros [|e b] x y A B E; cbn [append has_char] in *.
  - injection E as ->. split; reflexivity.
  - injection E as E1 E2. subst e. rewrite Ascii.eqb_refl in B. discriminate.
  - injection E as E1 E2. subst d. rewrite Ascii.eqb_refl in A. discriminate.
  - injection E as -> E. apply Bool.orb_false_elim in A as [_ A]. apply Bool.orb_false_elim in B as [_ B].
    destruct (IH _ _ _ A B E) as [-> ->]. split; reflexivity.
Qed.
Lemma hexadecimal_no_comma w n s : hexadecimal w n s -> has_char "," s = false.
Proof. intros (d & -> & H & _). rewrite has_char_app, (numeral_no_comma _ _ H). reflexivity. Qed.
Lemma id_String_inj id id' : (id < 2 ^ 24)%N -> (id' < 2 ^ 24)%N -> id_String id = id_String id' -> id = id'.
Proof.
  intros L L' E. destruct (id_String_text id) as (l & c & (A & B) & E0). rewrite E0 in E. destruct (id_String_text id') as (l' & c' & (A' & B') & E').
  rewrite E' in E. cbn [append] in E. apply split_char in E as [-> ->]; [|exact (hexadecimal_no_comma _ _ _ A)|exact (hexadecimal_no_comma _ _ _ A')].
  pose proof (hexadecimal_value _ _ _ _ _ A A') as E1. pose proof (hexadecimal_value _ _ _ _ _ B B') as E2.
  assert (S1 : forall x, (x < 2 ^ 24)%N -> (x / 65536 mod 256 = x / 65536)%N).
  { intros x Hx. apply N.mod_small. apply N.div_lt_upper_bound; [lia|]. exact Hx. }
  rewrite S1 in E1 by exact L. rewrite S1 in E1 by exact L'.
  rewrite (N.div_mod id 65536), (N.div_mod id' 65536) by lia. now rewrite E1, E2.
Qed.

Lemma Transaction_String_hex tr : hexadecimal 4 tr (Transaction_String tr).
Proof. apply fmt_hex0_hexadecimal. lia. Qed.

(** ** Log lines *)
Lemma blanks_spaces n : blanks n (spaces n).
Proof. induction n as [|n IH]; [apply blanks_0|]. cbn [spaces]. apply blanks_S. exact IH. Qed.

Lemma level_tag l : (l <= 6)%N -> exists tag, In (l, tag) level_tags /\ str_slice (ToUpper (Level_String l)) 0 4 = Ret tag.
Proof.
  intros L. assert (L' : (l < N.of_nat 7)%N) by lia. clear L. revert l L'. apply upto. vm_compute map.
  repeat (apply Forall_cons; [eexists; split; [|vm_compute; reflexivity]; vm_compute; tauto|]). apply Forall_nil.
Qed.
Lemma level_text l : exists tag, str_slice (ToUpper (Level_String l)) 0 4 = Ret tag.
Proof.
  destruct (N.leb_spec l 6) as [L|L]; [destruct (level_tag l L) as (t & _ & E); exists t; exact E|].
  assert (E : Level_String l = "unknown").
  { unfold Level_String. destruct l as [|p]; [lia|]. destruct p as [[[p|p|]|[p|p|]|]|[[p|p|]|[p|p|]|]|]; try reflexivity; lia. }
  rewrite E. eexists. vm_compute. reflexivity.
Qed.

(** Byte order of strings. *)
Lemma Acompare_lt a b : Ascii.compare a b = Lt <-> (N_of_ascii a < N_of_ascii b)%N.
Proof. unfold Ascii.compare. apply N.compare_lt_iff. Qed.
Lemma Acompare_eq a b : Ascii.compare a b = Eq <-> a = b.
Proof.
  split; [apply Ascii.compare_eq_iff|]. intros ->. unfold Ascii.compare. apply N.compare_refl.
Qed.
Lemma compare_lt_trans s : forall t u, String.compare s t = Lt -> String.compare t u = Lt -> String.compare s u = Lt.
Proof.
  induction s as [|a s IH]; intros [|b t] [|c u] A B; cbn [String.compare] in *; try discriminate; try reflexivity.
  destruct (Ascii.compare a b) eqn:E1; [| |discriminate].
  - apply Acompare_eq in E1. subst b. destruct (Ascii.compare a c) eqn:E2; [|reflexivity|discriminate]. exact (IH _ _ A B).
  - destruct (Ascii.compare b c) eqn:E2; [| |discriminate].
    + apply Acompare_eq in E2. subst c. rewrite E1. reflexivity.
    + apply Acompare_lt in E1. apply Acompare_lt in E2. replace (Ascii.compare a c) with Lt; [reflexivity|].
      symmetry. apply Acompare_lt. eapply N.lt_trans; eassumption.
Qed.
Lemma ltb_irrefl s : String.ltb s s = false.
Proof.
  unfold String.ltb. replace (String.compare s s) with Eq; [reflexivity|]. symmetry.
  induction s as [|c s IH]; [reflexivity|]. cbn [String.compare]. rewrite (proj2 (Acompare_eq c c) eq_refl). exact IH.
Qed.
Lemma ltb_trans s t u : String.ltb s t = true -> String.ltb t u = true -> String.ltb s u = true.
Proof.
  unfold String.ltb. destruct (String.compare s t) eqn:A; try discriminate. destruct (String.compare t u) eqn:B; try discriminate.
  intros _ _. now rewrite (compare_lt_trans _ _ _ A B).
Qed.
Lemma leb_cases s t : String.leb s t = true -> s = t \/ String.ltb s t = true.
Proof.
  unfold String.leb, String.ltb. destruct (String.compare s t) eqn:A; intros E; try discriminate; [left|right; reflexivity].
  now apply String.compare_eq_iff.
Qed.
Lemma leb_false s t : String.leb s t = false -> String.ltb t s = true.
Proof.
  unfold String.leb, String.ltb. rewrite (String.compare_antisym t s).
  destruct (String.compare s t); intros E; try discriminate. reflexivity.
Qed.

Lemma insert_key_perm k l : Permutation (k :: l) (insert_key k l).
Proof.
  induction l as [|x l IH]; [apply Permutation_refl|]. cbn [insert_key]. destruct (String.leb k x); [apply Permutation_refl|].
  eapply Permutation_trans; [apply perm_swap|]. apply perm_skip. exact IH.
Qed.
Lemma sort_keys_perm l : Permutation l (sort_keys l).
Proof.
  induction l as [|k l IH]; [apply Permutation_refl|]. cbn [sort_keys].
  eapply Permutation_trans; [apply perm_skip; exact IH|]. apply insert_key_perm.
Qed.
Definition below (k : string) (l : list string) : Prop := Forall (fun x => String.ltb k x = true) l.
Lemma increasing_cons k l : increasing (k :: l) <-> below k l /\ increasing l.
Proof.
  revert k. induction l as [|x l IH]; intros k.
  - split; [intros _; split; [apply Forall_nil|exact Logic.I]|intros _; exact Logic.I].
  - change (increasing (k :: x :: l)) with (String.ltb k x = true /\ increasing (x :: l)). split.
    + intros [A B]. split; [|exact B]. apply Forall_cons; [exact A|]. apply IH in B as [B _].
      eapply Forall_impl; [|exact B]. intros y Hy. exact (ltb_trans _ _ _ A Hy).
    + intros [A B]. split; [exact (Forall_inv A)|exact B].
Qed.
Lemma insert_key_increasing k l : ~ In k l -> increasing l -> increasing (insert_key k l).
Proof.
  induction l as [|x l IH]; intros NI H; [exact Logic.I|]. cbn [insert_key]. destruct (String.leb k x) eqn:E.
  - apply leb_cases in E as [->|E]; [destruct NI; left; reflexivity|]. split; [exact E|exact H].
  - apply increasing_cons in H as [B H]. apply increasing_cons. split.
    + unfold below. eapply Permutation_Forall; [apply insert_key_perm|]. apply Forall_cons; [apply leb_false; exact E|exact B].
    + apply IH; [|exact H]. intros C. apply NI. right. exact C.
Qed.
Lemma sort_keys_increasing l : NoDup l -> increasing (sort_keys l).
Proof.
  induction 1 as [|k l NI ND IH]; [exact Logic.I|]. cbn [sort_keys]. apply insert_key_increasing; [|exact IH].
  intros C. apply NI. eapply Permutation_in; [apply Permutation_sym; apply sort_keys_perm|exact C].
Qed.
Lemma increasing_NoDup l : increasing l -> NoDup l.
Proof.
  induction l as [|k l IH]; intros H; [apply NoDup_nil|]. apply increasing_cons in H as [B H]. apply NoDup_cons; [|exact (IH H)].
  intros C. unfold below in B. rewrite Forall_forall in B. specialize (B _ C). rewrite ltb_irrefl in B. discriminate.
Qed.
(** There is one increasing order. *)
Lemma increasing_unique l : forall l', increasing l -> increasing l' -> Permutation l l' -> l = l'.
Proof.
  induction l as [|x l IH]; intros l' H H' P; [apply Permutation_nil in P; now rewrite P|].
  destruct l' as [|y l']; [apply Permutation_sym, Permutation_nil in P; discriminate|].
  apply increasing_cons in H as [B H]. apply increasing_cons in H' as [B' H']. unfold below in *. rewrite Forall_forall in B, B'.
  assert (x = y).
  { assert (I1 : In x (y :: l')) by (eapply Permutation_in; [exact P|left; reflexivity]).
    assert (I2 : In y (x :: l)) by (eapply Permutation_in; [apply Permutation_sym; exact P|left; reflexivity]).
    destruct I1 as [E|I1]; [now symmetry|]. destruct I2 as [E|I2]; [exact E|]. exfalso.
    pose proof (ltb_trans _ _ _ (B _ I2) (B' _ I1)) as C. rewrite ltb_irrefl in C. discriminate. }
  subst y. f_equal. apply IH; [exact H|exact H'|]. exact (Permutation_cons_inv P).
Qed.

(** The entry with the fields in key order. *)
Lemma data_get_in {V} (d : list (string * V)) k v : NoDup (map fst d) -> In (k, v) d -> data_get d k = Some v.
Proof.
  induction d as [|[k' v'] d IH]; intros ND I; [destruct I|]. cbn [map fst] in ND. inversion ND as [|? ? NI ND']; subst.
  cbn [data_get]. destruct I as [I|I].
  - injection I as -> ->. now rewrite String.eqb_refl.
  - destruct (String.eqb_spec k' k) as [->|]; [destruct NI; apply (in_map fst) in I; exact I|]. exact (IH ND' I).
Qed.
Fixpoint pick {V} (d : list (string * V)) (keys : list string) : list (string * V) :=
  match keys with
  | [] => []
  | k :: keys' => match data_get d k with Some v => (k, v) :: pick d keys' | None => pick d keys' end
  end.
Lemma data_get_some {V} (d : list (string * V)) k : In k (map fst d) -> exists v, data_get d k = Some v /\ In (k, v) d.
Proof.
  induction d as [|[k' v'] d IH]; intros I; [destruct I|]. cbn [map fst In data_get] in *. destruct (String.eqb_spec k' k) as [->|NE].
  - exists v'. split; [reflexivity|left; reflexivity].
  - destruct I as [->|I]; [contradiction|]. destruct (IH I) as (v & E & J). exists v. split; [exact E|right; exact J].
Qed.
Lemma pick_keys {V} (d : list (string * V)) keys : (forall k, In k keys -> In k (map fst d)) -> map fst (pick d keys) = keys.
Proof.
  induction keys as [|k keys IH]; intros H; [reflexivity|]. cbn [pick].
  destruct (data_get_some d k (H k (or_introl eq_refl))) as (v & -> & _). cbn [map fst]. rewrite IH; [reflexivity|].
  intros k' I. apply H. right. exact I.
Qed.
Lemma pick_in {V} (d : list (string * V)) keys k v : NoDup (map fst d) ->
  In (k, v) (pick d keys) <-> In k keys /\ In (k, v) d.
Proof.
  intros ND. induction keys as [|x keys IH]; [cbn; tauto|]. cbn [pick]. destruct (data_get d x) as [w|] eqn:E.
  - cbn [In]. rewrite IH. split.
    + intros [C|[A B]]; [|tauto]. injection C as -> ->. split; [left; reflexivity|].
      destruct (data_get_some d k) as (v' & E' & I).
      { clear - E. induction d as [|[k' v'] d IH]; [discriminate|]. cbn [data_get map fst In] in *.
        destruct (String.eqb_spec k' k) as [->|]; [left; reflexivity|right; exact (IH E)]. }
      rewrite E in E'. injection E' as ->. exact I.
    + intros [[->|A] B]; [|tauto]. left. rewrite (data_get_in _ _ _ ND B) in E. injection E as ->. reflexivity.
  - rewrite IH. cbn [In]. split; [tauto|]. intros [[->|A] B]; [|tauto]. rewrite (data_get_in _ _ _ ND B) in E. discriminate.
Qed.
Lemma NoDup_fst {V} (d : list (string * V)) : NoDup (map fst d) -> NoDup d.
Proof. apply NoDup_map_inv. Qed.
Lemma pick_perm {V} (d : list (string * V)) : NoDup (map fst d) -> Permutation d (pick d (sort_keys (map fst d))).
Proof.
  intros ND. assert (K : map fst (pick d (sort_keys (map fst d))) = sort_keys (map fst d)).
  { apply pick_keys. intros k I. eapply Permutation_in; [apply Permutation_sym; apply sort_keys_perm|exact I]. }
  apply NoDup_Permutation.
  - apply NoDup_fst. exact ND.
  - apply NoDup_fst. rewrite K. eapply Permutation_NoDup; [apply sort_keys_perm|exact ND].
  - intros [k v]. rewrite pick_in by exact ND. split; [|tauto]. intros I. split; [|exact I].
    eapply Permutation_in; [apply sort_keys_perm|]. apply (in_map fst) in I. exact I.
Qed.
Lemma fields_concat {V} (show : string -> string) (text : option V -> string) d keys : (forall k, In k keys -> In k (map fst d)) ->
  fields_text show (fun v => text (Some v)) (pick d keys)
    (String.concat "" (map (fun k => " " ++ show k ++ "=" ++ text (data_get d k)) keys)).
Proof.
  induction keys as [|k keys IH]; intros H; [apply ft_nil|]. cbn [pick map].
  destruct (data_get_some d k (H k (or_introl eq_refl))) as (v & E & _). rewrite E.
  assert (C : forall s l, String.concat "" (s :: l) = s ++ String.concat "" l).
  { intros s [|t l]; [cbn [String.concat]; now rewrite sapp_nil|reflexivity]. }
  rewrite C. specialize (IH (fun k' I => H k' (or_intror I))).
  pose proof (ft_cons show (fun v => text (Some v)) k v _ _ IH) as F. rewrite !sapp_assoc. exact F.
Qed.

Lemma color_tag l : (l <= 6)%N -> exists c, In (l, c) level_colors /\ forall s, paint (level_color l) s = in_color c s.
Proof.
  intros L. assert (L' : (l < N.of_nat 7)%N) by lia. clear L. revert l L'. apply upto. vm_compute map.
  repeat (apply Forall_cons; [eexists; split; [|intros s; reflexivity]; vm_compute; tauto|]). apply Forall_nil.
Qed.

Lemma Format_line {V} (runes : string -> nat) (text : option V -> string) (colored : bool) level t msg (data : list (string * V)) :
  (level <= 6)%N -> NoDup (map fst data) ->
  exists line color, Format runes text colored (mkEntry level (Z.of_N t) msg data) = Ret line
    /\ In (level, color) level_colors
    /\ log_line (if colored then in_color color else fun s => s) runes (fun v => text (Some v)) level t msg data line.
Proof.
  intros L ND. destruct (level_tag level L) as (tag & It & Et). destruct (color_tag level L) as (color & Ic & Ec).
  unfold Format, print. cbn [le_Level le_Time le_Message le_Data].
  rewrite Et. cbn [bind].
  assert (K : forall k, In k (sort_keys (map fst data)) -> In k (map fst data)).
  { intros k I. eapply Permutation_in; [apply Permutation_sym; apply sort_keys_perm|exact I]. }
  set (show := if colored then in_color color else fun s : string => s).
  assert (SH : forall s, (if colored then paint (level_color level) s else s) = show s).
  { intros s. unfold show. destruct colored; [apply Ec|reflexivity]. }
  exists (show tag ++ "[" ++ fmt_dec0 4 (Z.quot (Z.of_N t) 1000000000) ++ "." ++ fmt_dec0 6 (Z.quot (Z.rem (Z.of_N t) 1000000000) 1000)
    ++ "] " ++ msg ++ spaces (44 - runes msg) ++ " "
    ++ String.concat "" (map (fun k => " " ++ show k ++ "=" ++ text (data_get data k)) (sort_keys (map fst data))) ++ String "010" ""), color.
  split.
  { f_equal. rewrite <- (SH tag).
    rewrite (map_ext (fun k => " " ++ show k ++ "=" ++ text (data_get data k))
      (fun k => " " ++ (if colored then paint (level_color level) k else k) ++ "=" ++ text (data_get data k))) by (intros k; rewrite SH; reflexivity).
    destruct colored; rewrite !sapp_assoc; reflexivity. }
  split; [exact Ic|].
  exists tag, (fmt_dec0 4 (Z.quot (Z.of_N t) 1000000000)), (fmt_dec0 6 (Z.quot (Z.rem (Z.of_N t) 1000000000) 1000)),
    (spaces (44 - runes msg)), (pick data (sort_keys (map fst data))),
    (String.concat "" (map (fun k => " " ++ show k ++ "=" ++ text (data_get data k)) (sort_keys (map fst data)))).
  split; [exact It|]. split; [|split; [|split; [|split; [|split; [|split]]]]].
  - change 1000000000%Z with (Z.of_N 1000000000). rewrite <- N2Z.inj_quot. apply fmt_dec0_decimal. lia.
  - change 1000000000%Z with (Z.of_N 1000000000). rewrite <- N2Z.inj_rem. change 1000%Z with (Z.of_N 1000). rewrite <- N2Z.inj_quot. apply fmt_dec0_decimal. lia.
  - apply blanks_spaces.
  - apply pick_perm. exact ND.
  - rewrite pick_keys by exact K. apply sort_keys_increasing. exact ND.
  - apply fields_concat. exact K.
  - reflexivity.
Qed.

Lemma Format_total {V} (runes : string -> nat) (text : option V -> string) colored e : exists line, Format runes text colored e = Ret line.
Proof. unfold Format, print. destruct (level_text (le_Level e)) as (tag & ->). cbn [bind]. eexists. reflexivity. Qed.

Lemma data_get_perm {V} (d d' : list (string * V)) k : NoDup (map fst d) -> Permutation d d' -> data_get d k = data_get d' k.
Proof.
  intros ND P. assert (ND' : NoDup (map fst d')) by (eapply Permutation_NoDup; [apply Permutation_map; exact P|exact ND]).
  destruct (in_dec string_dec k (map fst d)) as [I|NI].
  - destruct (data_get_some d k I) as (v & E & J). rewrite E. symmetry. apply data_get_in; [exact ND'|]. eapply Permutation_in; eassumption.
  - assert (G : forall d : list (string * V), ~ In k (map fst d) -> data_get d k = None).
    { clear. induction d as [|[k' v] d IH]; intros NI; [reflexivity|]. cbn [map fst In data_get] in *.
      destruct (String.eqb_spec k' k) as [->|]; [destruct NI; left; reflexivity|]. apply IH. tauto. }
    rewrite (G d NI), (G d'); [reflexivity|]. intros C. apply NI. eapply Permutation_in; [|exact C]. apply Permutation_map, Permutation_sym. exact P.
Qed.
Lemma Format_order {V} (runes : string -> nat) (text : option V -> string) colored level t msg (d d' : list (string * V)) :
  NoDup (map fst d) -> Permutation d d' ->
  Format runes text colored (mkEntry level t msg d) = Format runes text colored (mkEntry level t msg d').
Proof.
  intros ND P. unfold Format, print. cbn [le_Level le_Time le_Message le_Data].
  assert (ND' : NoDup (map fst d')) by (eapply Permutation_NoDup; [apply Permutation_map; exact P|exact ND]).
  assert (K : sort_keys (map fst d) = sort_keys (map fst d')).
  { apply increasing_unique; [apply sort_keys_increasing; exact ND|apply sort_keys_increasing; exact ND'|].
    eapply Permutation_trans; [apply Permutation_sym; apply sort_keys_perm|].
    eapply Permutation_trans; [apply Permutation_map; exact P|]. apply sort_keys_perm. }
  rewrite <- K. destruct (str_slice (ToUpper (Level_String level)) 0 4); [|reflexivity]. cbn [bind].
  erewrite map_ext; [reflexivity|]. intros k. cbn beta. rewrite (data_get_perm d d' k ND P). reflexivity.
Qed.

(** Lines have one line end. *)
Lemma one_line_app a b : one_line a -> one_line b -> one_line (a ++ b).
Proof.
  intros A B i. destruct (Nat.ltb_spec i (String.length a)) as [L|L].
  - rewrite sapp_get1 by exact L. apply A.
  - replace i with (String.length a + (i - String.length a)) by lia. rewrite sapp_get2. apply B.
Qed.
Fixpoint one_lineb (s : string) : bool := match s with "" => true | String c s' => (negb (Ascii.eqb c "010") && one_lineb s')%bool end.
Lemma one_lineb_ok s : one_lineb s = true -> one_line s.
Proof.
  induction s as [|c s IH]; intros E i; [destruct i; discriminate|]. cbn [one_lineb] in E. apply andb_prop in E as [A B].
  destruct i as [|i]; cbn [String.get]; [|apply IH; exact B]. intros C. injection C as ->. discriminate.
Qed.
Lemma numeral_line s n : numeral DEC s n -> one_line s.
Proof.
  intros H. induction H as [|s n c d H IH E]; [apply one_lineb_ok; reflexivity|]. apply one_line_app; [exact IH|].
  apply one_lineb_ok. cbn [one_lineb]. destruct (Ascii.eqb_spec c "010") as [->|]; [|reflexivity]. exfalso.
  pose proof (get_some _ _ _ E) as L. cbn [DEC String.length] in L. revert E. generalize (N.to_nat d) L. intros k Lk E.
  do 10 (destruct k as [|k]; [discriminate|]). lia.
Qed.
Lemma blanks_line n s : blanks n s -> one_line s.
Proof. induction 1 as [|n s H IH]; [apply one_lineb_ok; reflexivity|]. apply (one_line_app " "); [apply one_lineb_ok; reflexivity|exact IH]. Qed.
Lemma in_check (A : Type) (l : list A) (f : A -> bool) x : forallb f l = true -> In x l -> f x = true.
Proof. intros F I. rewrite forallb_forall in F. exact (F _ I). Qed.
Lemma log_line_one {V} show runes (text : V -> string) level t msg data line :
  (forall s, one_line s -> one_line (show s)) -> one_line msg ->
  (forall k v, In (k, v) data -> one_line k /\ one_line (text v)) ->
  log_line show runes text level t msg data line -> exists body, line = body ++ String "010" "" /\ one_line body.
Proof.
  intros HS HM HD (tag & secs & micros & pad & fields & ftext & It & D1 & D2 & HP & P & _ & FT & ->).
  assert (P1 : one_line tag).
  { apply one_lineb_ok. exact (in_check _ level_tags (fun p => one_lineb (snd p)) _ eq_refl It). }
  assert (HF : one_line ftext).
  { assert (HD' : forall k v, In (k, v) fields -> one_line k /\ one_line (text v)).
    { intros k v I. apply HD. eapply Permutation_in; [apply Permutation_sym; exact P|exact I]. }
    clear - FT HD' HS. induction FT as [|k v l s FT IH]; [apply one_lineb_ok; reflexivity|].
    destruct (HD' k v (or_introl eq_refl)) as [A B].
    repeat apply one_line_app; try assumption; try (apply one_lineb_ok; reflexivity); [apply HS; exact A|].
    apply IH. intros k' v' I. apply HD'. right. exact I. }
  exists (show tag ++ "[" ++ secs ++ "." ++ micros ++ "] " ++ msg ++ pad ++ " " ++ ftext). split; [now rewrite !sapp_assoc|].
  repeat apply one_line_app; try assumption; try (apply one_lineb_ok; reflexivity).
  - apply HS. exact P1.
  - exact (numeral_line _ _ (proj1 D1)).
  - exact (numeral_line _ _ (proj1 D2)).
  - exact (blanks_line _ _ HP).
Qed.
Lemma Format_one_line {V} (runes : string -> nat) (text : option V -> string) colored level t msg (data : list (string * V)) :
  (level <= 6)%N -> NoDup (map fst data) -> one_line msg ->
  (forall k v, In (k, v) data -> one_line k /\ one_line (text (Some v))) ->
  exists body, Format runes text colored (mkEntry level (Z.of_N t) msg data) = Ret (body ++ String "010" "") /\ one_line body.
Proof.
  intros L ND HM HD. destruct (Format_line runes text colored level t msg data L ND) as (line & color & E & Ic & LL).
  apply log_line_one in LL as (body & -> & B).
  - exists body. split; [exact E|exact B].
  - intros s HS. destruct colored; [|exact HS]. unfold in_color.
    repeat apply one_line_app; try assumption; try (apply one_lineb_ok; reflexivity).
    apply one_lineb_ok. exact (in_check _ level_colors (fun p => one_lineb (snd p)) _ eq_refl Ic).
  - exact HM.
  - exact HD.
Qed.
