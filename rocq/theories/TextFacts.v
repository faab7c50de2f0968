(** Facts about numerals. *)
From Coq Require Import Ascii ZifyBool ZifyNat ZifyN Lia.
From Verif Require Import Base BaseFacts GoTypes Types Payload Lingo SpecText.
Local Open Scope string_scope.

(** ** Strings *)
Lemma sapp_nil s : s ++ "" = s.
Proof. induction s as [|c s IH]; [reflexivity|]. cbn [append]. now rewrite IH. Qed.
Lemma sapp_assoc a b c : (a ++ b) ++ c = a ++ b ++ c.
Proof. induction a as [|x a IH]; [reflexivity|]. cbn [append]. now rewrite IH. Qed.
Lemma sapp_length a b : String.length (a ++ b) = String.length a + String.length b.
Proof. induction a as [|x a IH]; [reflexivity|]. cbn [append String.length]. now rewrite IH. Qed.
Lemma sapp_cancel a b c : a ++ b = a ++ c -> b = c.
Proof. induction a as [|x a IH]; cbn [append]; intros E; [exact E|]. injection E as E. exact (IH E). Qed.
Lemma sapp_inj_len a : forall a' b b', String.length a = String.length a' -> a ++ b = a' ++ b' -> a = a' /\ b = b'.
Proof.
  induction a as [|x a IH]; intros [|y a'] b b' L E; cbn [String.length append] in *; try discriminate.
  - split; [reflexivity|exact E].
  - injection E as -> E. injection L as L. destruct (IH _ _ _ L E) as [-> ->]. split; reflexivity.
Qed.
Lemma sapp_inj_right a a' b : a ++ b = a' ++ b -> a = a'.
Proof.
  intros E. assert (L : String.length a = String.length a').
  { apply (f_equal String.length) in E. rewrite !sapp_length in E. lia. }
  exact (proj1 (sapp_inj_len _ _ _ _ L E)).
Qed.
Lemma snoc_inj a a' c c' : a ++ String c "" = a' ++ String c' "" -> a = a' /\ c = c'.
Proof.
  intros E. assert (L : String.length a = String.length a').
  { apply (f_equal String.length) in E. rewrite !sapp_length in E. cbn [String.length] in E. lia. }
  destruct (sapp_inj_len _ _ _ _ L E) as [-> E2]. injection E2 as ->. split; reflexivity.
Qed.
Lemma sapp_get1 a : forall b k, k < String.length a -> String.get k (a ++ b) = String.get k a.
Proof.
  induction a as [|x a IH]; intros b k L; cbn [String.length] in L; [lia|].
  destruct k as [|k]; [reflexivity|]. cbn [append String.get]. apply IH. lia.
Qed.
Lemma sapp_get2 a : forall b k, String.get (String.length a + k) (a ++ b) = String.get k b.
Proof. induction a as [|x a IH]; intros b k; [reflexivity|]. cbn [String.length append String.get Nat.add]. apply IH. Qed.
Lemma get_some s : forall k c, String.get k s = Some c -> k < String.length s.
Proof.
  induction s as [|x s IH]; intros k c E; [destruct k; discriminate|].
  destruct k as [|k]; cbn [String.length]; [lia|]. cbn [String.get] in E. apply IH in E. lia.
Qed.

(** ** Numerals *)

(** The two alphabets. *)
Definition DEC : string := "0123456789".
Definition HEX : string := "0123456789abcdef".
Definition alphabet (digits : string) : Prop := digits = DEC \/ digits = HEX.
Definition base (digits : string) : N := N.of_nat (String.length digits).

Definition dval (c : ascii) : N := let n := N_of_ascii c in if (n <? 58)%N then (n - 48)%N else (n - 87)%N.

Lemma small_cases (P : N -> Prop) (k : nat) :
  (forall n, n < k -> P (N.of_nat n)) -> forall d, (d < N.of_nat k)%N -> P d.
Proof. intros H d L. rewrite <- (N2Nat.id d). apply H. lia. Qed.

Lemma digit_dval digits d c : alphabet digits -> String.get (N.to_nat d) digits = Some c -> dval c = d /\ (d < base digits)%N.
Proof.
  intros [-> | ->] E; pose proof (get_some _ _ _ E) as L; cbn [DEC HEX String.length] in L;
    (split; [|unfold base; cbn [DEC HEX String.length]; lia]);
    revert E; rewrite <- (N2Nat.id d); generalize (N.to_nat d) L; intros k Lk; rewrite Nat2N.id;
    do 16 (try (destruct k as [|k]; [intros E; cbn [DEC HEX String.get] in E; injection E as <-; reflexivity|])); lia.
Qed.

Lemma hex_digit_get d : (d < 16)%N -> String.get (N.to_nat d) HEX = Some (hex_digit d).
Proof.
  intros L. rewrite <- (N2Nat.id d) in *. generalize dependent (N.to_nat d). intros k L. rewrite Nat2N.id.
  do 16 (destruct k as [|k]; [reflexivity|]). lia.
Qed.
Lemma dec_digit_get d : (d < 10)%N -> String.get (N.to_nat d) DEC = Some (hex_digit d).
Proof.
  intros L. rewrite <- (N2Nat.id d) in *. generalize dependent (N.to_nat d). intros k L. rewrite Nat2N.id.
  do 10 (destruct k as [|k]; [reflexivity|]). lia.
Qed.
Lemma hex_digit_zero d : (d < 16)%N -> hex_digit d = "0"%char -> d = 0%N.
Proof.
  intros L E. assert (V : forall x, (x < 16)%N -> dval (hex_digit x) = x).
  { intros x Hx. exact (proj1 (digit_dval HEX x _ (or_intror eq_refl) (hex_digit_get x Hx))). }
  rewrite <- (V d L), E. reflexivity.
Qed.

Fixpoint nval (b acc : N) (s : string) : N :=
  match s with "" => acc | String c s' => nval b (acc * b + dval c) s' end.
Lemma nval_snoc b s c : forall acc, nval b acc (s ++ String c "") = (nval b acc s * b + dval c)%N.
Proof. induction s as [|x s IH]; intros acc; [reflexivity|]. cbn [append nval]. apply IH. Qed.

Lemma numeral_nval digits s n : alphabet digits -> numeral digits s n -> nval (base digits) 0 s = n.
Proof.
  intros A H. induction H as [|s n c d H IH E]; [reflexivity|]. rewrite nval_snoc, IH.
  rewrite (proj1 (digit_dval _ _ _ A E)). reflexivity.
Qed.
(** A text is the numeral of one number. *)
Lemma numeral_value digits s n m : alphabet digits -> numeral digits s n -> numeral digits s m -> n = m.
Proof. intros A H1 H2. rewrite <- (numeral_nval _ _ _ A H1). apply numeral_nval; assumption. Qed.

Lemma base_two digits : alphabet digits -> (2 <= base digits)%N.
Proof. intros [-> | ->]; vm_compute; discriminate. Qed.

Lemma numeral_below digits s n : alphabet digits -> numeral digits s n -> (n < base digits ^ N.of_nat (String.length s))%N.
Proof.
  intros A H. induction H as [|s n c d H IH E]; [cbn; lia|]. rewrite sapp_length. cbn [String.length].
  replace (N.of_nat (String.length s + 1)) with (N.succ (N.of_nat (String.length s))) by lia. rewrite N.pow_succ_r by lia.
  pose proof (proj2 (digit_dval _ _ _ A E)). fold (base digits). pose proof (base_two _ A). nia.
Qed.

Lemma numeral_from digits s n : alphabet digits -> numeral digits s n -> s <> "" -> String.get 0 s <> Some "0"%char ->
  (base digits ^ N.of_nat (String.length s - 1) <= n)%N.
Proof.
  intros A H. induction H as [|s n c d H IH E]; intros NE Z; [contradiction|]. rewrite sapp_length. cbn [String.length].
  replace (String.length s + 1 - 1) with (String.length s) by lia. fold (base digits).
  destruct s as [|x s].
  - cbn [append String.get] in Z. cbn [String.length]. change (N.of_nat 0) with 0%N. rewrite N.pow_0_r.
    destruct (N.eq_dec d 0) as [->|]; [|lia]. exfalso. apply Z. f_equal.
    destruct A as [-> | ->]; cbn in E; injection E as <-; reflexivity.
  - specialize (IH ltac:(discriminate) Z). cbn [String.length] in *. rewrite Nat.sub_succ, Nat.sub_0_r in IH.
    replace (N.of_nat (Datatypes.S (String.length s))) with (N.succ (N.of_nat (String.length s))) by lia. rewrite N.pow_succ_r by lia.
    nia.
Qed.

Lemma numeral_same_length digits s n : alphabet digits -> numeral digits s n ->
  forall s', numeral digits s' n -> String.length s = String.length s' -> s = s'.
Proof.
  intros A H. induction H as [|s n c d H IH E]; intros s' H' L.
  - destruct s'; [reflexivity|discriminate].
  - remember (n * N.of_nat (String.length digits) + d)%N as k eqn:K.
    destruct H' as [|s' n' c' d' H' E'].
    + rewrite sapp_length in L. cbn [String.length] in L. lia.
    + rewrite !sapp_length in L. cbn [String.length] in L.
      pose proof (proj2 (digit_dval _ _ _ A E)) as D. pose proof (proj2 (digit_dval _ _ _ A E')) as D'.
      fold (base digits) in K. pose proof (base_two _ A).
      assert (d' = d /\ n' = n) as [-> ->].
      { destruct (N.div_mod_unique (base digits) n' n d' d D' D) as [-> ->]; [lia|split; reflexivity]. }
      rewrite E in E'. injection E' as <-. rewrite (IH _ H'); [reflexivity|lia].
Qed.

(** A number has one text. *)
Lemma written_unique digits w n s s' : alphabet digits -> written digits w n s -> written digits w n s' -> s = s'.
Proof.
  intros A (H & L & Z) (H' & L' & Z').
  assert (G : forall s s', numeral digits s n -> numeral digits s' n -> w <= String.length s ->
    (w < String.length s' -> String.get 0 s' <> Some "0"%char) -> String.length s < String.length s' -> False).
  { clear - A. intros s s' H H' L Z' C. specialize (Z' ltac:(lia)).
    pose proof (numeral_below _ _ _ A H) as B.
    assert (NE : s' <> "") by (intros ->; cbn in C; lia).
    pose proof (numeral_from _ _ _ A H' NE Z') as B'. pose proof (base_two _ A).
    assert (base digits ^ N.of_nat (String.length s) <= base digits ^ N.of_nat (String.length s' - 1))%N by (apply N.pow_le_mono_r; lia).
    lia. }
  apply (numeral_same_length _ _ _ A H _ H').
  destruct (Nat.lt_trichotomy (String.length s) (String.length s')) as [C|[C|C]]; [|exact C|]; exfalso.
  - exact (G _ _ H H' L Z' C).
  - exact (G _ _ H' H L' Z C).
Qed.
Lemma written_value digits w w' n n' s : alphabet digits -> written digits w n s -> written digits w' n' s -> n = n'.
Proof. intros A (H & _) (H' & _). exact (numeral_value _ _ _ _ A H H'). Qed.

(** ** Hexadecimal numbers of the model *)
Lemma hex_digits_length k : forall n, String.length (hex_digits k n) = k.
Proof. induction k as [|k IH]; intros n; [reflexivity|]. cbn [hex_digits]. rewrite sapp_length, IH. cbn [String.length]. lia. Qed.
Lemma hex_digits_numeral k : forall n, (n < 16 ^ N.of_nat k)%N -> numeral HEX (hex_digits k n) n.
Proof.
  induction k as [|k IH]; intros n L.
  - cbn in L. replace n with 0%N by lia. apply num_nil.
  - cbn [hex_digits]. replace (N.of_nat (Datatypes.S k)) with (N.succ (N.of_nat k)) in L by lia. rewrite N.pow_succ_r in L by lia.
    assert (R : n = (n / 16 * N.of_nat (String.length HEX) + n mod 16)%N).
    { change (N.of_nat (String.length HEX)) with 16%N. rewrite N.mul_comm. apply N.div_mod. lia. }
    rewrite R at 3. apply num_snoc.
    + apply IH. apply N.div_lt_upper_bound; lia.
    + apply hex_digit_get. apply N.mod_lt. lia.
Qed.
Lemma size_bounds n : (n < 2 ^ N.size n)%N /\ (n <> 0%N -> 2 ^ (N.size n - 1) <= n)%N.
Proof.
  destruct (N.eq_dec n 0) as [->|NZ]; [split; [cbn; lia|contradiction]|].
  rewrite N.size_log2 by exact NZ. destruct (N.log2_spec n) as [A B]; [lia|]. split; [exact B|intros _].
  rewrite N.sub_1_r, N.pred_succ. exact A.
Qed.

Lemma numeral_bound digits s n : alphabet digits -> numeral digits s n -> s <> "" -> (base digits ^ N.of_nat (String.length s - 1) <= n)%N ->
  String.get 0 s <> Some "0"%char.
Proof.
  intros A H NE B Z. destruct s as [|x s]; [contradiction|]. cbn in Z. injection Z as ->.
  enough (G : forall s n, numeral digits s n -> forall t, s = String "0" t -> (n < base digits ^ N.of_nat (String.length t))%N).
  { specialize (G _ _ H _ eq_refl). cbn [String.length] in B. rewrite Nat.sub_succ, Nat.sub_0_r in B. lia. }
  clear - A. intros s n H. induction H as [|s n c d H IH E]; intros t Et; [discriminate|].
  fold (base digits). pose proof (proj2 (digit_dval _ _ _ A E)) as D. pose proof (base_two _ A).
  destruct s as [|y s].
  - cbn [append] in Et. injection Et as -> <-. inversion H as [|? ? ? ? ? ? X]; subst.
    + pose proof (proj1 (digit_dval _ _ _ A E)) as V. vm_compute in V. subst d. cbn. lia.
    + destruct s; discriminate.
  - cbn [append] in Et. injection Et as -> <-. specialize (IH _ eq_refl). rewrite sapp_length. cbn [String.length].
    replace (N.of_nat (String.length s + 1)) with (N.succ (N.of_nat (String.length s))) by lia. rewrite N.pow_succ_r by lia. nia.
Qed.

Lemma fmt_hex0_hexadecimal w n : 0 < w -> hexadecimal w n (fmt_hex0 w n).
Proof.
  intros W. unfold fmt_hex0. exists (hex_digits (Nat.max w (N.to_nat ((N.size n + 3) / 4))) n). split; [reflexivity|].
  set (k := Nat.max w (N.to_nat ((N.size n + 3) / 4))). destruct (size_bounds n) as [U D].
  assert (P : forall x, (16 ^ x = 2 ^ (4 * x))%N) by (intros x; rewrite N.pow_mul_r; reflexivity).
  assert (B : (n < 16 ^ N.of_nat k)%N).
  { eapply N.lt_le_trans; [exact U|]. rewrite P. apply N.pow_le_mono_r; [lia|]. subst k.
    pose proof (N.div_mod (N.size n + 3) 4 ltac:(lia)). pose proof (N.mod_lt (N.size n + 3) 4 ltac:(lia)). lia. }
  pose proof (hex_digits_numeral k n B) as H. split; [exact H|]. rewrite hex_digits_length. split; [lia|]. intros L.
  apply (numeral_bound HEX _ n); [right; reflexivity|exact H| |].
  - intros E. apply (f_equal String.length) in E. rewrite hex_digits_length in E. cbn in E. lia.
  - rewrite hex_digits_length. change (base HEX) with 16%N.
    assert (K : N.of_nat k = ((N.size n + 3) / 4)%N) by lia.
    pose proof (N.div_mod (N.size n + 3) 4 ltac:(lia)). pose proof (N.mod_lt (N.size n + 3) 4 ltac:(lia)).
    assert (n <> 0%N) by (intros ->; cbn in K; lia).
    eapply N.le_trans; [|apply D; assumption]. rewrite P. apply N.pow_le_mono_r; lia.
Qed.
Lemma hexadecimal_unique w n s s' : hexadecimal w n s -> hexadecimal w n s' -> s = s'.
Proof.
  intros (d & -> & H) (d' & -> & H'). f_equal. exact (written_unique HEX w n _ _ (or_intror eq_refl) H H').
Qed.
Lemma hexadecimal_value w w' n n' s : hexadecimal w n s -> hexadecimal w' n' s -> n = n'.
Proof.
  intros (d & -> & H) (d' & E & H'). apply sapp_cancel in E. subst d'. exact (written_value HEX w w' n n' _ (or_intror eq_refl) H H').
Qed.
(** A number that fits takes just the width. *)
Lemma hexadecimal_exact w n s : hexadecimal w n s -> (n < 16 ^ N.of_nat w)%N -> 0 < w -> String.length s = 2 + w.
Proof.
  intros (d & -> & H & L & Z) B W. rewrite sapp_length. cbn [String.length]. f_equal. f_equal.
  destruct (Nat.eq_dec (String.length d) w) as [E|NE]; [exact E|]. specialize (Z ltac:(lia)). exfalso.
  assert (NE' : d <> "") by (intros ->; cbn in L; lia).
  pose proof (numeral_from HEX d n (or_intror eq_refl) H NE' Z) as F. change (base HEX) with 16%N in F.
  assert (16 ^ N.of_nat w <= 16 ^ N.of_nat (String.length d - 1))%N by (apply N.pow_le_mono_r; lia). lia.
Qed.

(** ** Command ids *)
Lemma LingoID_div id : LingoID id = (id / 65536 mod 256)%N.
Proof. unfold LingoID. change 255%N with (N.ones 8). rewrite N.land_ones, N.shiftr_div_pow2. reflexivity. Qed.
Lemma CmdID_mod id : CmdID id = (id mod 65536)%N.
Proof. unfold CmdID. change 65535%N with (N.ones 16). rewrite N.land_ones. reflexivity. Qed.
Lemma id_parts id : id_text id (fmt_hex0 2 (LingoID id)) (fmt_hex0 (cmdIDLen (LingoID id) * 2) (CmdID id)).
Proof.
  rewrite LingoID_div, CmdID_mod. split; [apply fmt_hex0_hexadecimal; lia|].
  unfold cmdIDLen, LingoExtRemoteID. destruct (id / 65536 mod 256 =? 4)%N; apply fmt_hex0_hexadecimal; cbn; lia.
Qed.
Lemma id_text_unique id l c l' c' : id_text id l c -> id_text id l' c' -> l = l' /\ c = c'.
Proof. intros (A & B) (A' & B'). split; eapply hexadecimal_unique; eassumption. Qed.
Lemma id_String_text id : exists l c, id_text id l c /\ id_String id = l ++ "," ++ c.
Proof. do 2 eexists. split; [apply id_parts|]. reflexivity. Qed.
Lemma id_GoString_text id : exists l c, id_text id l c /\ id_GoString id = "(" ++ l ++ "|" ++ c ++ ")".
Proof. do 2 eexists. split; [apply id_parts|]. reflexivity. Qed.
