From Coq Require Import ZifyBool ZifyNat ZifyN.
From Verif Require Import Base BaseFacts Trace SpecTrace.
Ltac Zify.zify_post_hook ::= Z.div_mod_to_equations.

(** ** Digits *)

Lemma udigit_upper n : (n < 16)%N -> upper_hex (udigit n) n.
Proof.
  intros H. unfold udigit, upper_hex. destruct (n <? 10)%N eqn:E; rewrite !b2n_n2b_small by lia; lia.
Qed.

Lemma hex2_spells b : exists c1 c2, hex2 b = [c1; c2] /\ spells upper_hex b c1 c2.
Proof.
  eexists _, _. split; [reflexivity|]. pose proof (b2n_lt b).
  exists (b2n b / 16)%N, (b2n b mod 16)%N. repeat split; try (apply udigit_upper; lia). lia.
Qed.

Lemma upper_inj c c' v : upper_hex c v -> upper_hex c' v -> c = c'.
Proof. unfold upper_hex. intros H H'. apply b2n_inj. lia. Qed.

Lemma any_bound c v : any_hex c v -> (v < 16)%N.
Proof. unfold any_hex, upper_hex, lower_hex. lia. Qed.

Lemma spells_unique b c1 c2 c1' c2' :
  spells upper_hex b c1 c2 -> spells upper_hex b c1' c2' -> c1 = c1' /\ c2 = c2'.
Proof.
  intros (v1 & v2 & H1 & H2 & E) (w1 & w2 & G1 & G2 & E').
  assert (any_hex c1 v1 /\ any_hex c2 v2 /\ any_hex c1' w1 /\ any_hex c2' w2) as (A & B & C & D)
    by (unfold any_hex; auto).
  apply any_bound in A, B, C, D.
  assert (v1 = w1 /\ v2 = w2) as [-> ->] by lia.
  split; eapply upper_inj; eauto.
Qed.

Lemma hexDigit_any c v : hexDigit c = Some v <-> any_hex c v.
Proof.
  unfold hexDigit, any_hex, upper_hex, lower_hex.
  destruct ((48 <=? b2n c) && (b2n c <=? 57))%N%bool eqn:E1;
    [|destruct ((97 <=? b2n c) && (b2n c <=? 102))%N%bool eqn:E2;
      [|destruct ((65 <=? b2n c) && (b2n c <=? 70))%N%bool eqn:E3]];
    (split; [intros H; first [discriminate|injection H as <-]; lia|]); intros H.
  all: try (f_equal; lia).
Qed.

Lemma hexDigit_none c : hexDigit c = None <-> forall v, ~ any_hex c v.
Proof.
  destruct (hexDigit c) as [v|] eqn:E.
  - apply hexDigit_any in E. split; [discriminate|]. intros H. now apply H in E.
  - split; [|auto]. intros _ v H. apply hexDigit_any in H. congruence.
Qed.

(** ** Printing *)

Lemma sprintf_hexes data : data <> [] -> hexes data (sprintf_X data).
Proof.
  induction data as [|b data IH]; [congruence|]. intros _. destruct (hex2_spells b) as (c1 & c2 & E & S).
  destruct data as [|b' data].
  - cbn [sprintf_X]. rewrite E. now apply hexes_one.
  - change (sprintf_X (b :: b' :: data)) with (hex2 b ++ SP :: sprintf_X (b' :: data)). rewrite E.
    cbn [app]. apply hexes_more; auto. apply IH. discriminate.
Qed.

Lemma hexes_nonempty data t : hexes data t -> data <> [] /\ t <> [].
Proof. destruct 1; split; discriminate. Qed.

Lemma hexes_unique data t : hexes data t -> forall t', hexes data t' -> t = t'.
Proof.
  induction 1 as [b c1 c2 S|b c1 c2 data t S H IH]; intros t' H';
    inversion H' as [b' d1 d2 S'|b' d1 d2 data' t0 S' H0]; subst.
  - destruct (spells_unique _ _ _ _ _ S S') as [-> ->]. reflexivity.
  - inversion H0.
  - inversion H.
  - destruct (spells_unique _ _ _ _ _ S S') as [-> ->]. now rewrite (IH t0).
Qed.

Lemma marshal_line m t : Msg_MarshalText m = inl t <-> line_of m t.
Proof.
  unfold Msg_MarshalText, Dir_MarshalText, line_of, sign. split.
  - intros H. destruct (msg_Dir m =? DirIn)%N eqn:E; [|destruct (msg_Dir m =? DirOut)%N eqn:E2];
      unfold DirIn, DirOut in *; [| |discriminate]; destruct (msg_Data m) as [|b data] eqn:D; try discriminate;
      injection H as <-; eexists _, _; (split; [|split; [apply sprintf_hexes; discriminate|reflexivity]]).
    + left. split; [lia|reflexivity].
    + right. split; [lia|reflexivity].
  - intros (c & t' & S & H & ->). destruct (hexes_nonempty _ _ H) as [ND _].
    destruct S as [[-> ->]|[-> ->]]; cbn [N.eqb DirIn DirOut Pos.eqb];
      destruct (msg_Data m) as [|b data] eqn:D; try congruence;
      rewrite (hexes_unique _ _ H (sprintf_X (b :: data))) by (apply sprintf_hexes; discriminate); reflexivity.
Qed.

Lemma marshal_refuses m : (exists e, Msg_MarshalText m = inr e) <-> ~ recordable m.
Proof.
  unfold Msg_MarshalText, Dir_MarshalText, recordable. unfold DirIn, DirOut.
  destruct (msg_Dir m =? 0)%N eqn:E; [|destruct (msg_Dir m =? 1)%N eqn:E2].
  - destruct (msg_Data m).
    + split; [intros _ [_ H]; congruence|eauto].
    + split; [intros [e [=]]|intros H]. destruct H. split; [left; lia|discriminate].
  - destruct (msg_Data m).
    + split; [intros _ [_ H]; congruence|eauto].
    + split; [intros [e [=]]|intros H]. destruct H. split; [right; lia|discriminate].
  - split; [intros _ [H _]; lia|eauto].
Qed.

Lemma recordable_line m : recordable m -> exists t, Msg_MarshalText m = inl t.
Proof.
  intros H. destruct (Msg_MarshalText m) as [t|e] eqn:E; [eauto|].
  exfalso. assert (~ recordable m); [|auto]. apply marshal_refuses. eauto.
Qed.

Lemma recordable_dec m : recordable m \/ ~ recordable m.
Proof.
  destruct (Msg_MarshalText m) as [t|e] eqn:E.
  - left. apply marshal_line in E. destruct E as (c & t' & S & H & _).
    split; [destruct S as [[-> _]|[-> _]]; auto|]. now apply hexes_nonempty in H.
  - right. apply marshal_refuses. eauto.
Qed.

(** Bytes of a message line. *)
Lemma upper_range c v : upper_hex c v -> (48 <= b2n c <= 70)%N.
Proof. unfold upper_hex. lia. Qed.

Lemma hexes_range data t : hexes data t -> Forall (fun c => 32 <= b2n c <= 70)%N t.
Proof.
  induction 1 as [b c1 c2 (v1 & v2 & H1 & H2 & _)|b c1 c2 data t (v1 & v2 & H1 & H2 & _) H IH];
    apply upper_range in H1, H2; repeat apply Forall_cons; auto; cbn; lia.
Qed.

Lemma line_range m t : line_of m t -> Forall (fun c => 32 <= b2n c <= 70)%N t.
Proof.
  intros (c & t' & S & H & ->). apply Forall_cons; [|apply Forall_cons; [cbn; lia|eapply hexes_range; eauto]].
  destruct S as [[_ ->]|[_ ->]]; cbn; lia.
Qed.

Lemma hexes_length data t : hexes data t -> S (List.length t) = 3 * List.length data.
Proof. induction 1; cbn [List.length] in *; lia. Qed.

Lemma line_length m t : line_of m t -> List.length t = 3 * List.length (msg_Data m) + 1.
Proof. intros (c & t' & S & H & ->). apply hexes_length in H. cbn [List.length]. lia. Qed.

(** ** Scanning *)

Lemma hex_string_pairs data : forall t tail,
  pairs data t -> no_digit_first tail -> hex_string (t ++ tail) = Some data.
Proof.
  intros t tail H NT. induction H as [|b c1 c2 data t (v1 & v2 & H1 & H2 & E) H IH].
  - cbn. destruct tail as [|c tail]; [reflexivity|]. cbn in *. apply hexDigit_none in NT. now rewrite NT.
  - cbn [app hex_string]. rewrite (proj2 (hexDigit_any _ _) H1), (proj2 (hexDigit_any _ _) H2), IH.
    unfold option_map. rewrite <- E, n2b_b2n. reflexivity.
Qed.

Lemma some_inj {A} (x y : A) : Some x = Some y -> x = y.
Proof. congruence. Qed.

Lemma hex_string_split n : forall l data, List.length l <= n -> hex_string l = Some data ->
  exists t tail, l = t ++ tail /\ pairs data t /\ no_digit_first tail.
Proof.
  induction n as [|n IH]; intros l data L H.
  - destruct l; [|cbn in L; lia]. injection H as <-. exists [], []. repeat split; constructor.
  - destruct l as [|c1 l].
    + injection H as <-. exists [], []. repeat split; constructor.
    + cbn [hex_string] in H. destruct (hexDigit c1) as [v1|] eqn:E1.
      * destruct l as [|c2 l]; [discriminate|]. destruct (hexDigit c2) as [v2|] eqn:E2; [|discriminate].
        destruct (hex_string l) as [d|] eqn:E; [|discriminate].
        unfold option_map in H. apply some_inj in H. subst data.
        destruct (IH l d) as (t & tail & -> & P & NT); [cbn in L; lia|auto|].
        exists (c1 :: c2 :: t), tail. repeat split; auto. apply pairs_cons; auto.
        apply hexDigit_any in E1, E2. exists v1, v2. repeat split; auto.
        apply any_bound in E1, E2. rewrite b2n_n2b_small; lia.
      * injection H as <-. exists [], (c1 :: l). repeat split; [constructor|]. cbn. now apply hexDigit_none.
Qed.

Lemma byte_eqb_sym a b : byte_eqb a b = byte_eqb b a.
Proof. unfold byte_eqb. apply N.eqb_sym. Qed.

(** White space is skipped rune by rune. *)
Lemma skip_rune r l : In r blank_runes -> skip_space (r ++ l) = skip_space l.
Proof.
  unfold blank_runes. cbn [In]. intros H.
  repeat (destruct H as [<-|H]; [reflexivity|]). contradiction.
Qed.

Lemma skip_white w l : white w -> skip_space (w ++ l) = skip_space l.
Proof.
  intros (runes & F & ->). induction F as [|r runes H F IH]; [reflexivity|].
  cbn [List.concat]. rewrite <- app_assoc, skip_rune; auto.
Qed.

Lemma skip_digit c v l : any_hex c v -> skip_space (c :: l) = Some (c :: l).
Proof.
  intros H. unfold any_hex, upper_hex, lower_hex in H.
  assert (48 <= b2n c <= 102)%N as R by lia.
  assert (forall x, (b2n x < 48 \/ 102 < b2n x)%N -> byte_eqb c x = false) as NE.
  { intros x Hx. apply byte_eqb_neq. intros ->. lia. }
  cbn [skip_space]. rewrite NE by (cbn; lia).
  assert (space1 c = false) as -> by (unfold space1; lia).
  destruct l as [|b [|b2 l]]; [reflexivity| |]; unfold space2, space3; rewrite !NE by (cbn; lia); reflexivity.
Qed.

Lemma space1_rune a : space1 a = true -> In [a] blank_runes.
Proof.
  unfold space1. intros H.
  assert (b2n a = 32 \/ b2n a = 9 \/ b2n a = 11 \/ b2n a = 12 \/ b2n a = 13)%N as P by lia.
  rewrite <- (n2b_b2n a). destruct P as [P|[P|[P|[P|P]]]]; rewrite P;
    match goal with |- In [n2b ?n] _ => let v := eval vm_compute in (n2b n) in change (n2b n) with v end;
    cbn; auto 12.
Qed.

Lemma space2_rune a b : space2 a b = true -> In [a; b] blank_runes.
Proof.
  unfold space2. intros H. apply andb_prop in H as [A B]. apply byte_eqb_eq in A as ->.
  apply orb_prop in B as [B|B]; apply byte_eqb_eq in B as ->; cbn; auto 12.
Qed.

Lemma byte_cases_128_138 c : (128 <= b2n c <= 138)%N ->
  In c [x80; x81; x82; x83; x84; x85; x86; x87; x88; x89; x8a].
Proof.
  intros H.
  assert (b2n c = 128 \/ b2n c = 129 \/ b2n c = 130 \/ b2n c = 131 \/ b2n c = 132 \/ b2n c = 133
          \/ b2n c = 134 \/ b2n c = 135 \/ b2n c = 136 \/ b2n c = 137 \/ b2n c = 138)%N as P by lia.
  rewrite <- (n2b_b2n c).
  repeat (destruct P as [P|P]; [rewrite P;
    match goal with |- In (n2b ?n) _ => let v := eval vm_compute in (n2b n) in change (n2b n) with v end;
    cbn; auto 14|]).
  rewrite P; match goal with |- In (n2b ?n) _ => let v := eval vm_compute in (n2b n) in change (n2b n) with v end;
    cbn; auto 14.
Qed.

Lemma space3_rune a b c : space3 a b c = true -> In [a; b; c] blank_runes.
Proof.
  unfold space3. intros H.
  apply orb_prop in H as [H|H]; [apply orb_prop in H as [H|H]; [apply orb_prop in H as [H|H]|]|].
  - apply andb_prop in H as [H C]. apply andb_prop in H as [A B].
    apply byte_eqb_eq in A as ->. apply byte_eqb_eq in B as ->. apply byte_eqb_eq in C as ->. cbn. auto 12.
  - apply andb_prop in H as [H C]. apply andb_prop in H as [A B].
    apply byte_eqb_eq in A as ->. apply byte_eqb_eq in B as ->.
    apply orb_prop in C as [C|C]; [apply orb_prop in C as [C|C]; [apply orb_prop in C as [C|C]|]|].
    + assert (In c [x80; x81; x82; x83; x84; x85; x86; x87; x88; x89; x8a]) as I
        by (apply byte_cases_128_138; lia).
      cbn in I. repeat (destruct I as [<-|I]; [cbn; auto 30|]). contradiction.
    + apply byte_eqb_eq in C as ->. cbn. auto 30.
    + apply byte_eqb_eq in C as ->. cbn. auto 30.
    + apply byte_eqb_eq in C as ->. cbn. auto 30.
  - apply andb_prop in H as [H C]. apply andb_prop in H as [A B].
    apply byte_eqb_eq in A as ->. apply byte_eqb_eq in B as ->. apply byte_eqb_eq in C as ->. cbn. auto 30.
  - apply andb_prop in H as [H C]. apply andb_prop in H as [A B].
    apply byte_eqb_eq in A as ->. apply byte_eqb_eq in B as ->. apply byte_eqb_eq in C as ->. cbn. auto 30.
Qed.

Lemma white_cons r w : In r blank_runes -> white w -> white (r ++ w).
Proof. intros H (runes & F & ->). exists (r :: runes). split; auto. Qed.

Lemma white_nil : white [].
Proof. exists []. split; auto. Qed.

Lemma skip_split n : forall l l', List.length l <= n -> skip_space l = Some l' ->
  exists w, l = w ++ l' /\ white w.
Proof.
  induction n as [|n IH]; intros l l' L H.
  - destruct l; [|cbn in L; lia]. injection H as <-. exists []. auto using white_nil.
  - destruct l as [|a l1]; [injection H as <-; exists []; auto using white_nil|].
    cbn [skip_space] in H. cbn [List.length] in L.
    destruct (byte_eqb a NL); [discriminate|].
    destruct (space1 a) eqn:S1.
    { destruct (IH l1 l') as (w & -> & W); [lia|auto|]. exists ([a] ++ w). split; auto.
      apply white_cons; auto using space1_rune. }
    destruct l1 as [|b l2]; [injection H as <-; exists []; auto using white_nil|]. cbn [List.length] in L.
    destruct (space2 a b) eqn:S2.
    { destruct (IH l2 l') as (w & -> & W); [lia|auto|]. exists ([a; b] ++ w). split; auto.
      apply white_cons; auto using space2_rune. }
    destruct l2 as [|c l3]; [injection H as <-; exists []; auto using white_nil|]. cbn [List.length] in L.
    destruct (space3 a b c) eqn:S3.
    { destruct (IH l3 l') as (w & -> & W); [lia|auto|]. exists ([a; b; c] ++ w). split; auto.
      apply white_cons; auto using space3_rune. }
    injection H as <-. exists []. auto using white_nil.
Qed.

Lemma Sscanf_spec h data :
  Sscanf_x h = Some data
  <-> exists w digits tail, h = w ++ digits ++ tail /\ white w /\ pairs data digits /\ data <> []
        /\ no_digit_first tail.
Proof.
  unfold Sscanf_x. split.
  - intros H. destruct (skip_space h) as [l|] eqn:S; [|discriminate].
    destruct l as [|c l]; [discriminate|].
    destruct (hex_string (c :: l)) as [d|] eqn:X; [|discriminate]. destruct d as [|b d]; [discriminate|].
    injection H as <-. destruct (skip_split _ h _ (le_n _) S) as (w & -> & W).
    destruct (hex_string_split _ _ _ (le_n _) X) as (t & tail & E & P & NT).
    exists w, t, tail. rewrite E. repeat split; auto. discriminate.
  - intros (w & digits & tail & -> & W & P & ND & NT). rewrite skip_white by auto.
    inversion P as [|b c1 c2 d t (v1 & v2 & H1 & H2 & E) P']; subst; [congruence|].
    cbn [app]. rewrite (skip_digit c1 v1) by auto.
    change (c1 :: c2 :: t ++ tail) with ((c1 :: c2 :: t) ++ tail).
    rewrite (hex_string_pairs (b :: d)); auto.
Qed.

(** ** Lines *)

Lemma sign_unmarshal d c d0 :
  sign d c -> Dir_UnmarshalText d0 [c] = (d, None).
Proof. intros [[-> ->]|[-> ->]]; reflexivity. Qed.

Lemma sign_unmarshal_inv c d0 d : Dir_UnmarshalText d0 [c] = (d, None) -> sign d c.
Proof.
  unfold Dir_UnmarshalText, sign. destruct (byte_eqb c LT) eqn:E1.
  - intros H. injection H as <-. apply byte_eqb_eq in E1. auto.
  - destruct (byte_eqb c GT) eqn:E2; [|discriminate]. intros H. injection H as <-.
    apply byte_eqb_eq in E2. auto.
Qed.

Lemma unmarshal_ok m text d data :
  Msg_UnmarshalText m text = (mkMsg d (msg_TS m) data, None) <-> accepts text d data.
Proof.
  unfold Msg_UnmarshalText, accepts. split.
  - intros H. destruct (Nat.ltb_spec (List.length text) 4); [discriminate|]. split; [lia|].
    destruct text as [|c [|x body]]; cbn in H0; try lia. cbn [firstn skipn] in H.
    destruct (Dir_UnmarshalText (msg_Dir m) [c]) as [d' [e|]] eqn:D; [discriminate|].
    destruct (Sscanf_x _) as [data'|] eqn:X; [|discriminate]. injection H as -> ->.
    apply Sscanf_spec in X as (w & digits & tail & E & W & P & ND & NT).
    exists c, x, body, w, digits, tail. repeat split; auto. eapply sign_unmarshal_inv; eauto.
  - intros (L & c & x & body & w & digits & tail & -> & S & E & W & P & ND & NT).
    destruct (Nat.ltb_spec (List.length (c :: x :: body)) 4); [lia|].
    cbn [firstn skipn]. rewrite (sign_unmarshal d) by auto.
    assert (Sscanf_x (filter (fun c => negb (byte_eqb c SP)) body) = Some data) as ->.
    { apply Sscanf_spec. exists w, digits, tail. auto. }
    reflexivity.
Qed.

Lemma unmarshal_cases m text :
  (exists d data, Msg_UnmarshalText m text = (mkMsg d (msg_TS m) data, None) /\ accepts text d data)
  \/ (exists m' e, Msg_UnmarshalText m text = (m', Some e) /\ forall d data, ~ accepts text d data).
Proof.
  destruct (Msg_UnmarshalText m text) as [m' [e|]] eqn:E.
  - right. exists m', e. split; auto. intros d data A. apply (unmarshal_ok m) in A. congruence.
  - left. assert (exists d data, m' = mkMsg d (msg_TS m) data) as (d & data & ->).
    { unfold Msg_UnmarshalText in E. destruct (Nat.ltb _ _); [discriminate|].
      destruct (Dir_UnmarshalText _ _) as [d [e|]]; [discriminate|].
      destruct (Sscanf_x _) as [data|]; [|discriminate]. injection E as <-. eauto. }
    exists d, data. split; auto. now apply (unmarshal_ok m).
Qed.

Lemma accepts_unique text d data d' data' : accepts text d data -> accepts text d' data' -> d = d' /\ data = data'.
Proof.
  intros A B. apply (unmarshal_ok (mkMsg 0 0 [])) in A, B. rewrite A in B. injection B. auto.
Qed.

(** ** Digits of a printed message *)

Lemma filter_hexes data t :
  hexes data t -> exists digits, filter (fun b => negb (byte_eqb b x20)) t = digits /\ pairs data digits.
Proof.
  assert (forall c v, upper_hex c v -> negb (byte_eqb c x20) = true) as NS.
  { intros c v H. apply upper_range in H. apply Bool.negb_true_iff, byte_eqb_neq. intros ->. cbn in H. lia. }
  assert (forall b c1 c2, spells upper_hex b c1 c2 -> spells any_hex b c1 c2) as SA.
  { intros b c1 c2 (v1 & v2 & H1 & H2 & E). exists v1, v2. unfold any_hex. auto. }
  induction 1 as [b c1 c2 S|b c1 c2 data t S H (digits & E & P)].
  - pose proof S as (v1 & v2 & H1 & H2 & _). exists [c1; c2]. cbn [filter].
    rewrite (NS c1 v1), (NS c2 v2) by auto. split; auto. apply pairs_cons; auto. constructor.
  - pose proof S as (v1 & v2 & H1 & H2 & _). exists (c1 :: c2 :: digits). cbn [filter].
    rewrite (NS c1 v1), (NS c2 v2) by auto. rewrite (byte_eqb_refl x20). cbn [negb]. rewrite E.
    split; auto. apply pairs_cons; auto.
Qed.

Lemma line_accepted m t : line_of m t -> accepts t (msg_Dir m) (msg_Data m).
Proof.
  intros H. pose proof (line_length _ _ H) as L. destruct H as (c & t' & S & H & ->).
  destruct (hexes_nonempty _ _ H) as [ND _]. split.
  - destruct (msg_Data m); [congruence|]. cbn [List.length] in *. lia.
  - destruct (filter_hexes _ _ H) as (digits & E & P).
    exists c, x20, t', [], digits, []. repeat split; auto using white_nil. now rewrite app_nil_r.
Qed.
