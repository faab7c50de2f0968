(** Lemmas about Packet.v. *)
From Verif Require Import Base BaseFacts Packet SpecPacket.
From Coq Require Import ZifyBool ZifyNat ZifyN.
Ltac Zify.zify_post_hook ::= Z.div_mod_to_equations.

(** ** Checksum *)

Lemma fold_crc_shift p c :
  (fold_left (fun crc v => (crc + b2n v) mod 256) p c mod 256 = (c + sum_bytes p) mod 256)%N.
Proof.
  revert c; induction p as [|b p IH]; intros c; cbn [fold_left sum_bytes].
  - f_equal. lia.
  - rewrite IH, N.add_mod_idemp_l by lia. f_equal. lia.
Qed.

Lemma fold_crc_lt p c : (c < 256)%N -> (fold_left (fun crc v => (crc + b2n v) mod 256) p c < 256)%N.
Proof.
  revert c; induction p as [|b p IH]; intros c Hc; cbn [fold_left]; [exact Hc|]. apply IH. lia.
Qed.

Lemma fold_crc p c :
  (c < 256)%N -> (fold_left (fun crc v => (crc + b2n v) mod 256) p c = (c + sum_bytes p) mod 256)%N.
Proof.
  intros Hc. rewrite <- fold_crc_shift. symmetry. apply N.mod_small. now apply fold_crc_lt.
Qed.

Lemma checksum_sum p : checksum p = ((256 - sum_bytes p mod 256) mod 256)%N.
Proof. unfold checksum. rewrite fold_crc by lia. now rewrite N.add_0_l. Qed.

Lemma checksum_lt p : (checksum p < 256)%N.
Proof. rewrite checksum_sum. lia. Qed.

Lemma checksum_zero p : checksum p = 0%N <-> (sum_bytes p mod 256 = 0)%N.
Proof. rewrite checksum_sum. lia. Qed.

Lemma sum_bytes_app a b : sum_bytes (a ++ b) = (sum_bytes a + sum_bytes b)%N.
Proof. induction a as [|x a IH]; cbn [app sum_bytes]; lia. Qed.

Lemma checksum_close p : checksum (p ++ [n2b (checksum p)]) = 0%N.
Proof.
  rewrite checksum_zero, sum_bytes_app. cbn [sum_bytes]. rewrite b2n_n2b, (checksum_sum p). lia.
Qed.

(** ** Slices *)

Lemma slice_from_ok s n :
  n <= List.length (vis s) -> slice_from s n = Ret (mkSlice (skipn n (vis s)) (spare s)).
Proof. intros H. unfold slice_from. apply Nat.leb_le in H. now rewrite H. Qed.

Lemma slice_from_panic s n : List.length (vis s) < n -> slice_from s n = Panic.
Proof. intros H. unfold slice_from. apply Nat.leb_gt in H. now rewrite H. Qed.

Lemma slice_to_in s n :
  n <= List.length (vis s) ->
  slice_to s n = Ret (mkSlice (firstn n (vis s)) (skipn n (vis s ++ spare s))).
Proof.
  intros H. unfold slice_to. rewrite app_length.
  assert (E : n <=? List.length (vis s) + List.length (spare s) = true) by (apply Nat.leb_le; lia).
  rewrite E. do 2 f_equal. rewrite firstn_app.
  replace (n - List.length (vis s)) with 0 by lia. simpl. apply app_nil_r.
Qed.

(** ** parsePacket, restated on contents *)

Definition header_len (h : bytes) (payOff payLen : nat) : Prop :=
  parseHeader h = inl (payOff, payLen).

(** Shape of the data following a start byte. *)
Lemma parseHeader_cases data :
  (exists payOff payLen, parseHeader data = inl (payOff, payLen) /\ 3 <= List.length data
     /\ 1 <= payOff <= 3)
  \/ (parseHeader data = inr UnexpectedEOF /\ List.length data < 3).
Proof.
  destruct data as [|a [|b [|c d]]]; simpl; try (right; split; [reflexivity|lia]).
  left. destruct (byte_eqb a x00); do 2 eexists; (split; [reflexivity|lia]).
Qed.

Lemma parseHeader_header_for data payOff payLen :
  parseHeader data = inl (payOff, payLen) ->
  exists h rest, data = h ++ rest /\ List.length h = payOff /\ header_for (N.of_nat payLen) h.
Proof.
  destruct data as [|a [|b [|c d]]]; simpl; try discriminate.
  destruct (byte_eqb a x00) eqn:E; intros [= <- <-].
  - apply byte_eqb_eq in E. subst a. exists [x00; b; c], d. split; [reflexivity|].
    split; [reflexivity|]. apply header_large. rewrite N2Nat.id, be_dec_2. lia.
  - apply byte_eqb_neq in E. exists [a], (b :: c :: d). split; [reflexivity|].
    split; [reflexivity|]. rewrite N2Nat.id. apply header_small; [reflexivity|].
    intros H. apply E. apply b2n_inj. now rewrite H.
Qed.

Lemma header_for_parse n h rest :
  header_for n h -> 3 <= List.length (h ++ rest) ->
  parseHeader (h ++ rest) = inl (List.length h, N.to_nat n).
Proof.
  intros Hh Hl. destruct Hh as [b Hb Hn | hi lo H].
  - destruct rest as [|r1 [|r2 rest]]; simpl in Hl; try lia.
    simpl. destruct (byte_eqb b x00) eqn:E.
    + apply byte_eqb_eq in E. subst b. exfalso. apply Hn. now rewrite <- Hb.
    + now rewrite Hb.
  - simpl. rewrite be_dec_2. do 2 f_equal. lia.
Qed.

Lemma header_for_len n h : header_for n h -> 1 <= List.length h <= 3.
Proof. intros []; simpl; lia. Qed.

(** Complete result of [parsePacket] on visible bytes [d], spare [sp]. *)
Lemma parsePacket_spec d sp :
  match parseHeader d with
  | inr e => parsePacket (mkSlice d sp) = Ret (0, [], Some e)
  | inl (payOff, payLen) =>
      let pktLen := payOff + payLen + 1 in
      if List.length d + List.length sp <? pktLen then parsePacket (mkSlice d sp) = Panic
      else if (sum_bytes (firstn pktLen (d ++ sp)) mod 256 =? 0)%N
      then parsePacket (mkSlice d sp)
           = Ret (pktLen, firstn payLen (skipn payOff (firstn pktLen (d ++ sp))), None)
      else parsePacket (mkSlice d sp) = Ret (pktLen, [], Some errInvalidChecksum)
  end.
Proof.
  destruct (parseHeader d) as [[payOff payLen]|e] eqn:E; unfold parsePacket; cbn [vis spare]; rewrite E;
    [|reflexivity].
  cbn zeta. unfold slice_to. cbn [vis spare]. rewrite app_length.
  destruct (Nat.ltb_spec (List.length d + List.length sp) (payOff + payLen + 1)) as [Hlt|Hge].
  - destruct (Nat.leb_spec (payOff + payLen + 1) (List.length d + List.length sp)); [lia|reflexivity].
  - destruct (Nat.leb_spec (payOff + payLen + 1) (List.length d + List.length sp)); [|lia].
    cbn [bind vis].
    assert (Hfl : List.length (firstn (payOff + payLen + 1) (d ++ sp)) = payOff + payLen + 1).
    { rewrite firstn_length, app_length. lia. }
    rewrite Hfl, Nat.ltb_irrefl.
    destruct (sum_bytes (firstn (payOff + payLen + 1) (d ++ sp)) mod 256 =? 0)%N eqn:Z.
    + apply N.eqb_eq in Z. apply checksum_zero in Z. rewrite Z. reflexivity.
    + apply N.eqb_neq in Z.
      destruct (N.eqb_spec (checksum (firstn (payOff + payLen + 1) (d ++ sp))) 0) as [C|C].
      * apply checksum_zero in C. contradiction.
      * reflexivity.
Qed.

(** ** ReadPacket *)

Lemma ReadPacket_eof fr : ~ In x55 (vis fr) -> ReadPacket fr = Ret (fr, [], Some EOF).
Proof.
  intros H. unfold ReadPacket, PacketStartByte. apply index_byte_none in H. now rewrite H.
Qed.

Lemma ReadPacket_start f d sp :
  ~ In x55 f ->
  ReadPacket (mkSlice (f ++ x55 :: d) sp) =
  do r <- parsePacket (mkSlice d sp);
  let '(pktLen, payload, err) := r in
  match err with
  | Some e => Ret (mkSlice d sp, [], Some e)
  | None => do frame2 <- slice_from (mkSlice d sp) pktLen; Ret (frame2, payload, None)
  end.
Proof.
  intros H. unfold ReadPacket, PacketStartByte. cbn [vis]. rewrite index_byte_app by assumption.
  rewrite slice_from_ok.
  - cbn [bind vis spare].
    replace (skipn (List.length f + 1) (f ++ x55 :: d)) with d; [reflexivity|].
    replace (f ++ x55 :: d) with ((f ++ [x55]) ++ d) by (now rewrite <- app_assoc).
    symmetry. apply skipn_app_exact. rewrite app_length. simpl. lia.
  - cbn [vis]. rewrite app_length. simpl. lia.
Qed.

(** A frame either has no start byte or splits at its first one. *)
Lemma split_start (l : bytes) : ~ In x55 l \/ exists f d, l = f ++ x55 :: d /\ ~ In x55 f.
Proof.
  destruct (index_byte x55 l) as [i|] eqn:E.
  - right. apply index_byte_some in E. destruct E as (f & d & -> & Hn & _). eauto.
  - left. now apply index_byte_none.
Qed.

Lemma is_packet_tail_len p w : is_packet p w -> 4 <= List.length w \/ p = [] .
Proof.
  intros (h & c & -> & Hh & _). pose proof (header_for_len _ _ Hh).
  destruct p as [|x p]; [now right|]. left. simpl. rewrite !app_length. simpl. rewrite app_length. simpl. lia.
Qed.

(** Reading a well-formed packet. *)
Lemma ReadPacket_packet f p w rest sp :
  filler f -> is_packet p w ->
  ReadPacket (mkSlice (f ++ w ++ rest) sp) = Ret (mkSlice rest sp, p, None).
Proof.
  intros Hf (h & c & -> & Hh & Hsum).
  set (d := h ++ p ++ [c] ++ rest).
  assert (Ed : f ++ (x55 :: h ++ p ++ [c]) ++ rest = f ++ x55 :: d).
  { unfold d. simpl. now rewrite <- !app_assoc. }
  rewrite Ed, ReadPacket_start by exact Hf.
  pose proof (header_for_len _ _ Hh) as Hhl.
  assert (Hd3 : 3 <= List.length d).
  { unfold d. rewrite !app_length. cbn [List.length].
    destruct Hh as [b Hb Hn|hi lo Hx]; simpl; unfold len in *; lia. }
  pose proof (header_for_parse (len p) h (p ++ [c] ++ rest) Hh Hd3) as HP. fold d in HP.
  pose proof (parsePacket_spec d sp) as HS. rewrite HP in HS. cbn zeta in HS.
  set (pktLen := List.length h + N.to_nat (len p) + 1) in *.
  assert (Hpl : pktLen = List.length (h ++ p ++ [c])).
  { unfold pktLen, len. rewrite !app_length. simpl. lia. }
  assert (Hd : d = (h ++ p ++ [c]) ++ rest) by (unfold d; now rewrite <- !app_assoc).
  assert (Hlen : List.length d = pktLen + List.length rest).
  { rewrite Hd, app_length, <- Hpl. reflexivity. }
  destruct (Nat.ltb_spec (List.length d + List.length sp) pktLen); [lia|].
  assert (Hfn : firstn pktLen (d ++ sp) = h ++ p ++ [c]).
  { rewrite Hd, <- app_assoc. now apply firstn_app_exact. }
  rewrite Hfn in HS. rewrite Hsum in HS. cbn [N.eqb] in HS. rewrite HS. cbn [bind].
  rewrite slice_from_ok by (cbn [vis]; lia). cbn [bind vis spare].
  assert (E1 : skipn pktLen d = rest) by (rewrite Hd; now apply skipn_app_exact).
  assert (E2 : firstn (N.to_nat (len p)) (skipn (List.length h) (h ++ p ++ [c])) = p).
  { rewrite skipn_app_exact by reflexivity. apply firstn_app_exact. unfold len. lia. }
  rewrite E1, E2. reflexivity.
Qed.

(** Everything a call can do, in one statement. *)
Lemma ReadPacket_inv fr :
  (~ In x55 (vis fr) /\ ReadPacket fr = Ret (fr, [], Some EOF))
  \/ exists f d, vis fr = f ++ x55 :: d /\ ~ In x55 f /\
     ( (List.length d < 3 /\ ReadPacket fr = Ret (mkSlice d (spare fr), [], Some UnexpectedEOF))
     \/ exists payOff payLen, parseHeader d = inl (payOff, payLen) /\ 3 <= List.length d /\
        let pktLen := payOff + payLen + 1 in
        ( (List.length d + List.length (spare fr) < pktLen /\ ReadPacket fr = Panic)
        \/ (pktLen <= List.length d + List.length (spare fr)
            /\ (sum_bytes (firstn pktLen (d ++ spare fr)) mod 256 <> 0)%N
            /\ ReadPacket fr = Ret (mkSlice d (spare fr), [], Some errInvalidChecksum))
        \/ (List.length d < pktLen <= List.length d + List.length (spare fr)
            /\ (sum_bytes (firstn pktLen (d ++ spare fr)) mod 256 = 0)%N
            /\ ReadPacket fr = Panic)
        \/ (pktLen <= List.length d
            /\ (sum_bytes (firstn pktLen d) mod 256 = 0)%N
            /\ ReadPacket fr = Ret (mkSlice (skipn pktLen d) (spare fr),
                                    firstn payLen (skipn payOff d), None)))).
Proof.
  destruct fr as [v sp]. cbn [vis spare].
  destruct (split_start v) as [Hn|(f & d & -> & Hn)].
  { left. split; [exact Hn|]. now apply ReadPacket_eof. }
  right. exists f, d. split; [reflexivity|]. split; [exact Hn|].
  rewrite ReadPacket_start by exact Hn.
  pose proof (parsePacket_spec d sp) as HS.
  destruct (parseHeader_cases d) as [(payOff & payLen & HP & H3 & Hoff)|[HP H3]].
  - right. exists payOff, payLen. split; [exact HP|]. split; [exact H3|]. cbn zeta.
    rewrite HP in HS. cbn zeta in HS.
    destruct (Nat.ltb_spec (List.length d + List.length sp) (payOff + payLen + 1)) as [Hlt|Hge].
    { left. rewrite HS. split; [exact Hlt|reflexivity]. }
    right.
    destruct (N.eqb_spec (sum_bytes (firstn (payOff + payLen + 1) (d ++ sp)) mod 256) 0) as [Hz|Hnz].
    + right. destruct (Nat.leb_spec (payOff + payLen + 1) (List.length d)) as [Hin|Hout].
      * right. split; [exact Hin|].
        assert (Hf : firstn (payOff + payLen + 1) (d ++ sp) = firstn (payOff + payLen + 1) d).
        { rewrite firstn_app. replace (payOff + payLen + 1 - List.length d) with 0 by lia.
          simpl. apply app_nil_r. }
        rewrite Hf in Hz, HS. split; [exact Hz|]. rewrite HS. cbn [bind].
        rewrite slice_from_ok by (cbn [vis]; exact Hin). cbn [bind vis spare].
        rewrite skipn_firstn_comm, firstn_firstn.
        replace (Nat.min payLen (payOff + payLen + 1 - payOff)) with payLen by lia. reflexivity.
      * left. split; [lia|]. split; [exact Hz|]. rewrite HS. cbn [bind].
        rewrite slice_from_panic by (cbn [vis]; exact Hout). reflexivity.
    + left. split; [exact Hge|]. split; [exact Hnz|]. rewrite HS. reflexivity.
  - left. rewrite HP in HS. rewrite HS. split; [exact H3|reflexivity].
Qed.

(** ** WritePacket *)

Lemma n2b_256 : n2b 256 = x00.
Proof. reflexivity. Qed.

Lemma WritePacket_shape frame p :
  p <> [] ->
  exists h, WritePacket frame p
            = (frame ++ x55 :: h ++ p ++ [n2b (checksum (h ++ p))], None)
    /\ h = (if (256 <? len p)%N then [x00; n2b (len p / 256); n2b (len p)] else [n2b (len p)]).
Proof.
  intros Hp. destruct p as [|x p]; [contradiction|].
  unfold WritePacket, largePacketMinLen, PacketStartByte.
  exists (if 256 <? List.length (x :: p) then x00 :: be_enc 2 (len (x :: p)) else [n2b (len (x :: p))]).
  split.
  - f_equal. now rewrite <- app_assoc.
  - rewrite be_enc_2.
    replace (256 <? len (x :: p))%N with (256 <? List.length (x :: p)); [reflexivity|].
    unfold len. destruct (Nat.ltb_spec 256 (List.length (x :: p))), (N.ltb_spec 256 (N.of_nat (List.length (x :: p)))); lia.
Qed.

Lemma canonical_header_for n : (1 <= n <= 65535)%N -> header_for n (canonical_header n).
Proof.
  intros H. unfold canonical_header. destruct (N.ltb_spec n 256).
  - apply header_small; [apply b2n_n2b_small; lia | lia].
  - apply header_large. rewrite !b2n_n2b. lia.
Qed.

Lemma sum_close h p : (sum_bytes (h ++ p ++ [n2b (checksum (h ++ p))]) mod 256 = 0)%N.
Proof. rewrite app_assoc. apply checksum_zero. apply checksum_close. Qed.

Lemma WritePacket_writable frame p :
  writable p ->
  WritePacket frame p =
  (frame ++ x55 :: canonical_header (len p) ++ p ++ [n2b (checksum (canonical_header (len p) ++ p))], None).
Proof.
  intros [Hc Hn]. destruct (WritePacket_shape frame p) as (h & -> & ->).
  { intros ->. unfold carriable, len in Hc. simpl in Hc. lia. }
  unfold canonical_header.
  destruct (N.ltb_spec 256 (len p)), (N.ltb_spec (len p) 256); try reflexivity; lia.
Qed.

Lemma WritePacket_is_packet frame p :
  writable p -> exists w, WritePacket frame p = (frame ++ w, None) /\ is_packet p w.
Proof.
  intros Hw. rewrite WritePacket_writable by exact Hw.
  eexists. split; [reflexivity|].
  eexists _, _. split; [reflexivity|]. split.
  - apply canonical_header_for. apply Hw.
  - apply sum_close.
Qed.

(** ** Counting start bytes *)

Fixpoint count_start (l : bytes) : nat :=
  match l with
  | [] => 0
  | b :: l' => (if byte_eqb b x55 then 1 else 0) + count_start l'
  end.

Lemma count_start_app a b : count_start (a ++ b) = count_start a + count_start b.
Proof. induction a as [|x a IH]; cbn [app count_start]; lia. Qed.

Lemma count_start_skipn n l : count_start (skipn n l) <= count_start l.
Proof.
  rewrite <- (firstn_skipn n l) at 2. rewrite count_start_app. lia.
Qed.

Lemma count_start_in l : In x55 l <-> 0 < count_start l.
Proof.
  induction l as [|x l IH]; cbn [count_start In]; [lia|].
  destruct (byte_eqb x x55) eqn:E.
  - apply byte_eqb_eq in E. split; [lia|intros _; now left].
  - apply byte_eqb_neq in E. rewrite Nat.add_0_l, <- IH. split; [intros [H|H]; [contradiction|exact H]|tauto].
Qed.
