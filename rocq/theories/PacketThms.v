(** Proofs of the packet-level properties C01-C11. *)
From Verif Require Import Base BaseFacts Packet SpecPacket ClientPacket PacketFacts.
From Coq Require Import ZifyBool ZifyNat ZifyN.
Ltac Zify.zify_post_hook ::= Z.div_mod_to_equations.

Lemma checksum_is_negated_sum p :
  (checksum p < 256)%N /\ ((checksum p + sum_bytes p) mod 256 = 0)%N.
Proof. split; [apply checksum_lt|]. rewrite checksum_sum. lia. Qed.

Lemma checksum_single_change a x y b :
  x <> y -> checksum (a ++ x :: b) <> checksum (a ++ y :: b).
Proof.
  intros Hxy H. apply Hxy, b2n_inj. rewrite !checksum_sum, !sum_bytes_app in H.
  cbn [sum_bytes] in H. pose proof (b2n_lt x). pose proof (b2n_lt y). lia.
Qed.

Lemma corruption_rejected f h p c a x y b rest sp :
  filler f -> header_for (len p) h -> (sum_bytes (h ++ p ++ [c]) mod 256 = 0)%N ->
  p ++ [c] = a ++ x :: b -> x <> y ->
  ReadPacket (mkSlice (f ++ x55 :: h ++ (a ++ y :: b) ++ rest) sp)
  = Ret (mkSlice (h ++ (a ++ y :: b) ++ rest) sp, [], Some errInvalidChecksum).
Proof.
  intros Hf Hh Hsum Hab Hxy.
  rewrite ReadPacket_start by exact Hf.
  set (body := a ++ y :: b).
  assert (Hbl : List.length body = S (List.length p)).
  { assert (List.length (p ++ [c]) = List.length (a ++ x :: b)) by now rewrite Hab.
    unfold body. rewrite !app_length in *. simpl in *. lia. }
  set (d := h ++ body ++ rest).
  assert (Hd3 : 3 <= List.length d).
  { unfold d. rewrite !app_length, Hbl.
    destruct Hh as [q Hq Hn|hi lo Hx]; simpl; unfold len in *; lia. }
  pose proof (header_for_parse (len p) h (body ++ rest) Hh Hd3) as HP. fold d in HP.
  pose proof (parsePacket_spec d sp) as HS. rewrite HP in HS. cbn zeta in HS.
  assert (Hpl : List.length h + N.to_nat (len p) + 1 = List.length (h ++ body)).
  { rewrite app_length, Hbl. unfold len. lia. }
  rewrite Hpl in HS.
  assert (Hfn : firstn (List.length (h ++ body)) (d ++ sp) = h ++ body).
  { unfold d. replace ((h ++ body ++ rest) ++ sp) with ((h ++ body) ++ rest ++ sp)
      by now rewrite <- !app_assoc. now apply firstn_app_exact. }
  rewrite Hfn in HS.
  destruct (Nat.ltb_spec (List.length d + List.length sp) (List.length (h ++ body))) as [Hlt|Hge].
  { exfalso. unfold d in Hlt. rewrite !app_length in Hlt. lia. }
  destruct (N.eqb_spec (sum_bytes (h ++ body) mod 256) 0) as [Hz|Hz].
  - exfalso. apply checksum_zero in Hz. apply checksum_zero in Hsum.
    rewrite Hab in Hsum. unfold body in Hz. rewrite app_assoc in Hsum, Hz.
    apply (checksum_single_change (h ++ a) x y b Hxy). congruence.
  - rewrite HS. reflexivity.
Qed.

Lemma crc_run_spec_gen ops sofar c :
  c = (sum_bytes sofar mod 256)%N -> crc_run c ops = crc_spec sofar ops.
Proof.
  revert sofar c; induction ops as [|op ops IH]; intros sofar c Hc; [reflexivity|].
  assert (H8 : crc8_sum8 c = checksum sofar) by (rewrite checksum_sum; unfold crc8_sum8; now rewrite Hc).
  destruct op; simpl.
  - f_equal. apply IH. rewrite fold_crc by lia. rewrite Hc, sum_bytes_app. lia.
  - f_equal; [unfold crc8_sum; now rewrite H8|now apply IH].
  - f_equal; [now rewrite H8|now apply IH].
  - f_equal. apply IH. reflexivity.
  - f_equal. now apply IH.
  - f_equal. now apply IH.
Qed.

Lemma crc_run_spec ops : crc_run new_crc8 ops = crc_spec [] ops.
Proof. now apply crc_run_spec_gen. Qed.

Lemma header_for_bound n h : header_for n h -> (n <= 65535)%N.
Proof.
  intros [b Hb _|hi lo H]; [pose proof (b2n_lt b); lia|].
  pose proof (b2n_lt hi). pose proof (b2n_lt lo). lia.
Qed.

Lemma app_same_len (a b c d : bytes) :
  List.length b = List.length d -> a ++ b = c ++ d -> a = c /\ b = d.
Proof.
  revert c; induction a as [|x a IH]; intros [|y c] Hl H; simpl in *.
  - now split.
  - exfalso. subst b. simpl in Hl. rewrite app_length in Hl. lia.
  - exfalso. subst d. simpl in Hl. rewrite app_length in Hl. lia.
  - injection H as -> H. destruct (IH c Hl H) as [-> ->]. now split.
Qed.

Lemma write_wellformed_iff frame p w :
  p <> [] -> WritePacket frame p = (frame ++ w, None) -> (is_packet p w <-> writable p).
Proof.
  intros Hp Hw. split; intros H.
  - destruct H as (h & c & -> & Hh & Hs).
    assert (Hcar : carriable p).
    { split; [|eapply header_for_bound; eassumption].
      destruct p; [contradiction|]. unfold len. simpl. lia. }
    split; [exact Hcar|]. intros H256.
    destruct (WritePacket_shape frame p Hp) as (h' & E & Eh'). rewrite E in Hw.
    injection Hw as Hw. apply app_inv_head in Hw. injection Hw as Hw.
    apply app_same_len in Hw; [|rewrite !app_length; simpl; lia].
    destruct Hw as [-> _]. rewrite H256 in Eh'. simpl in Eh'. subst h.
    rewrite H256 in Hh. change (n2b 256) with x00 in Hh.
    inversion Hh as [b Hb Hn E1|]. discriminate Hb.
  - destruct (WritePacket_is_packet frame p H) as (w' & E & Hw'). rewrite E in Hw.
    injection Hw as Hw. apply app_inv_head in Hw. now subst.
Qed.

Lemma write_256 frame p :
  len p = 256%N ->
  WritePacket frame p = (frame ++ x55 :: x00 :: p ++ [n2b (checksum p)], None)
  /\ ~ is_packet p (x55 :: x00 :: p ++ [n2b (checksum p)]).
Proof.
  intros H.
  assert (Hp : p <> []) by (intros ->; discriminate H).
  destruct (WritePacket_shape frame p Hp) as (h & E & Eh). rewrite H in Eh. simpl in Eh.
  change (n2b 256) with x00 in Eh. subst h.
  assert (Ec : checksum ([x00] ++ p) = checksum p) by (rewrite !checksum_sum; reflexivity).
  rewrite Ec in E. split; [exact E|].
  intros Hpk. apply (write_wellformed_iff frame p _ Hp E) in Hpk. now apply Hpk.
Qed.

Lemma write_empty frame : WritePacket frame [] = (frame, Some errEmptyPacket).
Proof. reflexivity. Qed.

Lemma write_extends frame p :
  (snd (WritePacket frame p) = None <-> p <> [])
  /\ exists w, fst (WritePacket frame p) = frame ++ w /\ (w = [] <-> p = []).
Proof.
  destruct p as [|x p].
  - split; [split; [discriminate|intros H; now elim H]|].
    exists []. simpl. rewrite app_nil_r. tauto.
  - split; [split; [discriminate|reflexivity]|].
    eexists. split; [reflexivity|]. split; discriminate.
Qed.

Lemma read_n_eofs k fr : ~ In x55 (vis fr) -> read_n k fr = Ret (fr, repeat ([], Some EOF) k).
Proof.
  intros H. induction k as [|k IH]; [reflexivity|]. simpl read_n.
  rewrite ReadPacket_eof by exact H. cbn [bind]. rewrite IH. reflexivity.
Qed.

Lemma stream_read ps w sp k :
  stream ps w ->
  exists fr, read_n (List.length ps + k) (mkSlice w sp)
             = Ret (fr, map (fun p => (p, None)) ps ++ repeat ([], Some EOF) k).
Proof.
  intros H. induction H as [f Hf | f p w ps rest Hf Hp _ IH].
  - exists (mkSlice f sp). simpl. now apply read_n_eofs.
  - destruct IH as [fr IH]. exists fr. simpl.
    rewrite (ReadPacket_packet f p w rest sp Hf Hp). cbn [bind]. rewrite IH. reflexivity.
Qed.

Lemma write_all_app w ps :
  exists w', write_all w ps = w ++ w' /\ (Forall writable ps -> stream ps w').
Proof.
  revert w; induction ps as [|p ps IH]; intros w.
  - exists []. simpl. rewrite app_nil_r. split; [reflexivity|]. intros _. apply stream_end. now intros [].
  - simpl. destruct (write_extends w p) as [_ (wp & E & _)].
    destruct (IH (fst (WritePacket w p))) as (w' & E' & Hs).
    exists (wp ++ w'). rewrite E', E, <- app_assoc. split; [reflexivity|].
    intros HF. inversion HF as [|? ? Hp HF']; subst.
    apply (stream_pkt [] p wp ps w'); [now intros []| |now apply Hs].
    destruct (WritePacket_is_packet w p Hp) as (w2 & E2 & Hw2). rewrite E2 in E. simpl in E.
    apply app_inv_head in E. now subst.
Qed.

Lemma roundtrip ps sp k :
  Forall writable ps ->
  exists fr, read_n (List.length ps + k) (mkSlice (write_all NewPacketWriter ps) sp)
             = Ret (fr, map (fun p => (p, None)) ps ++ repeat ([], Some EOF) k).
Proof.
  intros H. destruct (write_all_app NewPacketWriter ps) as (w & E & Hs). rewrite E.
  apply stream_read. simpl. now apply Hs.
Qed.

Lemma delivered_iff fr fr' p :
  ReadPacket fr = Ret (fr', p, None) <->
  exists f w, vis fr = f ++ w ++ vis fr' /\ filler f /\ is_packet p w /\ spare fr' = spare fr.
Proof.
  split.
  - intros H. destruct (ReadPacket_inv fr) as [[_ E]|(f & d & Hv & Hn & [[_ E]|(payOff & payLen & HP & H3 & HC)])];
      try congruence.
    cbn zeta in HC.
    destruct HC as [[_ E]|[(_ & _ & E)|[(_ & _ & E)|(Hl & Hz & E)]]]; try congruence.
    rewrite E in H. injection H as <- <-. cbn [vis spare].
    destruct (parseHeader_header_for _ _ _ HP) as (h & t & -> & Hhl & Hh).
    rewrite app_length in Hl.
    set (p := firstn payLen t).
    assert (Hpl : List.length p = payLen) by (unfold p; rewrite firstn_length; lia).
    assert (Hex : exists c r, t = p ++ c :: r).
    { destruct (skipn payLen t) as [|c r] eqn:Es.
      - assert (List.length (skipn payLen t) = 0) by now rewrite Es. rewrite skipn_length in H. lia.
      - exists c, r. unfold p. rewrite <- Es. symmetry. apply firstn_skipn. }
    destruct Hex as (c & r & Et).
    assert (E1 : firstn (payOff + payLen + 1) (h ++ t) = h ++ p ++ [c]).
    { rewrite Et. replace (h ++ p ++ c :: r) with ((h ++ p ++ [c]) ++ r) by now rewrite <- !app_assoc.
      apply firstn_app_exact. rewrite !app_length. simpl. lia. }
    assert (E2 : skipn (payOff + payLen + 1) (h ++ t) = r).
    { rewrite Et. replace (h ++ p ++ c :: r) with ((h ++ p ++ [c]) ++ r) by now rewrite <- !app_assoc.
      apply skipn_app_exact. rewrite !app_length. simpl. lia. }
    assert (E3 : firstn payLen (skipn payOff (h ++ t)) = p).
    { rewrite skipn_app_exact by (symmetry; exact Hhl). reflexivity. }
    rewrite E2, E3. exists f, (x55 :: h ++ p ++ [c]).
    split; [rewrite Hv, Et; simpl; now rewrite <- !app_assoc|].
    split; [exact Hn|]. split; [|reflexivity].
    exists h, c. split; [reflexivity|]. split.
    + unfold len. now rewrite Hpl.
    + now rewrite <- E1.
  - intros (f & w & Hv & Hf & Hw & Hs). destruct fr as [v s], fr' as [v' s']. cbn [vis spare] in *. subst.
    now apply ReadPacket_packet.
Qed.

Lemma roundtrip_single_iff p sp :
  (exists fr, ReadPacket (mkSlice (fst (WritePacket NewPacketWriter p)) sp) = Ret (fr, p, None))
  <-> writable p.
Proof.
  split.
  - intros [fr H]. destruct p as [|x p0] eqn:Ep.
    { simpl in H. discriminate H. }
    rewrite <- Ep in *. assert (Hp : p <> []) by (rewrite Ep; discriminate).
    clear x p0 Ep.
    assert (Hcar : (1 <= len p)%N) by (destruct p; [contradiction|]; unfold len; simpl; lia).
    pose proof H as H'. apply delivered_iff in H'. cbn [vis spare] in H'.
    destruct H' as (f & w & Hv & Hf & (h & c & -> & Hh & Hs) & _).
    pose proof (header_for_bound _ _ Hh) as Hb.
    split; [unfold carriable; lia|]. intros H256.
    destruct (write_256 NewPacketWriter p H256) as [E _]. rewrite E in Hv. cbn [fst NewPacketWriter app] in Hv.
    assert (f = []).
    { destruct f as [|b f]; [reflexivity|]. exfalso. simpl in Hv. injection Hv as <- _. apply Hf. now left. }
    subst f. simpl in Hv. injection Hv as Hv.
    assert (Hl := f_equal (@List.length byte) Hv). simpl in Hl. rewrite !app_length in Hl. simpl in Hl.
    destruct Hh as [b Hbn Hn|hi lo Hx].
    + simpl in Hv. injection Hv as <- _. rewrite H256 in Hbn. discriminate Hbn.
    + simpl in Hl. lia.
  - intros H. destruct (WritePacket_is_packet NewPacketWriter p H) as (w & E & Hw). rewrite E. simpl.
    exists (mkSlice [] sp).
    replace w with ([] ++ w ++ []) by (simpl; now rewrite app_nil_r).
    apply ReadPacket_packet; [now intros []|exact Hw].
Qed.

Lemma count_start_occ l : count_start l = count_occ Byte.byte_eq_dec l x55.
Proof.
  induction l as [|x l IH]; [reflexivity|]. cbn [count_start count_occ]. rewrite IH.
  destruct (Byte.byte_eq_dec x x55) as [->|H]; [now rewrite byte_eqb_refl|].
  destruct (byte_eqb x x55) eqn:E; [apply byte_eqb_eq in E; contradiction|reflexivity].
Qed.

(** Every call shortens the frame and uses up a start byte, unless it returns EOF. *)
Lemma ReadPacket_progress fr fr' p e :
  ReadPacket fr = Ret (fr', p, e) ->
  (e = Some EOF /\ fr' = fr /\ p = [] /\ ~ In x55 (vis fr))
  \/ (e <> Some EOF /\ List.length (vis fr') < List.length (vis fr)
      /\ count_start (vis fr') < count_start (vis fr)
      /\ exists pre, vis fr = pre ++ vis fr').
Proof.
  intros H. destruct (ReadPacket_inv fr) as [[Hn E]|(f & d & Hv & Hn & HC)].
  - left. rewrite E in H. injection H as <- <- <-. auto.
  - right.
    assert (Hlen : List.length d < List.length (vis fr)) by (rewrite Hv, app_length; simpl; lia).
    assert (Hcnt : count_start d < count_start (vis fr)).
    { rewrite Hv, count_start_app. cbn [count_start]. rewrite byte_eqb_refl. lia. }
    assert (Hpre : vis fr = (f ++ [x55]) ++ d) by (rewrite Hv, <- app_assoc; reflexivity).
    destruct HC as [[_ E]|(payOff & payLen & _ & _ & HC)].
    { rewrite E in H. injection H as <- <- <-. cbn [vis]. repeat split; eauto. discriminate. }
    cbn zeta in HC. destruct HC as [[_ E]|[(_ & _ & E)|[(_ & _ & E)|(Hl & Hz & E)]]]; try congruence;
      rewrite E in H; injection H as <- <- <-; cbn [vis].
    + repeat split; eauto. discriminate.
    + split; [discriminate|]. rewrite skipn_length.
      pose proof (count_start_skipn (payOff + payLen + 1) d).
      split; [lia|]. split; [lia|].
      exists ((f ++ [x55]) ++ firstn (payOff + payLen + 1) d).
      rewrite <- app_assoc, firstn_skipn. exact Hpre.
Qed.

Lemma reading_terminates n fr fr' rs :
  read_n n fr = Ret (fr', rs) ->
  exists a k, rs = a ++ repeat ([], Some EOF) k
    /\ List.length a + k = n
    /\ Forall (fun r => snd r <> Some EOF) a
    /\ List.length a <= count_start (vis fr).
Proof.
  revert fr fr' rs; induction n as [|n IH]; intros fr fr' rs H.
  - injection H as <- <-. exists [], 0. simpl. repeat split; auto. lia.
  - simpl in H. destruct (ReadPacket fr) as [[[fr1 p] e]|] eqn:E; [|discriminate H]. cbn [bind] in H.
    destruct (ReadPacket_progress _ _ _ _ E) as [(-> & -> & -> & Hn)|(He & Hl & Hc & _)].
    + rewrite (read_n_eofs n fr Hn) in H. cbn [bind] in H. injection H as <- <-.
      exists [], (S n). simpl. repeat split; auto. lia.
    + destruct (read_n n fr1) as [[fr2 rs2]|] eqn:E2; [|discriminate H]. cbn [bind] in H.
      injection H as <- <-. destruct (IH _ _ _ E2) as (a & k & -> & Hlen & Ha & Hb).
      exists ((p, e) :: a), k. simpl. repeat split; [lia| |lia]. constructor; [exact He|exact Ha].
Qed.

Lemma reading_reaches_eof n fr fr' rs :
  read_n n fr = Ret (fr', rs) -> count_start (vis fr) < n ->
  last rs ([], None) = ([], Some EOF).
Proof.
  intros H Hn. destruct (reading_terminates _ _ _ _ H) as (a & k & -> & Hk & _ & Ha).
  destruct k as [|k]; [lia|]. rewrite <- repeat_cons || idtac.
  replace (repeat (([], Some EOF) : bytes * option goerr) (S k))
    with (repeat (([], Some EOF) : bytes * option goerr) k ++ [([], Some EOF)]).
  - now rewrite app_assoc, last_last.
  - clear. induction k as [|k IH]; [reflexivity|]. simpl in *. now rewrite IH.
Qed.

Lemma read_shortens fr fr' p e :
  ReadPacket fr = Ret (fr', p, e) ->
  (e = Some EOF /\ fr' = fr /\ p = [])
  \/ (e <> Some EOF /\ List.length (vis fr') < List.length (vis fr)
      /\ exists pre, vis fr = pre ++ vis fr').
Proof.
  intros H. destruct (ReadPacket_progress _ _ _ _ H) as [(A & B & C & _)|(A & B & _ & C)]; [left|right]; auto.
Qed.

(** [cut_packet d n h t]: the bytes after a start byte, [d], begin with a complete header [h]
    announcing [n] payload bytes but the [t] left cannot hold payload and checksum. *)
Lemma panic_iff fr :
  ReadPacket fr = Panic <->
  exists f h n t, vis fr = f ++ x55 :: h ++ t /\ filler f /\ header_for n h
    /\ 3 <= List.length (h ++ t)
    /\ (len t < n + 1)%N
    /\ ((len t + len (spare fr) < n + 1)%N
        \/ (sum_bytes (h ++ firstn (N.to_nat (n + 1)) (t ++ spare fr)) mod 256 = 0)%N).
Proof.
  split.
  - intros H. destruct (ReadPacket_inv fr) as [[_ E]|(f & d & Hv & Hn & [[_ E]|(payOff & payLen & HP & H3 & HC)])];
      try congruence.
    destruct (parseHeader_header_for _ _ _ HP) as (h & t & -> & Hhl & Hh).
    cbn zeta in HC. rewrite app_length in HC.
    exists f, h, (N.of_nat payLen), t. split; [exact Hv|]. split; [exact Hn|]. split; [exact Hh|].
    split; [exact H3|].
    assert (Hfn : firstn (payOff + payLen + 1) ((h ++ t) ++ spare fr)
                  = h ++ firstn (N.to_nat (N.of_nat payLen + 1)) (t ++ spare fr)).
    { rewrite <- app_assoc, firstn_app, firstn_all2 by lia. f_equal. f_equal. lia. }
    rewrite Hfn in HC.
    destruct HC as [[Hl E]|[(_ & _ & E)|[(Hl & Hz & E)|(_ & _ & E)]]]; try congruence.
    + unfold len. split; [lia|]. left. lia.
    + unfold len. split; [lia|]. right. exact Hz.
  - intros (f & h & n & t & Hv & Hf & Hh & H3 & Hshort & Hwhy).
    pose proof (header_for_parse n h t Hh H3) as HP.
    destruct fr as [v sp]. cbn [vis spare] in *. subst v.
    rewrite ReadPacket_start by exact Hf.
    pose proof (parsePacket_spec (h ++ t) sp) as HS. rewrite HP in HS. cbn zeta in HS.
    assert (Hfn : firstn (List.length h + N.to_nat n + 1) ((h ++ t) ++ sp)
                  = h ++ firstn (N.to_nat (n + 1)) (t ++ sp)).
    { rewrite <- app_assoc, firstn_app, firstn_all2 by lia. f_equal. f_equal. lia. }
    rewrite Hfn in HS. rewrite app_length in HS. unfold len in *.
    destruct (Nat.ltb_spec (List.length h + List.length t + List.length sp) (List.length h + N.to_nat n + 1)) as [Hlt|Hge].
    + rewrite HS. reflexivity.
    + destruct Hwhy as [Hc|Hz]; [lia|].
      rewrite Hz in HS. cbn [N.eqb] in HS. rewrite HS. cbn [bind].
      rewrite slice_from_panic; [reflexivity|]. cbn [vis]. rewrite app_length. lia.
Qed.

Lemma truncated_never_delivered fr f h n t :
  vis fr = f ++ x55 :: h ++ t -> filler f -> header_for n h -> (len t < n + 1)%N ->
  ReadPacket fr = Panic
  \/ (exists fr', ReadPacket fr = Ret (fr', [], Some errInvalidChecksum))
  \/ (List.length (h ++ t) < 3 /\ exists fr', ReadPacket fr = Ret (fr', [], Some UnexpectedEOF)).
Proof.
  intros Hv Hf Hh Hl. destruct fr as [v sp]. cbn [vis spare] in *. subst v.
  rewrite ReadPacket_start by exact Hf.
  pose proof (parsePacket_spec (h ++ t) sp) as HS.
  destruct (le_lt_dec 3 (List.length (h ++ t))) as [H3|H3].
  - rewrite (header_for_parse n h t Hh H3) in HS. cbn zeta in HS.
    destruct (Nat.ltb (List.length (h ++ t) + List.length sp) (List.length h + N.to_nat n + 1)).
    { left. rewrite HS. reflexivity. }
    destruct (N.eqb_spec (sum_bytes (firstn (List.length h + N.to_nat n + 1) ((h ++ t) ++ sp)) mod 256) 0).
    + left. rewrite HS. cbn [bind]. rewrite slice_from_panic; [reflexivity|].
      cbn [vis]. rewrite app_length. unfold len in Hl. lia.
    + right; left. rewrite HS. eexists. reflexivity.
  - right; right. split; [exact H3|].
    destruct (parseHeader_cases (h ++ t)) as [(a & b & _ & Hx & _)|[HP _]]; [lia|].
    rewrite HP in HS. rewrite HS. eexists. reflexivity.
Qed.

Lemma unexpected_eof_iff fr :
  (exists fr' p, ReadPacket fr = Ret (fr', p, Some UnexpectedEOF)) <->
  exists f d, vis fr = f ++ x55 :: d /\ filler f /\ List.length d < 3.
Proof.
  split.
  - intros (fr' & p & H).
    destruct (ReadPacket_inv fr) as [[_ E]|(f & d & Hv & Hn & [[Hl E]|(payOff & payLen & HP & H3 & HC)])].
    + congruence.
    + exists f, d. auto.
    + cbn zeta in HC. destruct HC as [[_ E]|[(_ & _ & E)|[(_ & _ & E)|(_ & _ & E)]]]; try congruence;
      rewrite E in H; discriminate H.
  - intros (f & d & Hv & Hf & Hl). destruct fr as [v sp]. cbn [vis] in Hv. subst v.
    rewrite ReadPacket_start by exact Hf.
    pose proof (parsePacket_spec d sp) as HS.
    destruct (parseHeader_cases d) as [(a & b & _ & Hx & _)|[HP _]]; [lia|].
    rewrite HP in HS. rewrite HS. do 2 eexists. reflexivity.
Qed.

Lemma resync fr fr1 f bad p w rest q e :
  vis fr = f ++ x55 :: bad ++ w ++ rest -> filler f -> filler bad -> is_packet p w ->
  ReadPacket fr = Ret (fr1, q, Some e) ->
  q = [] /\ ReadPacket fr1 = Ret (mkSlice rest (spare fr), p, None).
Proof.
  intros Hv Hf Hb Hw H. destruct fr as [v sp]. cbn [vis spare] in *. subst v.
  rewrite ReadPacket_start in H by exact Hf.
  destruct (parsePacket (mkSlice (bad ++ w ++ rest) sp)) as [[[n pl] [er|]]|]; cbn [bind] in H; try discriminate H.
  - injection H as <- <- _. split; [reflexivity|]. now apply ReadPacket_packet.
  - destruct (slice_from (mkSlice (bad ++ w ++ rest) sp) n); cbn [bind] in H; discriminate H.
Qed.
