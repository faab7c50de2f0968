(** Facts about arrays, buffers and the decoder in memory. *)
From Verif Require Import Base BaseFacts GoTypes Types Payload Lingo Command Handlers Packet Hid Server Mem.

(** ** Arrays *)

Lemma update_length h a l : List.length (update h a l) = List.length h.
Proof. revert a; induction h as [|x h IH]; intros [|a]; cbn; auto. Qed.

Lemma array_update_same h a l : a < List.length h -> array (update h a l) a = l.
Proof.
  unfold array. revert a; induction h as [|x h IH]; intros [|a] H; cbn in *; try lia; [reflexivity|].
  apply IH; lia.
Qed.

Lemma array_update_other h a b l : a <> b -> array (update h a l) b = array h b.
Proof.
  unfold array. revert a b; induction h as [|x h IH]; intros [|a] [|b] H; cbn; try reflexivity; try lia.
  apply IH; lia.
Qed.

Lemma overwrite_length l off p : off + List.length p <= List.length l -> List.length (overwrite l off p) = List.length l.
Proof. intros H. unfold overwrite. rewrite !app_length, firstn_length, skipn_length. lia. Qed.

Lemma store_length h a off p : List.length (store h a off p) = List.length h.
Proof. apply update_length. Qed.

Lemma array_store_other h a b off p : a <> b -> array (store h a off p) b = array h b.
Proof. apply array_update_other. Qed.

Lemma array_store_same h a off p : a < List.length h -> array (store h a off p) a = overwrite (array h a) off p.
Proof. apply array_update_same. Qed.

Lemma array_app h x a : a < List.length h -> array (h ++ x) a = array h a.
Proof. intros H. unfold array. apply app_nth1, H. Qed.

Lemma array_new h l : array (h ++ [l]) (List.length h) = l.
Proof. unfold array. rewrite app_nth2 by lia. rewrite Nat.sub_diag. reflexivity. Qed.

Lemma load_same_array h h' s : array h' (rf_arr s) = array h (rf_arr s) -> load h' s = load h s.
Proof. unfold load. intros ->. reflexivity. Qed.

(** ** bytes.Buffer *)

(** The contents of a buffer. *)
Definition contents (h : heap) (b : hbuf) : bytes := firstn (bf_len b) (array h (bf_arr b)).
Definition buf_ok (h : heap) (b : hbuf) : Prop :=
  bf_arr b < List.length h /\ bf_len b <= List.length (array h (bf_arr b)).

Lemma load_Bytes h b : load h (buf_Bytes b) = contents h b.
Proof. reflexivity. Qed.

Lemma buf_Reset_ok h b : buf_ok h b -> buf_ok h (buf_Reset b).
Proof. intros [H1 H2]. split; cbn; [exact H1|lia]. Qed.

Lemma contents_Reset h b : contents h (buf_Reset b) = [].
Proof. reflexivity. Qed.

Lemma contents_length h b : buf_ok h b -> List.length (contents h b) = bf_len b.
Proof. intros [_ H]. unfold contents. rewrite firstn_length. lia. Qed.

Lemma firstn_app_exact {A} (a b : list A) : firstn (List.length a) (a ++ b) = a.
Proof. rewrite firstn_app, Nat.sub_diag, firstn_O, app_nil_r, firstn_all. reflexivity. Qed.

Lemma buf_Write_spec pol h b p h' b' :
  buf_ok h b -> buf_Write pol h b p = (h', b') ->
  buf_ok h' b' /\ contents h' b' = contents h b ++ p
  /\ bf_len b' = bf_len b + List.length p
  /\ List.length h <= List.length h'
  /\ (forall a, a < List.length h -> a <> bf_arr b -> array h' a = array h a)
  /\ (forall a, a < List.length h -> List.length (array h' a) = List.length (array h a))
  /\ (bf_arr b' = bf_arr b \/ bf_arr b' = List.length h)
  /\ firstn (bf_len b) (array h' (bf_arr b)) = contents h b.
Proof.
  intros [H1 H2] E. unfold buf_Write in E.
  destruct (Nat.leb_spec (bf_len b + List.length p) (List.length (array h (bf_arr b)))) as [F|F].
  - injection E as <- <-. cbn [bf_arr bf_len].
    assert (A : array (store h (bf_arr b) (bf_len b) p) (bf_arr b) = overwrite (array h (bf_arr b)) (bf_len b) p)
      by (apply array_store_same; exact H1).
    split; [|split; [|split; [|split; [|split; [|split; [|split]]]]]].
    + split; cbn [bf_arr bf_len]; rewrite ?store_length, ?A, ?overwrite_length; lia.
    + unfold contents. cbn [bf_arr bf_len]. rewrite A. unfold overwrite. rewrite app_assoc.
      rewrite <- (firstn_app_exact (firstn (bf_len b) (array h (bf_arr b)) ++ p)
                    (skipn (bf_len b + List.length p) (array h (bf_arr b)))) at 2.
      f_equal. rewrite app_length, firstn_length. lia.
    + reflexivity.
    + rewrite store_length. lia.
    + intros a Ha Hb. apply array_store_other. congruence.
    + intros a Ha. destruct (Nat.eq_dec (bf_arr b) a) as [<-|N].
      * rewrite A, overwrite_length; lia.
      * rewrite array_store_other by exact N. reflexivity.
    + left; reflexivity.
    + rewrite A. unfold overwrite, contents. rewrite firstn_app.
      rewrite firstn_firstn, Nat.min_id, firstn_length.
      replace (bf_len b - Nat.min (bf_len b) (List.length (array h (bf_arr b)))) with 0 by lia.
      rewrite firstn_O, app_nil_r. reflexivity.
  - injection E as <- <-. cbn [bf_arr bf_len].
    set (l := (firstn (bf_len b) (array h (bf_arr b)) ++ p) ++ _).
    assert (A : array (h ++ [l]) (List.length h) = l) by apply array_new.
    assert (L : List.length (firstn (bf_len b) (array h (bf_arr b)) ++ p) = bf_len b + List.length p)
      by (rewrite app_length, firstn_length; lia).
    split; [|split; [|split; [|split; [|split; [|split; [|split]]]]]].
    + split; cbn [bf_arr bf_len]; rewrite ?app_length; cbn; [lia|]. rewrite A. unfold l. rewrite app_length, L. lia.
    + unfold contents. cbn [bf_arr bf_len]. rewrite A. unfold l. rewrite <- L. apply firstn_app_exact.
    + reflexivity.
    + rewrite app_length. lia.
    + intros a Ha _. apply array_app, Ha.
    + intros a Ha. rewrite array_app by exact Ha. reflexivity.
    + right; reflexivity.
    + rewrite array_app by exact H1. reflexivity.
Qed.

(** ** The memory of a session *)

Definition mem_ok (m : mem) : Prop :=
  buf_ok (m_heap m) (m_buf m) /\ buf_ok (m_heap m) (m_cert m)
  /\ m_raw m < List.length (m_heap m) /\ List.length (array (m_heap m) (m_raw m)) = maxRawSize
  /\ bf_arr (m_buf m) <> m_raw m /\ bf_arr (m_cert m) <> m_raw m /\ bf_arr (m_buf m) <> bf_arr (m_cert m).

Lemma new_mem_ok : mem_ok new_mem.
Proof. unfold mem_ok, buf_ok, new_mem, array; cbn [m_heap m_buf m_cert m_raw bf_arr bf_len nth List.length].
  rewrite repeat_length. repeat split; lia. Qed.

(** What a frame read may change: the reader's buffer and the decoder's buffer, which may move to
    a new array. *)
Definition frame_change (m m' : mem) : Prop :=
  m_raw m' = m_raw m /\ m_cert m' = m_cert m /\ List.length (m_heap m) <= List.length (m_heap m')
  /\ (bf_arr (m_buf m') = bf_arr (m_buf m) \/ List.length (m_heap m) <= bf_arr (m_buf m'))
  /\ (forall a, a < List.length (m_heap m) -> a <> m_raw m -> a <> bf_arr (m_buf m) ->
        array (m_heap m') a = array (m_heap m) a)
  /\ (forall a, a < List.length (m_heap m) -> List.length (array (m_heap m') a) = List.length (array (m_heap m) a)).

Lemma frame_change_refl m : frame_change m m.
Proof. unfold frame_change. repeat split; auto. Qed.

Lemma frame_change_trans m1 m2 m3 : frame_change m1 m2 -> frame_change m2 m3 -> frame_change m1 m3.
Proof.
  intros (A1 & A2 & A3 & A4 & A5 & A6) (B1 & B2 & B3 & B4 & B5 & B6).
  split; [congruence|]. split; [congruence|]. split; [lia|]. split; [destruct A4, B4; lia|]. split.
  - intros a Ha Hr Hb. rewrite B5; [apply A5; auto|lia|congruence|destruct A4; lia].
  - intros a Ha. rewrite B6, A6 by lia. reflexivity.
Qed.

(** ** Reading a report *)

Lemma ReadReport_mem_eq h raw r :
  raw < List.length h -> List.length (array h raw) = maxRawSize ->
  exists h' rep, ReadReport_mem h raw r = (h', rep)
    /\ List.length h' = List.length h /\ (forall a, a <> raw -> array h' a = array h a)
    /\ List.length (array h' raw) = maxRawSize
    /\ match rep, ReadReport r with
       | inl p, inl q => rr_ID p = rep_ID q /\ rr_LinkControl p = rep_LinkControl q
                         /\ rf_arr (rr_Data p) = raw /\ rf_off (rr_Data p) = 2
                         /\ rf_len (rr_Data p) = List.length (rep_Data q)
                         /\ load h' (rr_Data p) = rep_Data q
       | inr e, inr e' => e = e'
       | _, _ => False
       end.
Proof.
  intros Hr Hl. destruct r as [got err]. unfold ReadReport_mem, ReadReport. cbn [fst snd].
  set (g := firstn maxRawSize got).
  assert (G : List.length g <= maxRawSize) by (unfold g; rewrite firstn_length; lia).
  assert (A : array (store h raw 0 g) raw = g ++ skipn (List.length g) (array h raw)).
  { rewrite array_store_same by exact Hr. reflexivity. }
  assert (L : List.length (array (store h raw 0 g) raw) = maxRawSize).
  { rewrite A, app_length, skipn_length. lia. }
  assert (O : forall a, a <> raw -> array (store h raw 0 g) a = array h a)
    by (intros a Ha; apply array_store_other; congruence).
  destruct err as [e|].
  - eexists _, _. split; [reflexivity|]. rewrite store_length. auto.
  - clearbody g. destruct g as [|b0 [|b1 [|b2 g]]];
      try (eexists _, _; split; [reflexivity|]; rewrite store_length; auto; fail).
    eexists _, _. split; [reflexivity|]. rewrite store_length. split; [reflexivity|]. split; [exact O|].
    split; [exact L|]. cbn [List.length Nat.ltb Nat.leb].
    cbn [rr_ID rr_LinkControl rr_Data rf_arr rf_off rf_len rep_ID rep_LinkControl rep_Data].
    unfold load. cbn [rf_arr rf_off rf_len]. rewrite A. cbn [app nth skipn].
    repeat split. cbn [List.length]. rewrite Nat.sub_succ, Nat.sub_succ, Nat.sub_0_r.
    cbn [firstn]. f_equal. apply firstn_app_exact.
Qed.

(** ** Reading a frame *)

(** What the read of a frame gives, against what it gives on values. *)
Definition frame_result {D} (m0 : mem) (x : io (mem * D * (ref + goerr))) (y : io (D * (bytes + goerr))) : Prop :=
  match y with
  | None => x = None
  | Some Panic => x = Some Panic
  | Some (Ret (d', r)) =>
      exists m' r', x = done (m', d', r') /\ mem_ok m' /\ frame_change m0 m'
        /\ match r, r' with
           | inl f, inl s => s = buf_Bytes (m_buf m') /\ load (m_heap m') s = f
           | inr e, inr e' => e = e'
           | _, _ => False
           end
  end.

Lemma frame_result_trans {D} m0 m1 (x : io (mem * D * (ref + goerr))) y :
  frame_change m0 m1 -> frame_result m1 x y -> frame_result m0 x y.
Proof.
  unfold frame_result. destruct y as [[[d' r]|]|]; try tauto.
  intros C (m' & r' & E & O & F & R). exists m', r'. split; [exact E|]. split; [exact O|].
  split; [exact (frame_change_trans _ _ _ C F)|exact R].
Qed.

Lemma write_step pol m h1 b reportData h2 b2 :
  mem_ok m -> List.length h1 = List.length (m_heap m) ->
  (forall a, a <> m_raw m -> array h1 a = array (m_heap m) a) ->
  List.length (array h1 (m_raw m)) = maxRawSize ->
  b = m_buf m \/ b = buf_Reset (m_buf m) ->
  buf_Write pol h1 b reportData = (h2, b2) ->
  let m2 := mkMem h2 b2 (m_raw m) (m_cert m) in
  mem_ok m2 /\ frame_change m m2 /\ contents h2 b2 = contents (m_heap m) b ++ reportData.
Proof.
  intros ((B1 & B2) & (C1 & C2) & R1 & R2 & D1 & D2 & D3) L O A Hb W. cbn zeta.
  assert (Ba : bf_arr b = bf_arr (m_buf m)) by (destruct Hb as [-> | ->]; reflexivity).
  assert (Bo : buf_ok h1 b).
  { unfold buf_ok. rewrite Ba, O by congruence. rewrite L. split; [exact B1|].
    destruct Hb as [-> | ->]; cbn; lia. }
  destruct (buf_Write_spec pol h1 b reportData h2 b2 Bo W) as (W1 & W2 & W3 & W4 & W5 & W6 & W7 & _).
  rewrite Ba in *. rewrite L in *.
  split; [|split].
  - unfold mem_ok. cbn [m_heap m_buf m_raw m_cert]. split; [exact W1|]. split.
    { split; [lia|]. rewrite W5 by congruence. rewrite O by congruence. exact C2. }
    split; [lia|]. split; [rewrite W6 by exact R1; exact A|].
    destruct W7 as [-> | ->]; repeat split; try congruence; lia.
  - unfold frame_change. cbn [m_heap m_buf m_raw m_cert]. split; [reflexivity|]. split; [reflexivity|].
    split; [exact W4|]. split; [destruct W7; [left|right]; lia|]. split.
    + intros a Ha Hr Hb'. rewrite W5 by assumption. apply O, Hr.
    + intros a Ha. rewrite W6 by exact Ha. destruct (Nat.eq_dec a (m_raw m)) as [->|N].
      * congruence.
      * rewrite O by exact N. reflexivity.
  - rewrite W2. f_equal. unfold contents. rewrite Ba, O by congruence. reflexivity.
Qed.

Lemma ReadFrame_mem_loop_ok {D} fuel defs pol (rd : D -> io (D * raw_read)) : forall m d,
  mem_ok m ->
  frame_result m (ReadFrame_mem_loop fuel defs pol rd m d)
                 (ReadFrame_dev fuel defs rd (contents (m_heap m) (m_buf m)) d).
Proof.
  induction fuel as [|fuel IH]; intros m d M; [reflexivity|].
  cbn [ReadFrame_mem_loop ReadFrame_dev].
  destruct (rd d) as [[[d' got]|]|]; cbn [io_bind]; [|reflexivity|reflexivity].
  pose proof M as ((B1 & B2) & (C1 & C2) & R1 & R2 & D1 & D2 & D3).
  destruct (ReadReport_mem_eq (m_heap m) (m_raw m) got R1 R2) as (h1 & rep & E & L & O & A & R). rewrite E.
  assert (M1 : mem_ok (mkMem h1 (m_buf m) (m_raw m) (m_cert m)) /\ frame_change m (mkMem h1 (m_buf m) (m_raw m) (m_cert m))).
  { split.
    - unfold mem_ok, buf_ok. cbn [m_heap m_buf m_raw m_cert]. rewrite L, !O by congruence. auto 10.
    - unfold frame_change. cbn [m_heap m_buf m_raw m_cert]. rewrite L. repeat split; auto.
      intros a Ha. destruct (Nat.eq_dec a (m_raw m)) as [->|N]; [congruence|rewrite O by exact N; reflexivity]. }
  destruct M1 as [M1 F1].
  destruct rep as [p|e], (ReadReport got) as [q|e']; try contradiction.
  2:{ subst e'. cbn [frame_result done]. eexists _, _. split; [reflexivity|]. auto. }
  destruct R as (E1 & E2 & E3 & E4 & E5 & E6). rewrite <- E1, <- E2, E5.
  destruct (Find defs (Z.of_N (b2n (rr_ID p)))) as [def|e].
  2:{ cbn [frame_result done]. eexists _, _. split; [reflexivity|]. auto. }
  destruct (Z.min (Z.of_nat (List.length (rep_Data q))) (MaxPayload def) <? 0)%Z eqn:N; [reflexivity|].
  set (n := Z.min (Z.of_nat (List.length (rep_Data q))) (MaxPayload def)) in *.
  assert (LD : load h1 (mkRef (rf_arr (rr_Data p)) (rf_off (rr_Data p)) (Z.to_nat n)) = firstn (Z.to_nat n) (rep_Data q)).
  { rewrite <- E6. unfold load. cbn [rf_arr rf_off rf_len]. rewrite firstn_firstn. f_equal. rewrite E5. lia. }
  rewrite LD. set (reportData := firstn (Z.to_nat n) (rep_Data q)). clearbody reportData.
  assert (WR : forall b, b = m_buf m \/ b = buf_Reset (m_buf m) ->
            let m2 := (let '(h2, b2) := buf_Write pol h1 b reportData in mkMem h2 b2 (m_raw m) (m_cert m)) in
            mem_ok m2 /\ frame_change m m2 /\ contents (m_heap m2) (m_buf m2) = contents (m_heap m) b ++ reportData).
  { intros b Hb. destruct (buf_Write pol h1 b reportData) as [h2 b2] eqn:W.
    exact (write_step pol m h1 b reportData h2 b2 M L O A Hb W). }
  destruct (WR (m_buf m) (or_introl eq_refl)) as (P1 & P2 & P3).
  destruct (WR (buf_Reset (m_buf m)) (or_intror eq_refl)) as (Q1 & Q2 & Q3).
  clear WR. rewrite contents_Reset in Q3. cbn [app] in Q3.
  set (mp := let '(h2, b2) := buf_Write pol h1 (m_buf m) reportData in mkMem h2 b2 (m_raw m) (m_cert m)) in *.
  set (mq := let '(h2, b2) := buf_Write pol h1 (buf_Reset (m_buf m)) reportData in mkMem h2 b2 (m_raw m) (m_cert m)) in *.
  destruct (b2n (rr_LinkControl p) =? LinkControlDone)%N.
  { cbn [frame_result done]. exists mq, (inl (buf_Bytes (m_buf mq))). split; [reflexivity|]. rewrite load_Bytes. auto. }
  destruct (b2n (rr_LinkControl p) =? LinkControlMoreToFollow)%N.
  { apply (frame_result_trans m mq _ _ Q2). rewrite <- Q3. apply IH, Q1. }
  destruct (b2n (rr_LinkControl p) =? N.lor LinkControlContinue LinkControlMoreToFollow)%N.
  { apply (frame_result_trans m mp _ _ P2). rewrite <- P3. apply IH, P1. }
  destruct (b2n (rr_LinkControl p) =? LinkControlContinue)%N.
  { cbn [frame_result done]. exists mp, (inl (buf_Bytes (m_buf mp))). split; [reflexivity|]. rewrite load_Bytes. auto. }
  apply (frame_result_trans m _ _ _ F1).
  replace (contents (m_heap m) (m_buf m)) with (contents h1 (m_buf m))
    by (unfold contents; rewrite O by congruence; reflexivity).
  apply (IH (mkMem h1 (m_buf m) (m_raw m) (m_cert m)) d' M1).
Qed.

Lemma ReadFrame_mem_ok {D} fuel defs pol (rd : D -> io (D * raw_read)) m d :
  mem_ok m ->
  frame_result m (ReadFrame_mem fuel defs pol rd m d) (ReadFrame_dev fuel defs rd [] d).
Proof.
  intros M. unfold ReadFrame_mem.
  set (m0 := mkMem (m_heap m) (buf_Reset (m_buf m)) (m_raw m) (m_cert m)).
  assert (M0 : mem_ok m0).
  { destruct M as (B & C & R1 & R2 & D1 & D2 & D3). unfold mem_ok, m0. cbn [m_heap m_buf m_raw m_cert].
    split; [exact (buf_Reset_ok _ _ B)|auto 10]. }
  apply (frame_result_trans m m0).
  - unfold frame_change, m0. cbn. repeat split; auto.
  - exact (ReadFrame_mem_loop_ok fuel defs pol rd m0 d M0).
Qed.

(** ** Packets *)

(** A slice within its array. *)
Definition in_array (h : heap) (s : ref) : Prop := rf_off s + rf_len s <= List.length (array h (rf_arr s)).

Lemma load_length h s : in_array h s -> List.length (load h s) = rf_len s.
Proof. unfold in_array, load. rewrite firstn_length, skipn_length. lia. Qed.

Lemma skipn_skipn' {A} a b (l : list A) : skipn a (skipn b l) = skipn (b + a) l.
Proof. revert l; induction b as [|b IH]; intros [|x l]; cbn; [reflexivity|reflexivity|apply skipn_nil|apply IH]. Qed.

Lemma as_slice_all h s : in_array h s -> vis (as_slice h s) ++ spare (as_slice h s) = skipn (rf_off s) (array h (rf_arr s)).
Proof.
  intros H. cbn [vis spare as_slice]. unfold load, behind. rewrite <- skipn_skipn'. apply firstn_skipn.
Qed.

Definition same_result {A B} (R : A -> B -> Prop) (x : outcome A) (y : outcome B) : Prop :=
  match x, y with
  | Ret a, Ret b => R a b
  | Panic, Panic => True
  | _, _ => False
  end.

Lemma ref_from_ok h s n : in_array h s ->
  same_result (fun s' x => as_slice h s' = x /\ in_array h s' /\ rf_arr s' = rf_arr s /\ rf_off s <= rf_off s'
                           /\ rf_off s' + rf_len s' = rf_off s + rf_len s)
              (ref_from s n) (slice_from (as_slice h s) n).
Proof.
  intros H. unfold ref_from, slice_from. cbn [vis spare as_slice]. rewrite (load_length h s H).
  destruct (Nat.leb_spec n (rf_len s)) as [L|L]; cbn [same_result]; [|exact I].
  split; [|unfold in_array in *; cbn [rf_arr rf_off rf_len]; repeat split; lia].
  unfold as_slice. f_equal.
  - unfold load. cbn [rf_arr rf_off rf_len]. rewrite skipn_firstn_comm. rewrite skipn_skipn'. reflexivity.
  - unfold behind. cbn [rf_arr rf_off rf_len]. f_equal. lia.
Qed.

Lemma ref_to_ok h s n : in_array h s ->
  same_result (fun s' x => as_slice h s' = x /\ in_array h s' /\ s' = mkRef (rf_arr s) (rf_off s) n)
              (ref_to h s n) (slice_to (as_slice h s) n).
Proof.
  intros H. unfold ref_to, slice_to. rewrite (as_slice_all h s H). rewrite skipn_length.
  destruct (Nat.leb_spec n (List.length (array h (rf_arr s)) - rf_off s)) as [L|L]; cbn [same_result]; [|exact I].
  split; [|unfold in_array in *; cbn [rf_arr rf_off rf_len]; split; [lia|reflexivity]].
  unfold as_slice. f_equal. unfold behind. cbn [rf_arr rf_off rf_len]. rewrite skipn_skipn'. reflexivity.
Qed.

Lemma nilref_load h : load h nilref = [].
Proof. reflexivity. Qed.

Lemma nilref_in h : in_array h nilref.
Proof. unfold in_array. cbn. lia. Qed.

Lemma parsePacket_mem_ok h s : in_array h s ->
  same_result (fun x y => let '(n, p, e) := x in let '(n', q, e') := y in
                 n = n' /\ load h p = q /\ e = e' /\ (e = None -> rf_arr p = rf_arr s /\ in_array h p
                   /\ rf_off s <= rf_off p /\ rf_off p + rf_len p <= rf_off s + n))
              (parsePacket_mem h s) (parsePacket (as_slice h s)).
Proof.
  intros H. unfold parsePacket_mem, parsePacket. cbn [vis as_slice].
  destruct (parseHeader (load h s)) as [[payOff payLen]|e].
  2:{ cbn. repeat split; discriminate. }
  cbn zeta. pose proof (ref_to_ok h s (payOff + payLen + 1) H) as T.
  destruct (ref_to h s (payOff + payLen + 1)) as [p|], (slice_to (as_slice h s) (payOff + payLen + 1)) as [q|];
    cbn [same_result] in T; try contradiction; [|exact I].
  destruct T as (T1 & T2 & T3). cbn [bind]. subst q. cbn [vis as_slice].
  rewrite (load_length h p T2).
  destruct (rf_len p <? payOff + payLen + 1).
  { cbn. repeat split; discriminate. }
  destruct (negb (checksum (load h p) =? 0)%N).
  { cbn. repeat split; discriminate. }
  cbn [same_result]. split; [reflexivity|]. subst p. cbn [rf_arr rf_off rf_len] in *.
  split; [|split; [reflexivity|intros _; unfold in_array in *; cbn [rf_arr rf_off rf_len] in *; repeat split; lia]].
  unfold load. cbn [rf_arr rf_off rf_len]. rewrite skipn_firstn_comm, firstn_firstn, skipn_skipn'.
  f_equal. lia.
Qed.

Lemma ReadPacket_mem_ok h s : in_array h s ->
  same_result (fun x y => let '(s', p, e) := x in let '(f, q, e') := y in
                 as_slice h s' = f /\ load h p = q /\ e = e' /\ in_array h s' /\ rf_arr s' = rf_arr s
                 /\ (e = None -> rf_arr p = rf_arr s /\ in_array h p))
              (ReadPacket_mem h s) (ReadPacket (as_slice h s)).
Proof.
  intros H. unfold ReadPacket_mem, ReadPacket. cbn [vis as_slice].
  destruct (index_byte PacketStartByte (load h s)) as [i|].
  2:{ cbn [same_result]. rewrite nilref_load. repeat split; auto; discriminate. }
  pose proof (ref_from_ok h s (i + 1) H) as T.
  destruct (ref_from s (i + 1)) as [s1|], (slice_from (as_slice h s) (i + 1)) as [f1|];
    cbn [same_result] in T; try contradiction; [|exact I].
  destruct T as (T1 & T2 & T3 & T4 & T5). cbn [bind]. subst f1.
  pose proof (parsePacket_mem_ok h s1 T2) as P.
  destruct (parsePacket_mem h s1) as [[[n p] e]|], (parsePacket (as_slice h s1)) as [[[n' q] e']|];
    cbn [same_result] in P; try contradiction; [|exact I].
  destruct P as (P1 & P2 & P3 & P4). cbn [bind]. subst n' e'.
  destruct e as [e|].
  { cbn [same_result]. rewrite nilref_load. repeat split; auto; discriminate. }
  specialize (P4 eq_refl). destruct P4 as (P4 & P5 & _).
  pose proof (ref_from_ok h s1 n T2) as Q.
  destruct (ref_from s1 n) as [s2|], (slice_from (as_slice h s1) n) as [f2|];
    cbn [same_result] in Q; try contradiction; [|exact I].
  destruct Q as (Q1 & Q2 & Q3 & _). cbn [bind same_result].
  repeat split; auto; congruence.
Qed.
