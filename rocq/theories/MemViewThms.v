(** Lemmas for C103: the viewer with its real buffers. *)
From Coq Require Import ZifyBool ZifyNat ZifyN Lia.
From Verif Require Import Base BaseFacts GoTypes Types Payload Lingo Command Handlers Packet SpecPacket Hid SpecHid Trace Server Mem MemFacts MemView
  SpecWire SpecDamage SpecLoss HidThms LossThms ProtocolProps.
#[local] Opaque std_registry.

(** ** The viewer as that of the other properties *)

Lemma view_loop_mem_sim rt reg defs pol fuel : forall mode q n,
  exists spares, forall spares', (forall k, n <= k -> spares' k = spares k) ->
    view_loop_mem fuel rt reg defs pol mode q = view_loop fuel rt reg defs spares' n mode q.
Proof.
  induction fuel as [|fuel IH]; intros mode q n; [exists (fun _ => []); reflexivity|].
  cbn [view_loop_mem view_loop]. destruct (Head q) as [head|]; [|exists (fun _ => []); reflexivity]. cbv zeta.
  set (rd := fun q0 : Queue => _).
  pose proof (ReadFrame_mem_ok (S (List.length (q_all q))) defs pol rd new_mem q new_mem_ok) as F. unfold frame_result in F.
  destruct (ReadFrame_dev (S (List.length (q_all q))) defs rd [] q) as [[[q' r]|]|]; cbn [io_bind].
  2:{ rewrite F. exists (fun _ => []). reflexivity. }
  2:{ rewrite F. exists (fun _ => []). reflexivity. }
  destruct F as (m' & r' & -> & _ & _ & RR). cbn [io_bind done].
  destruct r as [f|e], r' as [s|e']; try contradiction.
  - destruct RR as [_ <-]. unfold as_slice.
    destruct (frame_packets rt reg mode (mkSlice (load (m_heap m') s) (behind (m_heap m') s))) as [[[mode' evs]|]|] eqn:FP.
    + destruct (IH mode' q' (S n)) as (sp & H).
      exists (fun k => if k =? n then behind (m_heap m') s else sp k). intros sp' A.
      rewrite (A n (le_n _)), Nat.eqb_refl, FP. cbn [io_bind]. rewrite (H sp'); [reflexivity|].
      intros k K. rewrite A by lia. destruct (Nat.eqb_spec k n); [lia|reflexivity].
    + exists (fun _ => behind (m_heap m') s). intros sp' A. rewrite (A n (le_n _)), FP. reflexivity.
    + exists (fun _ => behind (m_heap m') s). intros sp' A. rewrite (A n (le_n _)), FP. reflexivity.
  - subst e'. destruct (IH mode q' (S n)) as (sp & H). exists sp. intros sp' A.
    rewrite (H sp'); [reflexivity|]. intros k K. apply A. lia.
Qed.

Lemma dumpTrace_mem_sim rt reg defs pol r : exists spares, dumpTrace_mem rt reg defs pol r = dumpTrace rt reg defs spares r.
Proof.
  unfold dumpTrace_mem, dumpTrace. destruct (load_trace (S (List.length (rd_tokens r))) r NewQueue) as [[[q|e]|]|]; cbn [io_bind];
    try (exists (fun _ => []); reflexivity).
  destruct (view_loop_mem_sim rt reg defs pol (S (List.length (q_all q))) false q 0) as (sp & H).
  exists sp. rewrite (H sp); [reflexivity|auto].
Qed.

(** ** What lies behind a frame *)

Definition clean_tail (h : heap) (b : hbuf) : Prop := exists k, skipn (bf_len b) (array h (bf_arr b)) = repeat x00 k.

Lemma skipn_zeros n k : skipn n (repeat x00 k) = repeat x00 (k - n).
Proof. revert k; induction n as [|n IH]; intros [|k]; cbn [skipn repeat Nat.sub]; auto. Qed.

Lemma write_clean pol h b p h' b' : buf_ok h b -> clean_tail h b -> buf_Write pol h b p = (h', b') -> clean_tail h' b'.
Proof.
  intros [B1 B2] (k & Z) E. unfold buf_Write in E.
  destruct (Nat.leb_spec (bf_len b + List.length p) (List.length (array h (bf_arr b)))) as [F|F]; injection E as <- <-; unfold clean_tail; cbn [bf_arr bf_len].
  - rewrite array_store_same by exact B1. exists (k - List.length p). rewrite <- skipn_zeros, <- Z, skipn_skipn'.
    unfold overwrite. rewrite app_assoc.
    assert (L : List.length (firstn (bf_len b) (array h (bf_arr b)) ++ p) = bf_len b + List.length p) by (rewrite app_length, firstn_length; lia).
    rewrite <- L at 1. rewrite skipn_app, skipn_all, Nat.sub_diag. reflexivity.
  - rewrite array_new.
    assert (L : List.length (firstn (bf_len b) (array h (bf_arr b)) ++ p) = bf_len b + List.length p) by (rewrite app_length, firstn_length; lia).
    eexists. rewrite <- L at 1. rewrite skipn_app, skipn_all, Nat.sub_diag. reflexivity.
Qed.

Lemma loop_clean defs pol more o fuel : forall rs m m' d' s, mem_ok m -> clean_tail (m_heap m) (m_buf m) ->
  Forall sized rs -> Exists ends rs ->
  match rs with [] => True | r :: rest => (bf_len (m_buf m) = 0 \/ ~ starts r) /\ Forall (fun r => ~ starts r) rest end ->
  ReadFrame_mem_loop fuel defs pol wire_read m (map as_read rs ++ more, o) = done (m', d', inl s) ->
  s = buf_Bytes (m_buf m') /\ clean_tail (m_heap m') (m_buf m').
Proof.
  induction fuel as [|fuel IH]; intros rs m m' d' s M Z SZ EX ST E; [discriminate|].
  destruct rs as [|r rs]; [inversion EX|]. destruct ST as [ST NS].
  inversion SZ as [|? ? S1 S2]; subst.
  cbn [ReadFrame_mem_loop map app wire_read fst snd] in E. unfold done at 1 in E. cbn [io_bind] in E.
  pose proof M as ((B1 & B2) & (C1 & C2) & R1 & R2 & D1 & D2 & D3).
  destruct (ReadReport_mem_eq (m_heap m) (m_raw m) (as_read r) R1 R2) as (h1 & rep & E0 & L & O & A & R). rewrite E0 in E.
  assert (RB : ReadReport (as_read r) = inl r) by exact (f_equal (hd (inl r)) (read_back [r] (Forall_cons _ S1 (Forall_nil _)))).
  rewrite RB in R.
  assert (M1 : mem_ok (mkMem h1 (m_buf m) (m_raw m) (m_cert m))).
  { unfold mem_ok, buf_ok. cbn [m_heap m_buf m_raw m_cert]. rewrite L, !O by congruence. auto 10. }
  assert (Z1 : clean_tail h1 (m_buf m)) by (unfold clean_tail; rewrite O by congruence; exact Z).
  destruct rep as [p|e]; [|contradiction]. destruct R as (E1 & E2 & _). rewrite E1, E2 in E.
  destruct (Find defs (Z.of_N (b2n (rep_ID r)))) as [def|e]; [|discriminate].
  destruct (_ <? 0)%Z; [discriminate|].
  set (data := load h1 _) in E. clearbody data.
  assert (WR : forall b, b = m_buf m \/ (b = buf_Reset (m_buf m) /\ bf_len (m_buf m) = 0) ->
            let m2 := (let '(h2, b2) := buf_Write pol h1 b data in mkMem h2 b2 (m_raw m) (m_cert m)) in
            mem_ok m2 /\ clean_tail (m_heap m2) (m_buf m2)).
  { intros b Hb. destruct (buf_Write pol h1 b data) as [h2 b2] eqn:W. cbn zeta. split.
    - refine (proj1 (write_step pol m h1 b data h2 b2 M L O A _ W)). destruct Hb as [->|[-> _]]; auto.
    - cbn [m_heap m_buf]. destruct M1 as (BO & _). cbn [m_heap m_buf] in BO.
      destruct Hb as [->|[-> X]].
      + exact (write_clean _ _ _ _ _ _ BO Z1 W).
      + apply (write_clean _ _ _ _ _ _ (buf_Reset_ok _ _ BO)) with (2 := W).
        destruct Z1 as (k & Z1). exists k. cbn [buf_Reset bf_len bf_arr]. rewrite X in Z1. exact Z1. }
  assert (EXR : ~ ends r -> Exists ends rs) by (intros N; inversion EX; subst; [contradiction|assumption]).
  assert (NXT : match rs with [] => True | r0 :: rest => ~ starts r0 /\ Forall (fun r => ~ starts r) rest end)
    by (destruct rs; [exact I|now inversion NS]).
  assert (GO : forall m2, mem_ok m2 -> clean_tail (m_heap m2) (m_buf m2) -> ~ ends r ->
             ReadFrame_mem_loop fuel defs pol wire_read m2 (map as_read rs ++ more, o) = done (m', d', inl s) ->
             s = buf_Bytes (m_buf m') /\ clean_tail (m_heap m') (m_buf m')).
  { intros m2 M2 Z2 NE E2'. apply (IH rs m2 m' d' s M2 Z2 S2 (EXR NE)); [|exact E2'].
    destruct rs; [exact I|]. destruct NXT. split; [now right|assumption]. }
  clear IH EX EXR NXT.
  assert (LK : forall x, b2n (rep_LinkControl r) = b2n x <-> rep_LinkControl r = x) by (intros x; split; [apply b2n_inj|now intros ->]).
  destruct (N.eqb_spec (b2n (rep_LinkControl r)) LinkControlDone) as [LD|LD].
  { apply (LK x00) in LD. destruct ST as [ST|ST]; [|exfalso; apply ST; now left].
    destruct (WR (buf_Reset (m_buf m)) (or_intror (conj eq_refl ST))) as [P1 P2]. unfold done in E. injection E as <- _ <-. auto. }
  destruct (N.eqb_spec (b2n (rep_LinkControl r)) LinkControlMoreToFollow) as [LM|LM].
  { apply (LK x02) in LM. destruct ST as [ST|ST]; [|exfalso; apply ST; now right].
    destruct (WR (buf_Reset (m_buf m)) (or_intror (conj eq_refl ST))) as [P1 P2].
    apply (GO _ P1 P2); [|exact E]. unfold ends. rewrite LM. intros [X|X]; discriminate. }
  destruct (N.eqb_spec (b2n (rep_LinkControl r)) (N.lor LinkControlContinue LinkControlMoreToFollow)) as [LB|LB].
  { apply (LK x03) in LB. destruct (WR (m_buf m) (or_introl eq_refl)) as [P1 P2]. apply (GO _ P1 P2); [|exact E].
    unfold ends. rewrite LB. intros [X|X]; discriminate. }
  destruct (N.eqb_spec (b2n (rep_LinkControl r)) LinkControlContinue) as [LC|LC].
  { destruct (WR (m_buf m) (or_introl eq_refl)) as [P1 P2]. unfold done in E. injection E as <- _ <-. auto. }
  apply (GO _ M1 Z1); [|exact E]. unfold ends. intros [X|X]; [now apply LD, (LK x00)|now apply LC, (LK x01)].
Qed.

Lemma frame_clean defs pol rs f more o fuel : carries defs rs f -> List.length rs + List.length more < fuel ->
  exists m k, ReadFrame_mem fuel defs pol wire_read new_mem ((map as_read rs ++ more)%list, o) = done (m, (more, o), inl (buf_Bytes (m_buf m)))
    /\ as_slice (m_heap m) (buf_Bytes (m_buf m)) = mkSlice f (repeat x00 k).
Proof.
  intros C L. pose proof C as [cs (first & rest & E & ST & NS) (before & last & Eb & EL & N) Z _ _].
  pose proof (carries_live _ _ _ C) as LV. rewrite Eb in LV. apply Forall_app in LV as [LV LL].
  assert (LVS : Forall (live defs) (before ++ [last])) by (apply Forall_app; auto).
  destruct (read_frame defs [] before last (map ReadReport more) LVS N EL) as (g & FO & R).
  rewrite <- Eb in FO, R. rewrite (frame_of_fun _ _ _ _ FO (carries_frame defs [] rs f C)) in R.
  rewrite <- (read_back rs Z), <- map_app in R.
  assert (L' : List.length (map as_read rs ++ more) < fuel) by (rewrite app_length, map_length; exact L).
  pose proof (wire_frame defs fuel (map as_read rs) more o _ _ L' R) as D.
  pose proof (ReadFrame_mem_ok fuel defs pol wire_read new_mem ((map as_read rs ++ more)%list, o) new_mem_ok) as F.
  unfold frame_result in F. rewrite D in F. unfold done in F at 1. destruct F as (m & r & F & _ & _ & RR).
  destruct r as [s|e]; [|contradiction]. destruct RR as [-> RL]. exists m.
  unfold ReadFrame_mem in F.
  destruct (loop_clean defs pol more o fuel rs _ m (more, o) (buf_Bytes (m_buf m)) new_mem_ok
              (ex_intro _ 0 eq_refl) Z) with (3 := F) as [_ (k & K)].
  - rewrite Eb. apply Exists_exists. exists last. split; [apply in_or_app; right; now left|exact EL].
  - subst rs. split; [now left|exact NS].
  - exists k. split; [exact F|]. unfold as_slice. rewrite RL. f_equal. unfold behind. cbn [buf_Bytes rf_off rf_len rf_arr Nat.add].
    exact K.
Qed.
