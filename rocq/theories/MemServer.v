(** The server over the transport with its real buffers, and the examples for it. *)
From Verif Require Import Base BaseFacts GoTypes Types Payload Lingo Command SpecCommand CommandFacts CommandThms
  Handlers Packet Hid Server Mem MemFacts SpecMem MemThms.

(** ** The real buffers are one of the cases of [hid_transport] *)

Section Sim.
  Context {S D : Type} (rt : bool) (reg : registry) (clock : nat -> datetime) (dev : DeviceGeneral S)
    (f : nat) (defs : list ReportDef) (pol : nat -> nat -> nat -> nat)
    (rd : D -> io (D * raw_read)) (wd : D -> bytes -> outcome (D * (nat * option goerr))).

  Definition real := mem_transport f defs pol rd wd.
  Definition any spares := hid_transport f defs spares rd wd.

  Lemma write_replies_sim spares cmds : forall mode m d n,
    match write_replies rt (any spares) mode cmds (d, n) with
    | None => write_replies rt real mode cmds (m, d) = None
    | Some Panic => write_replies rt real mode cmds (m, d) = Some Panic
    | Some (Ret (mode', (d', n'))) => n' = n /\ write_replies rt real mode cmds (m, d) = done (mode', (m, d'))
    end.
  Proof.
    induction cmds as [|c cmds IH]; intros mode m d n; cbn [write_replies].
    - cbn. auto.
    - destruct (MarshalCmd rt mode c) as [[mode' res]|]; cbn [io_bind]; [|reflexivity].
      destruct (WritePacket NewPacketWriter (match res with Ok b => b | Err _ => [] end)) as [outFrame ?].
      cbn [any real hid_transport mem_transport tp_WriteFrame fst snd].
      destruct (WriteFrame_dev defs wd d outFrame) as [[[d' e]|]|]; cbn [io_bind done]; try reflexivity.
      apply IH.
  Qed.

  Lemma process_frame_sim spares st m d n fr :
    match process_frame rt reg clock dev (any spares) st (d, n) fr with
    | None => process_frame rt reg clock dev real st (m, d) fr = None
    | Some Panic => process_frame rt reg clock dev real st (m, d) fr = Some Panic
    | Some (Ret (st', (d', n'))) => n' = n /\ process_frame rt reg clock dev real st (m, d) fr = done (st', (m, d'))
    end.
  Proof.
    unfold process_frame. destruct (frame_packets rt reg (sv_mode st) fr) as [[[mode1 evs]|]|]; cbn [io_bind]; try reflexivity.
    destruct (handle_all reg clock dev (inCmds evs) (sv_h st)) as [[h1 u]|]; cbn [io_bind]; [|reflexivity].
    pose proof (write_replies_sim spares (outCmds (h_log (sv_h st)) (h_log h1)) mode1 m d n) as W.
    destruct (write_replies rt (any spares) mode1 _ (d, n)) as [[[mode2 [d' n']]|]|]; cbn [io_bind].
    - destruct W as [-> ->]. cbn [io_bind done]. auto.
    - rewrite W. reflexivity.
    - rewrite W. reflexivity.
  Qed.

  Lemma processFrames_loop_sim fuel : forall st m d n, mem_ok m ->
    exists spares, forall spares', (forall k, n <= k -> spares' k = spares k) ->
      same_end (fun w v => snd w = fst v)
        (processFrames_loop fuel rt reg clock dev real st (m, d))
        (processFrames_loop fuel rt reg clock dev (any spares') st (d, n)).
  Proof.
    induction fuel as [|fuel IH]; intros st m d n M.
    - exists (fun _ => []). intros sp' _. exact I.
    - pose proof (ReadFrame_mem_ok f defs pol rd m d M) as F. unfold frame_result in F.
      assert (STOP : forall (P : (nat -> bytes) -> Prop), (forall sp, P sp) ->
                exists spares, forall spares', (forall k, n <= k -> spares' k = spares k) -> P spares').
      { intros P HP. exists (fun _ => []). intros sp' _. apply HP. }
      destruct (ReadFrame_dev f defs rd [] d) as [[[d' r]|]|] eqn:R.
      2:{ apply STOP. intros sp. cbn [processFrames_loop real any mem_transport hid_transport tp_ReadFrame fst snd].
          rewrite F, R. exact I. }
      2:{ apply STOP. intros sp. cbn [processFrames_loop real any mem_transport hid_transport tp_ReadFrame fst snd].
          rewrite F, R. exact I. }
      destruct F as (m' & r' & E & M' & _ & RR).
      destruct r as [fr|e], r' as [s|e']; try contradiction.
      + destruct RR as [_ L].
        pose proof (fun spares => process_frame_sim spares st m' d' (Datatypes.S n) (as_slice (m_heap m') s)) as PS.
        pose proof (PS (fun _ => [])) as PS0.
        destruct (process_frame rt reg clock dev real st (m', d') (as_slice (m_heap m') s)) as [[[st' [m2 d2]]|]|] eqn:PF.
        * assert (m2 = m').
          { destruct (process_frame rt reg clock dev (any (fun _ => [])) st (d', Datatypes.S n) _) as [[[st1 [d1 n1]]|]|];
              [destruct PS0 as [_ X]; unfold done in X; injection X as _ -> _; reflexivity|discriminate PS0|discriminate PS0]. }
          subst m2. destruct (IH st' m' d2 (Datatypes.S n) M') as [sp1 H1].
          exists (fun k => if k =? n then behind (m_heap m') s else sp1 k). intros sp' Hsp.
          cbn [processFrames_loop]. unfold real at 1, any at 1. cbn [mem_transport hid_transport tp_ReadFrame fst snd].
          rewrite E, R. cbn [io_bind done]. rewrite (Hsp n) by lia. rewrite Nat.eqb_refl.
          fold real. fold (any sp'). rewrite <- L. fold (as_slice (m_heap m') s). rewrite PF. cbn [io_bind].
          specialize (PS sp').
          destruct (process_frame rt reg clock dev (any sp') st (d', Datatypes.S n) (as_slice (m_heap m') s)) as [[[st1 [d1 n1]]|]|];
            [destruct PS as [-> X]; unfold done in X; injection X as <- <-|discriminate PS|discriminate PS].
          cbn [io_bind]. apply H1. intros k Hk. rewrite Hsp by lia. destruct (Nat.eqb_spec k n); [lia|reflexivity].
        * exists (fun k => if k =? n then behind (m_heap m') s else []). intros sp' Hsp.
          cbn [processFrames_loop]. unfold real at 1, any at 1. cbn [mem_transport hid_transport tp_ReadFrame fst snd].
          rewrite E, R. cbn [io_bind done]. rewrite (Hsp n) by lia. rewrite Nat.eqb_refl.
          fold real. fold (any sp'). rewrite <- L. fold (as_slice (m_heap m') s). rewrite PF. cbn [io_bind].
          specialize (PS sp').
          destruct (process_frame rt reg clock dev (any sp') st (d', Datatypes.S n) (as_slice (m_heap m') s)) as [[[st1 [d1 n1]]|]|];
            [destruct PS as [_ X]; discriminate X|exact I|discriminate PS].
        * exists (fun k => if k =? n then behind (m_heap m') s else []). intros sp' Hsp.
          cbn [processFrames_loop]. unfold real at 1, any at 1. cbn [mem_transport hid_transport tp_ReadFrame fst snd].
          rewrite E, R. cbn [io_bind done]. rewrite (Hsp n) by lia. rewrite Nat.eqb_refl.
          fold real. fold (any sp'). rewrite <- L. fold (as_slice (m_heap m') s). rewrite PF. cbn [io_bind].
          specialize (PS sp').
          destruct (process_frame rt reg clock dev (any sp') st (d', Datatypes.S n) (as_slice (m_heap m') s)) as [[[st1 [d1 n1]]|]|];
            [destruct PS as [_ X]; discriminate X|discriminate PS|exact I].
      + subst e'. destruct (IH st m' d' (Datatypes.S n) M') as [sp1 H1].
        exists sp1. intros sp' Hsp.
        cbn [processFrames_loop]. unfold real at 1, any at 1. cbn [mem_transport hid_transport tp_ReadFrame fst snd].
        rewrite E, R. cbn [io_bind done].
        assert (G : same_end (fun w v => snd w = fst v) (processFrames_loop fuel rt reg clock dev real st (m', d'))
                  (processFrames_loop fuel rt reg clock dev (any sp') st (d', Datatypes.S n)))
          by (apply H1; intros k Hk; apply Hsp; lia).
        destruct e; try exact G. cbn. auto.
  Qed.

  Lemma processFrames_sim fuel h m d : mem_ok m ->
    exists spares, same_end (fun w v => snd w = fst v)
      (processFrames fuel rt reg clock dev real h (m, d))
      (processFrames fuel rt reg clock dev (any spares) h (d, 0)).
  Proof.
    intros M. destruct (processFrames_loop_sim fuel (mkServer false h) m d 0 M) as [sp H].
    exists sp. apply H. auto.
  Qed.
End Sim.

(** ** Overwriting *)

Lemma nth_firstn {A} (d : A) n l i : i < n -> nth i (firstn n l) d = nth i l d.
Proof. revert l i; induction n as [|n IH]; intros [|x l] [|i] H; cbn; try lia; try reflexivity. apply IH. lia. Qed.

Lemma nth_skipn {A} (d : A) n l i : nth i (skipn n l) d = nth (n + i) l d.
Proof. revert l; induction n as [|n IH]; intros [|x l]; cbn; try reflexivity; [destruct i; reflexivity|apply IH]. Qed.

(** Reading a frame that comes in one report. *)
Lemma read_one {D} fuel defs pol (rd : D -> io (D * raw_read)) m d d' def g :
  mem_ok m -> Find defs (Z.of_N (b2n (z2b (def_ID def)))) = inl def ->
  rd d = done (d', (one_report def g, None)) ->
  g <> [] -> List.length g + 2 <= maxRawSize -> (Z.of_nat (List.length g) <= MaxPayload def)%Z ->
  exists h1 m', List.length h1 = List.length (m_heap m) /\ (forall a, a <> m_raw m -> array h1 a = array (m_heap m) a)
    /\ m' = (let '(h2, b2) := buf_Write pol h1 (buf_Reset (m_buf m)) g in mkMem h2 b2 (m_raw m) (m_cert m))
    /\ ReadFrame_mem (S fuel) defs pol rd m d = done (m', d', inl (buf_Bytes (m_buf m'))).
Proof.
  intros M F R N L P. destruct M as ((B1 & B2) & (C1 & C2) & R1 & R2 & D1 & D2 & D3).
  unfold ReadFrame_mem. cbn [ReadFrame_mem_loop m_heap m_buf m_raw m_cert]. rewrite R. cbn [io_bind done].
  destruct (ReadReport_mem_eq (m_heap m) (m_raw m) (one_report def g, None) R1 R2) as (h1 & rep & E & Lh & O & A & Q).
  rewrite E. unfold ReadReport, one_report in Q.
  rewrite firstn_all2 in Q by (cbn [List.length]; lia).
  destruct g as [|b g]; [congruence|].
  destruct rep as [p|e]; [|contradiction]. cbn [rep_ID rep_LinkControl rep_Data] in Q.
  destruct Q as (E1 & E2 & E3 & E4 & E5 & E6). rewrite E1, E2, F. cbn zeta.
  assert (MIN : Z.min (Z.of_nat (rf_len (rr_Data p))) (MaxPayload def) = Z.of_nat (List.length (b :: g))) by (rewrite E5; lia).
  rewrite MIN. destruct (Z.of_nat (List.length (b :: g)) <? 0)%Z eqn:Z0; [lia|].
  rewrite Nat2Z.id, <- E5. destruct p as [pi pl [pa po pn]]. cbn [rr_ID rr_LinkControl rr_Data rf_arr rf_off rf_len] in *.
  rewrite E6. change (b2n x00 =? LinkControlDone)%N with true. cbv iota.
  exists h1. eexists. split; [exact Lh|]. split; [exact O|]. split; [reflexivity|]. reflexivity.
Qed.

(** When it fits the decoder's buffer, it replaces the bytes at the same places; behind it lies
    what was there before. *)
Lemma read_overwrites {D} fuel defs pol (rd : D -> io (D * raw_read)) m d d' def g :
  mem_ok m -> Find defs (Z.of_N (b2n (z2b (def_ID def)))) = inl def ->
  rd d = done (d', (one_report def g, None)) ->
  g <> [] -> List.length g + 2 <= maxRawSize -> (Z.of_nat (List.length g) <= MaxPayload def)%Z ->
  exists m' s', ReadFrame_mem (S fuel) defs pol rd m d = done (m', d', inl s')
    /\ load (m_heap m') s' = g
    /\ (List.length g <= List.length (array (m_heap m) (bf_arr (m_buf m))) ->
          behind (m_heap m') s' = skipn (List.length g) (array (m_heap m) (bf_arr (m_buf m)))
          /\ forall s, in_frame m s -> forall i, i < rf_len s ->
               nth i (load (m_heap m') s) x00
               = if rf_off s + i <? List.length g then nth (rf_off s + i) g x00 else nth i (load (m_heap m) s) x00)
    /\ (List.length (array (m_heap m) (bf_arr (m_buf m))) < List.length g ->
          forall s, in_frame m s -> load (m_heap m') s = load (m_heap m) s).
Proof.
  intros M F R N L P. pose proof M as ((B1 & B2) & (C1 & C2) & R1 & R2 & D1 & D2 & D3).
  destruct (read_one fuel defs pol rd m d d' def g M F R N L P) as (h1 & m' & Lh & O & Em & E).
  exists m', (buf_Bytes (m_buf m')). split; [exact E|].
  assert (A1 : array h1 (bf_arr (m_buf m)) = array (m_heap m) (bf_arr (m_buf m))) by (apply O; congruence).
  unfold buf_Write in Em. cbn [bf_arr bf_len buf_Reset] in Em. rewrite A1 in Em. cbn [Nat.add] in Em.
  destruct (Nat.leb_spec (List.length g) (List.length (array (m_heap m) (bf_arr (m_buf m))))) as [Fit|Fit]; subst m';
    cbn [m_heap m_buf bf_arr bf_len].
  - assert (A2 : array (store h1 (bf_arr (m_buf m)) 0 g) (bf_arr (m_buf m))
                 = g ++ skipn (List.length g) (array (m_heap m) (bf_arr (m_buf m)))).
    { rewrite array_store_same by lia. rewrite A1. reflexivity. }
    split; [unfold load, buf_Bytes; cbn [rf_arr rf_off rf_len skipn]; cbn [bf_arr bf_len]; rewrite A2; apply firstn_app_exact|].
    split; [|lia]. intros _. split.
    + unfold behind, buf_Bytes. cbn [rf_arr rf_off rf_len bf_arr bf_len Nat.add]. rewrite A2.
      rewrite skipn_app, skipn_all, Nat.sub_diag. reflexivity.
    + intros s [S1 S2] i Hi. unfold load. rewrite S1, A2. rewrite !nth_firstn by exact Hi. rewrite !nth_skipn.
      destruct (Nat.ltb_spec (rf_off s + i) (List.length g)) as [H|H].
      * apply app_nth1, H.
      * rewrite app_nth2 by exact H. rewrite nth_skipn. f_equal. lia.
  - split; [unfold load, buf_Bytes; cbn [rf_arr rf_off rf_len skipn bf_arr bf_len]; rewrite array_new; cbn [firstn app]; apply firstn_app_exact|].
    split; [lia|]. intros _ s [S1 S2]. apply load_same_array. rewrite S1. rewrite array_app by lia. exact A1.
Qed.

(** A report's data lies in the reader's buffer. *)
Lemma report_overwritten h raw r1 r2 h1 p h2 x :
  raw < List.length h -> List.length (array h raw) = maxRawSize ->
  ReadReport_mem h raw r1 = (h1, inl p) -> ReadReport_mem h1 raw r2 = (h2, x) ->
  let got := firstn maxRawSize (fst r2) in
  forall i, i < rf_len (rr_Data p) ->
    nth i (load h2 (rr_Data p)) x00
    = if 2 + i <? List.length got then nth (2 + i) got x00 else nth i (load h1 (rr_Data p)) x00.
Proof.
  intros Hr Hl E1 E2 got i Hi.
  destruct (ReadReport_mem_eq h raw r1 Hr Hl) as (h1' & rep & E & L & O & A & Q). rewrite E in E1.
  injection E1 as -> ->. destruct (ReadReport r1) as [q|]; [|contradiction]. destruct Q as (_ & _ & Q3 & Q4 & _).
  assert (h2 = store h1 raw 0 got).
  { unfold ReadReport_mem in E2. fold got in E2. destruct (snd r2); [|destruct (List.length got <? 3)]; injection E2 as <- _; reflexivity. }
  subst h2. unfold load. rewrite Q3, Q4. rewrite array_store_same by lia.
  rewrite !nth_firstn by exact Hi. rewrite !nth_skipn. unfold overwrite. cbn [firstn app Nat.add].
  change (S (S i)) with (2 + i).
  destruct (Nat.ltb_spec (2 + i) (List.length got)) as [H|H].
  - apply app_nth1, H.
  - rewrite app_nth2 by exact H. rewrite nth_skipn. f_equal. lia.
Qed.

(** ** What the device keeps *)

Lemma same_refl v : same_but_string v v.
Proof. unfold same_but_string. destruct (tv_token v); auto. Qed.

Lemma slices_refl p : same_but_slices p p.
Proof.
  destruct p; cbn [same_but_slices]; try reflexivity.
  induction l as [|v l IH]; [constructor|apply Forall2_cons; [apply same_refl|exact IH]].
Qed.

Lemma steps_lengths allowed m1 m2 a : mem_ok m1 -> steps allowed m1 m2 -> a < List.length (m_heap m1) ->
  List.length (array (m_heap m2) a) = List.length (array (m_heap m1) a).
Proof.
  intros M S Ha.
  cut (List.length (m_heap m1) <= List.length (m_heap m2)
       /\ List.length (array (m_heap m2) a) = List.length (array (m_heap m1) a)); [tauto|].
  induction S as [|k ma mb Sa IH _ S]; [auto|]. destruct IH as [I1 I2].
  destruct (step_ok k ma mb (steps_ok _ _ _ M Sa) S) as [_ A]. pose proof (la_heap _ _ _ A). split; [lia|].
  rewrite (la_lengths _ _ _ A) by lia. exact I2.
Qed.

Lemma kept_tokens m h' pkt vs l m2 :
  let m1 := mkMem h' (m_buf m) (m_raw m) (m_cert m) in
  mem_ok m -> rf_arr pkt < List.length (m_heap m) -> in_array (m_heap m) pkt -> extends (m_heap m) h' ->
  map (deref h') l = vs -> Forall2 (token_refs (m_heap m) h' pkt) vs l -> steps anything m1 m2 -> mem_ok m1 ->
  Forall2 same_but_string vs (map (deref (m_heap m2)) l).
Proof.
  intros m1 M R I X D F S M1. subst vs. 
  assert (LEN : forall a, a < List.length h' -> List.length (array (m_heap m2) a) = List.length (array h' a)).
  { intros a Ha. exact (steps_lengths anything m1 m2 a M1 S Ha). }
  induction l as [|k l IH]; [constructor|]. cbn [map] in *. inversion F as [|? ? ? ? F1 F2]; subst.
  apply Forall2_cons; [|apply IH; exact F2].
  unfold token_refs in F1. destruct (is_protocol (deref h' k)) eqn:P.
  - destruct F1 as (i & s & Er & (W1 & W2 & W3) & B).
    unfold deref. rewrite Er. rewrite !B. unfold same_but_string. cbn [tv_token tv_type tv_sub map hd].
    split; [reflexivity|]. split; [|auto].
    pose proof (extends_length _ _ X).
    assert (Is : in_array h' s).
    { unfold in_array in *. rewrite W1, (extends_array _ _ _ X) by exact R. lia. }
    rewrite (load_length _ _ Is). rewrite load_length; [reflexivity|]. unfold in_array in *. rewrite LEN by lia. exact Is.
  - assert (E : deref (m_heap m2) k = deref h' k).
    { unfold deref. f_equal. apply map_ext_in. intros s Hs. rewrite Forall_forall in F1.
      apply (foreign_lasts m1 m2 s M1); [|exact S]. exact (fresh_foreign m h' s M (F1 s Hs)). }
    rewrite E. apply same_refl.
Qed.

Lemma kept_payloads rt reg mode m pkt h' mode' kc err p m2 :
  let m1 := mkMem h' (m_buf m) (m_raw m) (m_cert m) in
  reachable m -> rf_arr pkt < List.length (m_heap m) -> in_array (m_heap m) pkt ->
  UnmarshalCmd_mem rt reg mode (m_heap m) pkt = Ret (h', (mode', kc, err)) ->
  kc_payload kc = Some p -> steps anything m1 m2 ->
  same_but_slices (deref_payload h' p) (deref_payload (m_heap m2) p).
Proof.
  intros m1 RM R I U K S. pose proof (reachable_ok m RM) as M.
  pose proof (UnmarshalCmd_mem_ok rt reg mode (m_heap m) pkt I R) as O.
  assert (M1 : mem_ok m1) by (refine (proj1 (step_ok Decoding m m1 M _)); exact (step_decode rt reg mode m pkt h' _ U)).
  destruct (UnmarshalCmd rt reg mode (load (m_heap m) pkt)) as [[[e' c] er]|]; [|rewrite U in O; discriminate O].
  destruct O as (h1 & kc1 & U1 & X & Dc & PR). rewrite U in U1. injection U1 as <- <- <- <-.
  rewrite K in PR. unfold deref_command in Dc. rewrite K in Dc. subst c. cbn [cmd_payload] in PR.
  destruct p as [k|l].
  - cbn [deref_payload] in *. unfold payload_refs in PR.
    assert (FR : Forall (fresh (m_heap m) h') (kp_refs k) -> deref (m_heap m2) k = deref h' k).
    { intros FF. unfold deref. f_equal. apply map_ext_in. intros s Hs. rewrite Forall_forall in FF.
      apply (foreign_lasts m1 m2 s M1); [|exact S]. exact (fresh_foreign m h' s M (FF s Hs)). }
    destruct (deref h' k) eqn:E; try contradiction; try (rewrite (FR PR); apply slices_refl; fail).
    destruct PR as (s & Er & (W1 & W2 & W3) & B).
    assert (E2 : deref (m_heap m2) k = PUnknown (load (m_heap m2) s)) by (unfold deref; rewrite Er, B; reflexivity).
    assert (E1 : PUnknown l = PUnknown (load h' s)) by (rewrite <- E; unfold deref; rewrite Er, B; reflexivity).
    rewrite E2. injection E1 as ->. cbn [same_but_slices].
    pose proof (extends_length _ _ X).
    assert (Is : in_array h' s).
    { unfold in_array in *. rewrite W1, (extends_array _ _ _ X) by exact R. lia. }
    rewrite (load_length _ _ Is). rewrite load_length; [reflexivity|].
    unfold in_array in *. rewrite (steps_lengths anything m1 m2 (rf_arr s) M1 S) by (cbn [m_heap m1]; lia). exact Is.
  - cbn [deref_payload payload_refs] in *. exact (kept_tokens m h' pkt _ l m2 M R I X eq_refl PR S M1).
Qed.

(** Until the next frame is read, everything decoded from a frame stays as it was. *)
Lemma payload_until_read rt reg mode m pkt h' mode' kc err m2 :
  let m1 := mkMem h' (m_buf m) (m_raw m) (m_cert m) in
  reachable m -> in_frame m pkt ->
  UnmarshalCmd_mem rt reg mode (m_heap m) pkt = Ret (h', (mode', kc, err)) -> steps no_reading m1 m2 ->
  deref_command (m_heap m2) kc = deref_command h' kc.
Proof.
  intros m1 RM [F1 F2] U S. pose proof (reachable_ok m RM) as M.
  pose proof M as ((B1 & B2) & _).
  assert (R : rf_arr pkt < List.length (m_heap m)) by congruence.
  assert (I : in_array (m_heap m) pkt) by (unfold in_array; rewrite F1; lia).
  pose proof (UnmarshalCmd_mem_ok rt reg mode (m_heap m) pkt I R) as O.
  assert (M1 : mem_ok m1) by (refine (proj1 (step_ok Decoding m m1 M _)); exact (step_decode rt reg mode m pkt h' _ U)).
  destruct (UnmarshalCmd rt reg mode (load (m_heap m) pkt)) as [[[e' c] er]|]; [|rewrite U in O; discriminate O].
  destruct O as (h1 & kc1 & U1 & X & Dc & PR). rewrite U in U1. injection U1 as <- <- <- <-.
  assert (SA : steps anything m1 m2).
  { clear -S. induction S as [|k ma mb _ IH _ S]; [constructor|]. exact (steps_more _ _ k ma mb IH Logic.I S). }
  assert (FRESH : forall s, fresh (m_heap m) h' s -> load (m_heap m2) s = load h' s)
    by (intros s Fs; exact (foreign_lasts m1 m2 s M1 (fresh_foreign m h' s M Fs) SA)).
  assert (INSIDE : forall s, within pkt s -> load (m_heap m2) s = load h' s).
  { intros s (W1 & W2 & W3). apply (frame_lasts m1 m2 s M1); [|exact S]. unfold in_frame, m1. cbn [m_buf]. split; [congruence|lia]. }
  unfold deref_command. f_equal. destruct (kc_payload kc) as [p|] eqn:K; [|reflexivity]. f_equal.
  unfold deref_command in Dc. rewrite K in Dc. subst c. cbn [cmd_payload] in PR.
  assert (TOK : forall v k, token_refs (m_heap m) h' pkt v k -> deref (m_heap m2) k = deref h' k).
  { intros v k T. unfold deref. f_equal. apply map_ext_in. intros s Hs. unfold token_refs in T. destruct (is_protocol v).
    - destruct T as (i & s' & Er & W & _). rewrite Er in Hs. destruct Hs as [<-|[]]. apply INSIDE, W.
    - rewrite Forall_forall in T. apply FRESH, T, Hs. }
  destruct p as [k|l]; cbn [deref_payload] in *.
  - assert (ALL : forall s, In s (kp_refs k) -> load (m_heap m2) s = load h' s).
    { intros s Hs. unfold payload_refs in PR.
      destruct (deref h' k); try contradiction; try (rewrite Forall_forall in PR; apply FRESH, PR, Hs).
      destruct PR as (s' & Er & W & _). rewrite Er in Hs. destruct Hs as [<-|[]]. apply INSIDE, W. }
    unfold deref. f_equal. apply map_ext_in, ALL.
  - f_equal. cbn [payload_refs] in PR.
    assert (G : forall vs l', Forall2 (token_refs (m_heap m) h' pkt) vs l' -> map (deref (m_heap m2)) l' = map (deref h') l').
    { intros vs l' T. induction T as [|v k vs' l'' H _ IH]; [reflexivity|]. cbn [map]. rewrite (TOK v k H), IH. reflexivity. }
    exact (G _ l PR).
Qed.

(** ** The certificate *)

Lemma cert_section_value pol m section data : mem_ok m ->
  let m' := cert_section pol m section data in
  load (m_heap m') (cert_given m')
  = (if (section =? 0)%N then [] else load (m_heap m) (cert_given m)) ++ data.
Proof.
  intros M m'. subst m'. unfold cert_section.
  set (b := if (section =? 0)%N then buf_Reset (m_cert m) else m_cert m).
  pose proof M as (_ & (C1 & C2) & _).
  assert (Bo : buf_ok (m_heap m) b).
  { unfold buf_ok, b. destruct (section =? 0)%N; cbn [buf_Reset bf_arr bf_len]; split; lia. }
  destruct (buf_Write pol (m_heap m) b data) as [h2 b2] eqn:W.
  destruct (buf_Write_spec pol _ _ _ _ _ Bo W) as (_ & W2 & _).
  unfold cert_given. cbn [m_heap m_cert]. rewrite load_Bytes, W2. f_equal. unfold b.
  destruct (section =? 0)%N; reflexivity.
Qed.
