From Coq Require Import ZifyBool ZifyNat ZifyN Sorted.
From Verif Require Import Base BaseFacts PayloadFacts Hid SpecHid HidFacts.
Ltac Zify.zify_post_hook ::= Z.div_mod_to_equations.

(** ** WriteFrame *)

Lemma offer_cons {W} (wr : W -> Report -> W * option goerr) s r rs :
  offer wr s (r :: rs)
  = let '(s', e) := wr s r in match e with Some _ => (s', e) | None => offer wr s' rs end.
Proof. reflexivity. Qed.

Lemma choice_fits defs dir n d :
  choice defs dir n d -> fits dir n d \/ last_of defs dir d /\ Forall (fun x => ~ fits dir n x) defs.
Proof. intros [(a & b & _ & F & _)|(N & L)]; auto. Qed.

Lemma skipn_skipn' {A} n : forall m (l : list A), skipn n (skipn m l) = skipn (m + n) l.
Proof.
  induction m as [|m IH]; intros l; [reflexivity|]. destruct l; cbn; [now rewrite skipn_nil|apply IH].
Qed.

Lemma z2b_id d : z2b (def_ID d) = id_byte d.
Proof. reflexivity. Qed.

Section Loop.
  Variable defs : list ReportDef.

  (** The step with a report that holds everything left. *)
  Lemma loop_last {W} fuel (wr : W -> Report -> W * option goerr) s data off d :
    off < List.length data ->
    choice defs 0 (Z.of_nat (List.length data - off)) d -> List.length data - off <= room d ->
    WriteFrame_loop (S fuel) defs wr s data (Z.of_nat off) (Z.of_nat (List.length data - off))
    = Some (Ret (offer wr s
        [mkReport (id_byte d) (if off =? 0 then x00 else x01)
           (skipn off data ++ repeat x00 (room d - (List.length data - off)))])).
  Proof.
    intros O C R. cbn [WriteFrame_loop].
    destruct (Z.of_nat (List.length data - off) <=? 0)%Z eqn:E; [lia|].
    unfold ReportDirAccIn; rewrite (proj2 (Pick_choice _ _ _ _) C). unfold room in *. unfold MaxPayload.
    destruct (def_Len d - 1 <? Z.of_nat (List.length data - off))%Z eqn:M; [lia|].
    destruct (def_Len d - 1 <? 0)%Z eqn:P; [lia|].
    rewrite !Nat2Z.id, z2b_id.
    rewrite firstn_all2 by (rewrite skipn_length; lia).
    rewrite copy_zeroed_short by (rewrite skipn_length; lia). rewrite skipn_length.
    assert (n2b (if (0 <? Z.of_nat off)%Z then LinkControlContinue else LinkControlDone)
            = if off =? 0 then x00 else x01) as ->.
    { destruct off; reflexivity. }
    cbn [offer]. destruct (wr s _) as [s' [e|]]; [reflexivity|].
    replace (Z.of_nat (List.length data - off) - Z.of_nat (List.length data - off))%Z with 0%Z by lia.
    destruct fuel; reflexivity.
  Qed.

  (** The step with a report that does not. *)
  Lemma loop_more {W} fuel (wr : W -> Report -> W * option goerr) s data off d :
    off < List.length data ->
    choice defs 0 (Z.of_nat (List.length data - off)) d -> (1 <= def_Len d)%Z ->
    room d < List.length data - off ->
    WriteFrame_loop (S fuel) defs wr s data (Z.of_nat off) (Z.of_nat (List.length data - off))
    = let '(s', e) := wr s (mkReport (id_byte d) (if off =? 0 then x02 else x03)
                              (firstn (room d) (skipn off data))) in
      match e with
      | Some _ => Some (Ret (s', e))
      | None => WriteFrame_loop fuel defs wr s' data (Z.of_nat (off + room d))
                  (Z.of_nat (List.length data - (off + room d)))
      end.
  Proof.
    intros O C L R. cbn [WriteFrame_loop].
    destruct (Z.of_nat (List.length data - off) <=? 0)%Z eqn:E; [lia|].
    unfold ReportDirAccIn; rewrite (proj2 (Pick_choice _ _ _ _) C). unfold room in *. unfold MaxPayload.
    destruct (def_Len d - 1 <? Z.of_nat (List.length data - off))%Z eqn:M; [|lia].
    destruct (def_Len d - 1 <? 0)%Z eqn:P; [lia|].
    rewrite !Nat2Z.id, z2b_id.
    rewrite copy_zeroed_long by (rewrite firstn_length, skipn_length; lia).
    rewrite firstn_firstn, Nat.min_id.
    assert (n2b (if (Z.of_nat off =? 0)%Z then LinkControlMoreToFollow
                 else N.lor LinkControlContinue LinkControlMoreToFollow)
            = if off =? 0 then x02 else x03) as ->.
    { destruct off; reflexivity. }
    destruct (wr s _) as [s' [e|]]; [reflexivity|].
    replace (Z.of_nat off + (def_Len d - 1))%Z with (Z.of_nat (off + Z.to_nat (def_Len d - 1))) by lia.
    replace (Z.of_nat (List.length data - off) - (def_Len d - 1))%Z
      with (Z.of_nat (List.length data - (off + Z.to_nat (def_Len d - 1)))) by lia.
    reflexivity.
  Qed.

  Lemma loop_writes fuel : forall data off f,
    last_of defs 0 f -> (2 <= def_Len f)%Z ->
    off < List.length data -> List.length data - off <= fuel ->
    exists rs, segments defs (off =? 0) (skipn off data) rs
      /\ List.length rs <= List.length data - off
      /\ forall W (wr : W -> Report -> W * option goerr) s,
           WriteFrame_loop fuel defs wr s data (Z.of_nat off) (Z.of_nat (List.length data - off))
           = Some (Ret (offer wr s rs)).
  Proof.
    induction fuel as [|fuel IH]; intros data off f F L O B; [lia|].
    pose proof (Pick_spec defs (Z.of_nat (List.length data - off)) 0) as P.
    destruct (Pick _ _ _) as [d|e].
    2: { destruct P as [N _]. destruct F as (a & b & -> & D & _). unfold none_of in N.
         rewrite Forall_app in N. destruct N as [_ N]. inversion N. contradiction. }
    destruct (choice_fits _ _ _ _ P) as [[_ Q]|[Q _]].
    - exists [mkReport (id_byte d) (if off =? 0 then x00 else x01)
                (skipn off data ++ repeat x00 (room d - (List.length data - off)))].
      assert (List.length data - off <= room d) as R by (unfold room; lia).
      split; [|split].
      + rewrite <- (skipn_length off data) in *. apply seg_last; auto.
        intros E. assert (List.length (skipn off data) = 0) as Z by (rewrite E; auto).
        rewrite skipn_length in Z. lia.
      + cbn. lia.
      + intros W wr s. apply loop_last; auto.
    - assert (d = f) as -> by (eapply last_of_unique; eauto).
      destruct (Nat.le_gt_cases (List.length data - off) (room f)) as [R|R].
      + exists [mkReport (id_byte f) (if off =? 0 then x00 else x01)
                (skipn off data ++ repeat x00 (room f - (List.length data - off)))].
        split; [|split].
        * rewrite <- (skipn_length off data) in *. apply seg_last; auto.
          intros E. assert (List.length (skipn off data) = 0) as Z by (rewrite E; auto).
          rewrite skipn_length in Z. lia.
        * cbn. lia.
        * intros W wr s. apply loop_last; auto.
      + assert (1 <= room f) as R1 by (unfold room; lia).
        destruct (IH data (off + room f) f F L) as (rs & G & LR & W0); [lia..|].
        exists (mkReport (id_byte f) (if off =? 0 then x02 else x03) (firstn (room f) (skipn off data)) :: rs).
        split; [|split].
        * replace (off + room f =? 0) with false in G by lia.
          rewrite <- (firstn_skipn (room f) (skipn off data)) at 1.
          rewrite skipn_skipn'.
          apply seg_more; auto.
          -- intros E. assert (List.length (skipn (off + room f) data) = 0) as Z by (rewrite E; auto).
             rewrite skipn_length in Z. lia.
          -- rewrite app_length, firstn_length, !skipn_length.
             replace (Nat.min (room f) (List.length data - off) + (List.length data - (off + room f)))
               with (List.length data - off) by lia. exact P.
          -- rewrite firstn_length, skipn_length. lia.
          -- intros E. assert (List.length (firstn (room f) (skipn off data)) = 0) as Z by (rewrite E; auto).
             rewrite firstn_length, skipn_length in Z. lia.
        * cbn [List.length]. lia.
        * intros W wr s. rewrite (loop_more fuel wr s data off f) by (auto; lia).
          rewrite offer_cons. destruct (wr s _) as [s' [e|]]; [reflexivity|]. apply W0.
  Qed.
End Loop.

Lemma write_empty {W} fuel defs (wr : W -> Report -> W * option goerr) s :
  WriteFrame fuel defs wr s [] = Some (Ret (s, None)).
Proof. destruct fuel; reflexivity. Qed.

Lemma write_segments defs data f fuel :
  last_of defs 0 f -> (2 <= def_Len f)%Z -> data <> [] -> List.length data <= fuel ->
  exists rs, segments defs true data rs /\ List.length rs <= List.length data
    /\ forall W (wr : W -> Report -> W * option goerr) s,
         WriteFrame fuel defs wr s data = Some (Ret (offer wr s rs)).
Proof.
  intros F L D B. destruct (loop_writes defs fuel data 0 f F L) as (rs & G & LR & H); try lia.
  { destruct data; cbn; [congruence|lia]. }
  exists rs. rewrite Nat.sub_0_r in *. split; [exact G|]. split; [exact LR|]. exact H.
Qed.

Lemma segments_unique defs first data rs rs' :
  segments defs first data rs -> segments defs first data rs' -> rs = rs'.
Proof.
  intros H. revert rs'. induction H as [first data d D C R|first chunk rest d rs NR C R NC H IH];
    intros rs' H'; inversion H' as [a b d' D' C' R'|a chunk' rest' d' rs2 NR' C' R' NC' H2]; subst.
  - assert (d' = d) as -> by (eapply choice_unique; eauto). reflexivity.
  - exfalso. assert (d' = d) as -> by (eapply choice_unique; eauto).
    rewrite app_length in R. assert (List.length rest' <> 0) by (destruct rest'; cbn; congruence). lia.
  - exfalso. assert (d' = d) as -> by (eapply choice_unique; eauto).
    rewrite app_length in R'. assert (List.length rest <> 0) by (destruct rest; cbn; congruence). lia.
  - match goal with E : chunk' ++ rest' = chunk ++ rest |- _ => rewrite E in C'; rename E into Q end.
    assert (d' = d) as -> by (eapply choice_unique; eauto).
    assert (chunk' = chunk /\ rest' = rest) as [-> ->].
    { apply (f_equal (fun l => (firstn (room d) l, skipn (room d) l))) in Q.
      rewrite !firstn_app, !skipn_app in Q. rewrite R, R' in Q. rewrite !Nat.sub_diag in Q.
      cbn in Q. rewrite !app_nil_r in Q. rewrite !firstn_all2, !skipn_all2 in Q by lia.
      cbn in Q. inversion Q. auto. }
    f_equal. auto.
Qed.

(** Shape of a segmented frame. *)
Lemma segments_shape defs first data rs :
  segments defs first data rs ->
  (exists k, map rep_LinkControl rs
     = if first then match k with O => [x00] | S k' => x02 :: repeat x03 k' ++ [x01] end
       else repeat x03 k ++ [x01])
  /\ Forall (fun r => exists d, In d defs /\ def_Dir d = 0%N /\ rep_ID r = id_byte d
                        /\ List.length (rep_Data r) = room d /\ 0 < room d) rs
  /\ padded defs data (List.concat (map rep_Data rs)).
Proof.
  induction 1 as [first data d D C R|first chunk rest d rs NR C R NC H IH].
  - destruct (choice_in _ _ _ _ C) as [I Dd]. split; [|split].
    + exists 0. destruct first; reflexivity.
    + assert (List.length data <> 0) by (destruct data; cbn; congruence).
      constructor; [|constructor]. exists d. repeat split; auto; [|lia]. cbn.
      rewrite app_length, repeat_length. lia.
    + exists (room d - List.length data), d. repeat split; auto.
      * assert (List.length data <> 0) by (destruct data; cbn; congruence). lia.
      * cbn. now rewrite app_nil_r.
  - destruct (choice_in _ _ _ _ C) as [I Dd]. destruct IH as ((k & K) & F & (z & dz & Iz & Dz & Lz & Z)).
    split; [|split].
    + exists (S k). cbn [map rep_LinkControl]. rewrite K. destruct first; reflexivity.
    + assert (List.length chunk <> 0) by (destruct chunk; cbn; congruence).
      constructor; [|auto]. exists d. repeat split; auto. lia.
    + exists z, dz. repeat split; auto. cbn [map rep_Data List.concat]. rewrite Z. now rewrite app_assoc.
Qed.

(** A frame some definition holds takes one report, whatever the fallback is. *)
Lemma write_single defs data d fuel W (wr : W -> Report -> W * option goerr) s :
  data <> [] -> first_fit defs 0 (Z.of_nat (List.length data)) d -> 1 <= fuel ->
  WriteFrame fuel defs wr s data
  = Some (Ret (wr s (mkReport (id_byte d) x00 (data ++ repeat x00 (room d - List.length data))))).
Proof.
  intros D FF B. destruct fuel as [|fuel]; [lia|].
  assert (choice defs 0 (Z.of_nat (List.length data)) d) as C by (left; auto).
  pose proof (loop_last defs fuel wr s data 0 d) as H. rewrite Nat.sub_0_r in H.
  unfold WriteFrame. change 0%Z with (Z.of_nat 0). rewrite H; auto.
  - cbn [Nat.eqb skipn offer]. destruct (wr s _) as [s' [e|]]; reflexivity.
  - destruct data; cbn; [congruence|lia].
  - destruct FF as (a & b & _ & [_ F] & _). unfold room. lia.
Qed.

Lemma write_none defs data fuel W (wr : W -> Report -> W * option goerr) s :
  none_of defs 0 -> data <> [] -> 1 <= fuel ->
  WriteFrame fuel defs wr s data = Some (Ret (s, Some errNoReport)).
Proof.
  intros N D B. destruct fuel as [|fuel]; [lia|]. unfold WriteFrame. cbn [WriteFrame_loop].
  destruct data as [|b data]; [congruence|].
  destruct (Z.of_nat (List.length (b :: data)) <=? 0)%Z eqn:E; [cbn in E; lia|].
  unfold ReportDirAccIn; rewrite (proj2 (Pick_none _ _ _ _) (conj N eq_refl)). reflexivity.
Qed.

(** A fallback that carries nothing: for ever, unless the writer fails. *)
Lemma write_forever defs data f fuel W (wr : W -> Report -> W * option goerr) :
  Forall (fun x => ~ fits 0 (Z.of_nat (List.length data)) x) defs ->
  last_of defs 0 f -> def_Len f = 1%Z -> data <> [] ->
  (forall s, snd (wr s (mkReport (id_byte f) x02 [])) = None) ->
  forall s, WriteFrame fuel defs wr s data = None.
Proof.
  intros NF LO L D NE. assert (choice defs 0 (Z.of_nat (List.length data)) f) as C by (right; auto).
  assert (room f = 0) as R by (unfold room; lia).
  induction fuel as [|fuel IH]; intros s.
  - unfold WriteFrame. cbn [WriteFrame_loop]. destruct data; [congruence|]. cbn. reflexivity.
  - unfold WriteFrame in *. pose proof (loop_more defs fuel wr s data 0 f) as H.
    rewrite Nat.sub_0_r, R in H. cbn [Nat.add Nat.eqb skipn firstn] in H.
    rewrite Nat.sub_0_r in H. change (Z.of_nat 0) with 0%Z in H. rewrite H; auto; try lia.
    + specialize (NE s). destruct (wr s _) as [s' [e|]]; [discriminate|]. apply IH.
    + destruct data; cbn; [congruence|lia].
    + destruct data; cbn; [congruence|lia].
Qed.

Lemma write_panics defs data f fuel W (wr : W -> Report -> W * option goerr) s :
  Forall (fun x => ~ fits 0 (Z.of_nat (List.length data)) x) defs ->
  last_of defs 0 f -> (def_Len f <= 0)%Z -> data <> [] -> 1 <= fuel ->
  WriteFrame fuel defs wr s data = Some Panic.
Proof.
  intros NF LO L D B. assert (choice defs 0 (Z.of_nat (List.length data)) f) as C by (right; auto).
  destruct fuel as [|fuel]; [lia|]. unfold WriteFrame. cbn [WriteFrame_loop].
  destruct data as [|b data]; [congruence|].
  destruct (Z.of_nat (List.length (b :: data)) <=? 0)%Z eqn:E; [cbn in E; lia|].
  unfold ReportDirAccIn; rewrite (proj2 (Pick_choice _ _ _ _) C). unfold MaxPayload.
  destruct (def_Len f - 1 <? 0)%Z eqn:P; [reflexivity|lia].
Qed.

(** ** ReadFrame *)

Lemma contributes_total defs r : live defs r -> exists c, contributes defs r c.
Proof. intros (d & K & L). eexists. exists d. eauto. Qed.

Lemma lc_byte r n : (n < 256)%N -> (b2n (rep_LinkControl r) =? n)%N = true <-> rep_LinkControl r = n2b n.
Proof.
  intros H. split.
  - intros E. apply b2n_inj. rewrite b2n_n2b_small by auto. lia.
  - intros E. rewrite E, b2n_n2b_small by auto. lia.
Qed.

Lemma lc_cases r :
  rep_LinkControl r = x00 \/ rep_LinkControl r = x01 \/ rep_LinkControl r = x02
  \/ rep_LinkControl r = x03 \/ ignored r = true.
Proof.
  unfold ignored. destruct (3 <? b2n (rep_LinkControl r))%N eqn:E; [auto 6|].
  assert (b2n (rep_LinkControl r) = 0 \/ b2n (rep_LinkControl r) = 1 \/ b2n (rep_LinkControl r) = 2
          \/ b2n (rep_LinkControl r) = 3)%N as [H|[H|[H|H]]] by lia;
    [left|right; left|right; right; left|right; right; right; left];
    apply b2n_inj; rewrite H; reflexivity.
Qed.

(** One step of the loop, by link control. *)
Lemma read_step defs buf r c input :
  contributes defs r c ->
  ReadFrame_loop defs buf (inl r :: input)
  = if byte_eqb (rep_LinkControl r) x00 then Ret (input, c, inl c)
    else if byte_eqb (rep_LinkControl r) x02 then ReadFrame_loop defs c input
    else if byte_eqb (rep_LinkControl r) x01 then Ret (input, buf ++ c, inl (buf ++ c))
    else ReadFrame_loop defs (buf ++ c) input.
Proof.
  intros (d & K & L & ->). cbn [ReadFrame_loop]. rewrite (proj2 (Find_known _ _ _) K).
  unfold MaxPayload. destruct (Z.min _ _ <? 0)%Z eqn:E; [lia|].
  assert (firstn (Z.to_nat (Z.min (Z.of_nat (List.length (rep_Data r))) (def_Len d - 1))) (rep_Data r)
          = firstn (room d) (rep_Data r)) as ->.
  { unfold room. destruct (Z.min_spec (Z.of_nat (List.length (rep_Data r))) (def_Len d - 1)) as [[? ->]|[? ->]].
    - rewrite Nat2Z.id, firstn_all, firstn_all2 by lia. reflexivity.
    - reflexivity. }
  destruct (lc_cases r) as [H|[H|[H|[H|H]]]].
  1-4: unfold ignored; rewrite H; reflexivity.
  rewrite H. unfold ignored in H.
  destruct (b2n (rep_LinkControl r) =? LinkControlDone)%N eqn:E0; [unfold LinkControlDone in E0; lia|].
  destruct (b2n (rep_LinkControl r) =? LinkControlMoreToFollow)%N eqn:E2;
    [unfold LinkControlMoreToFollow in E2; lia|].
  destruct (b2n (rep_LinkControl r) =? N.lor LinkControlContinue LinkControlMoreToFollow)%N eqn:E3.
  { change (N.lor LinkControlContinue LinkControlMoreToFollow) with 3%N in E3. lia. }
  destruct (b2n (rep_LinkControl r) =? LinkControlContinue)%N eqn:E1; [unfold LinkControlContinue in E1; lia|].
  assert (forall b, (b2n b <= 3)%N -> byte_eqb (rep_LinkControl r) b = false) as NB.
  { intros b Hb. destruct (byte_eqb (rep_LinkControl r) b) eqn:Q; auto. apply byte_eqb_eq in Q.
    rewrite Q in H. lia. }
  rewrite !NB by (cbn; lia). now rewrite app_nil_r.
Qed.

Lemma contributes_fun defs r c c' : contributes defs r c -> contributes defs r c' -> c = c'.
Proof.
  intros (d & K & _ & ->) (d' & K' & _ & ->). now rewrite (known_unique _ _ _ _ K K').
Qed.

Lemma not_ends r : ~ ends r -> byte_eqb (rep_LinkControl r) x00 = false /\ byte_eqb (rep_LinkControl r) x01 = false.
Proof.
  intros H. split; match goal with |- ?b = false => destruct b eqn:E; auto end;
    apply byte_eqb_eq in E; exfalso; apply H; [left|right]; auto.
Qed.

Lemma not_starts r : ~ starts r -> byte_eqb (rep_LinkControl r) x00 = false /\ byte_eqb (rep_LinkControl r) x02 = false.
Proof.
  intros H. split; match goal with |- ?b = false => destruct b eqn:E; auto end;
    apply byte_eqb_eq in E; exfalso; apply H; [left|right]; auto.
Qed.

Lemma starts_dec r : starts r \/ ~ starts r.
Proof.
  unfold starts. destruct (byte_eqb (rep_LinkControl r) x00) eqn:E0.
  - apply byte_eqb_eq in E0. auto.
  - destruct (byte_eqb (rep_LinkControl r) x02) eqn:E2.
    + apply byte_eqb_eq in E2. auto.
    + right. intros [H|H]; rewrite H in *; cbn in *; discriminate.
Qed.

Lemma ends_dec r : ends r \/ ~ ends r.
Proof.
  unfold ends. destruct (byte_eqb (rep_LinkControl r) x00) eqn:E0.
  - apply byte_eqb_eq in E0. auto.
  - destruct (byte_eqb (rep_LinkControl r) x01) eqn:E2.
    + apply byte_eqb_eq in E2. auto.
    + right. intros [H|H]; rewrite H in *; cbn in *; discriminate.
Qed.

(** The frame built from buffer [buf] and the reports read since. *)
Inductive built (defs : list ReportDef) (buf : bytes) (rs : list Report) (f : bytes) : Prop :=
| built_started before r after cs :
    rs = before ++ r :: after -> starts r -> Forall (fun x => ~ starts x) after ->
    Forall2 (contributes defs) (r :: after) cs -> f = List.concat cs -> built defs buf rs f
| built_stray cs :
    Forall (fun x => ~ starts x) rs -> Forall2 (contributes defs) rs cs ->
    f = buf ++ List.concat cs -> built defs buf rs f.

Lemma built_cons defs buf r c rs f :
  contributes defs r c ->
  built defs (if byte_eqb (rep_LinkControl r) x00 then c
              else if byte_eqb (rep_LinkControl r) x02 then c else buf ++ c) rs f ->
  built defs buf (r :: rs) f.
Proof.
  intros C B. destruct B as [before r' after cs E S NS F Ef|cs NS F Ef].
  - eapply built_started with (before := r :: before); eauto. rewrite E. reflexivity.
  - destruct (starts_dec r) as [S|S].
    + apply built_started with (before := []) (r := r) (after := rs) (cs := c :: cs);
        [reflexivity|exact S|exact NS|apply Forall2_cons; auto|].
      rewrite Ef. cbn. destruct S as [S|S]; rewrite S; reflexivity.
    + destruct (not_starts r S) as [E0 E2]. rewrite E0, E2 in Ef.
      apply built_stray with (cs := c :: cs);
        [apply Forall_cons; auto|apply Forall2_cons; auto|].
      rewrite Ef. cbn. now rewrite app_assoc.
Qed.

Lemma read_through defs rest : forall pre buf last,
  Forall (live defs) pre -> Forall (fun x => ~ ends x) pre -> live defs last -> ends last ->
  exists f, built defs buf (pre ++ [last]) f
    /\ ReadFrame_loop defs buf (map inl (pre ++ [last]) ++ rest) = Ret (rest, f, inl f).
Proof.
  induction pre as [|r pre IH]; intros buf last LP NE LL E.
  - destruct (contributes_total _ _ LL) as [c C]. cbn [app map].
    destruct E as [E|E].
    + exists c. rewrite (read_step _ _ _ _ _ C), E. split; [|reflexivity].
      apply built_started with (before := []) (r := last) (after := []) (cs := [c]); auto.
      * left; auto.
      * cbn. now rewrite app_nil_r.
    + exists (buf ++ c). rewrite (read_step _ _ _ _ _ C), E. split; [|reflexivity].
      apply built_stray with (cs := [c]); auto.
      * constructor; [|constructor]. intros [H|H]; rewrite E in H; discriminate.
      * cbn. now rewrite app_nil_r.
  - inversion LP as [|? ? Lr LP']; inversion NE as [|? ? Nr NE']; subst.
    destruct (contributes_total _ _ Lr) as [c C]. cbn [app map].
    rewrite (read_step _ _ _ _ _ C). destruct (not_ends _ Nr) as [E0 E1]. rewrite E0, E1.
    destruct (byte_eqb (rep_LinkControl r) x02) eqn:E2.
    + destruct (IH c last LP' NE' LL E) as (f & B & R). exists f. split; [|exact R].
      eapply built_cons; eauto. now rewrite E0, E2.
    + destruct (IH (buf ++ c) last LP' NE' LL E) as (f & B & R). exists f. split; [|exact R].
      eapply built_cons; eauto. now rewrite E0, E2.
Qed.

Lemma read_error defs rest : forall pre buf x,
  Forall (live defs) pre -> Forall (fun x => ~ ends x) pre ->
  match x with inr _ => True | inl r => unknown defs r end ->
  exists b, ReadFrame_loop defs buf (map inl pre ++ x :: rest)
            = Ret (rest, b, inr (match x with inr e => e | inl _ => errReportID end)).
Proof.
  induction pre as [|r pre IH]; intros buf x LP NE X.
  - exists buf. cbn [app map]. destruct x as [r|e]; [|reflexivity].
    cbn [ReadFrame_loop]. rewrite (proj2 (Find_unknown _ _ _) (conj X eq_refl)). reflexivity.
  - inversion LP as [|? ? Lr LP']; inversion NE as [|? ? Nr NE']; subst.
    destruct (contributes_total _ _ Lr) as [c C]. cbn [app map].
    rewrite (read_step _ _ _ _ _ C). destruct (not_ends _ Nr) as [E0 E1]. rewrite E0, E1.
    destruct (byte_eqb (rep_LinkControl r) x02); apply IH; auto.
Qed.

Lemma read_eof defs : forall pre buf,
  Forall (live defs) pre -> Forall (fun x => ~ ends x) pre ->
  exists b, ReadFrame_loop defs buf (map inl pre) = Ret ([], b, inr EOF).
Proof.
  induction pre as [|r pre IH]; intros buf LP NE.
  - exists buf. reflexivity.
  - inversion LP as [|? ? Lr LP']; inversion NE as [|? ? Nr NE']; subst.
    destruct (contributes_total _ _ Lr) as [c C]. cbn [map].
    rewrite (read_step _ _ _ _ _ C). destruct (not_ends _ Nr) as [E0 E1]. rewrite E0, E1.
    destruct (byte_eqb (rep_LinkControl r) x02); apply IH; auto.
Qed.

(** Reading panics only at a report whose definition has a negative payload size. *)
Lemma read_panics defs rest : forall pre buf r d,
  Forall (live defs) pre -> Forall (fun x => ~ ends x) pre ->
  known defs r d -> (def_Len d <= 0)%Z ->
  ReadFrame_loop defs buf (map inl pre ++ inl r :: rest) = Panic.
Proof.
  induction pre as [|r0 pre IH]; intros buf r d LP NE K L.
  - cbn [app map ReadFrame_loop]. rewrite (proj2 (Find_known _ _ _) K). unfold MaxPayload.
    destruct (Z.min _ _ <? 0)%Z eqn:E; [reflexivity|lia].
  - inversion LP as [|? ? Lr LP']; inversion NE as [|? ? Nr NE']; subst.
    destruct (contributes_total _ _ Lr) as [c C]. cbn [app map].
    rewrite (read_step _ _ _ _ _ C). destruct (not_ends _ Nr) as [E0 E1]. rewrite E0, E1.
    destruct (byte_eqb (rep_LinkControl r0) x02); eapply IH; eauto.
Qed.

Lemma built_frame defs rs f : built defs [] rs f -> frame_of defs rs f.
Proof.
  intros [before r after cs E S NS F Ef|cs NS F Ef].
  - eapply frame_started; eauto.
  - eapply frame_stray; eauto.
Qed.

Lemma Forall2_contributes_fun defs : forall rs cs cs',
  Forall2 (contributes defs) rs cs -> Forall2 (contributes defs) rs cs' -> cs = cs'.
Proof.
  intros rs cs cs' H. revert cs'. induction H; intros cs' H'; inversion H'; subst; auto.
  f_equal; eauto using contributes_fun.
Qed.

Lemma last_start_unique : forall before before' (r r' : Report) after after',
  before ++ r :: after = before' ++ r' :: after' -> starts r -> starts r' ->
  Forall (fun x => ~ starts x) after -> Forall (fun x => ~ starts x) after' ->
  r = r' /\ after = after'.
Proof.
  induction before as [|x before IH]; intros [|x' before'] r r' after after' E S S' A A';
    cbn in E; injection E as E1 E2; auto.
  - subst. rewrite Forall_app in A. destruct A as [_ A]. inversion A. contradiction.
  - subst. rewrite Forall_app in A'. destruct A' as [_ A']. inversion A'. contradiction.
  - eauto.
Qed.

Lemma frame_of_fun defs rs f f' : frame_of defs rs f -> frame_of defs rs f' -> f = f'.
Proof.
  intros [before r after cs E S NS F Ef|cs NS F Ef] [before' r' after' cs' E' S' NS' F' Ef'|cs' NS' F' Ef'].
  - destruct (last_start_unique before before' r r' after after') as [-> ->]; auto; [congruence|].
    subst. f_equal. eapply Forall2_contributes_fun; eauto.
  - subst. rewrite Forall_app in NS'. destruct NS' as [_ NS']. inversion NS'. contradiction.
  - subst. rewrite Forall_app in NS. destruct NS as [_ NS]. inversion NS. contradiction.
  - subst. f_equal. eapply Forall2_contributes_fun; eauto.
Qed.

Lemma read_frame defs buf pre last rest :
  Forall (live defs) (pre ++ [last]) -> Forall (fun x => ~ ends x) pre -> ends last ->
  exists f, frame_of defs (pre ++ [last]) f
    /\ ReadFrame defs buf (map inl (pre ++ [last]) ++ rest) = Ret (rest, f, inl f).
Proof.
  intros L N E. apply Forall_app in L as [L1 L2]. inversion L2; subst.
  destruct (read_through defs rest pre [] last) as (f & B & R); auto.
  exists f. split; [now apply built_frame|exact R].
Qed.

(** ** Round trip *)

Lemma segments_read defs :
  NoDup (map def_ID defs) -> Forall (fun d => 0 <= def_ID d <= 255)%Z defs ->
  forall first data rs, segments defs first data rs ->
  forall buf rest, (first = true -> buf = []) -> exists got, padded defs data got
    /\ ReadFrame_loop defs buf (map inl rs ++ rest) = Ret (rest, buf ++ got, inl (buf ++ got)).
Proof.
  intros ND RG. induction 1 as [first data d D C R|first chunk rest d rs NR C R NC H IH]; intros buf rest0 B.
  - destruct (choice_in _ _ _ _ C) as [I Dd].
    assert (List.length data <> 0) as LD by (destruct data; cbn; congruence).
    exists (data ++ repeat x00 (room d - List.length data)). split.
    { exists (room d - List.length data), d. repeat split; auto. lia. }
    cbn [map app]. set (r := mkReport _ _ _).
    assert (contributes defs r (data ++ repeat x00 (room d - List.length data))) as CT.
    { exists d. split; [now apply usable_known|]. split; [unfold room in R; lia|].
      assert (ignored r = false) as -> by (destruct first; reflexivity). cbn.
      rewrite firstn_all2; [reflexivity|]. rewrite app_length, repeat_length. lia. }
    rewrite (read_step _ _ _ _ _ CT). destruct first; cbn -[app repeat].
    + rewrite (B eq_refl). reflexivity.
    + reflexivity.
  - destruct (choice_in _ _ _ _ C) as [I Dd].
    assert (List.length chunk <> 0) as LC by (destruct chunk; cbn; congruence).
    cbn [map app]. set (r := mkReport _ _ _).
    assert (contributes defs r chunk) as CT.
    { exists d. split; [now apply usable_known|]. split; [unfold room in R; lia|].
      assert (ignored r = false) as -> by (destruct first; reflexivity). cbn.
      rewrite firstn_all2; [reflexivity|lia]. }
    rewrite (read_step _ _ _ _ _ CT).
    destruct (IH (buf ++ chunk) rest0 ltac:(discriminate)) as (got & (k & dk & Ik & Dk & Lk & ->) & RD).
    exists ((chunk ++ rest) ++ repeat x00 k). split; [exists k, dk; auto|].
    rewrite <- app_assoc, (app_assoc buf chunk). destruct first; cbn -[app repeat].
    + rewrite (B eq_refl) in *. exact RD.
    + exact RD.
Qed.

Lemma offer_recorder rs : forall l, offer recorder l rs = (l ++ rs, None).
Proof.
  induction rs as [|r rs IH]; intros l; cbn [offer recorder]; [now rewrite app_nil_r|].
  rewrite IH. now rewrite <- app_assoc.
Qed.

Lemma frames_roundtrip defs : usable defs -> forall frames l,
  Forall (fun f => f <> []) frames ->
  exists rs, write_frames defs l frames = Some (Ret (l ++ rs, map (fun _ => None) frames))
    /\ forall buf rest, exists gots, Forall2 (padded defs) frames gots
         /\ read_frames (List.length frames) defs buf (map inl rs ++ rest) = Ret (rest, map inl gots).
Proof.
  intros (ND & RG & f0 & LO & L2). induction frames as [|f frames IH]; intros l NE.
  - exists []. cbn. rewrite app_nil_r. split; [reflexivity|]. intros buf rest. exists []. split; constructor.
  - inversion NE as [|? ? Nf NE']; subst.
    destruct (write_segments defs f f0 (List.length f) LO L2 Nf ltac:(lia)) as (r1 & G & _ & W).
    destruct (IH (l ++ r1) NE') as (r2 & W2 & R2). exists (r1 ++ r2). split.
    + cbn [write_frames]. rewrite W, offer_recorder, W2. cbn. now rewrite app_assoc.
    + intros buf rest.
      destruct (segments_read defs ND RG true f r1 G [] (map inl r2 ++ rest) ltac:(auto)) as (g & P & RD).
      destruct (R2 g rest) as (gots & F & RF).
      exists (g :: gots). split; [constructor; auto|].
      cbn [List.length read_frames]. rewrite map_app, <- app_assoc. unfold ReadFrame. rewrite RD.
      cbn [app bind]. rewrite RF. reflexivity.
Qed.

(** ** Raw transport *)

Lemma raw_roundtrip sent r :
  1 <= List.length (rep_Data r) <= 1022 ->
  exists p, WriteReport packet_device sent r = Ret (sent ++ [p], None)
    /\ ReadReport (p, None) = inl r.
Proof.
  intros H. exists (rep_ID r :: rep_LinkControl r :: rep_Data r). unfold WriteReport, packet_device.
  rewrite Nat.ltb_irrefl, Nat.eqb_refl. split; [reflexivity|].
  unfold ReadReport. rewrite firstn_all2 by (unfold maxRawSize; cbn [List.length]; lia).
  destruct r as [id lc [|d data]]; cbn in *; [lia|reflexivity].
Qed.

Lemma raw_long r : 1022 < List.length (rep_Data r) ->
  exists p, WriteReport packet_device [] r = Ret ([p], None)
    /\ ReadReport (p, None) = inl (mkReport (rep_ID r) (rep_LinkControl r) (firstn 1022 (rep_Data r))).
Proof.
  intros H. exists (rep_ID r :: rep_LinkControl r :: rep_Data r). unfold WriteReport, packet_device.
  rewrite Nat.ltb_irrefl, Nat.eqb_refl. split; [reflexivity|].
  unfold ReadReport, maxRawSize. change 1024 with (2 + 1022).
  cbn [Nat.add]. rewrite !firstn_cons. destruct (rep_Data r) as [|d data]; [cbn in H; lia|].
  change 1022 with (S 1021). rewrite firstn_cons. reflexivity.
Qed.

(** ** Every input falls in one case *)

Inductive input_case (defs : list ReportDef) (input : list (Report + goerr)) : Prop :=
| in_frame pre last rest :
    input = map inl (pre ++ [last]) ++ rest -> Forall (live defs) (pre ++ [last]) ->
    Forall (fun x => ~ ends x) pre -> ends last -> input_case defs input
| in_error pre x rest :
    input = map inl pre ++ x :: rest -> Forall (live defs) pre -> Forall (fun x => ~ ends x) pre ->
    match x with inr _ => True | inl r => unknown defs r end -> input_case defs input
| in_eof pre :
    input = map inl pre -> Forall (live defs) pre -> Forall (fun x => ~ ends x) pre ->
    input_case defs input
| in_panic pre r d rest :
    input = map inl pre ++ inl r :: rest -> Forall (live defs) pre -> Forall (fun x => ~ ends x) pre ->
    known defs r d -> (def_Len d <= 0)%Z -> input_case defs input.

Lemma input_cases defs input : input_case defs input.
Proof.
  induction input as [|x input IH]; [now eapply (in_eof _ _ [])|].
  destruct x as [r|e]; [|now eapply (in_error _ _ [] (inr e) input)].
  pose proof (Find_spec defs r) as F. destruct (Find defs _) as [d|e].
  2: { destruct F as [U _]. now eapply (in_error _ _ [] (inl r) input). }
  destruct (Z_le_gt_dec (def_Len d) 0) as [Z|Z].
  { now eapply (in_panic _ _ [] r d input). }
  assert (live defs r) as L by (exists d; split; [auto|lia]).
  destruct (ends_dec r) as [E|E].
  { eapply (in_frame _ _ [] r input); cbn; auto. }
  destruct IH as [pre last rest -> LP NE EL|pre x rest -> LP NE X|pre -> LP NE|pre r' d' rest -> LP NE K Z'].
  - eapply (in_frame _ _ (r :: pre) last rest); cbn; auto.
  - eapply (in_error _ _ (r :: pre) x rest); cbn; auto.
  - eapply (in_eof _ _ (r :: pre)); cbn; auto.
  - eapply (in_panic _ _ (r :: pre) r' d' rest); cbn; eauto.
Qed.

Lemma ReadFrame_ok_iff defs buf input rest b f :
  ReadFrame defs buf input = Ret (rest, b, inl f)
  <-> b = f /\ exists pre last, input = map inl (pre ++ [last]) ++ rest
        /\ Forall (live defs) (pre ++ [last]) /\ Forall (fun x => ~ ends x) pre /\ ends last
        /\ frame_of defs (pre ++ [last]) f.
Proof.
  split.
  - intros H. destruct (input_cases defs input)
      as [pre last rest' -> LP NE EL|pre x rest' -> LP NE X|pre -> LP NE|pre r' d' rest' -> LP NE K Z'].
    + destruct (read_frame defs buf pre last rest' LP NE EL) as (f' & FO & R).
      rewrite R in H. injection H as -> -> ->. split; [reflexivity|]. exists pre, last. auto 8.
    + destruct (read_error defs rest' pre [] x LP NE X) as (b' & R). unfold ReadFrame in H.
      rewrite R in H. discriminate.
    + destruct (read_eof defs pre [] LP NE) as (b' & R). unfold ReadFrame in H. rewrite R in H. discriminate.
    + unfold ReadFrame in H. rewrite (read_panics defs rest' pre [] r' d' LP NE K Z') in H. discriminate.
  - intros (-> & pre & last & -> & LP & NE & EL & FO).
    destruct (read_frame defs buf pre last rest LP NE EL) as (f' & FO' & R).
    rewrite R. now rewrite (frame_of_fun _ _ _ _ FO FO').
Qed.

Lemma map_inl_inj {A B} (l l' : list A) : map (@inl A B) l = map inl l' -> l = l'.
Proof.
  revert l'; induction l as [|x l IH]; intros [|x' l'] E; cbn in E; try discriminate; auto.
  injection E as -> E. f_equal; auto.
Qed.

Lemma ReadFrame_err_iff defs buf input rest e :
  (exists b, ReadFrame defs buf input = Ret (rest, b, inr e))
  <-> exists pre, Forall (live defs) pre /\ Forall (fun x => ~ ends x) pre
        /\ ((input = map inl pre ++ inr e :: rest)
            \/ (exists r, input = map inl pre ++ inl r :: rest /\ unknown defs r /\ e = errReportID)
            \/ (input = map inl pre /\ rest = [] /\ e = EOF)).
Proof.
  split.
  - intros (b & H). destruct (input_cases defs input)
      as [pre last rest' -> LP NE EL|pre x rest' -> LP NE X|pre -> LP NE|pre r' d' rest' -> LP NE K Z'].
    + destruct (read_frame defs buf pre last rest' LP NE EL) as (f' & FO & R). congruence.
    + destruct (read_error defs rest' pre [] x LP NE X) as (b' & R). unfold ReadFrame in H.
      rewrite R in H. injection H as -> -> <-. exists pre. repeat split; auto.
      destruct x as [r|e]; [right; left; eauto|left; auto].
    + destruct (read_eof defs pre [] LP NE) as (b' & R). unfold ReadFrame in H. rewrite R in H.
      injection H as <- _ <-. exists pre. split; [exact LP|]. split; [exact NE|]. right; right. auto.
    + unfold ReadFrame in H. rewrite (read_panics defs rest' pre [] r' d' LP NE K Z') in H. discriminate.
  - intros (pre & LP & NE & [->|[(r & -> & U & ->)|(-> & -> & ->)]]).
    + apply (read_error defs rest pre [] (inr e) LP NE I).
    + apply (read_error defs rest pre [] (inl r) LP NE U).
    + apply (read_eof defs pre [] LP NE).
Qed.

Lemma ReadFrame_panic_iff defs buf input :
  ReadFrame defs buf input = Panic
  <-> exists pre r d rest, input = map inl pre ++ inl r :: rest /\ Forall (live defs) pre
        /\ Forall (fun x => ~ ends x) pre /\ known defs r d /\ (def_Len d <= 0)%Z.
Proof.
  split.
  - intros H. destruct (input_cases defs input)
      as [pre last rest' -> LP NE EL|pre x rest' -> LP NE X|pre -> LP NE|pre r' d' rest' -> LP NE K Z'].
    + destruct (read_frame defs buf pre last rest' LP NE EL) as (f' & FO & R). congruence.
    + destruct (read_error defs rest' pre [] x LP NE X) as (b' & R). unfold ReadFrame in H. congruence.
    + destruct (read_eof defs pre [] LP NE) as (b' & R). unfold ReadFrame in H. congruence.
    + exists pre, r', d', rest'. auto.
  - intros (pre & r & d & rest & -> & LP & NE & K & Z). apply (read_panics defs rest pre [] r d LP NE K Z).
Qed.

(** ** Over a raw device *)

Lemma WriteReport_packet sent r :
  WriteReport packet_device sent r
  = Ret (sent ++ [rep_ID r :: rep_LinkControl r :: rep_Data r], None).
Proof. unfold WriteReport, packet_device. now rewrite Nat.ltb_irrefl, Nat.eqb_refl. Qed.

Lemma offer_raw rs : forall sent,
  offer raw_writer sent rs
  = (sent ++ map (fun r => rep_ID r :: rep_LinkControl r :: rep_Data r) rs, None).
Proof.
  induction rs as [|r rs IH]; intros sent; cbn [offer]; [now rewrite app_nil_r|].
  unfold raw_writer at 1. rewrite WriteReport_packet, IH. now rewrite <- app_assoc.
Qed.

Lemma reads_back rs :
  Forall (fun r => 1 <= List.length (rep_Data r) <= 1022) rs ->
  map ReadReport (as_reads (map (fun r => rep_ID r :: rep_LinkControl r :: rep_Data r) rs)) = map inl rs.
Proof.
  induction 1 as [|r rs H F IH]; [reflexivity|]. unfold as_reads in *. cbn [map]. rewrite IH. f_equal.
  destruct (raw_roundtrip [] r H) as (p & W & R). rewrite WriteReport_packet in W. cbn in W.
  injection W as <-. exact R.
Qed.

Lemma raw_frame defs data :
  usable defs -> Forall (fun d => def_Len d <= 1023)%Z defs -> data <> [] ->
  exists sent, WriteFrame (List.length data) defs raw_writer [] data = Some (Ret (sent, None))
    /\ forall buf, exists got, padded defs data got
         /\ ReadFrame defs buf (map ReadReport (as_reads sent)) = Ret ([], got, inl got).
Proof.
  intros (ND & RG & f0 & LO & L2) SZ NE.
  destruct (write_segments defs data f0 (List.length data) LO L2 NE ltac:(lia)) as (rs & G & _ & W).
  rewrite W, offer_raw. eexists. split; [reflexivity|]. intros buf. cbn [app].
  destruct (segments_shape _ _ _ _ G) as (_ & SH & _).
  rewrite reads_back.
  - destruct (segments_read defs ND RG true data rs G [] [] ltac:(auto)) as (g & P & RD).
    rewrite app_nil_r in RD. exists g. split; auto.
  - rewrite Forall_forall in SH, SZ |- *. intros r I. destruct (SH r I) as (d & Id & _ & _ & -> & R).
    specialize (SZ d Id). unfold room in *. lia.
Qed.

(** ** The shipped tables *)

Lemma default_usable : usable DefaultReportDefs.
Proof.
  split; [repeat (apply NoDup_cons; [cbn; lia|]); apply NoDup_nil|]. split.
  - repeat apply Forall_cons; try apply Forall_nil; cbn; lia.
  - exists (mkDef 9 63 0). split; [|cbn; lia].
    exists (firstn 8 DefaultReportDefs), []. repeat split; auto.
Qed.

Lemma legacy_usable : usable LegacyReportDefs.
Proof.
  split; [repeat (apply NoDup_cons; [cbn; lia|]); apply NoDup_nil|]. split.
  - repeat apply Forall_cons; try apply Forall_nil; cbn; lia.
  - exists (mkDef 12 767 0). split; [|cbn; lia].
    exists (firstn 11 LegacyReportDefs), (skipn 12 LegacyReportDefs). repeat split; auto.
    repeat apply Forall_cons; try apply Forall_nil; cbn; lia.
Qed.

Lemma sorted_smallest defs dir n d d' :
  StronglySorted (fun x y => def_Dir x = def_Dir y -> (def_Len x <= def_Len y)%Z) defs ->
  first_fit defs dir n d -> In d' defs -> fits dir n d' -> (def_Len d <= def_Len d')%Z.
Proof.
  intros SS (a & b & -> & [D F] & A) I F'.
  apply in_app_or in I as [I|[<-|I]]; [|lia|].
  - rewrite Forall_forall in A. now apply A in I.
  - induction a as [|x a IH]; cbn in SS; inversion SS as [|? ? SS' FA]; subst.
    + rewrite Forall_forall in FA. apply FA; auto. destruct F'. congruence.
    + apply IH; auto. inversion A; auto.
Qed.

Lemma legacy_sorted :
  StronglySorted (fun x y => def_Dir x = def_Dir y -> (def_Len x <= def_Len y)%Z) LegacyReportDefs.
Proof.
  unfold LegacyReportDefs.
  repeat (apply SSorted_cons; [|repeat apply Forall_cons; try apply Forall_nil; cbn; lia]).
  apply SSorted_nil.
Qed.

(** ** The shipped tables *)

Lemma Find_by_id defs id d : Find defs id = inl d -> In d defs /\ def_ID d = id.
Proof.
  induction defs as [|x defs IH]; [discriminate|]. cbn [Find]. destruct (Z.eqb_spec (def_ID x) id) as [E|_].
  - intros H. injection H as <-. split; [now left|exact E].
  - intros H. destruct (IH H). split; [now right|assumption].
Qed.

Lemma Find_has defs id : (exists d, Find defs id = inl d) <-> In id (map def_ID defs).
Proof.
  induction defs as [|x defs IH]; cbn [Find map In]; [split; [intros (d & H); discriminate|contradiction]|].
  destruct (Z.eqb_spec (def_ID x) id) as [E|N]; [split; [now left|eauto]|]. rewrite IH. split; [now right|intros [H|H]; [contradiction|exact H]].
Qed.

Lemma shipped_tables id :
  (forall d, Find LegacyReportDefs id = inl d ->
     def_ID d = id /\ def_Dir d = (if (id <=? 12)%Z then ReportDirAccIn else ReportDirAccOut) /\ (5 <= def_Len d <= 767)%Z)
  /\ ((exists d, Find LegacyReportDefs id = inl d) <-> (1 <= id <= 21)%Z)
  /\ (forall d, Find DefaultReportDefs id = inl d -> def_ID d = id /\ def_Dir d = ReportDirAccIn /\ (8 <= def_Len d <= 63)%Z)
  /\ ((exists d, Find DefaultReportDefs id = inl d) <-> (1 <= id <= 9)%Z).
Proof.
  split; [|split; [|split]].
  - intros d H. apply Find_by_id in H as [I <-]. split; [reflexivity|]. cbn [LegacyReportDefs In] in I.
    repeat (destruct I as [<-|I]; [cbn [def_ID def_Dir def_Len]; (split; [reflexivity|lia])|]). contradiction.
  - rewrite Find_has. cbn [LegacyReportDefs map def_ID In]. lia.
  - intros d H. apply Find_by_id in H as [I <-]. split; [reflexivity|]. cbn [DefaultReportDefs In] in I.
    repeat (destruct I as [<-|I]; [cbn [def_ID def_Dir def_Len]; (split; [reflexivity|lia])|]). contradiction.
  - rewrite Find_has. cbn [DefaultReportDefs map def_ID In]. lia.
Qed.
