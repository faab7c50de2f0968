(** Lemmas on traces of device files that refuse writes. *)
From Coq Require Import ZifyBool ZifyNat ZifyN Lia.
From Verif Require Import Base BaseFacts Hid SpecHid HidThms Trace SpecTrace TraceThms TraceSessions Server SpecPlug SpecTransport SpecWire SpecView SpecRefuse RefuseThms SpecRefuseTrace.

(** ** Transports that differ only in how their device functions are written *)

Lemma ReadFrame_dev_same {D} defs (rd rd' : D -> io (D * raw_read)) : (forall d, rd d = rd' d) ->
  forall fuel buf d, ReadFrame_dev fuel defs rd buf d = ReadFrame_dev fuel defs rd' buf d.
Proof.
  intros E. induction fuel as [|fuel IH]; intros buf d; [reflexivity|]. cbn [ReadFrame_dev]. rewrite E.
  destruct (rd' d) as [[[d' got]|]|]; [|reflexivity..]. cbn [io_bind]. destruct (ReadReport got) as [r|e]; [|reflexivity].
  destruct (Find defs _); [|reflexivity]. rewrite !IH. reflexivity.
Qed.

Lemma WriteFrame_loop_same {S} defs (wr wr' : S -> Report -> S * option goerr) : (forall s r, wr s r = wr' s r) ->
  forall fuel s data o n, WriteFrame_loop fuel defs wr s data o n = WriteFrame_loop fuel defs wr' s data o n.
Proof.
  intros E. induction fuel as [|fuel IH]; intros s data o n; [reflexivity|]. cbn [WriteFrame_loop].
  destruct (n <=? 0)%Z; [reflexivity|]. destruct (Pick defs n ReportDirAccIn); [|reflexivity]. cbv zeta. rewrite E.
  destruct (MaxPayload r <? 0)%Z; [reflexivity|]. destruct (wr' s _) as [s' [e|]]; [reflexivity|apply IH].
Qed.

Lemma WriteFrame_dev_same {D} defs (wd wd' : D -> bytes -> outcome (D * (nat * option goerr))) : (forall d p, wd d p = wd' d p) ->
  forall d f, WriteFrame_dev defs wd d f = WriteFrame_dev defs wd' d f.
Proof.
  intros E d f. unfold WriteFrame_dev, WriteFrame. rewrite (WriteFrame_loop_same defs (dev_WriteReport wd) (dev_WriteReport wd')); [reflexivity|].
  intros s r. unfold dev_WriteReport, WriteReport, raw_Write. destruct s as [s|]; cbn [bind]; [now rewrite E|reflexivity].
Qed.

Lemma transport_same {D} fuel defs spares rd rd' (wd wd' : D -> bytes -> outcome (D * (nat * option goerr))) :
  (forall d, rd d = rd' d) -> (forall d p, wd d p = wd' d p) ->
  carry_alike eq (hid_transport fuel defs spares rd wd) (hid_transport fuel defs spares rd' wd').
Proof.
  intros R W. constructor.
  - intros w1 w2 <-. cbn [hid_transport tp_ReadFrame]. rewrite (ReadFrame_dev_same defs rd rd' R).
    destruct (ReadFrame_dev fuel defs rd' [] (fst w1)) as [[[d' r]|]|]; cbn; auto. split; [reflexivity|]. destruct r; [left; reflexivity|split; intros X; exact X].
  - intros w1 w2 f <-. cbn [hid_transport tp_WriteFrame]. rewrite (WriteFrame_dev_same defs wd wd' W).
    destruct (WriteFrame_dev defs wd' (fst w1) f) as [[[d' r]|]|]; cbn; auto.
Qed.

(** ** The tracer as a chooser *)

Definition behind {S} (dev : io_rw S) : chooser (S * bytes) := mkChooser
  (fun st => match tracer_Read append_file dev st maxRawSize with Ret x => x | Panic => (st, ([], None)) end)
  (fun st p => match tracer_Write append_file dev st p with Ret x => x | Panic => (st, (0, None)) end).

Section Behind.
  Context {S : Type} (dev : io_rw S) (WE : whole_or_error dev).

  Lemma behind_read st : traced_read append_file dev st = ch_read (behind dev) st.
  Proof using WE.
    destruct WE as [HR HW]. unfold traced_read, ch_read, behind, done. cbn [ch_sends]. destruct st as [s t]. unfold tracer_Read.
    destruct (rw_read dev s maxRawSize) as [s' [b [e|]]] eqn:E; [reflexivity|]. pose proof (HR _ _ _ E).
    destruct (Nat.ltb_spec maxRawSize (List.length b)); [lia|]. destruct (WriteMsg append_file t _). reflexivity.
  Qed.

  Lemma behind_write st p : tracer_Write append_file dev st p = ch_write (behind dev) st p.
  Proof using WE.
    destruct WE as [HR HW]. unfold ch_write, behind. cbn [ch_takes]. destruct st as [s t]. unfold tracer_Write.
    destruct (rw_write dev s p) as [s' [n [e|]]] eqn:E; [reflexivity|]. destruct (HW _ _ _ _ _ E).
    destruct (Nat.ltb_spec (List.length p) n); [lia|]. destruct (WriteMsg append_file t _). reflexivity.
  Qed.

  Lemma behind_plausible : plausible (behind dev).
  Proof using WE.
    intros [s t] p. pose proof (behind_write (s, t) p) as B. unfold ch_write in B. destruct WE as [HR HW]. set (z := ch_takes (behind dev) (s, t) p) in *. clearbody z.
    unfold tracer_Write in B. destruct (rw_write dev s p) as [s' [n [e|]]] eqn:E; destruct (HW _ _ _ _ _ E) as [L _].
    - injection B as <-. exact L.
    - destruct (Nat.ltb (List.length p) n); [discriminate B|]. destruct (WriteMsg append_file t _). injection B as <-. exact L.
  Qed.

  Lemma behind_sends s t : snd (ch_sends (behind dev) (s, t)) = snd (ch_sends (as_chooser dev) s)
    /\ fst (ch_sends (behind dev) (s, t)) = (fst (ch_sends (as_chooser dev) s), fst (write_msgs append_file t (crossed [Read (snd (ch_sends (as_chooser dev) s))]))).
  Proof using WE.
    pose proof (behind_read (s, t)) as B. unfold traced_read, ch_read, done in B. set (z := ch_sends (behind dev) (s, t)) in *. clearbody z. injection B as B. unfold tracer_Read in B. destruct WE as [HR HW].
    cbn [as_chooser ch_sends]. destruct (rw_read dev s maxRawSize) as [s' [b [e|]]] eqn:E.
    - injection B as <-. cbn [fst snd]. split; [reflexivity|]. destruct b; reflexivity.
    - pose proof (HR _ _ _ E). destruct (Nat.ltb_spec maxRawSize (List.length b)); [lia|].
      destruct b as [|b bs].
      + pose proof (WriteMsg_empty append_file t DirIn 0) as Q. destruct (WriteMsg append_file t _) as [t' e]. cbn [fst] in Q. subst t'. injection B as <-. split; reflexivity.
      + cbn [fst snd crossed flat_map app]. rewrite fst_write_cons. destruct (WriteMsg append_file t _) as [t' e]. injection B as <-. split; reflexivity.
  Qed.

  Lemma behind_takes s t p : snd (ch_takes (behind dev) (s, t) p) = snd (ch_takes (as_chooser dev) s p)
    /\ fst (ch_takes (behind dev) (s, t) p)
       = (fst (ch_takes (as_chooser dev) s p), match snd (snd (ch_takes (as_chooser dev) s p)) with None => fst (write_msgs append_file t (crossed [Taken p])) | Some _ => t end)
    /\ (snd (snd (ch_takes (as_chooser dev) s p)) = None <-> took p (snd (ch_takes (as_chooser dev) s p))).
  Proof using WE.
    pose proof (behind_write (s, t) p) as B. unfold ch_write in B. set (z := ch_takes (behind dev) (s, t) p) in *. clearbody z. unfold tracer_Write in B. destruct WE as [HR HW].
    cbn [as_chooser ch_takes]. destruct (rw_write dev s p) as [s' [n [e|]]] eqn:E; destruct (HW _ _ _ _ _ E) as [L K].
    - injection B as <-. cbn [fst snd]. unfold took. split; [reflexivity|]. split; [reflexivity|]. split; intros X; discriminate X.
    - destruct (Nat.ltb_spec (List.length p) n); [lia|]. specialize (K eq_refl). subst n. rewrite firstn_all in B.
      destruct p as [|b bs].
      + pose proof (WriteMsg_empty append_file t DirOut 0) as Q. destruct (WriteMsg append_file t _) as [t' e]. cbn [fst] in Q. subst t'. injection B as <-.
        cbn [fst snd]. unfold took. repeat split; reflexivity.
      + cbn [fst snd crossed flat_map app]. rewrite fst_write_cons. destruct (WriteMsg append_file t _) as [t' e]. injection B as <-. unfold took. repeat split; reflexivity.
  Qed.

  Lemma fst_write_app {W} (w : io_write W) a : forall t b, fst (write_msgs w t (a ++ b)) = fst (write_msgs w (fst (write_msgs w t a)) b).
  Proof. clear. induction a as [|m a IH]; intros t b; [reflexivity|]. cbn [app]. rewrite !fst_write_cons. apply IH. Qed.

  Lemma crossed_cons e evs : crossed (e :: evs) = crossed [e] ++ crossed evs.
  Proof. unfold crossed. cbn [flat_map]. now rewrite app_nil_r. Qed.

  Lemma behind_happens st evs st' : happens (behind dev) st evs st' ->
    happens (as_chooser dev) (fst st) evs (fst st') /\ snd st' = fst (write_msgs append_file (snd st) (crossed evs)).
  Proof using WE.
    induction 1 as [st|[s t] evs st' _ (H & IH)|[s t] p evs st' T _ (H & IH)|[s t] p evs st' T _ (H & IH)].
    - split; [constructor|reflexivity].
    - destruct (behind_sends s t) as [E F]. rewrite F in *. cbn [fst snd] in *. rewrite E. split; [now constructor|].
      rewrite crossed_cons, fst_write_app. exact IH.
    - destruct (behind_takes s t p) as (E & F & K). rewrite E in T. rewrite F in *. cbn [fst snd] in *. rewrite (proj2 K T) in IH. split; [now constructor|].
      rewrite crossed_cons, fst_write_app. exact IH.
    - destruct (behind_takes s t p) as (E & F & K). rewrite E in T. rewrite F in *. cbn [fst snd] in *. split; [now constructor|].
      destruct (snd (snd (ch_takes (as_chooser dev) s p))) eqn:N; [|exfalso; apply T, K; reflexivity]. exact IH.
  Qed.
End Behind.

(** ** What the viewer makes of it *)

Lemma read_unique defs input f rest : ReadFrame defs [] input = Ret (rest, f, inl f) ->
  forall fs, frames_read defs input fs -> exists fs', fs = inl f :: fs' /\ frames_read defs rest fs'.
Proof.
  intros R fs F. inversion F as [E1 E2|pre last g rs fs' L N EN FO FR E1 E2|pre x e rs fs' L N X FR E1 E2]; subst.
  - discriminate R.
  - assert (R2 : ReadFrame defs [] (map inl (pre ++ [last]) ++ rs) = Ret (rs, g, inl g)).
    { apply ReadFrame_ok_iff. split; [reflexivity|]. exists pre, last. auto. }
    rewrite R in R2. injection R2 as -> -> . eauto.
  - assert (R2 : exists b, ReadFrame defs [] (map inl pre ++ x :: rs) = Ret (rs, b, inr e)).
    { apply ReadFrame_err_iff. exists pre. split; [exact L|]. split; [exact N|]. destruct x as [r|e']; [right; left; exists r; tauto|left; congruence]. }
    destruct R2 as [b R2]. rewrite R in R2. discriminate R2.
Qed.

Lemma tries_viewed defs : usable defs -> forall fs ws whole, tries defs fs ws whole ->
  exists rs got, taken ws = map report_bytes rs /\ Forall2 (padded defs) whole got
    /\ Forall (fun r => exists d, In d defs /\ List.length (rep_Data r) = room d /\ 0 < room d) rs
    /\ forall pend shown, Forall (live defs) pend -> Forall (fun x => ~ ends x) pend ->
         frames_read defs (map inl (pend ++ rs)) shown -> shown = map inl got.
Proof.
  intros (ND & RG & _). induction 1 as [|fs ws whole _ IH|f rs1 fs ws whole G _ (rs & gots & T & F & Z & R)|f a r b fs ws whole G _ (rs & gots & T & F & Z & R)].
  - exists [], []. split; [reflexivity|]. split; [constructor|]. split; [constructor|]. intros pend sh L N. rewrite app_nil_r. intros FR.
    destruct (read_eof defs pend [] L N) as (b & Q).
    inversion FR as [E1 E2|pre last g rs fs' L' N' EN FO FR' E1 E2|pre x e rs fs' L' N' X FR' E1 E2]; subst; [reflexivity| |]; exfalso.
    + assert (I : In (inl last) (map (@inl Report goerr) pend)) by (rewrite <- E1; apply in_or_app; left; apply in_map, in_or_app; right; now left).
      apply in_map_iff in I as (y & Y & I). injection Y as ->. rewrite Forall_forall in N. exact (N _ I EN).
    + assert (I : In x (map (@inl Report goerr) pend)) by (rewrite <- E1; apply in_or_app; right; now left).
      apply in_map_iff in I as (y & <- & I). destruct X as [U _]. rewrite Forall_forall in L. destruct (L _ I) as (d & (a & c & -> & K & _) & _).
      apply Forall_app in U as [_ U]. inversion U; subst. contradiction.
  - exact IH.
  - destruct (segments_read defs ND RG true f rs1 G [] (map inl rs) ltac:(auto)) as (g & PD & RD).
    exists (rs1 ++ rs), (g :: gots). split; [rewrite taken_app, taken_map, T, map_app; reflexivity|]. split; [constructor; assumption|]. split.
    { apply Forall_app. split; [|exact Z]. destruct (segments_shape _ _ _ _ G) as (_ & SH & _). eapply Forall_impl; [|exact SH]. intros x (d & I & _ & _ & Q). exists d. tauto. }
    intros pend sh L N FR.
    assert (RF : ReadFrame defs [] (map inl (pend ++ rs1 ++ rs)) = Ret (map inl rs, g, inl g)).
    { unfold ReadFrame. rewrite map_app. destruct (read_pending defs (map inl (rs1 ++ rs)) pend [] L N) as (buf' & ->).
      rewrite map_app, (read_start defs f rs1 (map inl rs) buf' G (segments_live defs ND RG f rs1 G)), RD. reflexivity. }
    destruct (read_unique _ _ _ _ RF _ FR) as (sh' & -> & FR'). cbn [map]. f_equal. exact (R [] sh' ltac:(constructor) ltac:(constructor) FR').
  - exists (a ++ rs), gots. split; [|split; [exact F|split]].
    + rewrite taken_app, taken_map. unfold taken at 1. cbn [flat_map app]. fold (taken ws). rewrite T, map_app. reflexivity.
    + apply Forall_app. split; [|exact Z]. destruct (segments_shape _ _ _ _ G) as (_ & SH & _). apply Forall_app in SH as [SH _]. eapply Forall_impl; [|exact SH]. intros x (d & I & _ & _ & Q). exists d. tauto.
    + intros pend sh L N FR. rewrite app_assoc in FR. apply (R (pend ++ a)); [..|exact FR]; apply Forall_app; split; auto.
      * pose proof (segments_live defs ND RG f _ G) as Q. apply Forall_app in Q as [Q _]. exact Q.
      * exact (segments_open defs true f _ G a r b eq_refl).
Qed.

Lemma crossed_out evs : Forall (fun p => p <> []) (taken evs) -> map msg_Data (of_dir 1 (crossed evs)) = taken evs.
Proof.
  unfold crossed, taken, of_dir. induction evs as [|[[[|b bs] [e|]]|[|p ps]|p] evs IH]; cbn [flat_map app filter map msg_Dir]; intros N; auto.
  - inversion N. contradiction.
  - cbn [N.eqb Pos.eqb DirOut msg_Data]. inversion N; subst. cbn. f_equal. now apply IH.
Qed.

Lemma crossed_readable evs :
  Forall (fun x => List.length (fst x) <= maxRawSize) (reads evs) -> Forall (fun p => List.length p <= maxRawSize) (taken evs) -> Forall readable (crossed evs).
Proof.
  unfold crossed, taken, reads. induction evs as [|[[[|b bs] [e|]]|[|p ps]|p] evs IH]; cbn [flat_map app]; intros A B; try (constructor || (apply IH; auto; (now inversion A) || (now inversion B))).
  - split; [split; [left; reflexivity|discriminate]|]. inversion A as [|? ? X]; subst. cbn [fst msg_Data] in *. unfold len, maxRawSize in *. lia.
  - apply IH; auto. now inversion A.
  - split; [split; [right; reflexivity|discriminate]|]. inversion B as [|? ? X]; subst. cbn [msg_Data] in *. unfold len, maxRawSize in *. lia.
  - apply IH; auto. now inversion B.
Qed.
