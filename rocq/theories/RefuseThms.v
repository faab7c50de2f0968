(** Lemmas for C122. *)
From Coq Require Import ZifyBool ZifyNat ZifyN Lia.
From Verif Require Import Base BaseFacts GoTypes Types Payload Lingo Command Handlers SpecProtocol Packet SpecPacket Hid SpecHid HidFacts HidThms Server SpecServer SpecPlug SpecTransport TransportThms
  SpecWire ProtocolProps SpecReact ReactThms SpecRefuse.

(** ** An accessory that takes everything and looks away after a refusal up to the next start of a frame *)

Definition starting (p : bytes) : bool := match p with _ :: lc :: _ => byte_eqb lc x00 || byte_eqb lc x02 | _ => false end.
Definition tookb (p : bytes) (r : nat * option goerr) : bool := Nat.eqb (fst r) (List.length p) && match snd r with None => true | Some _ => false end.
Lemma tookb_took p r : tookb p r = true <-> took p r.
Proof.
  unfold tookb, took. destruct r as [m [e|]]; cbn [fst snd]; split; intros H.
  - rewrite Bool.andb_false_r in H. discriminate.
  - discriminate.
  - f_equal. lia.
  - injection H as ->. rewrite Nat.eqb_refl. reflexivity.
Qed.

Definition patient {D} (a : chooser D) : accessory (D * bool) := mkAccessory
  (fun s => ((fst (ch_sends a (fst s)), snd s), snd (ch_sends a (fst s))))
  (fun s p => if snd s && negb (starting p) then s else (fst (ch_takes a (fst s) p), negb (tookb p (snd (ch_takes a (fst s) p))))).

Inductive mapped : bool -> list passed -> list happened -> Prop :=
| m_end k : mapped k [] []
| m_read k x evs hs : mapped k evs hs -> mapped k (FromAcc x :: evs) (Read x :: hs)
| m_skip p evs hs : starting p = false -> mapped true evs hs -> mapped true (ToAcc p :: evs) hs
| m_taken k p evs hs : k && negb (starting p) = false -> mapped false evs hs -> mapped k (ToAcc p :: evs) (Taken p :: hs)
| m_refused k p evs hs : k && negb (starting p) = false -> mapped true evs hs -> mapped k (ToAcc p :: evs) (Refused p :: hs).

Lemma exchange_mapped {D} (a : chooser D) s evs s' : exchange (patient a) s evs s' ->
  exists hs, happens a (fst s) hs (fst s') /\ mapped (snd s) evs hs.
Proof.
  induction 1 as [s|s evs s' _ (hs & H & M)|s p evs s' _ (hs & H & M)].
  - exists []. split; constructor.
  - cbn [patient acc_sends fst snd] in *. exists (Read (snd (ch_sends a (fst s))) :: hs). split; constructor; assumption.
  - cbn [patient acc_gets] in *. destruct (snd s && negb (starting p)) eqn:K.
    + exists hs. split; [exact H|]. apply Bool.andb_true_iff in K as [K1 K2]. rewrite K1 in *. apply m_skip; [now apply Bool.negb_true_iff|exact M].
    + cbn [fst snd] in *. destruct (tookb p (snd (ch_takes a (fst s) p))) eqn:T; cbn [negb] in M.
      * exists (Taken p :: hs). split; [constructor; [now apply tookb_took|exact H]|apply m_taken; assumption].
      * exists (Refused p :: hs). split; [constructor; [|exact H]|apply m_refused; assumption].
        intros Q. apply tookb_took in Q. congruence.
Qed.

Lemma mapped_reads k evs hs : mapped k evs hs -> reads hs = sent evs.
Proof. unfold reads, sent. induction 1; cbn [flat_map app]; congruence. Qed.

Lemma mapped_split k evs hs : mapped k evs hs -> forall h1 x h2, hs = h1 ++ Read x :: h2 ->
  exists e1 e2, evs = e1 ++ FromAcc x :: e2 /\ mapped k e1 h1.
Proof.
  induction 1 as [k|k y evs hs M IH|p evs hs S M IH|k p evs hs K M IH|k p evs hs K M IH]; intros h1 x h2 E.
  - destruct h1; discriminate E.
  - destruct h1 as [|z h1]; cbn [app] in E.
    + injection E as -> _. exists [], evs. split; [reflexivity|constructor].
    + injection E as <- E. destruct (IH _ _ _ E) as (e1 & e2 & -> & M1). exists (FromAcc y :: e1), e2. split; [reflexivity|now constructor].
  - destruct (IH _ _ _ E) as (e1 & e2 & -> & M1). exists (ToAcc p :: e1), e2. split; [reflexivity|now constructor].
  - destruct h1 as [|z h1]; cbn [app] in E; [discriminate E|]. injection E as <- E. destruct (IH _ _ _ E) as (e1 & e2 & -> & M1).
    exists (ToAcc p :: e1), e2. split; [reflexivity|now constructor].
  - destruct h1 as [|z h1]; cbn [app] in E; [discriminate E|]. injection E as <- E. destruct (IH _ _ _ E) as (e1 & e2 & -> & M1).
    exists (ToAcc p :: e1), e2. split; [reflexivity|now constructor].
Qed.

(** Writes only. *)
Lemma mapped_writes k evs hs : mapped k evs hs -> mapped k (map ToAcc (got evs)) (writes hs).
Proof. unfold got, writes. induction 1; cbn [flat_map map app filter]; try constructor; assumption. Qed.

(** ** Reports of a frame *)

Lemma segments_first defs f rs : segments defs true f rs -> exists r rest, rs = r :: rest /\ starting (report_bytes r) = true /\ Forall (fun x => starting (report_bytes x) = false) rest.
Proof.
  assert (Q : forall b data l, segments defs b data l -> b = false -> Forall (fun x => starting (report_bytes x) = false) l).
  { induction 1; intros ->; constructor; auto; reflexivity. }
  intros H. inversion H as [b data d D C R|b chunk rest d l NR C R NC H']; subst; eexists _, _; split; try reflexivity; split; try reflexivity; [constructor|exact (Q _ _ _ H' eq_refl)].
Qed.

Lemma mapped_skipped rs : Forall (fun x => starting (report_bytes x) = false) rs -> forall evs hs,
  mapped true (map ToAcc (map report_bytes rs) ++ evs) hs -> mapped true evs hs.
Proof.
  induction 1 as [|r rs S _ IH]; intros evs hs M; [exact M|]. cbn [map app] in M.
  inversion M as [| |? ? ? S' M'|? ? ? ? K M'|? ? ? ? K M']; subst.
  - now apply IH.
  - rewrite S in K. discriminate K.
  - rewrite S in K. discriminate K.
Qed.

Lemma mapped_rest rs : Forall (fun x => starting (report_bytes x) = false) rs -> forall evs hs,
  mapped false (map ToAcc (map report_bytes rs) ++ evs) hs ->
  (exists hs', hs = map (fun r => Taken (report_bytes r)) rs ++ hs' /\ mapped false evs hs')
  \/ (exists a r b hs', rs = a ++ r :: b /\ hs = map (fun r => Taken (report_bytes r)) a ++ Refused (report_bytes r) :: hs' /\ mapped true evs hs').
Proof.
  induction 1 as [|r rs S F IH]; intros evs hs M; [left; exists hs; auto|]. cbn [map app] in M.
  inversion M as [| |? ? ? S' M'|? ? ? ? K M'|? ? ? ? K M']; subst.
  - destruct (IH _ _ M') as [(hs' & -> & M2)|(a & x & b & hs' & -> & -> & M2)].
    + left. exists hs'. auto.
    + right. exists (r :: a), x, b, hs'. auto.
  - right. exists [], r, rs. eexists. split; [reflexivity|]. split; [reflexivity|]. exact (mapped_skipped rs F _ _ M').
Qed.

Lemma departs_tries defs fs outs : departs defs fs outs -> forall k hs, mapped k (map ToAcc outs) hs -> exists whole, tries defs fs hs whole.
Proof.
  induction 1 as [|fs outs D IH|f rs fs outs S D IH]; intros k hs M.
  - inversion M; subst. exists []. constructor.
  - destruct (IH k hs M) as (w & T). exists w. now constructor.
  - rewrite map_app in M. destruct (segments_first _ _ _ S) as (r & rest & -> & S1 & S2). cbn [map app] in M.
    inversion M as [| |? ? ? S' M'|? ? ? ? K M'|? ? ? ? K M']; subst.
    + congruence.
    + destruct (mapped_rest rest S2 _ _ M') as [(hs' & -> & M2)|(a & x & b & hs' & -> & -> & M2)]; destruct (IH _ _ M2) as (w & T).
      * exists (f :: w). exact (tries_whole defs f (r :: rest) fs hs' w S T).
      * exists w. exact (tries_broken defs f (r :: a) x b fs hs' w S T).
    + apply (mapped_skipped rest S2) in M'. destruct (IH _ _ M') as (w & T). exists w. exact (tries_broken defs f [] r rest fs _ w S T).
Qed.

(** ** The transports carry alike *)

Section carry.
  Context {D : Type} (a : chooser D) (P : plausible a) (defs : list ReportDef) (U : usable defs).

  Lemma read_same fuel : forall buf d k, compare (ReadFrame_dev fuel defs (ch_read a) buf d) (ReadFrame_dev fuel defs (acc_read (patient a)) buf (d, k))
    (fun x y => fst y = (fst x, k) /\ snd x = snd y).
  Proof.
    induction fuel as [|fuel IH]; intros buf d k; cbn [ReadFrame_dev]; [exact I|].
    unfold ch_read at 1, acc_read at 1. cbn [patient acc_sends fst snd]. destruct (ch_sends a d) as [d' x]. cbn [io_bind done fst snd].
    destruct (ReadReport x) as [r|e]; [|split; reflexivity]. destruct (Find defs _) as [rd|e]; [|split; reflexivity].
    destruct (_ <? 0)%Z; [exact I|]. repeat (match goal with |- context [if ?b then _ else _] => destruct b end; try apply IH; try (split; reflexivity)).
  Qed.

  Lemma offer_takes d r : exists e, dev_WriteReport (ch_write a) (Ret d) r = (Ret (fst (ch_takes a d (report_bytes r))), e)
    /\ (e = None <-> tookb (report_bytes r) (snd (ch_takes a d (report_bytes r))) = true).
  Proof.
    unfold dev_WriteReport, raw_Write, WriteReport, ch_write. cbn [bind]. pose proof (P d (report_bytes r)) as L. unfold report_bytes in *.
    destruct (ch_takes a d (rep_ID r :: rep_LinkControl r :: rep_Data r)) as [d' [m e]] eqn:E. cbn [bind fst snd] in *.
    destruct (Nat.ltb _ m) eqn:Q; [apply Nat.ltb_lt in Q; lia|]. unfold tookb. cbn [fst snd].
    destruct e as [e|].
    - exists (Some e). split; [reflexivity|]. rewrite Bool.andb_false_r. split; discriminate.
    - destruct (Nat.eqb m _) eqn:M; cbn [andb]; [exists None|exists (Some errShortWrite)]; (split; [reflexivity|]); split; auto; discriminate.
  Qed.

  Lemma patient_takes s r : dev_WriteReport (acc_write (patient a)) (Ret s) r = (Ret (acc_gets (patient a) s (report_bytes r)), None).
  Proof. unfold dev_WriteReport, WriteReport, raw_Write, acc_write. cbn [bind fst snd]. rewrite Nat.ltb_irrefl, Nat.eqb_refl. reflexivity. Qed.

  Lemma offer_skipped rs : Forall (fun x => starting (report_bytes x) = false) rs -> forall d,
    offer (dev_WriteReport (acc_write (patient a))) (Ret (d, true)) rs = (Ret (d, true), None).
  Proof.
    induction 1 as [|r rs S _ IH]; intros d; [reflexivity|]. cbn [offer]. rewrite patient_takes. cbn [patient acc_gets fst snd]. rewrite S. cbn [andb negb]. apply IH.
  Qed.

  Lemma offer_step r rs d k : k && negb (starting (report_bytes r)) = false -> Forall (fun x => starting (report_bytes x) = false) rs ->
    (forall d, exists d' k' e, offer (dev_WriteReport (ch_write a)) (Ret d) rs = (Ret d', e) /\ offer (dev_WriteReport (acc_write (patient a))) (Ret (d, false)) rs = (Ret (d', k'), None)) ->
    exists d' k' e, offer (dev_WriteReport (ch_write a)) (Ret d) (r :: rs) = (Ret d', e) /\ offer (dev_WriteReport (acc_write (patient a))) (Ret (d, k)) (r :: rs) = (Ret (d', k'), None).
  Proof.
    intros K F IH. cbn [offer]. rewrite patient_takes. cbn [patient acc_gets fst snd]. rewrite K. destruct (offer_takes d r) as (e & -> & E).
    destruct (tookb _ _); cbn [negb].
    - rewrite (proj2 E eq_refl). apply IH.
    - rewrite (offer_skipped rs F). destruct e as [e|]; [|exfalso; discriminate (proj1 E eq_refl)]. eexists _, _, _. split; reflexivity.
  Qed.

  Lemma offer_alike rs : Forall (fun x => starting (report_bytes x) = false) rs -> forall d,
    exists d' k' e, offer (dev_WriteReport (ch_write a)) (Ret d) rs = (Ret d', e) /\ offer (dev_WriteReport (acc_write (patient a))) (Ret (d, false)) rs = (Ret (d', k'), None).
  Proof.
    induction 1 as [|r rs S F IH]; intros d; [exists d, false, None; split; reflexivity|]. apply offer_step; auto.
  Qed.

  Lemma write_same d k f : exists d' k' e, WriteFrame_dev defs (ch_write a) d f = done (d', e) /\ WriteFrame_dev defs (acc_write (patient a)) (d, k) f = done ((d', k'), None).
  Proof.
    destruct U as (_ & _ & rd & LO & R). unfold WriteFrame_dev. destruct f as [|b f].
    - rewrite !HidThms.write_empty. exists d, k, None. split; reflexivity.
    - destruct (write_segments defs (b :: f) rd (List.length (b :: f)) LO R ltac:(discriminate) ltac:(lia)) as (rs & S & _ & H).
      rewrite !H. destruct (segments_first _ _ _ S) as (r & rest & -> & S1 & S2).
      destruct (offer_step r rest d k) as (d' & k' & e & O1 & O2); [rewrite S1; now destruct k|exact S2|exact (offer_alike rest S2)|].
      rewrite O1, O2. exists d', k', e. split; reflexivity.
  Qed.

  Definition aside (x : D * nat) (y : (D * bool) * nat) : Prop := fst (fst y) = fst x /\ snd y = snd x.

  Lemma patient_carries fuel spares : carry_alike aside (hid_transport fuel defs spares (ch_read a) (ch_write a)) (hid_transport fuel defs spares (acc_read (patient a)) (acc_write (patient a))).
  Proof.
    constructor.
    - intros [d n] [[d2 k] n2] [E1 E2]. cbn [fst snd] in *. subst d2 n2. cbn [hid_transport tp_ReadFrame fst snd].
      pose proof (read_same fuel [] d k) as R. unfold compare in R.
      destruct (ReadFrame_dev fuel defs (ch_read a) [] d) as [[[d1 x1]|]|], (ReadFrame_dev fuel defs (acc_read (patient a)) [] (d, k)) as [[[d2 x2]|]|]; try contradiction; cbn [io_bind done compare]; auto.
      cbn [fst snd] in R. destruct R as [-> <-]. cbn [fst snd]. split; [split; reflexivity|]. destruct x1; [left; reflexivity|split; auto].
    - intros [d n] [[d2 k] n2] f [E1 E2]. cbn [fst snd] in *. subst d2 n2. cbn [hid_transport tp_WriteFrame fst snd].
      destruct (write_same d k f) as (d' & k' & e & -> & ->). cbn [io_bind done compare fst snd]. split; reflexivity.
  Qed.
End carry.

(** ** What the server writes to a device that takes everything is frames *)

Section wired.
  Context {S : Type} (rt : bool) (clock : nat -> datetime) (dev : DeviceGeneral S) (defs : list ReportDef) (U : usable defs) (spares : nat -> bytes) (fuel2 : nat).
  Notation wtp := (hid_transport fuel2 defs spares wire_read wire_write).

  Lemma wire_read_keeps fuel : forall buf l o d x, ReadFrame_dev fuel defs wire_read buf (l, o) = done (d, x) -> snd d = o.
  Proof.
    induction fuel as [|fuel IH]; intros buf l o d x; cbn [ReadFrame_dev]; [discriminate|].
    assert (W : exists l' y, wire_read (l, o) = done ((l', o), y)) by (destruct l; eexists _, _; reflexivity). destruct W as (l' & y & ->). cbn [io_bind done].
    destruct (ReadReport y) as [r|e]; [|intros H; injection H as <- _; reflexivity]. destruct (Find defs _) as [rd|e]; [|intros H; injection H as <- _; reflexivity].
    destruct (_ <? 0)%Z; [discriminate|].
    repeat (match goal with |- context [if ?b then _ else _] => destruct b end; try apply IH; try (intros H; injection H as <- _; reflexivity)).
  Qed.

  Lemma wire_frame_departs l o f : exists outs, departs defs [f] outs /\ WriteFrame_dev defs wire_write (l, o) f = done ((l, o ++ outs), None).
  Proof.
    destruct U as (_ & _ & rd & LO & R). unfold WriteFrame_dev. destruct f as [|b f].
    - exists []. split; [repeat constructor|]. rewrite HidThms.write_empty. cbn [io_bind done]. now rewrite app_nil_r.
    - destruct (write_segments defs (b :: f) rd (List.length (b :: f)) LO R ltac:(discriminate) ltac:(lia)) as (rs & G & _ & H).
      exists (map report_bytes rs). split; [|rewrite H, wire_offer; reflexivity].
      rewrite <- (app_nil_r (map report_bytes rs)). constructor; [exact G|constructor].
  Qed.

  Lemma replies_depart cmds : forall mode l o n m w, write_replies rt wtp mode cmds ((l, o), n) = done (m, w) ->
    exists fs outs, departs defs fs outs /\ w = ((l, o ++ outs), n).
  Proof.
    induction cmds as [|c cmds IH]; intros mode l o n m w; cbn [write_replies].
    - intros H. injection H as <- <-. exists [], []. split; [constructor|now rewrite app_nil_r].
    - destruct (MarshalCmd rt mode c) as [[mode' res]|]; cbn [io_bind]; [|discriminate]. cbv zeta. destruct (WritePacket _ _) as [f x].
      destruct (wire_frame_departs l o f) as (outs & DP & W). cbn [hid_transport tp_WriteFrame fst snd]. rewrite W. cbn [io_bind done].
      intros H. apply IH in H as (fs & outs2 & DP2 & ->). exists ([f] ++ fs), (outs ++ outs2). split; [now apply departs_app|now rewrite app_assoc].
  Qed.

  Lemma loop_departs fuel : forall st l o n st' l' o' n', processFrames_loop fuel rt std_registry clock dev wtp st ((l, o), n) = done (st', ((l', o'), n')) ->
    exists fs outs, departs defs fs outs /\ o' = o ++ outs.
  Proof.
    induction fuel as [|fuel IH]; intros st l o n st' l' o' n'; cbn [processFrames_loop]; [discriminate|].
    destruct (tp_ReadFrame wtp ((l, o), n)) as [[[[[l1 o1] n1] r]|]|] eqn:R; cbn [io_bind done]; try discriminate.
    cbn [hid_transport tp_ReadFrame fst snd] in R.
    destruct (ReadFrame_dev fuel2 defs wire_read [] (l, o)) as [[[d1 r1]|]|] eqn:R1; cbn [io_bind done] in R; try discriminate R.
    injection R as -> <- R. clear R. rename R1 into R.
    apply wire_read_keeps in R. cbn [snd] in R. subst o1. destruct r as [f|e].
    - unfold process_frame. destruct (frame_packets rt std_registry (sv_mode st) f) as [[[m1 pe]|]|]; cbn [io_bind]; try discriminate.
      destruct (handle_all std_registry clock dev (inCmds pe) (sv_h st)) as [[h1 u]|]; cbn [io_bind]; [|discriminate].
      destruct (write_replies rt wtp m1 _ _) as [[[m2 w]|]|] eqn:W; cbn [io_bind done]; try discriminate.
      apply replies_depart in W as (fs & outs & DP & ->). intros H. apply IH in H as (fs2 & outs2 & DP2 & ->).
      exists (fs ++ fs2), (outs ++ outs2). split; [now apply departs_app|now rewrite app_assoc].
    - assert (Q : done (st, ((l1, o), Datatypes.S n)) = done (st', ((l', o'), n')) -> exists fs outs, departs defs fs outs /\ o' = o ++ outs).
      { intros H. injection H as <- <- <- <-. exists [], []. split; [constructor|now rewrite app_nil_r]. }
      destruct e; try exact Q; apply IH.
  Qed.
End wired.

(** ** Reading what was taken *)

Lemma segments_live defs : NoDup (map def_ID defs) -> Forall (fun d => 0 <= def_ID d <= 255)%Z defs ->
  forall f rs, segments defs true f rs -> Forall (live defs) rs.
Proof.
  intros ND RG f rs S. destruct (segments_shape _ _ _ _ S) as (_ & F & _). eapply Forall_impl; [|exact F].
  intros r (d & I & _ & E & _ & R). exists d. destruct r as [id lc data]. cbn [rep_ID] in E. subst id. split; [now apply usable_known|]. unfold room in R. lia.
Qed.

Lemma segments_open defs : forall first f rs, segments defs first f rs -> forall a r b, rs = a ++ r :: b -> Forall (fun x => ~ ends x) a.
Proof.
  induction 1 as [first data d D C R|first chunk rest d rs NR C R NC H IH]; intros a r b E.
  - destruct a as [|x a]; [constructor|]. cbn [app] in E. injection E as _ E. destruct a; discriminate E.
  - destruct a as [|x a]; [constructor|]. cbn [app] in E. injection E as <- E. constructor; [|eapply IH; eauto].
    intros [X|X]; cbn [rep_LinkControl] in X; destruct first; discriminate X.
Qed.

Lemma read_pending defs rest : forall pre buf, Forall (live defs) pre -> Forall (fun x => ~ ends x) pre ->
  exists buf', ReadFrame_loop defs buf (map inl pre ++ rest) = ReadFrame_loop defs buf' rest.
Proof.
  induction pre as [|r pre IH]; intros buf L N; [exists buf; reflexivity|].
  inversion L as [|? ? Lr L']; inversion N as [|? ? Nr N']; subst. destruct (contributes_total _ _ Lr) as [c C]. cbn [map app].
  rewrite (read_step _ _ _ _ _ C). destruct (not_ends _ Nr) as [E0 E1]. rewrite E0, E1. destruct (byte_eqb (rep_LinkControl r) x02); apply IH; assumption.
Qed.

Lemma read_start defs f rs rest buf : segments defs true f rs -> Forall (live defs) rs -> ReadFrame_loop defs buf (map inl rs ++ rest) = ReadFrame_loop defs [] (map inl rs ++ rest).
Proof.
  intros S L. inversion S as [b data d D C R|b chunk more d l NR C R NC H']; subst; inversion L as [|? ? Lr L']; subst;
    destruct (contributes_total _ _ Lr) as [c CT]; cbn [map app]; rewrite !(read_step _ _ _ _ _ CT); reflexivity.
Qed.

Lemma taken_app a b : taken (a ++ b) = taken a ++ taken b. Proof. apply flat_map_app. Qed.
Lemma taken_map rs : taken (map (fun r => Taken (report_bytes r)) rs) = map report_bytes rs.
Proof. unfold taken. induction rs as [|r rs IH]; [reflexivity|]. cbn [map flat_map app]. now rewrite IH. Qed.

Lemma taken_read defs : usable defs -> forall fs ws whole, tries defs fs ws whole ->
  exists rs got, taken ws = map report_bytes rs /\ Forall2 (padded defs) whole got
    /\ forall pend buf, Forall (live defs) pend -> Forall (fun x => ~ ends x) pend ->
         read_frames (S (List.length whole)) defs buf (map inl (pend ++ rs)) = Ret ([], map inl got ++ [inr EOF]).
Proof.
  intros (ND & RG & _). induction 1 as [|fs ws whole _ IH|f rs1 fs ws whole G _ (rs & gots & T & F & R)|f a r b fs ws whole G _ (rs & gots & T & F & R)].
  - exists [], []. split; [reflexivity|]. split; [constructor|]. intros pend buf L N. rewrite app_nil_r. cbn [List.length read_frames]. unfold ReadFrame.
    destruct (read_eof defs pend [] L N) as (b & ->). reflexivity.
  - exact IH.
  - destruct (segments_read defs ND RG true f rs1 G [] (map inl rs) ltac:(auto)) as (g & PD & RD).
    exists (rs1 ++ rs), (g :: gots). split; [rewrite taken_app, taken_map, T, map_app; reflexivity|]. split; [constructor; assumption|].
    intros pend buf L N. change (List.length (f :: whole)) with (S (List.length whole)). remember (S (List.length whole)) as k eqn:K. cbn [read_frames]. unfold ReadFrame.
    rewrite map_app. destruct (read_pending defs (map inl (rs1 ++ rs)) pend [] L N) as (buf' & ->).
    rewrite map_app, (read_start defs f rs1 (map inl rs) buf' G (segments_live defs ND RG f rs1 G)), RD. cbn [bind app].
    pose proof (R [] g ltac:(constructor) ltac:(constructor)) as Q. cbn [app] in Q. rewrite Q. reflexivity.
  - exists (a ++ rs), gots. split; [|split; [exact F|]].
    + rewrite taken_app, taken_map. unfold taken at 1. cbn [flat_map app]. fold (taken ws). rewrite T, map_app. reflexivity.
    + intros pend buf L N. rewrite app_assoc. apply R; apply Forall_app; split; auto.
      * pose proof (segments_live defs ND RG f _ G) as Q. apply Forall_app in Q as [Q _]. exact Q.
      * exact (segments_open defs true f _ G a r b eq_refl).
Qed.
