(** Recorded sessions in the viewer. *)
From Coq Require Import ZifyBool ZifyNat ZifyN Lia.
From Verif Require Import Base BaseFacts GoTypes Types Payload Lingo Command SpecPayload SpecCommand
  Handlers SpecHandlers Packet SpecPacket Hid SpecHid HidFacts HidThms Trace SpecTrace TraceFacts TraceThms
  TraceSessions Server SpecServer SessionThms SpecView ViewThms SpecSession CrashThms.
#[local] Opaque std_registry.

(** ** Blocks of messages *)

Definition strip (m : Msg) : N * bytes := (msg_Dir m, msg_Data m).

(** Messages, whatever their time stamps, that make up one frame or one error. *)
Definition block (defs : list ReportDef) (ms : list Msg) (d : N) (x : bytes + goerr) : Prop :=
  forall ms' rest, map strip ms' = map strip ms -> next_frame defs (ms' ++ rest) d x rest.

Lemma strip_report ms : forall ms', map strip ms' = map strip ms ->
  map report_of ms' = map report_of ms /\ map msg_Dir ms' = map msg_Dir ms.
Proof.
  induction ms as [|m ms IH]; intros [|m' ms'] E; try discriminate; [split; reflexivity|].
  cbn [map] in *. injection E as E1 E2 E3. destruct (IH _ E3) as [-> ->]. unfold report_of. rewrite E1, E2. split; reflexivity.
Qed.

Lemma picks_all d l rest : Forall (fun m => msg_Dir m = d) l -> picks d (l ++ rest) l rest.
Proof. induction 1 as [|m l E _ IH]; [apply picks_none|]. cbn [app]. apply picks_take; assumption. Qed.

Lemma forall_map {A B} (f : A -> B) (P : B -> Prop) l : Forall (fun x => P (f x)) l <-> Forall P (map f l).
Proof. induction l as [|x l IH]; cbn [map]; split; intros F; inversion F; subst; constructor; tauto. Qed.

Lemma read_block defs ms d b x : ms <> [] -> Forall (fun m => msg_Dir m = d) ms ->
  ReadFrame defs [] (map report_of ms) = Ret ([], b, x) -> x <> inr EOF -> block defs ms d x.
Proof.
  intros NE DR R NX ms' rest E. destruct (strip_report _ _ E) as [ER ED].
  assert (DR' : Forall (fun m => msg_Dir m = d) ms').
  { apply (forall_map msg_Dir (fun x => x = d)). rewrite ED. now apply (forall_map msg_Dir (fun x => x = d)). }
  rewrite <- ER in R. destruct ms' as [|h l].
  { destruct ms; [congruence|discriminate]. }
  pose proof (picks_all d (h :: l) rest DR') as P. cbn [app] in *.
  assert (d = msg_Dir h) as -> by (inversion DR'; subst; reflexivity).
  destruct x as [f|e].
  - apply ReadFrame_ok_iff in R as (-> & pre & last & EI & L & N & EL & F). rewrite app_nil_r in EI.
    exact (next_ok defs h (l ++ rest) (h :: l) rest pre last f P EI L N EL F).
  - destruct (proj1 (ReadFrame_err_iff defs [] _ [] e) (ex_intro _ b R)) as (pre & L & N & C).
    destruct C as [EI|[(r & EI & U & ->)|(_ & _ & ->)]]; [| |congruence].
    + exact (next_error defs h (l ++ rest) (h :: l) rest pre (inr e) e P EI L N eq_refl).
    + exact (next_error defs h (l ++ rest) (h :: l) rest pre (inl r) errReportID P EI L N (conj U eq_refl)).
Qed.

(** What the messages of a happening are. *)
Definition told (defs : list ReportDef) (x : happening) (ms : list Msg) : Prop :=
  match x with
  | Received r => block defs ms 0 r
  | Sent [] => ms = []
  | Sent f => exists got, padded defs f got /\ block defs ms 1 (inl got)
  end.

(** The messages at the end: a frame the device did not finish. *)
Definition open_end (defs : list ReportDef) (ms : list Msg) : Prop :=
  Forall (fun m => msg_Dir m = 0%N) ms
  /\ exists rs, map report_of ms = map inl rs /\ Forall (live defs) rs /\ Forall (fun r => ~ ends r) rs.

Lemma filter_none {A} (f : A -> bool) l : Forall (fun x => f x = false) l -> filter f l = [].
Proof. induction 1 as [|x l E _ IH]; [reflexivity|]. cbn [filter]. now rewrite E. Qed.
Lemma filter_all {A} (f : A -> bool) l : Forall (fun x => f x = true) l -> filter f l = l.
Proof. induction 1 as [|x l E _ IH]; [reflexivity|]. cbn [filter]. now rewrite E, IH. Qed.

Lemma show_open rt defs spares n m ms es left : open_end defs ms -> shows rt defs spares n m ms es left -> es = [] /\ left = [].
Proof.
  intros (D & rs & R & L & N) SH. destruct ms as [|h l].
  { inversion SH; subst; try (split; reflexivity);
      match goal with H : next_frame _ [] _ _ _ |- _ => inversion H end. }
  assert (DH : msg_Dir h = 0%N) by (inversion D; assumption).
  assert (U : unfinished defs (h :: l)).
  { exists h, l, rs. split; [reflexivity|]. split; [|split; assumption]. unfold of_dir. rewrite filter_all; [exact R|].
    eapply Forall_impl; [|exact D]. cbn beta. intros x Hx. rewrite Hx, DH. reflexivity. }
  inversion SH; subst.
  - split; [reflexivity|]. apply filter_none. inversion D as [|? ? _ D']; subst. eapply Forall_impl; [|exact D'].
    cbn beta. intros x Hx. rewrite Hx, DH. reflexivity.
  - exfalso. eapply unfinished_next; eassumption.
  - exfalso. eapply unfinished_next; eassumption.
Qed.

Lemma show_block rt defs spares n m ms rest d x es left : block defs ms d x ->
  shows rt defs spares n m (ms ++ rest) es left ->
  exists e es' n' m', es = e :: es' /\ vw_dir e = d /\ vw_frame e = x /\ shows rt defs spares n' m' rest es' left.
Proof.
  intros B SH. specialize (B ms rest eq_refl). inversion SH; subst.
  - match goal with H : [] = _ |- _ => rewrite <- H in B end. inversion B.
  - exfalso. match goal with H : _ :: _ = _ |- _ => rewrite <- H in B end. eapply unfinished_next; eassumption.
  - match goal with H : next_frame _ (ms ++ rest) _ (inr _) _ |- _ => destruct (next_unique _ _ _ _ _ _ _ _ B H) as (<- & -> & <-) end.
    eexists _, _, _, _. split; [reflexivity|]. split; [reflexivity|]. split; [reflexivity|]. eassumption.
  - match goal with H : next_frame _ (ms ++ rest) _ (inl _) _ |- _ => destruct (next_unique _ _ _ _ _ _ _ _ B H) as (<- & -> & <-) end.
    eexists _, _, _, _. split; [reflexivity|]. split; [reflexivity|]. split; [reflexivity|]. eassumption.
Qed.

Lemma block_strip defs ms ms' d x : block defs ms d x -> map strip ms' = map strip ms -> block defs ms' d x.
Proof. intros B E ms2 rest E2. apply B. congruence. Qed.

Lemma show_told rt defs spares hs blocks : Forall2 (told defs) hs blocks -> forall end_ ms n m es left,
  open_end defs end_ -> map strip ms = map strip (List.concat blocks ++ end_) ->
  shows rt defs spares n m ms es left -> left = [] /\ Forall2 (shown_as defs) (filter visible hs) es.
Proof.
  induction 1 as [|x b hs blocks T F IH]; intros end_ ms n m es left O E SH.
  - cbn [List.concat app] in E.
    assert (O' : open_end defs ms).
    { destruct O as (D & rs & R & L & N). destruct (strip_report _ _ E) as [ER ED]. split.
      - apply (forall_map msg_Dir (fun x => x = 0%N)). rewrite ED. now apply (forall_map msg_Dir (fun x => x = 0%N)).
      - exists rs. rewrite ER. auto. }
    destruct (show_open _ _ _ _ _ _ _ _ O' SH) as [-> ->]. split; [reflexivity|constructor].
  - cbn [List.concat] in E. rewrite <- app_assoc, map_app in E.
    apply map_eq_app in E as (b' & ms2 & -> & E1 & E2).
    destruct x as [r|f]; cbn [told] in T.
    + destruct (show_block _ _ _ _ _ _ _ _ _ _ _ (block_strip _ _ _ _ _ T E1) SH) as (e & es' & n' & m' & -> & VD & VF & SH').
      destruct (IH end_ ms2 n' m' es' left O E2 SH') as [-> IH2]. split; [reflexivity|].
      cbn [filter visible]. apply Forall2_cons; [|exact IH2]. split; assumption.
    + destruct f as [|c f].
      * subst b. destruct b'; [|discriminate]. cbn [filter visible app] in *. exact (IH end_ ms2 n m es left O E2 SH).
      * destruct T as (got & PG & T).
        destruct (show_block _ _ _ _ _ _ _ _ _ _ _ (block_strip _ _ _ _ _ T E1) SH) as (e & es' & n' & m' & -> & VD & VF & SH').
        destruct (IH end_ ms2 n' m' es' left O E2 SH') as [-> IH2]. split; [reflexivity|].
        cbn [filter visible]. apply Forall2_cons; [|exact IH2]. split; [assumption|]. exists got. split; assumption.
Qed.

(** ** What is recorded *)

Lemma recorded_join {S T} (tw : io_write T) (dev : io_rw S) a b rb : forall d d1 ra,
  run_tracer tw dev d a = Ret (d1, ra) -> recorded (a ++ b) (ra ++ rb) = recorded a ra ++ recorded b rb.
Proof.
  induction a as [|o a IH]; intros d d1 ra E.
  - cbn [run_tracer] in E. injection E as <- <-. reflexivity.
  - destruct o as [n|p]; cbn [run_tracer] in E.
    + destruct (tracer_Read tw dev d n) as [[d2 [got e]]|]; cbn [bind] in E; [|discriminate].
      destruct (run_tracer tw dev d2 a) as [[d3 rs]|] eqn:R; cbn [bind] in E; [|discriminate]. injection E as <- <-.
      cbn [app recorded]. destruct got as [|c got]; [exact (IH _ _ _ R)|]. destruct e; [exact (IH _ _ _ R)|].
      cbn [app]. f_equal. exact (IH _ _ _ R).
    + destruct (tracer_Write tw dev d p) as [[d2 [n e]]|]; cbn [bind] in E; [|discriminate].
      destruct (run_tracer tw dev d2 a) as [[d3 rs]|] eqn:R; cbn [bind] in E; [|discriminate]. injection E as <- <-.
      cbn [app recorded]. destruct p as [|c p]; [exact (IH _ _ _ R)|]. destruct n as [|n]; [exact (IH _ _ _ R)|].
      destruct e; [exact (IH _ _ _ R)|]. cbn [app]. f_equal. exact (IH _ _ _ R).
Qed.

Definition in_msg (b : bytes) : Msg := mkMsg 0 0 b.

Lemma recorded_of_reads {S T} (tw : io_write T) (dev : io_rw S) n k : forall d d1 rs,
  run_tracer tw dev d (repeat (OpRead n) k) = Ret (d1, rs) -> recorded (repeat (OpRead n) k) rs = map in_msg (read_data rs).
Proof.
  induction k as [|k IH]; intros d d1 rs E; cbn [repeat run_tracer] in E.
  - injection E as <- <-. reflexivity.
  - destruct (tracer_Read tw dev d n) as [[d2 [got e]]|]; cbn [bind] in E; [|discriminate].
    destruct (run_tracer tw dev d2 (repeat (OpRead n) k)) as [[d3 rs']|] eqn:R; cbn [bind] in E; [|discriminate].
    injection E as <- <-. specialize (IH _ _ _ R). unfold read_data in *.
    cbn [repeat recorded flat_map]. destruct got as [|c got]; [exact IH|]. destruct e; [exact IH|].
    cbn [app map]. unfold in_msg at 1. f_equal. exact IH.
Qed.

(** ** Reading one frame *)

Lemma list_loop defs fuel : forall buf l rest r, ReadFrame_dev fuel defs list_read buf l = Some (Ret (rest, r)) ->
  exists b, ReadFrame_loop defs buf (map ReadReport l) = Ret (map ReadReport rest, b, r).
Proof.
  induction fuel as [|fuel IH]; intros buf l rest r E; cbn [ReadFrame_dev] in E; [discriminate|].
  destruct l as [|x l]; cbn [list_read io_bind done] in E.
  - cbn [ReadReport] in E. injection E as <- <-. exists buf. reflexivity.
  - cbn [map ReadFrame_loop]. destruct (ReadReport x) as [rep|e]; [|injection E as <- <-; exists buf; reflexivity].
    destruct (Find defs (Z.of_N (b2n (rep_ID rep)))) as [def|e]; [|injection E as <- <-; exists buf; reflexivity].
    cbv zeta in *. destruct (Z.min _ _ <? 0)%Z; [discriminate|].
    destruct (b2n (rep_LinkControl rep) =? LinkControlDone)%N; [injection E as <- <-; eexists; reflexivity|].
    destruct (b2n (rep_LinkControl rep) =? LinkControlMoreToFollow)%N; [exact (IH _ _ _ _ E)|].
    destruct (b2n (rep_LinkControl rep) =? N.lor LinkControlContinue LinkControlMoreToFollow)%N; [exact (IH _ _ _ _ E)|].
    destruct (b2n (rep_LinkControl rep) =? LinkControlContinue)%N; [injection E as <- <-; eexists; reflexivity|].
    exact (IH _ _ _ _ E).
Qed.

Lemma reports_in ds : map report_of (map in_msg ds) = map ReadReport (map good_data ds).
Proof. rewrite !map_map. reflexivity. Qed.

Lemma in_dirs ds : Forall (fun m => msg_Dir m = 0%N) (map in_msg ds).
Proof. apply (forall_map in_msg (fun m => msg_Dir m = 0%N)). apply Forall_forall. reflexivity. Qed.

Lemma read_told {S} (dev : io_rw S) defs fuel d d' r : clean dev ->
  ReadFrame_dev fuel defs (traced_read append_file dev) [] d = Some (Ret (d', r)) ->
  exists ops rs, run_tracer append_file dev d ops = Ret (d', rs) /\ Forall fit ops
    /\ (r <> inr EOF -> block defs (recorded ops rs) 0 r)
    /\ (r = inr EOF -> open_end defs (recorded ops rs)).
Proof.
  intros C E. destruct (read_traced dev defs fuel C [] d d' r E) as (k & rs & ds & RT & ND & RL & Q).
  exists (repeat (OpRead maxRawSize) k), rs. split; [exact RT|]. split; [apply fit_reads|].
  specialize (RL []). rewrite app_nil_r in RL. apply list_loop in RL as (b & RL). cbn [map] in RL.
  rewrite (recorded_of_reads _ _ _ _ _ _ _ RT). split; intros X.
  - destruct Q as [[_ Q]|[Q _]]; [|congruence].
    rewrite (read_good ds rs ND Q). rewrite Q in RL.
    apply (read_block defs (map in_msg ds) 0 b); [|apply in_dirs|rewrite reports_in; exact RL|exact X].
    destruct ds as [|x ds]; [|discriminate]. cbn [map ReadFrame_loop] in RL. exfalso. apply X. injection RL as _ <-. reflexivity.
  - destruct Q as [[Q _]|[_ (x & Q)]]; [congruence|].
    assert (RD : read_data rs = ds) by exact (read_data_reads ds x rs ND Q).
    rewrite RD. split; [apply in_dirs|]. rewrite Q, map_app in RL. cbn [map ReadReport] in RL. subst r.
    destruct (proj1 (ReadFrame_err_iff defs [] _ [] EOF) (ex_intro _ b RL)) as (pre & L & N & [EI|[(y & EI & _ & EE)|(EI & _ & _)]]).
    + apply app_inj_tail in EI as [EI _]. exists pre. rewrite reports_in. auto.
    + discriminate.
    + exfalso. destruct (exists_last (l := pre)) as (p & y & ->).
      { intros ->. cbn [map] in EI. now apply app_eq_nil in EI. }
      rewrite map_app in EI. cbn [map] in EI. apply app_inj_tail in EI as [_ EI]. discriminate.
Qed.

(** ** Writing one frame *)

Definition raw (r : Report) : bytes := rep_ID r :: rep_LinkControl r :: rep_Data r.
Definition out_msg (r : Report) : Msg := mkMsg 1 0 (raw r).

Lemma offer_told {S} (dev : io_rw S) rs : obliging dev -> forall d d' e,
  offer (dev_WriteReport (tracer_Write append_file dev)) (Ret d) rs = (Ret d', e) ->
  exists res, run_tracer append_file dev d (map (fun r => OpWrite (raw r)) rs) = Ret (d', res)
    /\ recorded (map (fun r => OpWrite (raw r)) rs) res = map out_msg rs.
Proof.
  intros OB. induction rs as [|r rs IH]; intros d d' e E; cbn [offer] in E.
  - injection E as <- _. exists []. split; reflexivity.
  - unfold dev_WriteReport at 1 in E. unfold WriteReport, raw_Write in E. cbn [bind] in E. fold (raw r) in E.
    destruct d as [s t]. destruct (OB s (raw r)) as (s1 & W). cbn [map run_tracer]. unfold tracer_Write at 1.
    unfold tracer_Write in E at 1. rewrite W in *. rewrite Nat.ltb_irrefl in *.
    destruct (WriteMsg append_file t (mkMsg DirOut 0 (firstn (List.length (raw r)) (raw r)))) as [t1 e1].
    rewrite Nat.ltb_irrefl, Nat.eqb_refl in E. destruct (IH _ _ _ E) as (res & RT & RC).
    cbn [bind]. rewrite RT. cbn [bind]. eexists. split; [reflexivity|].
    change (map out_msg (r :: rs)) with (out_msg r :: map out_msg rs). rewrite <- RC.
    generalize (map (fun r => OpWrite (raw r)) rs). intros ops. unfold out_msg, raw. cbn [List.length recorded].
    rewrite firstn_all2 by (cbn [List.length]; lia). reflexivity.
Qed.

Lemma write_told {S} (dev : io_rw S) defs d data d' e : usable defs -> Forall (fun d => (def_Len d <= 1023)%Z) defs -> obliging dev ->
  WriteFrame_dev defs (tracer_Write append_file dev) d data = Some (Ret (d', e)) ->
  exists ops rs, run_tracer append_file dev d ops = Ret (d', rs) /\ Forall fit ops /\ told defs (Sent data) (recorded ops rs).
Proof.
  intros U N OB E. destruct data as [|b data].
  - unfold WriteFrame_dev in E. rewrite write_empty in E. cbn [io_bind done] in E. injection E as <- _.
    exists [], []. split; [reflexivity|]. split; [apply Forall_nil|reflexivity].
  - destruct U as (ND & RG & f & LO & L). unfold WriteFrame_dev in E.
    destruct (write_segments defs (b :: data) f (List.length (b :: data)) LO L ltac:(discriminate) ltac:(lia)) as (rs & G & _ & H).
    rewrite H in E. destruct (offer _ _ rs) as [o e1] eqn:OF. destruct o as [d1|]; cbn [io_bind done] in E; [|discriminate].
    injection E as <- <-. destruct (offer_told dev rs OB _ _ _ OF) as (res & RT & RC).
    exists (map (fun r => OpWrite (raw r)) rs), res. split; [exact RT|].
    destruct (segments_shape _ _ _ _ G) as ((k & K) & SH & _).
    assert (SZ : Forall (fun r => 0 < List.length (rep_Data r) <= 1022) rs).
    { eapply Forall_impl; [|exact SH]. intros r (x & I & _ & _ & -> & R). rewrite Forall_forall in N. specialize (N _ I).
      unfold room in *. lia. }
    split.
    { apply (forall_map (fun r => OpWrite (raw r)) fit). eapply Forall_impl; [|exact SZ]. cbn beta. intros r R.
      split; [|discriminate]. unfold op_size, raw. cbn [List.length]. lia. }
    rewrite RC. cbn [told].
    destruct (segments_read defs ND RG true (b :: data) rs G [] [] ltac:(reflexivity)) as (got & PD & RF).
    exists got. split; [exact PD|]. cbn [app] in RF. rewrite app_nil_r in RF.
    apply (read_block defs _ 1 got).
    + destruct rs; [|discriminate]. destruct k; discriminate.
    + apply (forall_map out_msg (fun m => msg_Dir m = 1%N)). apply Forall_forall. reflexivity.
    + assert (RR : map report_of (map out_msg rs) = map inl rs).
      { rewrite map_map. apply map_ext_in. intros r I. rewrite Forall_forall in SZ. specialize (SZ _ I).
        unfold report_of, out_msg, raw, ReadReport. cbn [msg_Data]. rewrite firstn_all2 by (cbn [List.length]; unfold maxRawSize; lia).
        destruct r as [i c dd]. cbn [rep_ID rep_LinkControl rep_Data] in *. destruct dd; [cbn [List.length] in SZ; lia|reflexivity]. }
      rewrite RR. exact RF.
    + discriminate.
Qed.

(** ** Sessions *)

Section Sessions.
  Context {S DS : Type} (rt : bool) (reg : registry) (clock : nat -> datetime) (g : DeviceGeneral DS)
          (dev : io_rw S) (fuel2 : nat) (defs : list ReportDef) (spares : nat -> bytes).
  Context (U : usable defs) (N : Forall (fun d => (def_Len d <= 1023)%Z) defs) (OB : obliging dev) (C : clean dev).
  Let tp := watched (hid_transport fuel2 defs spares (traced_read append_file dev) (tracer_Write append_file dev)).

  Definition went (d : S * bytes) (d' : S * bytes) (hs : list happening) : Prop :=
    exists ops rs blocks, run_tracer append_file dev d ops = Ret (d', rs) /\ Forall fit ops
      /\ Forall2 (told defs) hs blocks /\ recorded ops rs = List.concat blocks.

  Lemma went_nil d : went d d [].
  Proof. exists [], [], []. repeat split; constructor. Qed.

  Lemma went_one d d' x ops rs : run_tracer append_file dev d ops = Ret (d', rs) -> Forall fit ops ->
    told defs x (recorded ops rs) -> went d d' [x].
  Proof.
    intros RT F T. exists ops, rs, [recorded ops rs]. split; [exact RT|]. split; [exact F|].
    split; [apply Forall2_cons; [exact T|constructor]|]. cbn [List.concat]. now rewrite app_nil_r.
  Qed.

  Lemma went_app d d1 d2 a b : went d d1 a -> went d1 d2 b -> went d d2 (a ++ b).
  Proof.
    intros (o1 & r1 & b1 & RT1 & F1 & T1 & E1) (o2 & r2 & b2 & RT2 & F2 & T2 & E2).
    exists (o1 ++ o2), (r1 ++ r2), (b1 ++ b2). split; [exact (run_tracer_join _ _ _ _ _ _ _ _ _ RT1 RT2)|].
    split; [apply Forall_app; split; assumption|]. split; [apply Forall2_app; assumption|].
    now rewrite (recorded_join _ _ _ _ _ _ _ _ RT1), E1, E2, concat_app.
  Qed.

  Lemma frame_went st d n hs fr st1 w : process_frame rt reg clock g tp st ((d, n), hs) fr = Some (Ret (st1, w)) ->
    exists d1 hs1, w = ((d1, n), hs ++ hs1) /\ went d d1 hs1.
  Proof.
    intros PF.
    pose (R := fun (w1 : ((S * bytes) * nat) * list happening) (_ : unit) =>
                 exists d1 hs1, w1 = ((d1, n), hs ++ hs1) /\ went d d1 hs1).
    assert (HW : forall w1 (w2 : unit) f w1' e, R w1 w2 -> tp_WriteFrame tp w1 f = Some (Ret (w1', e)) ->
              exists w2' e', tp_WriteFrame (mkTransport (fun w : unit => None) (fun w _ => done (w, None))) w2 f
                             = Some (Ret (w2', e')) /\ R w1' w2').
    { intros w1 [] f w1' e (d1 & hs1 & -> & W1) W. exists tt, None. split; [reflexivity|].
      unfold tp in W. cbn [watched tp_WriteFrame hid_transport fst snd] in W.
      destruct (WriteFrame_dev defs (tracer_Write append_file dev) d1 f) as [[[d2 e2]|]|] eqn:WF; cbn [io_bind done] in W; try discriminate.
      injection W as <- <-. destruct (write_told dev defs d1 f d2 e2 U N OB WF) as (ops & rs & RT & F & T).
      exists d2, (hs1 ++ [Sent f]). split; [now rewrite app_assoc|]. exact (went_app _ _ _ _ _ W1 (went_one _ _ _ _ _ RT F T)). }
    assert (R0 : R ((d, n), hs) tt) by (exists d, []; rewrite app_nil_r; split; [reflexivity|apply went_nil]).
    destruct (process_frame_sim tp _ R HW _ _ _ _ _ _ _ _ _ _ R0 PF) as (u & _ & X). exact X.
  Qed.

  Lemma session_went fuel : forall st d n hs st' w,
    processFrames_loop fuel rt reg clock g tp st ((d, n), hs) = Some (Ret (st', w)) ->
    exists d' n' hs' d1 ops rs, w = ((d', n'), hs ++ hs') /\ went d d1 hs'
      /\ run_tracer append_file dev d1 ops = Ret (d', rs) /\ Forall fit ops /\ open_end defs (recorded ops rs).
  Proof.
    induction fuel as [|fuel IH]; intros st d n hs st' w E; [discriminate|]. cbn [processFrames_loop] in E.
    unfold tp in E at 1. cbn [watched tp_ReadFrame hid_transport fst snd] in E.
    destruct (ReadFrame_dev fuel2 defs (traced_read append_file dev) [] d) as [[[d1 r]|]|] eqn:RF; cbn [io_bind done] in E;
      try discriminate.
    destruct (read_told dev defs fuel2 d d1 r C RF) as (ops & rs & RT & F & TB & TE).
    destruct r as [f|e].
    - specialize (TB ltac:(discriminate)).
      destruct (process_frame rt reg clock g tp st _ _) as [[[st1 w1]|]|] eqn:PF; cbn [io_bind] in E; try discriminate.
      apply frame_went in PF as (d2 & hs1 & -> & W1).
      destruct (IH _ _ _ _ _ _ E) as (d' & n' & hs' & d3 & ops2 & rs2 & -> & W2 & RT2 & F2 & OE).
      exists d', n', ([Received (inl f)] ++ hs1 ++ hs'), d3, ops2, rs2.
      split; [cbn [vis]; now rewrite <- !app_assoc|]. split; [|auto].
      apply (went_app _ _ _ _ _ (went_one _ _ (Received (inl f)) _ _ RT F TB)). exact (went_app _ _ _ _ _ W1 W2).
    - assert (X : e = EOF \/ e <> EOF) by (destruct e; [left; reflexivity|right; discriminate..]).
      destruct X as [-> |NE].
      + injection E as <- <-. exists d1, (Datatypes.S n), [], d, ops, rs. split; [reflexivity|].
        split; [apply went_nil|]. split; [exact RT|]. split; [exact F|]. now apply TE.
      + assert (TB' : told defs (Received (inr e)) (recorded ops rs)) by (apply TB; congruence).
        assert (E' : processFrames_loop fuel rt reg clock g tp st ((d1, Datatypes.S n), hs ++ [Received (inr e)]) = Some (Ret (st', w)))
          by (destruct e; [congruence|exact E..]).
        destruct (IH _ _ _ _ _ _ E') as (d' & n' & hs' & d3 & ops2 & rs2 & -> & W2 & RT2 & F2 & OE).
        exists d', n', ([Received (inr e)] ++ hs'), d3, ops2, rs2.
        split; [now rewrite <- app_assoc|]. split; [|auto].
        exact (went_app _ _ _ _ _ (went_one _ _ _ _ _ RT F TB') W2).
  Qed.
End Sessions.

Lemma recorded_file {S} (dev : io_rw S) s ops s' file rs : honest dev -> Forall fit ops ->
  run_tracer append_file dev (s, []) ops = Ret ((s', file), rs) ->
  exists ms, trace_of file EOF ms /\ map strip ms = map strip (recorded ops rs).
Proof.
  intros H F RT. destruct (run_dev dev s ops) as [s1 rs1] eqn:E.
  rewrite (tracer_transparent append_file dev H ops s [] s1 rs1 E) in RT. injection RT as <- FL <-.
  pose proof (recorded_recordable ops rs1) as R.
  assert (B : Forall (fun m => (len (msg_Data m) <= 21844)%N) (recorded ops rs1)).
  { apply (recorded_sizes dev 21844 ops H) with (s := s) (s' := s1); [|exact E].
    eapply Forall_impl; [|exact F]. intros o [X _]. exact X. }
  destruct (stamped_received 0 (recorded ops rs1)) as (ms & ES & L & D). exists ms. split; [|exact D].
  destruct (lines_exist _ R) as (texts & LT). rewrite (write_file _ texts LT []) in FL. cbn [fst app] in FL. subst file.
  intros k. rewrite L, <- ES. exact (read_file _ texts EOF k LT B).
Qed.

Lemma session_viewed {S DS} rt reg clock (g : DeviceGeneral DS) h (dev : io_rw S) s fuel fuel2 defs spares st s' file n hs rt' spares' :
  usable defs -> Forall (fun d => (1 <= def_Len d <= 1023)%Z) defs -> honest dev -> obliging dev -> clean dev ->
  processFrames fuel rt reg clock g
    (watched (hid_transport fuel2 defs spares (traced_read append_file dev) (tracer_Write append_file dev))) h (((s, []), 0), [])
    = Some (Ret (st, (((s', file), n), hs))) ->
  dumpTrace rt' std_registry defs spares' (NewReader file EOF) <> Some Panic ->
  exists q es, dumpTrace rt' std_registry defs spares' (NewReader file EOF) = Some (Ret (inl (q, es)))
    /\ qlist q = [] /\ Forall2 (shown_as defs) (filter visible hs) es.
Proof.
  intros U L HO OB C PF NP.
  assert (N : Forall (fun d => (def_Len d <= 1023)%Z) defs) by (eapply Forall_impl; [|exact L]; cbn beta; lia).
  assert (L1 : Forall (fun d => (1 <= def_Len d)%Z) defs) by (eapply Forall_impl; [|exact L]; cbn beta; lia).
  destruct (session_went rt reg clock g dev fuel2 defs spares U N OB C _ _ _ _ _ _ _ PF)
    as (d' & n' & hs' & d1 & ops & rs & EW & (ops0 & rs0 & blocks & RT0 & F0 & T0 & R0) & RT & F & OE).
  cbn [app] in EW. injection EW as <- <- <-.
  pose proof (run_tracer_join _ _ _ _ _ _ _ _ _ RT0 RT) as RTJ.
  destruct (recorded_file dev s (ops0 ++ ops) s' file (rs0 ++ rs) HO) as (ms & TO & ST); [|exact RTJ|].
  { apply Forall_app. split; assumption. }
  rewrite (recorded_join _ _ _ _ _ _ _ _ RT0), R0 in ST.
  destruct (dump_shows rt' defs spares' file EOF ms L1 TO) as (q & es & D & _ & SH).
  { intros VC. apply NP. apply (dump_crash_iff rt' defs spares' file EOF L1). exists ms. split; assumption. }
  destruct (show_told rt' defs spares' hs blocks T0 _ ms 0 false es (qlist q) OE ST SH) as [QN SA].
  exists q, es. split; [exact D|]. split; [exact QN|exact SA].
Qed.

(** ** Watching *)

Lemma watched_same {S W} fuel rt reg clock (g : DeviceGeneral S) (tp : transport W) h w hs st w' :
  processFrames fuel rt reg clock g tp h w = Some (Ret (st, w'))
  <-> exists hs', processFrames fuel rt reg clock g (watched tp) h (w, hs) = Some (Ret (st, (w', hs'))).
Proof.
  unfold processFrames. split.
  - intros E.
    destruct (processFrames_sim (S := S) tp (watched tp) (fun a b => a = fst b)) with (RO := fun a (b : W * list happening) => a = fst b)
      (rt := rt) (reg := reg) (clock := clock) (dev := g) (fuel := fuel) (st := mkServer false h) (w1 := w) (w2 := (w, hs))
      (st' := st) (w1' := w') as ([w2 hs2] & X & Y).
    + intros w1 [w2 l] f w1' e -> X. cbn [watched tp_WriteFrame fst snd] in *. rewrite X. cbn [io_bind done].
      eexists _, _. split; [reflexivity|reflexivity].
    + intros w1 [w2 l] w1' r -> X. cbn [watched tp_ReadFrame fst snd] in *. rewrite X. cbn [io_bind done].
      eexists. split; [reflexivity|right; reflexivity].
    + intros w1 w2 w1' [w2' l'] -> X Y. cbn [watched tp_ReadFrame fst snd] in *. rewrite X in Y. cbn [io_bind done] in Y.
      injection Y as <- _. reflexivity.
    + reflexivity.
    + exact E.
    + cbn [fst] in Y. subst w2. exists hs2. exact X.
  - intros (hs' & E).
    destruct (processFrames_sim (S := S) (watched tp) tp (fun b a => a = fst b)) with (RO := fun (b : W * list happening) a => a = fst b)
      (rt := rt) (reg := reg) (clock := clock) (dev := g) (fuel := fuel) (st := mkServer false h) (w1 := (w, hs)) (w2 := w)
      (st' := st) (w1' := (w', hs')) as (w2 & X & Y).
    + intros [w2 l] w1 f w1' e -> X. cbn [watched tp_WriteFrame fst snd] in *.
      destruct (tp_WriteFrame tp w2 f) as [[[wa ea]|]|]; cbn [io_bind done] in X; try discriminate. injection X as <- _.
      eexists _, _. split; reflexivity.
    + intros [w2 l] w1 w1' r -> X. cbn [watched tp_ReadFrame fst snd] in *.
      destruct (tp_ReadFrame tp w2) as [[[wa ra]|]|]; cbn [io_bind done] in X; try discriminate. injection X as <- <-.
      eexists. split; [reflexivity|right; reflexivity].
    + intros [w2 l] w1 w1' w2' -> X Y. cbn [watched tp_ReadFrame fst snd] in *. rewrite Y in X. cbn [io_bind done] in X.
      injection X as <-. reflexivity.
    + reflexivity.
    + exact E.
    + cbn [fst] in Y. subst w2. exact X.
Qed.
