(** Lemmas for C101: reports lost on the way. *)
From Coq Require Import ZifyBool ZifyNat ZifyN Lia.
From Verif Require Import Base BaseFacts GoTypes Types Payload Lingo Command SpecPayload SpecCommand Handlers SpecHandlers
  SpecProtocol Packet SpecPacket Hid SpecHid HidFacts HidThms Trace SpecTrace Server SpecServer SpecWire ServerFacts ServerThms ServerFacts ProtocolProps
  SpecDamage DamageThms SpecLoss.
#[local] Opaque std_registry requests.

Lemma some_of_Forall {A} (P : A -> Prop) l' l : some_of l' l -> Forall P l -> Forall P l'.
Proof. induction 1; intros F; [constructor|inversion F; subst; constructor; auto|inversion F; subst; auto]. Qed.

Lemma contributes_live defs r c : contributes defs r c -> live defs r.
Proof. intros (d & K & L & _). exists d. auto. Qed.

Lemma carries_live defs rs f : carries defs rs f -> Forall (live defs) rs.
Proof.
  intros [cs _ _ _ C _]. induction C as [|r c rs cs H _ IH]; constructor; [now apply contributes_live in H|exact IH].
Qed.

Lemma last_end rs last before l : rs ++ [last] = before ++ [l] -> ends l -> Forall (fun r => ~ ends r) before ->
  ends last /\ Forall (fun r => ~ ends r) rs.
Proof. intros E L N. apply app_inj_tail in E as [-> ->]. auto. Qed.

(** A whole frame after anything that did not end one. *)
Lemma carries_frame defs pend rs f : carries defs rs f -> frame_of defs (pend ++ rs) f.
Proof.
  intros [cs (first & rest & -> & S & N) _ _ C ->]. eapply frame_started; [reflexivity|exact S|exact N|exact C|reflexivity].
Qed.

(** ** Resynchronisation *)

Definition passable (defs : list ReportDef) (x : Report + goerr) : Prop :=
  match x with inl r => live defs r \/ unknown defs r | inr _ => True end.

Lemma read_frames_cons n defs buf input rest b r :
  ReadFrame defs buf input = Ret (rest, b, r) ->
  read_frames (S n) defs buf input
  = (do x <- read_frames n defs b rest; let '(i, rs) := x in Ret (i, r :: rs)).
Proof. intros E. cbn [read_frames]. rewrite E. reflexivity. Qed.

Lemma resync defs k : forall pre, List.length pre <= k -> Forall (passable defs) pre ->
  exists res, forall rs f buf suf, carries defs rs f ->
    read_frames (S (List.length res)) defs buf (pre ++ map inl rs ++ suf) = Ret (suf, res ++ [inl f]).
Proof.
  induction k as [|k IH]; intros pre L P.
  all: destruct (input_cases defs pre) as [p last rest E LP NE EL|p x rest E LP NE X|p E LP NE|p r d rest E LP NE K Z].
  1, 2, 4: (exfalso; subst pre; rewrite app_length, ?map_length, ?app_length in L; cbn [List.length] in L; lia).
  2:{ (* a frame *)
      assert (Lr : List.length rest <= k).
      { subst pre. rewrite app_length, map_length, app_length in L. cbn [List.length] in L. lia. }
      assert (Pr : Forall (passable defs) rest) by (subst pre; apply Forall_app in P; tauto).
      destruct (IH rest Lr Pr) as (res & H). destruct (read_frame defs [] p last [] LP NE EL) as (g & FO & _).
      exists (inl g :: res). intros rs f buf suf C.
      assert (R : ReadFrame defs buf (pre ++ map inl rs ++ suf) = Ret (rest ++ map inl rs ++ suf, g, inl g)).
      { subst pre. rewrite <- app_assoc. destruct (read_frame defs buf p last (rest ++ map inl rs ++ suf) LP NE EL) as (g' & FO' & R).
        now rewrite (frame_of_fun _ _ _ _ FO FO'). }
      cbn [List.length]. rewrite (read_frames_cons _ _ _ _ _ _ _ R), (H rs f g suf C). reflexivity. }
  2:{ (* an error *)
      assert (Lr : List.length rest <= k).
      { subst pre. rewrite app_length, map_length in L. cbn [List.length] in L. lia. }
      assert (Pr : Forall (passable defs) rest).
      { subst pre. apply Forall_app in P as [_ P]. now inversion P. }
      destruct (IH rest Lr Pr) as (res & H).
      exists (inr (match x with inr e => e | inl _ => errReportID end) :: res). intros rs f buf suf C.
      destruct (read_error defs (rest ++ map inl rs ++ suf) p [] x LP NE X) as (b & R).
      assert (R' : ReadFrame defs buf (pre ++ map inl rs ++ suf)
                   = Ret (rest ++ map inl rs ++ suf, b, inr (match x with inr e => e | inl _ => errReportID end))).
      { subst pre. rewrite <- app_assoc. exact R. }
      cbn [List.length]. rewrite (read_frames_cons _ _ _ _ _ _ _ R'), (H rs f b suf C). reflexivity. }
  3:{ exfalso. subst pre. apply Forall_app in P as [_ P]. inversion P as [|? ? Y _]; subst. destruct Y as [(d' & K' & Z')|U].
      - rewrite (known_unique _ _ _ _ K K') in Z. lia.
      - destruct K as (a & b & -> & E1 & _). unfold unknown in U. rewrite Forall_app in U. destruct U as [_ U]. inversion U; subst. congruence. }
  all: exists []; intros rs f buf suf C; cbn [List.length app]; subst pre;
    pose proof C as [cs _ (before & last & E & EL & N) _ _ _];
    assert (LV : Forall (live defs) ((p ++ before) ++ [last])) by
      (rewrite <- app_assoc, <- E; apply Forall_app; split; [exact LP|now apply carries_live in C]);
    destruct (read_frame defs buf (p ++ before) last suf LV ltac:(apply Forall_app; auto) EL) as (g & FO & R);
    rewrite <- app_assoc, <- E in FO; rewrite (frame_of_fun _ _ _ _ FO (carries_frame defs p rs f C)) in R;
    rewrite <- app_assoc, <- E, map_app, <- app_assoc in R;
    rewrite (read_frames_cons _ _ _ _ _ _ _ R); reflexivity.
Qed.

(** ** Loss *)

Definition nonempty (ps : list bytes) : bool := match ps with [] => false | _ => true end.

Lemma conversation_idle rt clock pss : forall m, conversation rt clock m pss = conversation rt clock m (filter nonempty pss).
Proof.
  induction pss as [|ps pss IH]; intros m; [reflexivity|]. destruct ps as [|p ps].
  - cbn [filter nonempty conversation]. unfold receive_frame. cbn [receive_all map]. rewrite IH.
    destruct (conversation rt clock m (filter nonempty pss)) as [[? ?]|]; reflexivity.
  - cbn [filter nonempty conversation]. destruct (receive_frame rt clock m (p :: ps)) as [[m1 l]|]; [|reflexivity].
    now rewrite IH.
Qed.

Definition sized (r : Report) : Prop := 1 <= List.length (rep_Data r) <= 1022.

Lemma read_back rs : Forall sized rs -> map ReadReport (map as_read rs) = map inl rs.
Proof. exact (sent_reports rs). Qed.

Lemma passes_arrives defs spares sent arrived pss : passes defs sent arrived pss ->
  forall pend n, pending defs pend -> Forall sized pend -> (pend = [] \/ starts_afresh arrived) ->
  exists pss', arrives defs spares n (map as_read (pend ++ arrived)) pss' /\ filter nonempty pss' = filter nonempty pss.
Proof.
  induction 1 as [|rs f ps ps' sent arrived pss C D _ IH|rs last f left sent arrived pss C SO A _ IH
                 |first rs last f left cs sent arrived pss C SO CS Fi _ IH]; intros pend n P SZ Q.
  - exists []. split; [|reflexivity]. rewrite app_nil_r. apply arrives_end with pend; [now apply read_back|exact P].
  - destruct (IH [] (S n)) as (pss' & A & E); [split; constructor|constructor|now left|].
    exists (ps' :: pss'). split; [|cbn [filter]; now rewrite E].
    rewrite app_assoc, map_app. pose proof C as [cs _ (before & last & Eb & EL & N) Z Cs _].
    destruct P as [P1 P2]. pose proof (carries_live _ _ _ C) as LV. rewrite Eb in LV. apply Forall_app in LV as [LV LL].
    eapply (arrives_frame defs spares n _ _ (pend ++ before) last f).
    + rewrite <- app_assoc, <- Eb. apply read_back. apply Forall_app. auto.
    + split; apply Forall_app; auto.
    + now inversion LL.
    + exact EL.
    + rewrite <- app_assoc, <- Eb. now apply carries_frame.
    + eapply damaged_holds. exact D.
    + exact A.
  - pose proof (carries_live _ _ _ C) as LV. pose proof C as [cs _ (before & l & Eb & EL & N) Z _ _].
    destruct (last_end _ _ _ _ Eb EL N) as [_ N']. apply Forall_app in LV as [LV _]. apply Forall_app in Z as [Z _].
    destruct (IH (pend ++ left) n) as (pss' & A' & E).
    + destruct P as [P1 P2]. split; apply Forall_app; split; auto; eapply some_of_Forall; eauto.
    + apply Forall_app. split; [exact SZ|]. eapply some_of_Forall; eauto.
    + now right.
    + exists pss'. split; [now rewrite app_assoc|exact E].
  - pose proof (carries_live _ _ _ C) as LV. pose proof C as [cs' (first' & rest & Es & ST & NS) (before & l & Eb & EL & N) Z _ _].
    injection Es as <- <-. change (first :: rs ++ [last]) with ((first :: rs) ++ [last]) in *.
    destruct (last_end _ _ _ _ Eb EL N) as [EN N']. apply Forall_app in LV as [LV LL]. apply Forall_app in Z as [Z ZL].
    inversion LV as [|? ? _ LV']; inversion Z as [|? ? _ Z']; inversion N' as [|? ? _ N'']; subst.
    apply Forall_app in NS as [NS NL].
    pose proof (some_of_Forall _ _ _ SO NS) as NS'.
    assert (pend = []) as ->.
    { destruct Q as [Q|Q]; [exact Q|exfalso]. destruct left as [|x left]; cbn [app starts_afresh] in Q.
      - inversion NL; contradiction.
      - inversion NS'; contradiction. }
    destruct (IH [] (S n)) as (pss' & A & E); [split; constructor|constructor|now left|].
    exists ([] :: pss'). split; [|exact E]. cbn [app]. change (last :: arrived) with ([last] ++ arrived). rewrite app_assoc, map_app.
    eapply (arrives_frame defs spares n _ _ left last (List.concat cs)).
    + apply read_back. apply Forall_app. split; [eapply some_of_Forall; eauto|exact ZL].
    + split; eapply some_of_Forall; eauto.
    + now inversion LL.
    + exact EN.
    + apply frame_stray with cs; [apply Forall_app; auto|exact CS|reflexivity].
    + exists (List.concat cs). split; [apply parses_here|exact Fi].
    + exact A.
Qed.

(** ** A report lost from the middle *)

Lemma cut_crashes {S W} rt clock (dev : DeviceGeneral S) (tp : transport W) st w f h n q :
  filler f -> header_for n h -> (len q <= n)%N -> 3 <= List.length (h ++ q) ->
  process_frame rt std_registry clock dev tp st w (mkSlice (f ++ x55 :: h ++ q) []) = Some Panic.
Proof.
  intros F H L Z.
  assert (C : crashing_frame rt (sv_mode st) (mkSlice (f ++ x55 :: h ++ q) [])).
  { exists [], (f ++ x55 :: h ++ q). split; [apply parses_here|]. right.
    exists f, (h ++ q). split; [reflexivity|]. split; [exact F|].
    exists h, n, q. split; [reflexivity|]. split; [exact H|].
    cbn [spare]. split; [exact Z|]. split; [lia|]. left. unfold len at 2. cbn [List.length]. lia. }
  unfold process_frame. apply frame_packets_panic in C. rewrite C. reflexivity.
Qed.

Lemma gap_crashes rt clock defs h0 rs g more fuel fuel2 h n q :
  carries defs rs g -> g = x55 :: h ++ q -> header_for n h -> (len q <= n)%N -> 3 <= List.length (h ++ q) ->
  0 < fuel -> List.length (rs ++ more) < fuel2 ->
  processFrames fuel rt std_registry clock DevGeneral_device
    (hid_transport fuel2 defs (fun _ => []) wire_read wire_write) h0 ((map as_read (rs ++ more), []), 0) = Some Panic.
Proof.
  intros C -> H L Z F F2. destruct fuel as [|fuel]; [lia|]. unfold processFrames. cbn [processFrames_loop].
  pose proof (carries_live _ _ _ C) as LV. pose proof C as [cs _ (before & last & E & EL & N) SZ _ _]. 
  assert (R : ReadFrame defs [] (map ReadReport (map as_read rs ++ map as_read more))
              = Ret (map ReadReport (map as_read more), x55 :: h ++ q, inl (x55 :: h ++ q))).
  { apply ReadFrame_ok_iff. split; [reflexivity|]. exists before, last. rewrite map_app, (read_back rs SZ), <- E.
    split; [reflexivity|]. split; [exact LV|]. split; [exact N|]. split; [exact EL|]. exact (carries_frame defs [] rs _ C). }
  apply (wire_frame defs fuel2 _ _ []) in R; [|rewrite <- map_app, map_length; exact F2].
  rewrite map_app. rewrite (wire_transport _ _ (fun _ => []) _ _ _ _ 0 R). cbn [io_bind done].
  now rewrite (cut_crashes rt clock DevGeneral_device _ _ _ [] h n q (fun x => x) H L Z).
Qed.
