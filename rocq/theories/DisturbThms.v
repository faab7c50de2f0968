(** Disturbances. *)
From Coq Require Import ZifyBool ZifyNat ZifyN Lia.
From Verif Require Import Base BaseFacts GoTypes Types Payload Lingo Command SpecPayload SpecCommand Handlers SpecHandlers HandlersThms
  SpecProtocol Packet SpecPacket Hid SpecHid HidFacts HidThms Trace SpecTrace Server SpecServer SpecWire ServerThms ProtocolProps
  SpecRetry RetryThms SpecRenew RenewThms SpecDisturb.
Notation fresh := SpecWire.fresh.
#[local] Opaque std_registry requests.

(** ** Packets are found where they arrive *)

Lemma parses_found sp d ps r : parses sp d ps r -> Forall (fun p => exists u w v, d = u ++ w ++ v /\ is_packet p w) ps.
Proof.
  induction 1 as [d|f w p d ps r F W _ IH|f d ps r F N O _ IH]; [constructor| |].
  - constructor; [exists f, w, d; auto|]. revert IH. apply Forall_impl. intros q (u & w' & v & -> & P). exists (f ++ w ++ u), w', v. now rewrite <- !app_assoc.
  - revert IH. apply Forall_impl. intros q (u & w' & v & -> & P). exists (f ++ x55 :: u), w', v. now rewrite <- !app_assoc.
Qed.

Lemma found_later defs a b p : found_in defs b p -> found_in defs (a ++ b) p.
Proof.
  intros (b1 & row & b2 & rs & cs & u & w & v & -> & H). exists (a ++ b1), row, b2, rs, cs, u, w, v. split; [now rewrite <- !app_assoc|exact H].
Qed.

Lemma arrives_found defs spares n reads pss : arrives defs spares n reads pss -> Forall (Forall (found_in defs reads)) pss.
Proof.
  induction 1 as [n reads rs M P|n taken rest rs M P|n taken rest rs x pss M P X A IH|n taken rest rs last f ps pss M P LV E F H A IH].
  - constructor.
  - constructor.
  - revert IH. apply Forall_impl. intros ps. apply Forall_impl. intros p. apply found_later.
  - constructor.
    + destruct H as (r & PA & _). cbn [vis spare] in PA. apply parses_found in PA. revert PA. apply Forall_impl. intros p (u & w & v & E1 & W).
      destruct F as [bf r0 af cs E0 _ _ C CE|cs _ C CE].
      * rewrite E0, map_app in M. apply map_eq_app in M as (l1 & l2 & -> & M1 & M2).
        exists l1, l2, rest, (r0 :: af), cs, u, w, v. split; [now rewrite <- app_assoc|]. split; [exact M2|]. split; [exact C|]. split; [congruence|exact W].
      * exists [], taken, rest, (rs ++ [last]), cs, u, w, v. split; [reflexivity|]. split; [exact M|]. split; [exact C|]. split; [congruence|exact W].
    + revert IH. apply Forall_impl. intros ps0. apply Forall_impl. intros p. apply found_later.
Qed.

(** ** Noise *)

Lemma live_unknown defs r : live defs r -> ~ unknown defs r.
Proof.
  intros (d & K & _) U. unfold unknown in U. destruct K as (a & b & -> & E & _).
  apply Forall_app in U as [_ U]. inversion U; auto.
Qed.

Lemma noise_frame defs rs f : Forall (fun r => ~ In x55 (rep_Data r)) rs -> frame_of defs rs f -> filler f.
Proof.
  intros N F. assert (G : forall rs cs, Forall (fun r => ~ In x55 (rep_Data r)) rs -> Forall2 (contributes defs) rs cs -> filler (List.concat cs)).
  { clear. intros rs cs N C. induction C as [|r c rs cs (d & _ & _ & ->) C IH]; [intros []|]. inversion N; subst. cbn [List.concat].
    intros I. apply in_app_or in I as [I|I]; [|exact (IH H2 I)]. destruct (ignored r); [destruct I|]. apply H1. revert I. generalize (room d). clear.
    induction (rep_Data r) as [|b l IH]; intros [|n] I; cbn [firstn] in I; try destruct I; [now left|right; eauto]. }
  destruct F as [bf r0 af cs -> _ _ C ->|cs _ C ->]; [|now apply G with rs].
  apply G with (r0 :: af); [|exact C]. now apply Forall_app in N as [_ N].
Qed.

Lemma noise_reads defs reads rs : map ReadReport reads = map inl rs -> Forall (noise defs) reads -> Forall (live defs) rs ->
  Forall (fun r => ~ In x55 (rep_Data r)) rs.
Proof.
  revert rs; induction reads as [|x reads IH]; intros [|r rs] M N L; try discriminate; [constructor|]. cbn [map] in M. injection M as M1 M2.
  inversion N as [|? ? N1 N2]; inversion L as [|? ? L1 L2]; subst. constructor; [|now apply IH]. unfold noise in N1. rewrite M1 in N1.
  destruct N1 as [N1|[_ N1]]; [|exact N1]. elim (live_unknown _ _ L1 N1).
Qed.

Lemma noise_arrives defs spares : forall len reads n, List.length reads <= len -> Forall (noise defs) reads ->
  exists pss, arrives defs spares n reads pss /\ Forall (fun ps => ps = []) pss.
Proof.
  induction len as [|len IH]; intros reads n L N.
  { destruct reads; [|cbn [List.length] in L; lia]. exists []. split; [|constructor]. apply arrives_end with []; [reflexivity|split; constructor]. }
  destruct (input_cases defs (map ReadReport reads)) as [pre last rest' M LP NE EL|pre x rest' M LP NE X|pre M LP NE|pre r' d' rest' M LP NE K Z'].
  - apply map_eq_app in M as (taken & rest & -> & M & <-). apply Forall_app in N as [N1 N2].
    destruct (read_frame defs [] pre last (map ReadReport rest) LP NE EL) as (f & FO & _).
    assert (LT : 1 <= List.length taken).
    { apply (f_equal (@List.length _)) in M. rewrite !map_length, app_length in M. cbn [List.length] in M. lia. }
    assert (LR : List.length rest <= len) by (rewrite app_length in L; lia).
    destruct (IH rest (Datatypes.S n) LR N2) as (pss & A & E).
    pose proof (noise_frame _ _ _ (noise_reads _ _ _ M N1 LP) FO) as FI.
    apply Forall_app in LP as [LP LL]. inversion LL; subst. exists ([] :: pss). split; [|now constructor].
    eapply arrives_frame; eauto; [split; assumption|]. exists f. split; [apply parses_here|exact FI].
  - apply map_eq_app in M as (taken0 & rest0 & -> & M & M0). destruct rest0 as [|y rest]; [discriminate M0|]. cbn [map] in M0. injection M0 as MX <-.
    apply Forall_app in N as [N1 N2]. inversion N2 as [|? ? NY N3]; subst.
    assert (LR : List.length rest <= len) by (rewrite app_length in L; cbn [List.length] in L; lia).
    destruct (IH rest (Datatypes.S n) LR N3) as (pss & A & E). exists pss. split; [|exact E].
    replace (taken0 ++ y :: rest) with ((taken0 ++ [y]) ++ rest) by now rewrite <- app_assoc.
    apply arrives_error with pre (ReadReport y); [rewrite map_app, M; reflexivity|split; assumption| |exact A].
    unfold noise in NY. destruct (ReadReport y); [exact X|exact NY].
  - exists []. split; [|constructor]. apply arrives_end with pre; [exact M|split; assumption].
  - exfalso. apply map_eq_app in M as (taken0 & rest0 & -> & M & M0). destruct rest0 as [|y rest]; [discriminate M0|]. cbn [map] in M0. injection M0 as MX _.
    apply Forall_app in N as [_ N2]. inversion N2 as [|? ? NY _]; subst. unfold noise in NY. rewrite MX in NY.
    destruct K as (a & b & -> & KI & KA). destruct NY as [NY|[(d & (a' & b' & KE & KI' & KA') & DL) _]].
    + unfold unknown in NY. apply Forall_app in NY as [_ NY]. inversion NY. contradiction.
    + assert (d = d').
      { clear - KE KI KA KI' KA'. revert a' KE KA'. induction a as [|x a IH]; intros [|x' a'] KE KA'; cbn [app] in KE.
        - now injection KE.
        - injection KE as -> _. inversion KA'. contradiction.
        - injection KE as -> _. inversion KA. contradiction.
        - injection KE as -> KE. inversion KA; inversion KA'; subst. eapply IH; eauto. }
      subst d. lia.
Qed.

(** ** Frames around a disturbance *)

Lemma frames_then defs spares rss pss : Forall2 (sends defs) rss pss -> forall n reads pss', arrives defs spares (n + List.length rss) reads pss' ->
  arrives defs spares n (map (fun r => (report_bytes r, None)) (List.concat rss) ++ reads) (pss ++ pss').
Proof.
  induction 1 as [|rs ps rss pss (pre & last & f & -> & P & LV & E & L & FR & ST) F IH]; intros n reads pss' A.
  - cbn [List.length] in A. rewrite Nat.add_0_r in A. exact A.
  - cbn [List.concat app]. rewrite map_app, <- app_assoc. cbn [List.length] in A. rewrite <- plus_n_Sm in A.
    eapply arrives_frame; [now apply sent_reports|exact P|exact LV|exact E|exact FR|now apply stream_holds|]. now apply IH.
Qed.

(** The end of a run of reports that end no frame. *)
Definition goes_on (defs : list ReportDef) (x : Report + goerr) : Prop := exists r, x = inl r /\ live defs r /\ ~ ends r.

Lemma first_stop {A} (P : A -> Prop) a x b a' x' b' : a ++ x :: b = a' ++ x' :: b' -> Forall P a -> ~ P x -> Forall P a' -> ~ P x' ->
  a = a' /\ x = x' /\ b = b'.
Proof.
  revert a'; induction a as [|y a IH]; intros [|y' a'] E F N F' N'; cbn [app] in E.
  - injection E as E1 E2. auto.
  - injection E as E1 _. subst y'. inversion F'. contradiction.
  - injection E as E1 _. subst y. inversion F. contradiction.
  - injection E as E1 E. subst y'. inversion F; inversion F'; subst. destruct (IH a') as (-> & -> & ->); auto.
Qed.

Lemma pending_goes defs rs : pending defs rs -> Forall (goes_on defs) (map inl rs).
Proof. intros [L N]. apply Forall_map, Forall_forall. intros r I. rewrite Forall_forall in L, N. exists r. auto. Qed.

Lemma frames_back defs spares rss pss : Forall2 (sends defs) rss pss -> forall n reads pssJ,
  arrives defs spares n (map (fun r => (report_bytes r, None)) (List.concat rss) ++ reads) pssJ ->
  exists pss', arrives defs spares (n + List.length rss) reads pss'.
Proof.
  induction 1 as [|rs ps rss pss (pre & last & f & -> & P & LV & E & L & FR & ST) F IH]; intros n reads pssJ A.
  - exists pssJ. cbn [List.length]. rewrite Nat.add_0_r. exact A.
  - cbn [List.concat List.length]. rewrite <- plus_n_Sm. cbn [List.concat] in A. rewrite map_app, <- app_assoc in A.
    set (tail := map (fun r => (report_bytes r, None)) (List.concat rss) ++ reads) in *.
    assert (NS : ~ goes_on defs (inl last)) by (intros (r & Q & _ & N); injection Q as <-; contradiction).
    assert (M : map ReadReport (map (fun r => (report_bytes r, None)) (pre ++ [last]) ++ tail) = map inl pre ++ inl last :: map ReadReport tail)
      by (rewrite (map_app ReadReport), (sent_reports _ L), map_app, <- app_assoc; reflexivity).
    assert (G : forall (taken rest : list raw_read) rs0 x, taken ++ rest = map (fun r => (report_bytes r, None)) (pre ++ [last]) ++ tail ->
                map ReadReport taken = map inl rs0 ++ [x] -> pending defs rs0 -> ~ goes_on defs x -> rest = tail /\ x = inl last).
    { intros taken rest rs0 x Q MT P0 N0. pose proof M as M'. rewrite <- Q, (map_app ReadReport taken rest), MT, <- app_assoc in M'. cbn [app] in M'.
      destruct (first_stop (goes_on defs) _ _ _ _ _ _ M' (pending_goes _ _ P0) N0 (pending_goes _ _ P) NS) as (E1 & E2 & _). split; [|exact E2].
      assert (LT : List.length taken = List.length (map (fun r => (report_bytes r, @None goerr)) (pre ++ [last]))).
      { apply (f_equal (@List.length _)) in MT, E1. rewrite app_length, !map_length in *. cbn [List.length] in *. rewrite app_length. cbn [List.length]. lia. }
      clearbody tail. clear - Q LT.
      revert Q LT. generalize (map (fun r => (report_bytes r, @None goerr)) (pre ++ [last])). revert rest tail.
      induction taken as [|x taken IH]; intros rest tail [|y l] Q LT; try discriminate; [exact Q|]. cbn [app] in Q. injection Q as _ Q. apply (IH _ _ l Q). now injection LT. }
    remember (map (fun r => (report_bytes r, None)) (pre ++ [last]) ++ tail) as all eqn:ALL.
    destruct A as [n reads0 rs0 M0 P0|n taken rest rs0 M0 P0|n taken rest rs0 x pss0 M0 P0 X0 A|n taken rest rs0 last0 f0 ps0 pss0 M0 P0 LV0 E0 F0 H0 A].
    + exfalso. apply pending_goes in P0. rewrite <- M0, M in P0. apply Forall_app in P0 as [_ P0]. inversion P0. contradiction.
    + exfalso. destruct (G _ _ _ _ eq_refl M0 P0) as [_ Q]; [intros (r & Q & _); discriminate Q|discriminate Q].
    + exfalso. destruct (G _ _ _ _ eq_refl M0 P0) as [_ Q].
      { intros (r & -> & Q & _). exact (live_unknown _ _ Q X0). }
      subst x. exact (live_unknown _ _ LV X0).
    + rewrite map_app in M0. destruct (G _ _ _ _ eq_refl M0 P0) as [-> _]; [intros (r & Q & _ & N); injection Q as <-; contradiction|].
      exact (IH _ _ _ A).
Qed.

(** ** The conversation *)

Definition harmless (p : bytes) : Prop := ~ delicate p /\ ~ switches p.

Lemma frame_harmless rt clock m ps m1 fs : receive_frame rt clock m ps = Some (m1, fs) -> Forall harmless ps -> m1 = m.
Proof.
  unfold receive_frame. destruct (receive_all rt clock m ps) as [[m' l]|] eqn:E; [|discriminate]. intros R K. injection R as <- _.
  revert m m' l E. induction K as [|p ps [D S] _ IH]; intros m m' l E; [injection E as <- _; reflexivity|].
  cbn [receive_all] in E. destruct (receive rt clock m p) as [[m2 l2]|] eqn:R2; [|discriminate].
  destruct (receive_all rt clock m2 ps) as [[m3 l3]|] eqn:R3; [|discriminate]. injection E as <- _.
  rewrite (IH _ _ _ R3). exact (received_still _ _ _ _ _ _ R2 D S).
Qed.

Lemma conversation_harmless rt clock pss : Forall (Forall harmless) pss -> forall m m1 fs, conversation rt clock m pss = Some (m1, fs) -> m1 = m.
Proof.
  induction 1 as [|ps pss P _ IH]; intros m m1 fs; cbn [conversation]; [intros E; now injection E|].
  destruct (receive_frame rt clock m ps) as [[m2 l2]|] eqn:R; [|discriminate]. destruct (conversation rt clock m2 pss) as [[m3 l3]|] eqn:C; [|discriminate].
  intros E. injection E as <- _. rewrite (IH _ _ _ C). exact (frame_harmless _ _ _ _ _ _ R P).
Qed.

Lemma conversation_nothing rt clock pss : Forall (fun ps => ps = []) pss -> forall m, conversation rt clock m pss = Some (m, []).
Proof.
  induction 1 as [|ps pss -> _ IH]; intros m; [reflexivity|]. cbn [conversation]. unfold receive_frame. cbn [receive_all map]. now rewrite IH.
Qed.
