(** Lemmas for C88: when the viewer does not crash on the trace of a session. *)
From Coq Require Import Ascii ZifyBool ZifyNat ZifyN Lia.
From Verif Require Import Base BaseFacts Text SpecText TextFacts TextThms GoTypes Types Payload Lingo LingoFacts Command SpecPayload SpecCommand Handlers SpecHandlers HandlersFacts
  CommandFacts ReplyThms Packet PacketFacts PacketThms SpecPacket Hid SpecHid Trace SpecTrace Server SpecServer ServerFacts ServerThms SpecView ViewThms SpecProtocol SpecWire
  SpecSession SessionThms RecordThms Log SpecLog LogThms AgreeThms SpecReadable.
Local Open Scope string_scope.
#[local] Opaque std_registry requests.

(** The packets of a frame that the server has read crash nobody. *)
Lemma happens_decoded rt sp m d evs : happens rt sp m d evs -> forall sp' ps r, parses sp' d ps r ->
  forall before p, ps = (before ++ [p])%list -> ~ crashing_packet rt (mode_after m (ids_of before)) p.
Proof.
  induction 1 as [m f Hf|m f w p d m1 c e evs Hf Hw U H IH|m f d e evs Hf Hn Ho He H IH]; intros sp' ps r P before q E C.
  - inversion P as [|f0 w0 p0 d0 ps0 r0 Hf0 Hw0 P0|f0 d0 ps0 r0 Hf0 Hn0 Ho0 P0]; subst; [now destruct before|..]; apply Hf.
    + destruct (packet_start _ _ Hw0) as (w' & ->). apply in_elt.
    + apply in_elt.
  - destruct (packet_start _ _ Hw) as (w1 & Ew).
    inversion P as [d0 Ed Ep Er|f0 w0 p0 d0 ps0 r0 Hf0 Hw0 P0 Ed Ep Er|f0 d0 ps0 r0 Hf0 Hn0 Ho0 P0 Ed Ep Er].
    + subst ps. now destruct before.
    + destruct (packet_start _ _ Hw0) as (w2 & Ew2). rewrite Ew, Ew2 in Ed. cbn [app] in Ed.
      destruct (first_start _ _ _ _ Ed Hf0 Hf) as [_ E2].
      destruct (packet_unique p w d p0 w0 d0 Hw Hw0) as (<- & <- & <-); [rewrite Ew, Ew2; cbn; congruence|].
      subst ps r0. destruct before as [|b0 before]; cbn [app] in Ep.
      * injection Ep as -> ->. apply crashing_unmarshal in C. cbn [ids_of flat_map mode_after] in C. congruence.
      * injection Ep as -> ->. rewrite ids_cons, mode_after_app, <- (unmarshal_mode _ _ _ _ _ _ U) in C.
        exact (IH _ _ _ P0 _ _ eq_refl C).
    + rewrite Ew in Ed. cbn [app] in Ed. destruct (first_start _ _ _ _ Ed Hf0 Hf) as [_ E2].
      apply (Hn0 p w d); [rewrite Ew; cbn; congruence|exact Hw].
  - inversion P as [d0 Ed Ep Er|f0 w0 p0 d0 ps0 r0 Hf0 Hw0 P0 Ed Ep Er|f0 d0 ps0 r0 Hf0 Hn0 Ho0 P0 Ed Ep Er].
    + subst ps. now destruct before.
    + destruct (packet_start _ _ Hw0) as (w2 & Ew2). rewrite Ew2 in Ed. cbn [app] in Ed.
      destruct (first_start _ _ _ _ Ed Hf0 Hf) as [_ E2].
      apply (Hn p0 w0 d0); [rewrite Ew2; cbn; congruence|exact Hw0].
    + destruct (first_start _ _ _ _ Ed Hf0 Hf) as [_ ->]. exact (IH _ _ _ P0 _ _ E C).
Qed.

Lemma tame_types id t : In (id, t) std_registry -> tame id = true ->
  t <> general_SetFIDTokenValues /\ t <> general_RequestApplicationLaunch.
Proof.
  assert (X : forallb (fun p => negb (tame (fst p)) || negb (pty_eqb (snd p) general_SetFIDTokenValues) && negb (pty_eqb (snd p) general_RequestApplicationLaunch)) std_registry = true)
    by (vm_compute; reflexivity).
  intros H T. rewrite forallb_forall in X. specialize (X _ H). cbn [fst snd] in X. rewrite T in X. cbn [negb orb] in X.
  split; intros ->; cbn in X; discriminate.
Qed.

Lemma tame_decoded rt m p id : packet_id p = Some id -> tame id = true -> exists r, UnmarshalCmd rt std_registry m p = Ret r.
Proof.
  intros PI T. destruct (UnmarshalCmd rt std_registry m p) as [r|] eqn:U; [eauto|]. exfalso.
  apply crashing_unmarshal in U as (id' & t & pre & body & PI' & RG & _ & _ & C). rewrite PI in PI'. injection PI' as <-.
  destruct (tame_types _ _ RG T) as [N1 N2]. destruct C as [[-> _]|[-> _]]; contradiction.
Qed.

(** A reply as it is recorded crashes nobody. *)
Lemma reply_tame rt m sp b f k id : is_packet b f -> packet_id b = Some id -> tame id = true ->
  ~ crashing_frame rt m (mkSlice (f ++ repeat x00 k) sp).
Proof.
  intros IP PI T C.
  pose proof (crash_panics (S (S (List.length (f ++ repeat x00 k)))) rt m (mkSlice (f ++ repeat x00 k) sp) (Nat.lt_lt_succ_r _ _ (Nat.lt_succ_diag_r _)) C) as R.
  cbn [read_packets] in R. rewrite (ReadPacket_packet [] b f (repeat x00 k) sp (fun x => x) IP : ReadPacket (mkSlice (f ++ repeat x00 k) sp) = _) in R.
  cbn [io_bind] in R. destruct (tame_decoded rt m b id PI T) as ([[m1 c] e] & U). rewrite U in R. cbn [io_bind] in R.
  cbn [read_packets] in R. rewrite ReadPacket_eof in R by apply zeros_filler. cbn [io_bind] in R. discriminate.
Qed.

Lemma crash_block rt defs spares n m ms rest d x : block defs ms d x ->
  view_crashes rt defs spares n m (ms ++ rest) ->
  match x with
  | inr e => view_crashes rt defs spares (S n) m rest
  | inl f => crashing_frame rt m (mkSlice f (spares n))
             \/ exists ps, holds (mkSlice f (spares n)) ps /\ view_crashes rt defs spares (S n) (mode_after m (ids_of ps)) rest
  end.
Proof.
  intros B VC. specialize (B ms rest eq_refl).
  inversion VC as [n' m' l' d' f' rest' N' X|n' m' l' d' e' rest' N' C'|n' m' l' d' f' rest' ps' cs' N' H' D' C']; subst;
    destruct (next_unique _ _ _ _ _ _ _ _ B N') as (_ & -> & ->).
  - left. exact X.
  - exact C'.
  - right. eauto.
Qed.

Lemma crash_open rt defs spares n m ms : open_end defs ms -> ~ view_crashes rt defs spares n m ms.
Proof.
  intros (D & rs & R & L & N) C. destruct ms as [|h l].
  { inversion C; match goal with H : next_frame _ [] _ _ _ |- _ => inversion H end. }
  assert (DH : msg_Dir h = 0%N) by (inversion D; assumption).
  assert (U : unfinished defs (h :: l)).
  { exists h, l, rs. split; [reflexivity|]. split; [|split; assumption]. unfold of_dir. rewrite filter_all; [exact R|].
    eapply Forall_impl; [|exact D]. cbn beta. intros x Hx. rewrite Hx, DH. reflexivity. }
  inversion C; match goal with H : next_frame _ _ _ _ _ |- _ => now apply unfinished_next in H end.
Qed.

Lemma crash_logged errText rt defs spares m hs l : logged errText rt m hs l -> forall blocks end_ ms n,
  Forall2 (told defs) hs blocks -> Forall readable hs ->
  open_end defs end_ -> map strip ms = map strip (List.concat blocks ++ end_) ->
  view_crashes rt defs spares n m ms -> exists f k, In (Received (inl f)) hs /\ cut_off (spares k) f.
Proof.
  induction 1 as [m|m e hs r l Er _ IH|m fr ps evs r l1 l2 hs l Er Hh Ha Pe Q _ IH|m c b me f we r1 r2 r3 hs l C M P F CT TM RG _ IH];
    intros blocks end_ ms n T RD O E VC.
  - exfalso. inversion T; subst. cbn [List.concat app] in E.
    assert (O' : open_end defs ms).
    { destruct O as (D & rs & R & L & N). destruct (strip_report _ _ E) as [ER ED]. split.
      - apply (forall_map msg_Dir (fun x => x = 0%N)). rewrite ED. now apply (forall_map msg_Dir (fun x => x = 0%N)).
      - exists rs. rewrite ER. auto. }
    exact (crash_open _ _ _ _ _ _ O' VC).
  - inversion T as [|? bl ? bls T1 T2]; subst. inversion RD as [|? ? _ RD2]; subst.
    cbn [List.concat] in E. rewrite <- app_assoc, map_app in E. apply map_eq_app in E as (b' & ms2 & -> & E1 & E2).
    pose proof (crash_block _ _ _ _ _ _ _ _ _ (block_strip _ _ _ _ _ T1 E1) VC) as VC'. cbn beta iota in VC'.
    destruct (IH _ _ _ _ T2 RD2 O E2 VC') as (f & k & I & Y). exists f, k. split; [now right|exact Y].
  - inversion T as [|? bl ? bls T1 T2]; subst. inversion RD as [|? ? _ RD2]; subst.
    cbn [List.concat] in E. rewrite <- app_assoc, map_app in E. apply map_eq_app in E as (b' & ms2 & -> & E1 & E2).
    destruct (crash_block _ _ _ _ _ _ _ _ _ (block_strip _ _ _ _ _ T1 E1) VC) as [(ps1 & r1 & PA & [(before & p & EP & CP)|(f1 & d1 & -> & Fi & OV)])|(ps' & Hh' & VC')].
    + exfalso. exact (happens_decoded _ _ _ _ _ Ha _ _ _ PA _ _ EP CP).
    + exists (vis fr), n. split; [now left|]. exists ps1, f1, d1. auto.
    + assert (ps' = ps) as ->.
      { destruct Hh as (x & X1 & X2), Hh' as (y & Y1 & Y2). exact (parses_unique_any _ _ _ _ _ Y1 Y2 _ _ X1 X2). }
      destruct (IH _ _ _ _ T2 RD2 O E2 VC') as (f & k & I & Y). exists f, k. split; [now right|exact Y].
  - inversion T as [|? bl ? bls T1 T2]; subst. inversion RD as [|? ? RD1 RD2]; subst. cbn [List.concat] in E.
    destruct M as [(PI & -> & WP & NB)|((e & ->) & ->)].
    + assert (NF : f <> []).
      { intros ->. destruct (WritePacket_shape [] b NB) as (h & X & _). rewrite X in WP. discriminate. }
      destruct RD1 as [X|(p & IP)]; [congruence|]. destruct RG as (t & RG).
      pose proof (write_is_packet _ _ _ _ _ WP NB PI RG IP) as ->.
      assert (T1' : exists got, padded defs f got /\ block defs bl 1 (inl got)) by (destruct f; [congruence|exact T1]).
      destruct T1' as (got & (k & d & _ & _ & _ & ->) & T1').
      rewrite <- app_assoc, map_app in E. apply map_eq_app in E as (b' & ms2 & -> & E1 & E2).
      destruct (crash_block _ _ _ _ _ _ _ _ _ (block_strip _ _ _ _ _ T1' E1) VC) as [CF|(ps' & Hh' & VC')].
      * exfalso. exact (reply_tame _ _ _ _ _ _ _ IP PI TM CF).
      * pose proof (holds_unique _ _ _ Hh' (padded_holds (spares n) b f k IP)) as ->.
        assert (MM : mode_after m (ids_of [b]) = m).
        { cbn [ids_of flat_map]. rewrite PI. cbn [app mode_after]. rewrite CT. reflexivity. }
        rewrite MM in VC'. destruct (IH _ _ _ _ T2 RD2 O E2 VC') as (f' & k' & I & Y). exists f', k'. split; [now right|exact Y].
    + cbn [told] in T1. subst bl. cbn [app] in E. destruct (IH _ _ _ _ T2 RD2 O E VC) as (f' & k' & I & Y).
      exists f', k'. split; [now right|exact Y].
Qed.

Lemma view_crash {S} errText sdump certLog rt clock h (dev : io_rw S) s fuel fuel2 defs spares st s' file n hs l spares' :
  usable defs -> Forall (fun d => (1 <= def_Len d <= 1023)%Z) defs -> honest dev -> obliging dev -> clean dev ->
  (forall b, Forall quiet (certLog b)) -> sound (mkServer false h) ->
  processFrames_log fuel errText sdump certLog rt std_registry clock
    (watched (hid_transport fuel2 defs spares (traced_read append_file dev) (tracer_Write append_file dev)))
    (mkServer false h) (((s, []), 0), []) = done (st, (((s', file), n), hs), l) ->
  Forall readable hs ->
  dumpTrace rt std_registry defs spares' (NewReader file EOF) = Some Panic ->
  exists f k, In (Received (inl f)) hs /\ cut_off (spares' k) f.
Proof.
  intros U L HO OB C Q SO PL RD NP.
  assert (N : Forall (fun d => (def_Len d <= 1023)%Z) defs) by (eapply Forall_impl; [|exact L]; cbn beta; lia).
  assert (L1 : Forall (fun d => (1 <= def_Len d)%Z) defs) by (eapply Forall_impl; [|exact L]; cbn beta; lia).
  pose proof (log_erase errText sdump certLog rt std_registry clock
    (watched (hid_transport fuel2 defs spares (traced_read append_file dev) (tracer_Write append_file dev))) fuel (mkServer false h)
    (((s, []), 0), [])) as PF.
  rewrite PL in PF. cbn [io_bind done] in PF. symmetry in PF.
  destruct (session_went rt std_registry clock DevGeneral_device dev fuel2 defs spares U N OB C _ _ _ _ _ _ _ PF)
    as (d' & n' & hs' & d1 & ops & rs & EW & (ops0 & rs0 & blocks & RT0 & F0 & T0 & R0) & RT & F & OE).
  cbn [app] in EW. injection EW as <- <- <-.
  pose proof (run_tracer_join _ _ _ _ _ _ _ _ _ RT0 RT) as RTJ.
  destruct (recorded_file dev s (ops0 ++ ops) s' file (rs0 ++ rs) HO) as (ms & TO & ST); [|exact RTJ|].
  { apply Forall_app. split; assumption. }
  rewrite (recorded_join _ _ _ _ _ _ _ _ RT0), R0 in ST.
  apply (dump_crash_iff rt defs spares' file EOF L1) in NP as (ms' & TO' & VC). rewrite (trace_of_unique _ _ _ _ TO' TO) in VC.
  destruct (transcript_logged _ _ _ _ _ _ _ _ _ _ _ Q (log_transcript _ _ _ _ _ _ _ _ _ _ _ _ SO PL) SO) as (hs1 & E1 & LG).
  cbn [snd app sv_mode] in E1, LG. subst hs1.
  exact (crash_logged _ _ _ spares' _ _ _ LG _ _ _ _ T0 RD OE ST VC).
Qed.
