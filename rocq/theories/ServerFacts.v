(** Packets of a frame: the loop on ReadPacket and UnmarshalCmd. *)
From Coq Require Import ZifyBool ZifyNat ZifyN.
From Verif Require Import Base BaseFacts GoTypes Types Payload Lingo Command SpecPayload SpecCommand
  LingoFacts CommandFacts CommandThms CommandProps Handlers SpecHandlers HandlersFacts HandlersThms ReplyThms
  Packet SpecPacket PacketFacts PacketThms Hid SpecHid Trace SpecTrace Server SpecServer.
Ltac Zify.zify_post_hook ::= Z.div_mod_to_equations.
#[local] Opaque std_registry.

Lemma first_start f d f' d' :
  f ++ x55 :: d = f' ++ x55 :: d' -> filler f -> filler f' -> f = f' /\ d = d'.
Proof.
  unfold filler. revert f'; induction f as [|x f IH]; intros [|y f'] E H H'; cbn in E.
  - injection E as E. now split.
  - injection E as E _. exfalso. apply H'. left. congruence.
  - injection E as E _. exfalso. apply H. left. congruence.
  - injection E as E1 E2. destruct (IH f' E2) as [-> ->].
    + intros I. apply H. now right.
    + intros I. apply H'. now right.
    + subst. now split.
Qed.

Lemma packet_start p w : is_packet p w -> exists w', w = x55 :: w'.
Proof. intros (h & c & -> & _). eauto. Qed.

Lemma start_cases f d sp :
  filler f ->
  (exists p w d', x55 :: d = w ++ d' /\ is_packet p w
     /\ ReadPacket (mkSlice (f ++ x55 :: d) sp) = Ret (mkSlice d' sp, p, None))
  \/ (overruns sp d /\ ReadPacket (mkSlice (f ++ x55 :: d) sp) = Panic)
  \/ ((forall p w d', x55 :: d = w ++ d' -> ~ is_packet p w) /\ ~ overruns sp d
      /\ exists e, e <> EOF /\ ReadPacket (mkSlice (f ++ x55 :: d) sp) = Ret (mkSlice d sp, [], Some e)).
Proof.
  intros Hf. destruct (ReadPacket (mkSlice (f ++ x55 :: d) sp)) as [[[fr' p] [e|]]|] eqn:E.
  - right. right. split; [|split].
    + intros p' w d' Ew Hw. rewrite Ew in E. rewrite (ReadPacket_packet f p' w d' sp Hf Hw) in E. discriminate.
    + intros (h & n & t & -> & Hh & H3 & Hs & Hw).
      assert (P : ReadPacket (mkSlice (f ++ x55 :: h ++ t) sp) = Panic).
      { apply panic_iff. exists f, h, n, t. repeat split; assumption. }
      rewrite P in E. discriminate.
    + exists e. split.
      * intros ->. destruct (ReadPacket_progress _ _ _ _ E) as [(_ & _ & _ & Hn)|(Hn & _)]; [|now apply Hn].
        apply Hn. cbn. apply in_elt.
      * rewrite (ReadPacket_start f d sp Hf) in E.
        destruct (parsePacket _) as [[[n pl] [er|]]|]; cbn [bind] in E; try discriminate.
        -- injection E as <- <- <-. reflexivity.
        -- destruct (slice_from _ _); discriminate.
  - left. destruct fr' as [v' sp']. pose proof (proj1 (delivered_iff _ _ _) E) as (f' & w & Hv & Hf' & Hw & Hsp).
    cbn [vis spare] in Hv, Hsp. subst sp'. destruct (packet_start p w Hw) as (w' & ->).
    change ((x55 :: w') ++ v') with (x55 :: w' ++ v') in Hv.
    destruct (first_start _ _ _ _ Hv Hf Hf') as [_ ->]. exists p, (x55 :: w'), v'. repeat split; assumption.
  - right. left. split; [|reflexivity]. apply panic_iff in E. destruct E as (f' & h & n & t & Hv & Hf' & Hh & H3 & Hs & Hw).
    cbn [vis spare] in Hv, Hw. destruct (first_start _ _ _ _ Hv Hf Hf') as [_ ->].
    exists h, n, t. repeat split; assumption.
Qed.

(** Decoding, from the left. *)
Inductive dec (rt : bool) : bool -> list bytes -> list command -> bool -> Prop :=
| dec_nil m : dec rt m [] [] m
| dec_cons m p ps m1 c e cs m' :
    UnmarshalCmd rt std_registry m p = Ret (m1, c, e) -> dec rt m1 ps cs m' -> dec rt m (p :: ps) (c :: cs) m'.

Lemma ids_app a b : ids_of (a ++ b) = ids_of a ++ ids_of b.
Proof. unfold ids_of. apply flat_map_app. Qed.

Lemma ids_cons p ps : ids_of (p :: ps) = ids_of [p] ++ ids_of ps.
Proof. unfold ids_of. cbn [flat_map]. now rewrite app_nil_r. Qed.

Lemma unmarshal_mode rt m p m1 c e :
  UnmarshalCmd rt std_registry m p = Ret (m1, c, e) -> m1 = mode_after m (ids_of [p]).
Proof.
  intros H. assert (R : serde_run rt std_registry m [SUnmarshal p] = Ret m1).
  { cbn [serde_run serde_step]. rewrite H. reflexivity. }
  apply serde_run_mode in R. rewrite R. cbn [ids_seen ids_of flat_map]. destruct (packet_id p); reflexivity.
Qed.

Lemma dec_mode rt m ps cs m' : dec rt m ps cs m' -> m' = mode_after m (ids_of ps).
Proof.
  induction 1 as [|m p ps m1 c e cs m' H _ IH]; [reflexivity|].
  rewrite ids_cons, mode_after_app, <- (unmarshal_mode _ _ _ _ _ _ H). exact IH.
Qed.

Lemma dec_snoc rt m ps cs m1 p c e m2 :
  dec rt m ps cs m1 -> UnmarshalCmd rt std_registry m1 p = Ret (m2, c, e) -> dec rt m (ps ++ [p]) (cs ++ [c]) m2.
Proof.
  induction 1 as [m|m q ps m1 c0 e0 cs m' H _ IH]; intros U.
  - eapply dec_cons; [exact U|]. apply dec_nil.
  - eapply dec_cons; [exact H|]. now apply IH.
Qed.

Lemma decodes_app rt m ps cs m1 ps2 cs2 :
  decodes rt m ps cs -> m1 = mode_after m (ids_of ps) -> decodes rt m1 ps2 cs2 -> decodes rt m (ps ++ ps2) (cs ++ cs2).
Proof.
  intros H ->. induction 1 as [|qs ds p c m' e H2 IH U].
  - now rewrite !app_nil_r.
  - rewrite !app_assoc. eapply decodes_snoc; [exact IH|]. rewrite ids_app, mode_after_app. exact U.
Qed.

Lemma decodes_dec rt m ps cs : decodes rt m ps cs <-> dec rt m ps cs (mode_after m (ids_of ps)).
Proof.
  split.
  - induction 1 as [|ps cs p c m' e _ IH U]; [apply dec_nil|].
    rewrite ids_app, mode_after_app, <- (unmarshal_mode _ _ _ _ _ _ U).
    exact (dec_snoc rt m ps cs (mode_after m (ids_of ps)) p c e m' IH U).
  - intros D. remember (mode_after m (ids_of ps)) as m' eqn:E. clear E.
    induction D as [|m p ps m1 c e cs m' U _ IH]; [apply decodes_nil|].
    change (p :: ps) with ([p] ++ ps). change (c :: cs) with ([c] ++ cs). 
    eapply decodes_app; [|exact (unmarshal_mode _ _ _ _ _ _ U)|exact IH].
    change [p] with ([] ++ [p]). change [c] with ([] ++ [c]). eapply decodes_snoc; [apply decodes_nil|exact U].
Qed.

Lemma crashing_unmarshal rt e p : UnmarshalCmd rt std_registry e p = Panic <-> crashing_packet rt e p.
Proof. exact (UnmarshalCmd_panic rt e p). Qed.

(** ** The loop *)

Lemma parses_prepend_packet sp rt m f w p d :
  filler f -> is_packet p w ->
  crashing_frame rt (mode_after m (ids_of [p])) (mkSlice d sp) -> crashing_frame rt m (mkSlice (f ++ w ++ d) sp).
Proof.
  intros Hf Hw (ps & r & Hs & C). exists (p :: ps), r. split; [now apply parses_packet|].
  destruct C as [(b & q & -> & C)|C]; [left|right; exact C].
  exists (p :: b), q. split; [reflexivity|]. now rewrite ids_cons, mode_after_app.
Qed.

Lemma parses_prepend_bad sp rt m f d :
  filler f -> (forall p w d', x55 :: d = w ++ d' -> ~ is_packet p w) -> ~ overruns sp d ->
  crashing_frame rt m (mkSlice d sp) -> crashing_frame rt m (mkSlice (f ++ x55 :: d) sp).
Proof.
  intros Hf Hn Ho (ps & r & Hs & C). exists ps, r. split; [now apply parses_bad|exact C].
Qed.

Lemma read_packets_run fuel rt m fr :
  List.length (vis fr) < fuel ->
  (exists m' evs ps, read_packets fuel rt std_registry m fr = Some (Ret (m', evs))
     /\ holds fr ps /\ dec rt m ps (inCmds evs) m')
  \/ (read_packets fuel rt std_registry m fr = Some Panic /\ crashing_frame rt m fr).
Proof.
  revert m fr; induction fuel as [|fuel IH]; intros m fr Hl; [lia|]. cbn [read_packets].
  destruct fr as [v sp]. cbn [vis spare] in *.
  destruct (split_start v) as [Hn|(f & d & -> & Hf)].
  { rewrite ReadPacket_eof by exact Hn. cbn [io_bind]. left. exists m, [], [].
    split; [reflexivity|]. split; [|apply dec_nil]. exists v. split; [apply parses_here|exact Hn]. }
  destruct (start_cases f d sp Hf) as [(p & w & d' & Ew & Hw & E)|[(Ho & E)|(Hn & Ho & e & He & E)]];
    rewrite E; cbn [io_bind].
  - rewrite Ew in Hl |- *. destruct (packet_start p w Hw) as (w' & Ew').
    destruct (UnmarshalCmd rt std_registry m p) as [[[m1 c] ue]|] eqn:U; cbn [io_bind].
    + pose proof (unmarshal_mode _ _ _ _ _ _ U) as M.
      destruct (IH m1 (mkSlice d' sp)) as [(m' & evs & ps & R & Hh & D)|(R & C)].
      { cbn [vis]. rewrite !app_length, Ew' in Hl. cbn [List.length] in Hl. lia. }
      * left. rewrite R. cbn [io_bind]. exists m', (PktCmd p c ue :: evs), (p :: ps).
        split; [reflexivity|]. split.
        -- destruct Hh as (r & Hs & Hr). cbn [vis spare] in Hs. exists r. split; [|exact Hr]. cbn [vis spare].
           now apply parses_packet.
        -- cbn [inCmds flat_map app]. eapply dec_cons; [exact U|exact D].
      * right. rewrite R. split; [reflexivity|]. apply parses_prepend_packet with (p := p); try assumption.
        now rewrite <- M.
    + right. split; [reflexivity|]. exists [p], d'. split.
      * cbn [vis spare]. apply parses_packet; try assumption. apply parses_here.
      * left. exists [], p. split; [reflexivity|]. now apply crashing_unmarshal.
  - right. split; [reflexivity|]. exists [], (f ++ x55 :: d). split; [apply parses_here|].
    right. exists f, d. repeat split; assumption.
  - destruct (IH m (mkSlice d sp)) as [(m' & evs & ps & R & Hh & D)|(R & C)].
    { cbn [vis]. rewrite app_length in Hl. cbn [List.length] in Hl. lia. }
    + assert (X : read_packets fuel rt std_registry m (mkSlice d sp) = Some (Ret (m', evs))) by exact R.
      left. exists m', (PktErr e :: evs), ps. rewrite X. split; [destruct e; try reflexivity; now elim He|].
      split; [|exact D]. destruct Hh as (r & Hs & Hr). exists r. split; [|exact Hr]. now apply parses_bad.
    + right. rewrite R. split; [destruct e; try reflexivity; now elim He|]. now apply parses_prepend_bad.
Qed.

(** A frame has one list of packets. *)
Lemma packet_unique p w d p' w' d' :
  is_packet p w -> is_packet p' w' -> w ++ d = w' ++ d' -> p = p' /\ w = w' /\ d = d'.
Proof.
  intros H H' E. pose proof (ReadPacket_packet [] p w d [] (fun x => x) H) as R.
  pose proof (ReadPacket_packet [] p' w' d' [] (fun x => x) H') as R'. cbn [app] in R, R'.
  rewrite E in R. rewrite R in R'. injection R' as -> ->. apply app_inv_tail in E. auto.
Qed.

Lemma parses_unique_any sp sp' d ps r : parses sp d ps r -> filler r -> forall ps' r', parses sp' d ps' r' -> filler r' -> ps = ps'.
Proof.
  induction 1 as [d|f w p d ps r Hf Hw Hs IH|f d ps r Hf Hn Ho Hs IH]; intros Hr ps' r' S' Hr'.
  - inversion S' as [|f w p d0 ps0 r0 Hf Hw Hs|f d0 ps0 r0 Hf Hn Ho Hs]; subst; [reflexivity| |].
    + exfalso. apply Hr. destruct (packet_start _ _ Hw) as (w' & ->). apply in_elt.
    + exfalso. apply Hr. apply in_elt.
  - destruct (packet_start _ _ Hw) as (w1 & Ew).
    inversion S' as [d1 E1|f' w' p' d0 ps0 r0 Hf' Hw' Hs' E1|f' d0 ps0 r0 Hf' Hn' Ho' Hs' E1]; subst d1 || idtac.
    + exfalso. subst r'. apply Hr'. rewrite Ew. apply in_elt.
    + destruct (packet_start _ _ Hw') as (w2 & Ew'). rewrite Ew, Ew' in E1. cbn [app] in E1.
      destruct (first_start _ _ _ _ E1 Hf' Hf) as [_ E2].
      destruct (packet_unique p w d p' w' d0 Hw Hw') as (-> & -> & ->); [rewrite Ew, Ew'; cbn; congruence|].
      f_equal. eapply IH; eassumption.
    + exfalso. rewrite Ew in E1. cbn [app] in E1. destruct (first_start _ _ _ _ E1 Hf' Hf) as [_ E2].
      apply (Hn' p w d); [rewrite Ew; cbn; congruence|exact Hw].
  - inversion S' as [d1 E1|f' w' p' d0 ps0 r0 Hf' Hw' Hs' E1|f' d0 ps0 r0 Hf' Hn' Ho' Hs' E1].
    + exfalso. subst r'. apply Hr'. subst. apply in_elt.
    + exfalso. destruct (packet_start _ _ Hw') as (w2 & Ew'). rewrite Ew' in E1. cbn [app] in E1.
      destruct (first_start _ _ _ _ E1 Hf' Hf) as [_ E2].
      apply (Hn p' w' d0); [rewrite Ew'; cbn; congruence|exact Hw'].
    + destruct (first_start _ _ _ _ E1 Hf' Hf) as [_ ->]. eapply IH; eassumption.
Qed.

Lemma parses_unique sp d ps r : parses sp d ps r -> filler r -> forall ps' r', parses sp d ps' r' -> filler r' -> ps = ps'.
Proof. exact (parses_unique_any sp sp d ps r). Qed.

Lemma holds_unique fr ps ps' : holds fr ps -> holds fr ps' -> ps = ps'.
Proof. intros (r & H & Hr) (r' & H' & Hr'). eapply parses_unique; eassumption. Qed.

(** A partial parses continues. *)
Lemma parses_app sp d ps r ps' r' : parses sp d ps r -> parses sp r ps' r' -> parses sp d (ps ++ ps') r'.
Proof.
  intros H H'. induction H as [d|f w p d ps r Hf Hw Hs IH|f d ps r Hf Hn Ho Hs IH]; cbn [app].
  - exact H'.
  - apply parses_packet; auto.
  - apply parses_bad; auto.
Qed.

Lemma crash_panics fuel rt m fr :
  List.length (vis fr) < fuel -> crashing_frame rt m fr -> read_packets fuel rt std_registry m fr = Some Panic.
Proof.
  destruct fr as [v sp]. intros Hl (ps & r & Hs & C). cbn [vis spare] in *. revert m fuel Hl C.
  induction Hs as [d|f w p d ps r Hf Hw Hs IH|f d ps r Hf Hn Ho Hs IH]; intros m fuel Hl C;
    (destruct fuel as [|fuel]; [lia|]); cbn [read_packets].
  - destruct C as [(b & p & E & _)|(f & d' & -> & Hf & Ho)]; [now destruct b|].
    destruct (start_cases f d' sp Hf) as [(p & w & d2 & Ew & Hw & E)|[(_ & E)|(_ & Ho' & _)]]; [| |contradiction].
    + exfalso. destruct Ho as (h & n & t & -> & Hh & H3 & Hs & Hx).
      assert (P : ReadPacket (mkSlice (f ++ x55 :: h ++ t) sp) = Panic).
      { apply panic_iff. exists f, h, n, t. repeat split; assumption. }
      rewrite P in E. discriminate.
    + rewrite E. reflexivity.
  - rewrite (ReadPacket_packet f p w d sp Hf Hw). cbn [io_bind].
    destruct (UnmarshalCmd rt std_registry m p) as [[[m1 c] ue]|] eqn:U; cbn [io_bind]; [|reflexivity].
    rewrite (IH m1 fuel); [reflexivity| |].
    + destruct (packet_start _ _ Hw) as (w' & ->). rewrite !app_length in Hl. cbn [List.length] in Hl. lia.
    + rewrite (unmarshal_mode _ _ _ _ _ _ U). destruct C as [(b & q & E & C)|C]; [left|right; exact C].
      destruct b as [|b0 b]; cbn [app] in E.
      * injection E as -> ->. exfalso. apply crashing_unmarshal in C. cbn [ids_of flat_map mode_after] in C. congruence.
      * injection E as -> ->. exists b, q. split; [reflexivity|]. rewrite ids_cons, mode_after_app in C. exact C.
  - destruct (start_cases f d sp Hf) as [(p & w & d2 & Ew & Hw & E)|[(Ho2 & E)|(_ & Ho' & e & He & E)]].
    + exfalso. eapply Hn; eassumption.
    + contradiction.
    + rewrite E. cbn [io_bind]. rewrite (IH m fuel); [destruct e; try reflexivity; now elim He| |exact C].
      rewrite app_length in Hl. cbn [List.length] in Hl. lia.
Qed.

Lemma frame_packets_run rt m fr :
  (exists m' evs ps, frame_packets rt std_registry m fr = Some (Ret (m', evs))
     /\ holds fr ps /\ dec rt m ps (inCmds evs) m')
  \/ (frame_packets rt std_registry m fr = Some Panic /\ crashing_frame rt m fr).
Proof. exact (read_packets_run _ rt m fr (Nat.lt_succ_diag_r _)). Qed.

Lemma frame_packets_panic rt m fr :
  frame_packets rt std_registry m fr = Some Panic <-> crashing_frame rt m fr.
Proof.
  split; [|intros C; exact (crash_panics _ rt m fr (Nat.lt_succ_diag_r _) C)].
  intros H. destruct (frame_packets_run rt m fr) as [(m' & evs & ps & R & _)|(_ & C)]; [congruence|exact C].
Qed.
