(** Damaged packets are as if they had not been sent. *)
From Coq Require Import ZifyBool ZifyNat ZifyN Lia Permutation.
From Verif Require Import Base BaseFacts GoTypes Types Payload Lingo Command SpecPayload SpecCommand Handlers SpecHandlers
  Packet SpecPacket PacketFacts PacketThms Hid Trace SpecTrace Server SpecServer ServerFacts ServerThms ServerProps
  ProtocolProps SpecDamage.
#[local] Opaque std_registry.

Lemma filler_app f g : filler f -> filler g -> filler (f ++ g).
Proof. unfold filler. intros F G I. apply in_app_iff in I as [I|I]; auto. Qed.

Lemma parses_filler sp g d ps r : filler g -> parses sp d ps r -> filler r ->
  exists r', parses sp (g ++ d) ps r' /\ filler r'.
Proof.
  intros G P R. destruct P as [d|f w p d ps r F W P|f d ps r F N O P].
  - exists (g ++ d). split; [apply parses_here|now apply filler_app].
  - exists r. split; [|exact R]. rewrite app_assoc. apply parses_packet; [now apply filler_app|assumption..].
  - exists r. split; [|exact R]. rewrite app_assoc. apply parses_bad; [now apply filler_app|assumption..].
Qed.

Lemma header_prefix n h n' h' t t' : header_for n h -> header_for n' h' -> h ++ t = h' ++ t' -> n = n' /\ h = h' /\ t = t'.
Proof.
  intros [b Hb N|hi lo E] [b' Hb' N'|hi' lo' E'] X; cbn [app] in X.
  - injection X as -> ->. subst. auto.
  - injection X as -> _. cbn in Hb. congruence.
  - injection X as <- _. cbn in Hb'. congruence.
  - injection X as -> -> ->. subst. auto.
Qed.

Lemma lost_skipped sp f p w w' rest ps r :
  filler f -> is_packet p w -> damage w w' -> parses sp rest ps r -> filler r ->
  exists r', parses sp (f ++ w' ++ rest) ps r' /\ filler r'.
Proof.
  intros F W D P R. destruct D as [y v G|n h a x y b H L N G].
  - rewrite app_assoc. eapply parses_filler; [now apply filler_app|eassumption..].
  - destruct W as (h' & c & E & H' & S). injection E as E.
    destruct (header_prefix _ _ _ _ _ _ H H' E) as (-> & <- & E2).
    pose proof (corruption_rejected f h p c a x y b rest sp F H' S (eq_sym E2) N) as C.
    destruct (parses_filler sp (h ++ a ++ y :: b) rest ps r G P R) as (r' & P' & R').
    exists r'. split; [|exact R']. change ((x55 :: h ++ a ++ y :: b) ++ rest) with (x55 :: (h ++ a ++ y :: b) ++ rest).
    assert (Q : h ++ (a ++ y :: b) ++ rest = (h ++ a ++ y :: b) ++ rest) by now rewrite !app_assoc.
    rewrite Q in C.
    destruct (start_cases f ((h ++ a ++ y :: b) ++ rest) sp F) as [(p2 & w2 & d2 & _ & _ & E3)|[(_ & E3)|(X & Y & _)]].
    + rewrite C in E3. discriminate E3.
    + rewrite C in E3. discriminate E3.
    + now apply parses_bad.
Qed.

Theorem damaged_holds ps f ps' sp : damaged ps f ps' -> holds (mkSlice f sp) ps'.
Proof.
  intros H. enough (E : exists r, parses sp f ps' r /\ filler r) by exact E.
  induction H as [f F|f p w ps rest ps' F P _ (r & IH & R)|f p w w' ps rest ps' F P D _ (r & IH & R)].
  - exists f. split; [apply parses_here|exact F].
  - exists r. split; [|exact R]. now apply parses_packet.
  - eapply lost_skipped; eassumption.
Qed.

(** With a start byte inside, the damaged packet may be read as the packet that begins there. *)
Theorem ghost_packet h p c c' a q v b sp :
  header_for (len p) h -> (sum_bytes (h ++ p ++ [c]) mod 256 = 0)%N -> c <> c' ->
  p = a ++ v ++ b -> is_packet q v -> filler (h ++ a) -> filler (b ++ [c']) ->
  holds (mkSlice (x55 :: h ++ p ++ [c']) sp) [q].
Proof.
  intros H S N E V A B.
  pose proof (corruption_rejected [] h p c p c c' [] [] sp (fun x => x) H S eq_refl N) as C.
  cbn [app] in C. rewrite !app_nil_r in C.
  exists (b ++ [c']). cbn [vis spare]. split; [|exact B].
  destruct (start_cases [] (h ++ p ++ [c']) sp (fun x => x)) as [(p2 & w2 & d2 & _ & _ & E3)|[(_ & E3)|(X & Y & _)]].
  - cbn [app] in E3. rewrite C in E3. discriminate E3.
  - cbn [app] in E3. rewrite C in E3. discriminate E3.
  - apply (parses_bad sp [] (h ++ p ++ [c']) [q] (b ++ [c']) (fun x => x) X Y). subst p.
    replace (h ++ (a ++ v ++ b) ++ [c']) with ((h ++ a) ++ v ++ b ++ [c']) by now rewrite !app_assoc.
    apply parses_packet; [exact A|exact V|apply parses_here].
Qed.

(** A greater length byte in front of the last packet of a frame makes the reader leave the frame. *)
Theorem longer_crashes {S W} rt clock (dev : DeviceGeneral S) (tp : transport W) st w f b b' p c :
  filler f -> is_packet p (x55 :: b :: p ++ [c]) -> b <> x00 -> (b2n b < b2n b')%N -> 2 <= List.length p ->
  process_frame rt std_registry clock dev tp st w (mkSlice (f ++ x55 :: b' :: p ++ [c]) []) = Some Panic.
Proof.
  intros F P N L Z.
  assert (Hb : b2n b = len p).
  { destruct P as (h & c2 & E & H & _). injection E as E. destruct H as [b2 Hb N2|hi lo H].
    - now injection E as -> _.
    - injection E as -> _. congruence. }
  assert (Ln : len (p ++ [c]) = (len p + 1)%N) by (unfold len; rewrite app_length; cbn [List.length]; lia).
  assert (C : crashing_frame rt (sv_mode st) (mkSlice (f ++ x55 :: b' :: p ++ [c]) [])).
  { exists [], (f ++ x55 :: b' :: p ++ [c]). split; [apply parses_here|]. right.
    exists f, (b' :: p ++ [c]). split; [reflexivity|]. split; [exact F|].
    exists [b'], (b2n b'), (p ++ [c]). split; [reflexivity|]. split; [apply header_small; [reflexivity|lia]|].
    cbn [spare]. rewrite Ln. split; [cbn [List.length]; rewrite app_length; cbn [List.length]; lia|].
    split; [lia|]. left. unfold len at 2. cbn [List.length]. lia. }
  unfold process_frame. apply frame_packets_panic in C. rewrite C. reflexivity.
Qed.

(** ** The server depends on the packets of a frame only *)

Theorem same_packets {S W} rt clock (dev : DeviceGeneral S) (tp : transport W) st w fr fr' ps :
  holds fr ps -> holds fr' ps ->
  process_frame rt std_registry clock dev tp st w fr = process_frame rt std_registry clock dev tp st w fr'.
Proof.
  intros H H'. unfold process_frame.
  destruct (frame_packets_run rt (sv_mode st) fr) as [(m1 & evs1 & ps1 & R1 & H1 & D1)|(R1 & C1)];
  destruct (frame_packets_run rt (sv_mode st) fr') as [(m2 & evs2 & ps2 & R2 & H2 & D2)|(R2 & C2)];
    rewrite R1, R2; cbn [io_bind].
  - pose proof (holds_unique _ _ _ H H1) as <-. pose proof (holds_unique _ _ _ H' H2) as <-.
    destruct (dec_unique _ _ _ _ _ D1 _ _ D2) as [-> ->]. reflexivity.
  - exfalso. pose proof (holds_unique _ _ _ H H1) as <-.
    destruct (holds_runs _ _ _ _ _ _ _ (Nat.lt_succ_diag_r _) H' D1) as (es & R & _).
    unfold frame_packets, NewPacketReader in R2. rewrite R2 in R. discriminate R.
  - exfalso. pose proof (holds_unique _ _ _ H' H2) as <-.
    destruct (holds_runs _ _ _ _ _ _ _ (Nat.lt_succ_diag_r _) H D2) as (es & R & _).
    unfold frame_packets, NewPacketReader in R1. rewrite R1 in R. discriminate R.
  - reflexivity.
Qed.

Lemma script_frame {S} rt clock (dev : DeviceGeneral S) st o fr : exists r, forall ins,
  process_frame rt std_registry clock dev script st (ins, o) fr = (go (st', o') <- r; done (st', (ins, o'))).
Proof.
  unfold process_frame.
  destruct (frame_packets rt std_registry (sv_mode st) fr) as [[[m evs]|]|]; cbn [io_bind].
  2:{ exists (Some Panic). reflexivity. } 2:{ exists None. reflexivity. }
  destruct (handle_all std_registry clock dev (inCmds evs) (sv_h st)) as [[h1 u]|]; cbn [io_bind].
  2:{ exists (Some Panic). reflexivity. }
  generalize (outCmds (h_log (sv_h st)) (h_log h1)) as cs. intros cs.
  assert (WR : exists r, forall i, write_replies rt script m cs (i, o) = (go (m', o') <- r; done (m', (i, o')))).
  { clear. revert m o. induction cs as [|c cs IH]; intros m o.
    - exists (done (m, o)). reflexivity.
    - cbn [write_replies]. destruct (MarshalCmd rt m c) as [[m1 res]|].
      2:{ exists (Some Panic). reflexivity. }
      destruct (WritePacket NewPacketWriter match res with Ok b => b | Err _ => [] end) as [f e] eqn:WP.
      destruct (IH m1 (o ++ [f])) as (r & Hr). exists r. intros i. cbn [io_bind].
      rewrite WP. cbn [script tp_WriteFrame io_bind done fst snd]. apply Hr. }
  destruct WR as (r & Hr). exists (go (m2, o') <- r; done (mkServer m2 h1, o')).
  intros i; rewrite Hr; destruct r as [[[m2 o2]|]|]; reflexivity.
Qed.

Lemma alike_holds arrived without :
  alike (inl arrived) (inl without) -> exists ps, holds arrived ps /\ holds without ps.
Proof.
  intros (ps & ps' & D & T). exists ps'. destruct arrived as [v sp], without as [v' sp']. cbn [vis] in *.
  split; [eapply damaged_holds; exact D|now apply stream_holds].
Qed.

Theorem alike_run {S} rt clock (dev : DeviceGeneral S) ins ins' : Forall2 alike ins ins' -> forall st o fuel fuel',
  List.length ins < fuel -> List.length ins < fuel' ->
  final (processFrames_loop fuel rt std_registry clock dev script st (ins, o))
  = final (processFrames_loop fuel' rt std_registry clock dev script st (ins', o)).
Proof.
  induction 1 as [|x y ins ins' A _ IH]; intros st o fuel fuel' L L';
    (destruct fuel as [|fuel]; [lia|]); (destruct fuel' as [|fuel']; [lia|]); cbn [List.length] in *.
  - reflexivity.
  - cbn [processFrames_loop script tp_ReadFrame io_bind done fst snd].
    destruct x as [fr|e], y as [fr'|e']; try now destruct A.
    + destruct (alike_holds _ _ A) as (ps & H & H').
      rewrite (same_packets rt clock dev script st (ins, o) fr fr' ps H H').
      destruct (script_frame rt clock dev st o fr') as (r & E). rewrite (E ins), (E ins').
      destruct r as [[[st1 o1]|]|]; cbn [io_bind done]; [|reflexivity..]. apply IH; lia.
    + cbn [alike] in A. subst e'. destruct e; [reflexivity|apply IH; lia..].
Qed.

(** ** What the check sum does not protect *)

Lemma sum_perm p p' : Permutation p p' -> sum_bytes p = sum_bytes p'.
Proof. induction 1; cbn [sum_bytes]; lia. Qed.

Lemma sum_app a b : sum_bytes (a ++ b) = (sum_bytes a + sum_bytes b)%N.
Proof. induction a as [|x a IH]; cbn [app sum_bytes]; lia. Qed.

Theorem order_unprotected p p' h c :
  Permutation p p' -> header_for (len p) h -> is_packet p (x55 :: h ++ p ++ [c]) -> is_packet p' (x55 :: h ++ p' ++ [c]).
Proof.
  intros P H (h' & c' & E & H' & S). injection E as E.
  destruct (header_prefix _ _ _ _ _ _ H H' E) as (_ & <- & E2). apply app_inv_head in E2. injection E2 as <-.
  exists h, c. split; [reflexivity|]. pose proof (Permutation_length P) as L. split.
  - unfold len in *. now rewrite <- L.
  - rewrite !sum_app in *. now rewrite <- (sum_perm _ _ P).
Qed.
