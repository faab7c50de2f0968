(** The log as it stands when the server crashes (C98). *)
From Coq Require Import ZifyBool ZifyNat ZifyN Lia.
From Verif Require Import Base BaseFacts SpecText GoTypes Types Payload Lingo Command SpecPayload SpecCommand Handlers SpecHandlers HandlersThms
  Packet SpecPacket PacketFacts PacketThms Hid Trace TraceFacts CommandFacts Server SpecServer ServerFacts ServerThms ServerProps ViewThms Text Log SpecLog LogThms
  SpecSession CrashThms LogKept SpecKept.
Local Open Scope string_scope.
#[local] Opaque std_registry.

(** ** The log kept is that of [Log] when the code ends *)

Definition same {A} (k : logged A) (m : io (A * list log_rec)) : Prop :=
  match m with
  | Some (Ret (a, l)) => k = (l, done a)
  | Some Panic => snd k = Some Panic
  | None => snd k = None
  end.

Lemma same_saying {A} l (k : logged A) m :
  same k m -> same (saying l k) (go (a, l2) <- m; done (a, l ++ l2)%list).
Proof.
  destruct k as [kl kr]. destruct m as [[[a l2]|]|]; cbn [same io_bind done saying fst snd]; [|auto|auto].
  intros [= -> ->]. reflexivity.
Qed.

Lemma same_next {A B} (k : logged A) m (f : A -> logged B) (g : A -> io (B * list log_rec)) :
  same k m -> (forall a l, m = done (a, l) -> same (f a) (g a)) ->
  same (log_bind k f) (go (a, l1) <- m; go (b, l2) <- g a; done (b, l1 ++ l2)%list).
Proof.
  destruct k as [kl kr]. destruct m as [[[a l]|]|]; cbn [same io_bind done snd].
  - intros [= -> ->] H. cbn [log_bind done]. apply (same_saying l (f a) (g a)), (H a l). reflexivity.
  - intros -> _. reflexivity.
  - intros -> _. reflexivity.
Qed.

Lemma read_kept errText rt reg fuel : forall m fr,
  same (read_packets_kept fuel errText rt reg m fr)
       (go (m', evs) <- read_packets fuel rt reg m fr; done ((m', inCmds evs), packets_log errText DirIn m evs)).
Proof.
  induction fuel as [|fuel IH]; intros m fr; [reflexivity|]. cbn [read_packets read_packets_kept].
  destruct (ReadPacket fr) as [[[fr' pkt] err]|]; [|reflexivity]. cbn [io_bind silent log_bind saying fst snd app].
  destruct err as [e|].
  - destruct e; try reflexivity;
      (specialize (IH m fr'); destruct (read_packets fuel rt reg m fr') as [[[m' evs]|]|]; cbn [io_bind done same] in *;
       [rewrite IH; reflexivity|exact IH|exact IH]).
  - destruct (UnmarshalCmd rt reg m pkt) as [[[m1 c] ue]|] eqn:U; [|reflexivity]. cbn [io_bind silent log_bind saying fst snd app].
    apply unmarshal_packet_mode in U. subst m1. set (m1 := packet_mode m pkt) in *.
    specialize (IH m1 fr'). destruct (read_packets_kept fuel errText rt reg m1 fr') as [kl kr].
    destruct (read_packets fuel rt reg m1 fr') as [[[m' evs]|]|]; cbn [io_bind done same snd] in *.
    + injection IH as -> ->. cbn [log_bind saying silent fst snd done]. unfold saying, silent. cbn [fst snd app packets_log]. rewrite app_nil_r. reflexivity.
    + subst kr. reflexivity.
    + subst kr. reflexivity.
Qed.

Lemma handle_kept sdump certLog reg clock cs : forall h,
  same (handle_all_kept sdump certLog reg clock cs h) (Some (handle_all_log sdump certLog reg clock cs h)).
Proof.
  induction cs as [|c cs IH]; intros h; [reflexivity|]. cbn [handle_all_kept handle_all_log].
  destruct (handlePacket reg clock DevGeneral_device c h) as [[h1 u]|]; [|reflexivity]. cbn [bind silent log_bind saying fst snd app].
  destruct (calls_log sdump certLog (h_dev h) (skipn (List.length (h_log h)) (h_log h1))) as [l|]; [|reflexivity].
  cbn [bind silent log_bind saying fst snd app]. cbv zeta. specialize (IH h1).
  destruct (handle_all_kept sdump certLog reg clock cs h1) as [kl kr].
  destruct (handle_all_log sdump certLog reg clock cs h1) as [[h2 l2]|]; cbn [same bind snd fst] in *; [|exact IH].
  injection IH as -> ->. reflexivity.
Qed.

Lemma write_kept {W} errText rt (tp : transport W) cs : forall m w,
  same (write_replies_kept errText rt tp m cs w) (write_replies_log errText rt tp m cs w).
Proof.
  induction cs as [|c cs IH]; intros m w; [reflexivity|]. cbn [write_replies_kept write_replies_log].
  destruct (MarshalCmd rt m c) as [[m' res]|] eqn:M; [|reflexivity]. cbn [io_bind silent log_bind saying fst snd app]. cbv zeta.
  apply MarshalCmd_mode in M. cbn [fst] in M. rewrite <- handleCmdID_mode in M. rewrite <- M.
  destruct (WritePacket NewPacketWriter match res with Ok b => b | Err _ => [] end) as [f fe].
  destruct (tp_WriteFrame tp w f) as [[[w' e]|]|]; cbn [io_bind silent log_bind saying fst snd app]; try reflexivity.
  specialize (IH m' w'). destruct (write_replies_kept errText rt tp m' cs w') as [kl kr].
  destruct (write_replies_log errText rt tp m' cs w') as [[[[m2 w2] l]|]|]; cbn [same io_bind snd fst] in *; try exact IH.
  injection IH as -> ->. reflexivity.
Qed.

Lemma frame_kept {W} errText sdump certLog rt reg clock (tp : transport W) st w fr :
  same (process_frame_kept errText sdump certLog rt reg clock tp st w fr)
       (process_frame_log errText sdump certLog rt reg clock tp st w fr).
Proof.
  unfold process_frame_kept, process_frame_log, frame_packets. cbv zeta.
  pose proof (read_kept errText rt reg (S (List.length (vis fr))) (sv_mode st) (NewPacketReader fr)) as R.
  destruct (read_packets_kept (S (List.length (vis fr))) errText rt reg (sv_mode st) (NewPacketReader fr)) as [kl kr].
  destruct (read_packets (S (List.length (vis fr))) rt reg (sv_mode st) (NewPacketReader fr)) as [[[m1 evs]|]|];
    cbn [same io_bind done snd] in R |- *; [|subst kr; reflexivity|subst kr; reflexivity].
  injection R as -> ->. cbn [log_bind done].
  pose proof (handle_kept sdump certLog reg clock (inCmds evs) (sv_h st)) as H.
  destruct (handle_all_kept sdump certLog reg clock (inCmds evs) (sv_h st)) as [hl hr].
  destruct (handle_all_log sdump certLog reg clock (inCmds evs) (sv_h st)) as [[h1 l2]|]; cbn [same io_bind snd] in H |- *;
    [|subst hr; reflexivity].
  injection H as -> ->. cbn [log_bind done].
  pose proof (write_kept errText rt tp (outCmds (h_log (sv_h st)) (h_log h1)) m1 w) as Q.
  destruct (write_replies_kept errText rt tp m1 (outCmds (h_log (sv_h st)) (h_log h1)) w) as [wl wr].
  destruct (write_replies_log errText rt tp m1 (outCmds (h_log (sv_h st)) (h_log h1)) w) as [[[[m2 w2] l3]|]|];
    cbn [same io_bind snd] in Q |- *; [|subst wr; reflexivity|subst wr; reflexivity].
  injection Q as -> ->. cbn [log_bind done]. unfold saying, silent. cbn [fst snd app done]. rewrite app_nil_r. reflexivity.
Qed.

Lemma frames_kept {W} errText sdump certLog rt reg clock (tp : transport W) fuel : forall st w,
  same (processFrames_kept fuel errText sdump certLog rt reg clock tp st w)
       (processFrames_log fuel errText sdump certLog rt reg clock tp st w).
Proof.
  induction fuel as [|fuel IH]; intros st w; [reflexivity|]. cbn [processFrames_kept processFrames_log].
  destruct (tp_ReadFrame tp w) as [[[w1 r]|]|]; cbn [io_bind silent log_bind saying fst snd app]; try reflexivity.
  destruct r as [fr|e].
  - pose proof (frame_kept errText sdump certLog rt reg clock tp st w1 fr) as F.
    destruct (process_frame_kept errText sdump certLog rt reg clock tp st w1 fr) as [kl kr].
    destruct (process_frame_log errText sdump certLog rt reg clock tp st w1 fr) as [[[[st1 w2] l1]|]|];
      cbn [same io_bind snd] in F |- *; [|subst kr; reflexivity|subst kr; reflexivity].
    injection F as -> ->. cbn [log_bind done]. specialize (IH st1 w2).
    destruct (processFrames_kept fuel errText sdump certLog rt reg clock tp st1 w2) as [ql qr].
    destruct (processFrames_log fuel errText sdump certLog rt reg clock tp st1 w2) as [[[[st' w'] l]|]|];
      cbn [same io_bind snd fst saying] in IH |- *; try exact IH. injection IH as -> ->. reflexivity.
  - destruct e; try reflexivity;
      (specialize (IH st w1); destruct (processFrames_kept fuel errText sdump certLog rt reg clock tp st w1) as [ql qr];
       destruct (processFrames_log fuel errText sdump certLog rt reg clock tp st w1) as [[[[st' w'] l]|]|];
       cbn [same io_bind snd fst saying] in IH |- *; try exact IH; injection IH as -> ->; reflexivity).
Qed.

(** ** Reading a frame that crashes *)

(** A packet whose decoding crashes does not switch transaction numbers. *)
Lemma panic_mode rt m p : UnmarshalCmd rt std_registry m p = Panic -> packet_mode m p = m.
Proof.
  intros H. apply CommandThms.UnmarshalCmd_panic in H as (id & t & pre & body & P & Hin & _ & _ & C). rewrite packet_mode_after.
  cbn [ids_of flat_map]. rewrite P. cbn [app]. destruct C as [[-> _]|[-> _]]; apply LingoFacts.std_id_of in Hin.
  - replace (id_of std_registry general_RequestApplicationLaunch) with (Some 100%N) in Hin by (vm_compute; reflexivity).
    injection Hin as <-. reflexivity.
  - replace (id_of std_registry general_SetFIDTokenValues) with (Some 57%N) in Hin by (vm_compute; reflexivity).
    injection Hin as <-. reflexivity.
Qed.

Definition last_words errText (x : option bytes) : list log_rec :=
  match x with Some p => [logPacket errText p None "<< PACKET"] | None => [] end.

Lemma kept_breaks errText rt fuel : forall m fr kl,
  read_packets_kept fuel errText rt std_registry m fr = (kl, Some Panic) ->
  exists evs x, kl = (packets_log errText DirIn m evs ++ last_words errText x)%list
    /\ breaks rt (spare fr) m (vis fr) evs x.
Proof.
  induction fuel as [|fuel IH]; intros m fr kl; cbn [read_packets_kept]; [discriminate|].
  destruct fr as [v sp]. cbn [vis spare].
  destruct (split_start v) as [Hn|(f & d & -> & Hf)].
  { rewrite ReadPacket_eof by exact Hn. discriminate. }
  destruct (start_cases f d sp Hf) as [(p & w & d' & Ew & Hw & E)|[(Ho & E)|(Hn & Ho & e & He & E)]];
    rewrite E; cbn [silent log_bind saying fst snd app].
  - rewrite Ew. destruct (UnmarshalCmd rt std_registry m p) as [[[m1 c] ue]|] eqn:U; cbn [silent log_bind saying fst snd app].
    + pose proof (unmarshal_packet_mode _ _ _ _ _ _ _ U) as PM. rewrite <- PM. specialize (IH m1 (mkSlice d' sp)).
      destruct (read_packets_kept fuel errText rt std_registry m1 (mkSlice d' sp)) as [ql [[[m2 cs]|]|]];
        cbn [log_bind saying silent fst snd]; try discriminate.
      intros H. injection H as <-. destruct (IH ql eq_refl) as (evs & x & -> & B). cbn [vis spare] in B.
      exists (PktCmd p c ue :: evs), x. split; [|eapply breaks_packet; eassumption].
      cbn [packets_log app]. rewrite <- PM, <- app_assoc. reflexivity.
    + rewrite (panic_mode _ _ _ U), mode_log_same. intros H. injection H as <-. exists [], (Some p). split; [reflexivity|]. now apply breaks_decoding.
  - intros H. injection H as <-. exists [], None. split; [reflexivity|]. now apply breaks_beyond.
  - intros H.
    assert (X : exists ql, read_packets_kept fuel errText rt std_registry m (mkSlice d sp) = (ql, Some Panic)
                  /\ kl = (logPacket errText [] (Some e) "<< PACKET" :: ql)).
    { destruct e; try (now elim He);
        (destruct (read_packets_kept fuel errText rt std_registry m (mkSlice d sp)) as [ql qr];
         cbn [saying fst snd app] in H; injection H as <- ->; eauto). }
    destruct X as (ql & R & ->). destruct (IH _ _ _ R) as (evs & x & -> & B). cbn [vis spare] in B.
    exists (PktErr e :: evs), x. split; [reflexivity|]. apply breaks_bad; try assumption.
    exact (read_error f d sp _ _ _ Hf E).
Qed.

Lemma breaks_kept errText rt sp m d evs x : breaks rt sp m d evs x -> forall fuel, List.length d < fuel ->
  read_packets_kept fuel errText rt std_registry m (mkSlice d sp)
  = ((packets_log errText DirIn m evs ++ last_words errText x)%list, Some Panic).
Proof.
  induction 1 as [m f d Hf Ho|m f w p d Hf Hw U|m f w p d m1 c e evs x Hf Hw U _ IH|m f d e evs x Hf Hn Ho -> _ IH];
    intros fuel Hl; (destruct fuel as [|fuel]; [lia|]); cbn [read_packets_kept].
  - destruct (start_cases f d sp Hf) as [(p & w & d2 & Ew & Hw & E)|[(_ & E)|(_ & Ho' & _)]]; [| |contradiction].
    + exfalso. destruct Ho as (h & n & t & -> & Hh & H3 & Hs & Hx).
      assert (P : ReadPacket (mkSlice (f ++ x55 :: h ++ t) sp) = Panic).
      { apply panic_iff. exists f, h, n, t. repeat split; assumption. }
      rewrite P in E. discriminate.
    + rewrite E. reflexivity.
  - rewrite (ReadPacket_packet f p w d sp Hf Hw). cbn [silent log_bind saying fst snd app].
    rewrite U, (panic_mode _ _ _ U), mode_log_same. reflexivity.
  - rewrite (ReadPacket_packet f p w d sp Hf Hw). cbn [silent log_bind saying fst snd app]. rewrite U.
    cbn [silent log_bind saying fst snd app packets_log]. rewrite <- (unmarshal_packet_mode _ _ _ _ _ _ _ U).
    rewrite IH; [cbn [log_bind saying fst snd app]; rewrite <- app_assoc; reflexivity|].
    destruct (packet_start _ _ Hw) as (w' & ->). rewrite !app_length in Hl. cbn [List.length] in Hl. lia.
  - destruct (start_cases f d sp Hf) as [(p & w & d2 & Ew & Hw & E)|[(Ho2 & E)|(_ & _ & e & He & E)]].
    + exfalso. eapply Hn; eassumption.
    + contradiction.
    + rewrite E. cbn [silent log_bind saying fst snd app]. pose proof (read_error f d sp _ _ _ Hf E) as <-.
      rewrite IH by (rewrite app_length in Hl; cbn [List.length] in Hl; lia).
      destruct e; try reflexivity. now elim He.
Qed.

Lemma happens_kept errText rt sp m d evs : happens rt sp m d evs -> forall fuel, List.length d < fuel ->
  exists m', read_packets_kept fuel errText rt std_registry m (mkSlice d sp)
  = (packets_log errText DirIn m evs, done (m', inCmds evs)).
Proof.
  induction 1 as [m f Hf|m f w p d m1 c e evs Hf Hw U _ IH|m f d e evs Hf Hn Ho -> _ IH];
    intros fuel Hl; (destruct fuel as [|fuel]; [lia|]); cbn [read_packets_kept].
  - rewrite ReadPacket_eof by exact Hf. eexists. reflexivity.
  - rewrite (ReadPacket_packet f p w d sp Hf Hw). cbn [silent log_bind saying fst snd app]. rewrite U.
    cbn [silent log_bind saying fst snd app packets_log]. rewrite <- (unmarshal_packet_mode _ _ _ _ _ _ _ U). destruct (IH fuel) as (m' & ->).
    + destruct (packet_start _ _ Hw) as (w' & ->). rewrite !app_length in Hl. cbn [List.length] in Hl. lia.
    + exists m'. cbn [log_bind done]. unfold saying, silent. cbn [fst snd app]. rewrite app_nil_r. reflexivity.
  - destruct (start_cases f d sp Hf) as [(p & w & d2 & Ew & Hw & E)|[(Ho2 & E)|(_ & _ & e & He & E)]].
    + exfalso. eapply Hn; eassumption.
    + contradiction.
    + rewrite E. cbn [silent log_bind saying fst snd app]. pose proof (read_error f d sp _ _ _ Hf E) as <-.
      destruct (IH fuel) as (m' & R); [rewrite app_length in Hl; cbn [List.length] in Hl; lia|].
      exists m'. rewrite R. destruct e; try reflexivity. now elim He.
Qed.

(** ** Sessions that crash *)

Lemma words_entry errText x :
  match x with
  | Some p => exists r2, sized_entry errText "<< PACKET" (len p) None r2 /\ last_words errText x = [r2]
  | None => last_words errText x = []
  end.
Proof. destruct x as [p|]; [|reflexivity]. eexists. split; [apply logPacket_entry|reflexivity]. Qed.

Lemma frame_crash {W} errText sdump certLog rt clock (tp : transport W) st w fr l :
  sound st -> sturdy tp ->
  process_frame_kept errText sdump certLog rt std_registry clock tp st w fr = (l, Some Panic) ->
  exists evs x, l = (logFrame errText (vis fr) None "<< FRAME" :: packets_log errText DirIn (sv_mode st) evs ++ last_words errText x)%list
    /\ breaks rt (spare fr) (sv_mode st) (vis fr) evs x.
Proof.
  intros Hs Ht E. pose proof (frame_kept errText sdump certLog rt std_registry clock tp st w fr) as F. rewrite E in F.
  assert (P : process_frame_log errText sdump certLog rt std_registry clock tp st w fr = Some Panic).
  { destruct (process_frame_log errText sdump certLog rt std_registry clock tp st w fr) as [[[a k]|]|]; cbn [same snd] in F;
      [discriminate F|reflexivity|discriminate F]. }
  pose proof (process_frame_erase errText sdump certLog rt std_registry clock tp st w fr) as Q. rewrite P in Q. cbn [erase io_bind] in Q.
  destruct (frame_panic_iff rt clock tp st w fr Hs Ht) as [[C _] _]. specialize (C (eq_sym Q)).
  pose proof (crash_panics (S (List.length (vis fr))) rt (sv_mode st) fr (Nat.lt_succ_diag_r _) C) as R.
  pose proof (read_kept errText rt std_registry (S (List.length (vis fr))) (sv_mode st) fr) as K. rewrite R in K. cbn [io_bind same] in K.
  unfold process_frame_kept, NewPacketReader in E.
  destruct (read_packets_kept (S (List.length (vis fr))) errText rt std_registry (sv_mode st) fr) as [kl kr] eqn:RK.
  cbn [snd] in K. subst kr. cbn [log_bind saying fst snd] in E. injection E as <-.
  destruct (kept_breaks _ _ _ _ _ _ RK) as (evs & x & -> & B). exists evs, x. split; [reflexivity|exact B].
Qed.

Lemma kept_cut {W} errText sdump certLog rt clock (tp : transport W) fuel : forall st w l,
  sound st -> sturdy tp ->
  processFrames_kept fuel errText sdump certLog rt std_registry clock tp st w = (l, Some Panic) ->
  cut_short errText sdump certLog rt clock tp st w l.
Proof.
  induction fuel as [|fuel IH]; intros st w l Hs Ht; cbn [processFrames_kept]; [discriminate|].
  destruct (tp_ReadFrame tp w) as [[[w1 r]|]|] eqn:R; cbn [silent log_bind saying fst snd app]; try discriminate.
  2:{ intros _. exfalso. now apply (proj1 Ht) in R. }
  assert (X : forall e, e <> EOF -> r = inr e ->
      saying [logFrame errText [] (Some e) "<< FRAME"] (processFrames_kept fuel errText sdump certLog rt std_registry clock tp st w1) = (l, Some Panic) ->
      cut_short errText sdump certLog rt clock tp st w l).
  { intros e NE -> E. destruct (processFrames_kept fuel errText sdump certLog rt std_registry clock tp st w1) as [ql qr] eqn:P.
    cbn [saying fst snd app] in E. injection E as <- ->.
    eapply cut_error; [exact R|exact NE|apply (logFrame_entry errText [])|exact (IH _ _ _ Hs Ht P)]. }
  destruct r as [fr|e].
  2:{ destruct e; try (apply X; [discriminate|reflexivity]). discriminate. }
  clear X. destruct (process_frame_kept errText sdump certLog rt std_registry clock tp st w1 fr) as [kl kr] eqn:P.
  pose proof (frame_kept errText sdump certLog rt std_registry clock tp st w1 fr) as F. rewrite P in F.
  destruct kr as [[[st1 w2]|]|]; cbn [log_bind]; [| |discriminate].
  - destruct (process_frame_log errText sdump certLog rt std_registry clock tp st w1 fr) as [[[[st3 w3] l3]|]|] eqn:Q; cbn [same snd] in F;
      try discriminate F.
    apply pair_equal_spec in F as [<- F]. apply some_inj, ret_inj in F. injection F as <- <-.
    destruct (processFrames_kept fuel errText sdump certLog rt std_registry clock tp st1 w2) as [ql qr] eqn:Z.
    intros E. cbn [saying fst snd] in E. injection E as <- ->.
    destruct (process_frame_log_run _ _ _ _ _ _ _ _ _ _ _ _ Hs Q) as (ps & r & evs & a1 & a2 & devs & a3 & -> & Hs1 & A & B & C & D & F & G & I & J).
    cbn [app]. rewrite <- !app_assoc. eapply cut_later; try eassumption. exact (IH _ _ _ Hs1 Ht Z).
  - intros E. injection E as <-. destruct (frame_crash _ _ _ _ _ _ _ _ _ _ Hs Ht P) as (evs & x & -> & B).
    eapply cut_here; [exact R|apply logFrame_entry|exact B|apply packets_log_entries; left; auto|apply words_entry].
Qed.

(** The log is determined. *)
Lemma breaks_happens rt sp m d evs x evs' : breaks rt sp m d evs x -> happens rt sp m d evs' -> False.
Proof.
  intros B H. pose proof (breaks_kept (fun _ => "") _ _ _ _ _ _ B (S (List.length d)) (Nat.lt_succ_diag_r _)) as E.
  destruct (happens_kept (fun _ => "") _ _ _ _ _ H (S (List.length d)) (Nat.lt_succ_diag_r _)) as (m' & E'). rewrite E in E'. discriminate E'.
Qed.

Lemma cut_unique {W} errText sdump certLog rt clock (tp : transport W) st w l :
  cut_short errText sdump certLog rt clock tp st w l ->
  forall l', cut_short errText sdump certLog rt clock tp st w l' -> l = l'.
Proof.
  assert (EL : forall m evs k, packet_entries errText "<< " m evs k -> k = packets_log errText DirIn m evs).
  { intros m evs k H. eapply packet_entries_unique; [exact H|]. apply packets_log_entries. left. auto. }
  assert (WL : forall x (k : list log_rec), match x with Some p => exists r2, sized_entry errText "<< PACKET" (len p) None r2 /\ k = [r2] | None => k = [] end ->
            k = last_words errText x).
  { intros [p|] k; [|auto]. intros (r2 & H & ->). cbn [last_words]. f_equal. eapply sized_unique; [exact H|apply logPacket_entry]. }
  induction 1 as [st w w1 fr r evs x l1 l2 R S B Pe X|st w w1 e r rs R NE S _ IH|st w w1 fr ps r evs l1 l2 devs l3 st1 w2 rs R S Hh Ha Pe Sa Do Mo Se _ IH];
    intros l0 H0;
    inversion H0 as [st4 w4 w1' fr' r' evs' x' l1' l2' R' S' B' Pe' X'|st4 w4 w1' e' r' rs' R' NE' S' T'|st4 w4 w1' fr' ps' r' evs' l1' l2' devs' l3' st1' w2' rs' R' S' Hh' Ha' Pe' Sa' Do' Mo' Se' T']; subst;
    rewrite R in R'; apply some_inj, ret_inj in R'; try discriminate R'.
  - injection R' as <- <-. rewrite (sized_unique _ _ _ _ _ _ S S'). f_equal.
    apply EL in Pe, Pe'. apply WL in X, X'. subst.
    pose proof (breaks_kept errText _ _ _ _ _ _ B (Datatypes.S (List.length (vis fr))) (Nat.lt_succ_diag_r _)) as E.
    pose proof (breaks_kept errText _ _ _ _ _ _ B' (Datatypes.S (List.length (vis fr))) (Nat.lt_succ_diag_r _)) as E'.
    rewrite E in E'. now injection E'.
  - injection R' as <- <-. exfalso. exact (breaks_happens _ _ _ _ _ _ _ B Ha').
  - injection R' as <- <-. rewrite (IH _ T'). f_equal. eapply sized_unique; eassumption.
  - injection R' as <- <-. exfalso. exact (breaks_happens _ _ _ _ _ _ _ B' Ha).
  - injection R' as <- <-. pose proof (holds_unique _ _ _ Hh Hh') as <-. pose proof (happens_unique _ _ _ _ _ Ha _ Ha') as <-.
    destruct (does_unique _ _ _ _ _ _ _ _ Do Do') as (Eh & _ & <-).
    assert (st1 = st1') as <-.
    { destruct st1 as [a b], st1' as [a' b']. cbn [sv_h sv_mode] in *. congruence. }
    destruct (sends_unique _ _ _ _ _ _ _ _ Se _ _ Se') as [<- <-]. rewrite (IH _ T').
    rewrite (sized_unique _ _ _ _ _ _ S S'), (packet_entries_unique _ _ _ _ _ Pe _ Pe'), (said_unique _ _ _ _ _ _ Sa _ Sa'). reflexivity.
Qed.

(** ** Where the crash was *)

Lemma log_messages errText m evs x :
  Forall (fun r => lr_Message r <> "<< FRAME") (packets_log errText DirIn m evs ++ last_words errText x).
Proof.
  apply Forall_app. split.
  - revert m. induction evs as [|[e|p c e] evs IH]; intros m; [apply Forall_nil|..]; cbn [packets_log].
    + apply Forall_cons; [discriminate|apply IH].
    + apply Forall_cons; [discriminate|]. apply Forall_app. split.
      * destruct m, (packet_mode _ p); try apply Forall_nil; (apply Forall_cons; [discriminate|apply Forall_nil]).
      * apply Forall_cons; [destruct e; discriminate|apply IH].
  - destruct x; [apply Forall_cons; [discriminate|]|]; apply Forall_nil.
Qed.

Lemma packets_log_app errText d evs1 evs2 : forall m,
  packets_log errText d m (evs1 ++ evs2) = (packets_log errText d m evs1 ++ packets_log errText d (events_mode m evs1) evs2)%list.
Proof.
  induction evs1 as [|[e|p c e] evs1 IH]; intros m; [reflexivity|..]; cbn [app packets_log].
  - rewrite IH. reflexivity.
  - rewrite IH, <- app_assoc. reflexivity.
Qed.

Lemma ends_after errText m evs x :
  ends_with_packet (packets_log errText DirIn m evs ++ last_words errText x) <-> x <> None.
Proof.
  unfold ends_with_packet. split.
  - intros (before & r & E & M & L) ->. cbn [last_words] in E. rewrite app_nil_r in E.
    destruct (exists_last (l := evs)) as (evs0 & ev & ->).
    { intros ->. cbn in E. now destruct before. }
    rewrite packets_log_app in E. destruct ev as [e|p c e]; cbn [packets_log] in E.
    + apply app_inj_tail in E as [_ <-]. discriminate L.
    + match type of E with (?a ++ (?u :: ?b ++ ?v :: _))%list = _ => replace (a ++ u :: b ++ [v])%list with ((a ++ u :: b) ++ [v])%list in E
        by (rewrite <- app_assoc; reflexivity) end.
      apply app_inj_tail in E as [_ <-]. destruct e; discriminate M.
  - destruct x as [p|]; [|intros H; now elim H]. intros _. cbn [last_words]. do 2 eexists. split; [reflexivity|]. split; reflexivity.
Qed.

Lemma kept_last {W} errText sdump certLog rt clock (tp : transport W) fuel : forall st w l,
  sound st -> sturdy tp ->
  processFrames_kept fuel errText sdump certLog rt std_registry clock tp st w = (l, Some Panic) ->
  exists st' w' w1 fr evs x before r after,
    rounds rt std_registry clock DevGeneral_device tp st w st' w' /\ tp_ReadFrame tp w' = done (w1, inl fr)
    /\ breaks rt (spare fr) (sv_mode st') (vis fr) evs x
    /\ l = (before ++ r :: after)%list
    /\ sized_entry errText "<< FRAME" (len (vis fr)) None r
    /\ Forall (fun r => lr_Message r <> "<< FRAME") after
    /\ (ends_with_packet after <-> x <> None).
Proof.
  induction fuel as [|fuel IH]; intros st w l Hs Ht; cbn [processFrames_kept]; [discriminate|].
  destruct (tp_ReadFrame tp w) as [[[w1 r]|]|] eqn:R; cbn [silent log_bind saying fst snd app]; try discriminate.
  2:{ intros _. exfalso. now apply (proj1 Ht) in R. }
  assert (X : forall e, e <> EOF -> r = inr e ->
      saying [logFrame errText [] (Some e) "<< FRAME"] (processFrames_kept fuel errText sdump certLog rt std_registry clock tp st w1) = (l, Some Panic) ->
      exists st' w' w1 fr evs x before r after,
    rounds rt std_registry clock DevGeneral_device tp st w st' w' /\ tp_ReadFrame tp w' = done (w1, inl fr)
    /\ breaks rt (spare fr) (sv_mode st') (vis fr) evs x
    /\ l = (before ++ r :: after)%list
    /\ sized_entry errText "<< FRAME" (len (vis fr)) None r
    /\ Forall (fun r => lr_Message r <> "<< FRAME") after
    /\ (ends_with_packet after <-> x <> None)).
  { intros e NE -> E. destruct (processFrames_kept fuel errText sdump certLog rt std_registry clock tp st w1) as [ql qr] eqn:P.
    cbn [saying fst snd app] in E. injection E as <- ->.
    destruct (IH _ _ _ Hs Ht P) as (st' & w' & w2 & fr & evs & x & before & r & after & Ro & Rd & B & -> & S & F & D).
    exists st', w', w2, fr, evs, x, (logFrame errText [] (Some e) "<< FRAME" :: before), r, after.
    split; [|split; [exact Rd|split; [exact B|split; [reflexivity|auto]]]].
    eapply rounds_trans; [|exact Ro]. eapply rounds_error; [apply rounds_none|exact R|exact NE]. }
  destruct r as [fr|e].
  2:{ destruct e; try (apply X; [discriminate|reflexivity]). discriminate. }
  clear X. destruct (process_frame_kept errText sdump certLog rt std_registry clock tp st w1 fr) as [kl kr] eqn:P.
  pose proof (frame_kept errText sdump certLog rt std_registry clock tp st w1 fr) as F. rewrite P in F.
  destruct kr as [[[st1 w2]|]|]; cbn [log_bind]; [| |discriminate].
  - destruct (process_frame_log errText sdump certLog rt std_registry clock tp st w1 fr) as [[[[st3 w3] l3]|]|] eqn:Q; cbn [same snd] in F;
      try discriminate F.
    apply pair_equal_spec in F as [<- F]. apply some_inj, ret_inj in F. injection F as <- <-.
    destruct (processFrames_kept fuel errText sdump certLog rt std_registry clock tp st1 w2) as [ql qr] eqn:Z.
    intros E. cbn [saying fst snd] in E. injection E as <- ->.
    destruct (process_frame_log_run _ _ _ _ _ _ _ _ _ _ _ _ Hs Q) as (_ & _ & _ & _ & _ & _ & _ & _ & Hs1 & _).
    pose proof (process_frame_erase errText sdump certLog rt std_registry clock tp st w1 fr) as Er. rewrite Q in Er. cbn [erase io_bind done] in Er.
    destruct (IH _ _ _ Hs1 Ht Z) as (st' & w' & w4 & fr' & evs & x & before & r & after & Ro & Rd & B & -> & S & F & D).
    exists st', w', w4, fr', evs, x, (kl ++ before)%list, r, after.
    split; [|split; [exact Rd|split; [exact B|split; [now rewrite app_assoc|auto]]]].
    eapply rounds_trans; [|exact Ro]. eapply rounds_frame; [apply rounds_none|exact R|symmetry; exact Er].
  - intros E. injection E as <-. destruct (frame_crash _ _ _ _ _ _ _ _ _ _ Hs Ht P) as (evs & x & -> & B).
    exists st, w, w1, fr, evs, x, [], (logFrame errText (vis fr) None "<< FRAME"), (packets_log errText DirIn (sv_mode st) evs ++ last_words errText x)%list.
    split; [apply rounds_none|]. split; [exact R|]. split; [exact B|]. split; [reflexivity|]. split; [apply logFrame_entry|].
    split; [apply log_messages|apply ends_after].
Qed.

(** Logging does not change what the server does. *)
Lemma kept_same {W} errText sdump certLog rt clock (tp : transport W) fuel st w :
  snd (processFrames_kept fuel errText sdump certLog rt std_registry clock tp st w)
  = processFrames_loop fuel rt std_registry clock DevGeneral_device tp st w.
Proof.
  pose proof (frames_kept errText sdump certLog rt std_registry clock tp fuel st w) as F.
  pose proof (log_erase errText sdump certLog rt std_registry clock tp fuel st w) as E. rewrite <- E.
  destruct (processFrames_log fuel errText sdump certLog rt std_registry clock tp st w) as [[[[st' w'] l]|]|];
    cbn [same erase io_bind done] in *; [rewrite F; reflexivity|exact F|exact F].
Qed.
