(** Lemmas for C119. *)
From Coq Require Import Permutation ZifyBool ZifyNat ZifyN Lia.
From Verif Require Import Base BaseFacts GoTypes Types Payload PayloadFacts Lingo Command SpecPayload SpecCommand LingoFacts CommandFacts CommandThms Handlers HandlersFacts
  Packet Hid Trace Server SpecVersions VersionThms SpecRegistry.
#[local] Opaque std_registry.

(** ** Handlers *)

Definition act_eq {S A} (m1 m2 : act S A) : Prop := forall h, m1 h = m2 h.

Lemma seq_eq {S A B} (m1 m2 : act S A) (k1 k2 : A -> act S B) : act_eq m1 m2 -> (forall a, act_eq (k1 a) (k2 a)) -> act_eq (seq m1 k1) (seq m2 k2).
Proof. intros H K h. unfold seq. rewrite H. destruct (m2 h) as [[h' a]|]; [apply K|reflexivity]. Qed.

Section handlers.
  Context (r1 r2 : registry) (E : forall p t, payload_type p = Some t -> registered t = true -> LookupID r1 p = LookupID r2 p).

  Lemma respond_eq {S} req p t : payload_type p = Some t -> registered t = true -> act_eq (@respond S r1 req p) (respond r2 req p).
  Proof. intros P R h. unfold respond, Respond, BuildCommand. now rewrite (E p t P R). Qed.

  Lemma send_eq {S} p t : payload_type p = Some t -> registered t = true -> act_eq (@send S r1 p) (send r2 p).
  Proof. intros P R h. unfold send, Command.Send, BuildCommand. now rewrite (E p t P R). Qed.

  Ltac same := repeat first
    [ (intros h; reflexivity)
    | (eapply respond_eq; [reflexivity|vm_compute; reflexivity])
    | (eapply send_eq; [reflexivity|vm_compute; reflexivity])
    | (apply seq_eq; [|intros ?])
    | match goal with |- act_eq (match ?x with _ => _ end) _ => destruct x end ].

  Lemma general_eq {S} (dev : DeviceGeneral S) req : act_eq (HandleGeneral r1 dev req) (HandleGeneral r2 dev req).
  Proof. unfold HandleGeneral. cbv zeta. destruct (cmd_payload req) as [[]|]; same. Qed.

  Lemma ext_eq {S} req : act_eq (@HandleExtRemote S r1 req) (HandleExtRemote r2 req).
  Proof. unfold HandleExtRemote. cbv zeta. destruct (cmd_payload req) as [[]|]; same. Qed.

  Lemma disp_eq {S} clock req : act_eq (@HandleDispRemote S r1 clock req) (HandleDispRemote r2 clock req).
  Proof. unfold HandleDispRemote. cbv zeta. destruct (cmd_payload req) as [[]|]; same. Qed.

  Lemma audio_eq {S} req : act_eq (@HandleAudio S r1 req) (HandleAudio r2 req).
  Proof. unfold HandleAudio. destruct (cmd_payload req) as [[]|]; same. Qed.

  Lemma packet_eq {S} clock (dev : DeviceGeneral S) c : act_eq (handlePacket r1 clock dev c) (handlePacket r2 clock dev c).
  Proof.
    unfold handlePacket. cbv zeta. destruct (_ =? _)%N.
    - apply seq_eq; [|intros u; apply general_eq]. unfold audio_Start. destruct (cmd_payload c) as [[]|]; same.
    - destruct (_ =? _)%N; [apply seq_eq; [apply disp_eq|intros x h; reflexivity]|].
      destruct (_ =? _)%N; [apply ext_eq|]. destruct (_ =? _)%N; [apply audio_eq|intros h; reflexivity].
  Qed.
End handlers.

(** ** The server over two registries *)

Lemma packets_eq rt r1 r2 : (forall id n mode, Lookup r1 id n mode = Lookup r2 id n mode) ->
  forall fuel mode frame, read_packets fuel rt r1 mode frame = read_packets fuel rt r2 mode frame.
Proof.
  intros E. induction fuel as [|fuel IH]; intros mode frame; cbn [read_packets]; [reflexivity|].
  destruct (ReadPacket frame) as [[[frame' pkt] err]|]; [|reflexivity]. cbn [io_bind].
  assert (U : forall m, UnmarshalCmd rt r1 m pkt = UnmarshalCmd rt r2 m pkt).
  { intros m. unfold UnmarshalCmd. destruct (unmarshalLingoCmdID pkt) as [[id|x] body]; [|reflexivity]. cbv zeta. now rewrite E. }
  destruct err as [[]|]; rewrite ?IH; try reflexivity. rewrite U. destruct (UnmarshalCmd rt r2 mode pkt) as [[[m c] u]|]; [|reflexivity].
  cbn [io_bind]. now rewrite IH.
Qed.

Lemma handled_eq {S} r1 r2 clock (dev : DeviceGeneral S) : (forall p t, payload_type p = Some t -> registered t = true -> LookupID r1 p = LookupID r2 p) ->
  forall cmds h, handle_all r1 clock dev cmds h = handle_all r2 clock dev cmds h.
Proof.
  intros E. induction cmds as [|c cmds IH]; [reflexivity|]. apply seq_eq; [now apply packet_eq|]. intros u h. apply IH.
Qed.

Lemma server_eq {S W} rt r1 r2 clock (dev : DeviceGeneral S) (tp : transport W) : same_lookups r1 r2 ->
  forall fuel st w, processFrames_loop fuel rt r1 clock dev tp st w = processFrames_loop fuel rt r2 clock dev tp st w.
Proof.
  intros [L I]. induction fuel as [|fuel IH]; intros st w; cbn [processFrames_loop]; [reflexivity|].
  destruct (tp_ReadFrame tp w) as [[[w1 [f|e]]|]|]; cbn [io_bind]; try reflexivity.
  - unfold process_frame, frame_packets. rewrite (packets_eq rt r1 r2 L). destruct (read_packets _ rt r2 _ _) as [[[m evs]|]|]; cbn [io_bind]; try reflexivity.
    rewrite (handled_eq r1 r2 clock dev (fun p _ _ _ => I p)). destruct (handle_all r2 clock dev (inCmds evs) (sv_h st)) as [[h1 u]|]; cbn [io_bind]; try reflexivity.
    destruct (write_replies _ _ _ _ _) as [[[m2 w2]|]|]; cbn [io_bind]; try reflexivity. apply IH.
  - destruct e; try apply IH. reflexivity.
Qed.

(** ** The order of the tables *)

Lemma registering_entries order : registering order = List.concat (map (fun x => good_entries (fst x) (snd x)) order).
Proof.
  unfold registering. assert (G : forall r, fold_left (fun reg x => fst (RegisterLingos reg (fst x) (snd x))) order r = r ++ List.concat (map (fun x => good_entries (fst x) (snd x)) order)).
  { induction order as [|[l fs] order IH]; intros r; cbn [fold_left map List.concat fst snd]; [now rewrite app_nil_r|]. rewrite RegisterLingos_entries, IH. now rewrite app_assoc. }
  exact (G []).
Qed.

Lemma shipped_std : registering shipped = std_registry.
Proof. reflexivity. Qed.

Lemma id_of_nodup reg t id : NoDup (map snd reg) -> In (id, t) reg -> id_of reg t = Some id.
Proof.
  intros N H. apply in_split in H as (a & b & ->). apply id_of_last. intros i Hi. rewrite map_app in N. cbn [map snd] in N.
  apply NoDup_remove_2 in N. apply N. apply in_or_app. right. apply in_map_iff. exists (i, t). auto.
Qed.

Lemma shipped_lingos : forallb (fun x => forallb (fun e => (lingo_part (fst e) =? fst x)%N) (good_entries (fst x) (snd x))) shipped = true.
Proof. vm_compute. reflexivity. Qed.

Lemma nth_error_mapped {A B} (f : A -> B) l i y : nth_error (map f l) i = Some y -> exists x, nth_error l i = Some x /\ y = f x.
Proof. revert i; induction l as [|x l IH]; intros [|i]; cbn; try discriminate; [intros [= <-]; exists x; auto|apply IH]. Qed.

Lemma shipped_pairs : forall i j a b, nth_error (map (fun x => good_entries (fst x) (snd x)) shipped) i = Some a ->
  nth_error (map (fun x => good_entries (fst x) (snd x)) shipped) j = Some b -> i <> j -> no_clash a b.
Proof.
  pose proof shipped_lingos as G. rewrite forallb_forall in G.
  assert (ND : NoDup (map fst shipped)) by (repeat constructor; cbn; lia).
  intros i j a b Hi Hj N id t u Ht Hu. apply nth_error_mapped in Hi as (x & Hi & ->), Hj as (y & Hj & ->).
  pose proof (G x (nth_error_In _ _ Hi)) as Gx. pose proof (G y (nth_error_In _ _ Hj)) as Gy. rewrite forallb_forall in Gx, Gy.
  apply Gx in Ht. apply Gy in Hu. cbn [fst] in Ht, Hu. apply N.eqb_eq in Ht, Hu. apply N.
  rewrite NoDup_nth_error in ND. apply ND.
  - rewrite map_length. apply nth_error_Some. now rewrite Hi.
  - rewrite (map_nth_error fst i shipped Hi), (map_nth_error fst j shipped Hj). congruence.
Qed.

Lemma order_same order : Permutation shipped order -> same_lookups (registering order) std_registry.
Proof.
  intros P. assert (PE : Permutation (registering order) std_registry).
  { rewrite <- shipped_std, !registering_entries, <- !flat_map_concat_map. apply Permutation_flat_map. now apply Permutation_sym. }
  split.
  - intros id n mode. unfold Lookup. assert (T : types_of (registering order) id = types_of std_registry id).
    { rewrite <- shipped_std, !registering_entries. symmetry. apply tables_order; [now apply Permutation_map|exact shipped_pairs]. }
    now rewrite T.
  - intros p. unfold LookupID. destruct (payload_type p) as [t|]; [|reflexivity]. f_equal.
    assert (N2 : NoDup (map snd (registering order))) by (eapply Permutation_NoDup; [apply Permutation_map, Permutation_sym, PE|exact std_nodup_types]).
    destruct (id_of (registering order) t) as [id|] eqn:E.
    + apply id_of_in in E. symmetry. apply id_of_nodup; [exact std_nodup_types|]. eapply Permutation_in; eassumption.
    + symmetry. apply id_of_none. intros i Hi. rewrite id_of_none in E. apply (E i). eapply Permutation_in; [apply Permutation_sym; exact PE|exact Hi].
Qed.

(** ** One lingo *)

Lemma types_of_lingo l reg id : lingo_part id = l -> types_of (of_lingo l reg) id = types_of reg id.
Proof.
  intros <-. unfold types_of, of_lingo. f_equal. induction reg as [|[i t] reg IH]; [reflexivity|]. cbn [filter fst].
  destruct (lingo_part i =? lingo_part id)%N eqn:Q; cbn [filter fst].
  - destruct (i =? id)%N; now rewrite IH.
  - destruct (i =? id)%N eqn:Z; [|exact IH]. apply N.eqb_eq in Z. subst i. rewrite N.eqb_refl in Q. discriminate.
Qed.

Lemma some_inj {A} (a b : A) : Some a = Some b -> a = b. Proof. congruence. Qed.
Lemma lingo_div l c : (c < 65536)%N -> (l = (l * 65536 + c) / 65536)%N.
Proof. intros H. apply (N.div_unique _ _ _ c); lia. Qed.

Lemma packet_lingo l b id : packet_id (l :: b) = Some id -> lingo_part id = b2n l.
Proof.
  unfold packet_id, lingo_part. destruct b as [|c r]; [discriminate|]. pose proof (b2n_lt c) as Bc. destruct (b2n l =? 4)%N eqn:Q.
  - destruct r as [|d r]; [discriminate|]. pose proof (b2n_lt d) as Bd. apply N.eqb_eq in Q. rewrite <- Q. intros H. apply some_inj in H. rewrite <- H, <- N.add_assoc.
    symmetry. apply lingo_div. lia.
  - intros H. apply some_inj in H. rewrite <- H. symmetry. apply lingo_div. lia.
Qed.

Lemma decode_lingo rt reg mode l b : UnmarshalCmd rt reg mode (l :: b) = UnmarshalCmd rt (of_lingo (b2n l) reg) mode (l :: b).
Proof.
  unfold UnmarshalCmd. pose proof (unmarshal_id_spec (l :: b)) as U. pose proof (packet_lingo l b) as PL. destruct (packet_id (l :: b)) as [id|].
  - destruct U as [-> _]. cbv zeta. unfold Lookup. rewrite (types_of_lingo (b2n l) reg id (PL id eq_refl)). reflexivity.
  - destruct U as (e & r & -> & _). reflexivity.
Qed.

(** ** More registrations *)

Lemma Lookup_new reg ext id n mode : ~ In id (map fst ext) -> Lookup (reg ++ ext) id n mode = Lookup reg id n mode.
Proof.
  intros H. unfold Lookup. rewrite types_of_app, (types_of_nil ext id); [now rewrite app_nil_r|]. intros t Ht. apply H. apply in_map_iff. exists (id, t). auto.
Qed.

Lemma id_of_new reg ext t : ~ In t (map snd ext) -> id_of (reg ++ ext) t = id_of reg t.
Proof.
  intros H. unfold id_of. rewrite rev_app_distr, filter_app.
  assert (F : filter (fun e => pty_eqb (snd e) t) (rev ext) = []).
  { destruct (filter _ (rev ext)) as [|[i u] l] eqn:F; [reflexivity|]. assert (X : In (i, u) (filter (fun e => pty_eqb (snd e) t) (rev ext))) by (rewrite F; now left).
    apply filter_In in X as [X Q]. apply pty_eqb_eq in Q. cbn in Q. subst u. exfalso. apply H. apply in_map_iff. exists (i, t). split; [reflexivity|now apply in_rev]. }
  now rewrite F.
Qed.

Definition cmd_alike (c1 c2 : command) : Prop := c1 = c2 \/ cmd_id c1 = cmd_id c2 /\ ~ handled (LingoID (cmd_id c1)).

Section more.
  Context (rt : bool) (ext : registry) (F : foreign ext).

  Lemma decode_more mode pkt :
    UnmarshalCmd rt (std_registry ++ ext) mode pkt = UnmarshalCmd rt std_registry mode pkt
    \/ UnmarshalCmd rt (std_registry ++ ext) mode pkt = Panic
    \/ exists m c1 c2 e1 e2, UnmarshalCmd rt (std_registry ++ ext) mode pkt = Ret (m, c1, e1) /\ UnmarshalCmd rt std_registry mode pkt = Ret (m, c2, e2) /\ cmd_alike c1 c2.
  Proof.
    pose proof (unmarshal_id_spec pkt) as U. destruct (packet_id pkt) as [id|] eqn:PI; [|destruct U as (e & r & U & _); left; unfold UnmarshalCmd; now rewrite U].
    destruct U as [U W].
    destruct (in_dec N.eq_dec id (map fst ext)) as [I|I].
    - apply in_map_iff in I as ([i t] & E & I). cbn [fst] in E. subst i. destruct (F id t I) as (NH & NI & _). right.
      assert (LS : Lookup std_registry id (List.length (packet_body pkt)) (mode_after mode [id]) = None).
      { unfold Lookup. rewrite (types_of_nil std_registry id); [reflexivity|]. intros u Hu. apply NI. apply in_map_iff. exists (id, u). auto. }
      pose proof (UnmarshalCmd_unknown rt std_registry mode pkt id PI LS) as S.
      assert (NL : ~ handled (LingoID id)).
      { destruct pkt as [|l b]; [discriminate|]. pose proof (packet_lingo l b id PI) as PL. intros H. apply NH. pose proof (b2n_lt l) as B.
        unfold LingoID in H. rewrite N.shiftr_div_pow2 in H. change (2 ^ 16)%N with 65536%N in H. fold (lingo_part id) in H. rewrite PL in *.
        change 255%N with (N.ones 8) in H. rewrite N.land_ones in H. rewrite N.mod_small in H by (change (2 ^ 8)%N with 256%N; lia). exact H. }
      rewrite S. clear S LS. unfold UnmarshalCmd. rewrite U. cbv zeta. rewrite handleCmdID_mode.
      destruct (Lookup (std_registry ++ ext) id _ _) as [lr|].
      + destruct (if lr_trx lr then _ else _) as [[tr [x|]] body2].
        * right. do 5 eexists. split; [reflexivity|]. split; [reflexivity|]. right. auto.
        * destruct (payload_unmarshal rt (lr_type lr) body2) as [[[] [p|x]]|]; cbn [bind]; [right..|left; reflexivity];
            do 5 eexists; (split; [reflexivity|]); (split; [reflexivity|]); right; auto.
      + right. do 5 eexists. split; [reflexivity|]. split; [reflexivity|]. right. auto.
    - left. unfold UnmarshalCmd. rewrite U. cbv zeta. now rewrite Lookup_new.
  Qed.

  Definition packets_more (x y : io (bool * list pkt_event)) : Prop :=
    x = Some Panic \/ x = None /\ y = None \/ exists m e1 e2, x = done (m, e1) /\ y = done (m, e2) /\ Forall2 cmd_alike (inCmds e1) (inCmds e2).

  Lemma read_more fuel : forall mode frame, packets_more (read_packets fuel rt (std_registry ++ ext) mode frame) (read_packets fuel rt std_registry mode frame).
  Proof.
    induction fuel as [|fuel IH]; intros mode frame; cbn [read_packets]; [right; left; auto|].
    destruct (ReadPacket frame) as [[[frame' pkt] err]|]; [|left; reflexivity]. cbn [io_bind].
    assert (K : forall e, packets_more (io_bind (read_packets fuel rt (std_registry ++ ext) mode frame') (fun '(mode', evs) => done (mode', PktErr e :: evs)))
      (io_bind (read_packets fuel rt std_registry mode frame') (fun '(mode', evs) => done (mode', PktErr e :: evs)))).
    { intros e. destruct (IH mode frame') as [-> | [[-> ->] | (m & e1 & e2 & -> & -> & A)]]; [left; reflexivity|right; left; auto|].
      right. right. do 3 eexists. split; [reflexivity|]. split; [reflexivity|exact A]. }
    assert (Q : forall m c1 c2 u1 u2, cmd_alike c1 c2 -> packets_more
      (io_bind (read_packets fuel rt (std_registry ++ ext) m frame') (fun '(mode', evs) => done (mode', PktCmd pkt c1 u1 :: evs)))
      (io_bind (read_packets fuel rt std_registry m frame') (fun '(mode', evs) => done (mode', PktCmd pkt c2 u2 :: evs)))).
    { intros m c1 c2 u1 u2 C. destruct (IH m frame') as [-> | [[-> ->] | (m' & e1 & e2 & -> & -> & A)]]; [left; reflexivity|right; left; auto|].
      right. right. do 3 eexists. split; [reflexivity|]. split; [reflexivity|]. cbn [inCmds flat_map app]. constructor; [exact C|exact A]. }
    destruct err as [[]|]; try apply K; [right; right; do 3 eexists; split; [reflexivity|split; [reflexivity|constructor]]|].
    destruct (decode_more mode pkt) as [-> | [-> | (m & c1 & c2 & u1 & u2 & -> & -> & C)]].
    - destruct (UnmarshalCmd rt std_registry mode pkt) as [[[m c] u]|]; [|left; reflexivity]. cbn [io_bind]. apply Q. left. reflexivity.
    - left. reflexivity.
    - cbn [io_bind]. apply Q. exact C.
  Qed.

  Lemma ids_more p t : payload_type p = Some t -> registered t = true -> LookupID (std_registry ++ ext) p = LookupID std_registry p.
  Proof.
    intros P R. unfold LookupID. rewrite P. f_equal. apply id_of_new. intros H. apply in_map_iff in H as ([i u] & E & I). cbn [snd] in E. subst u.
    apply (F i t I). apply registered_in in R. apply in_map_iff. exists (the_id t, t). auto.
  Qed.

  Lemma unhandled_packet {S} reg clock (dev : DeviceGeneral S) c h : ~ handled (LingoID (cmd_id c)) -> handlePacket reg clock dev c h = Ret (h, tt).
  Proof.
    unfold handled, handlePacket. cbv zeta. cbn [In]. intros N. unfold LingoGeneralID, LingoDisplayRemoteID, LingoExtRemoteID, LingoDigitalAudioID.
    do 4 (match goal with |- context[(?a =? ?b)%N] => destruct (N.eqb_spec a b) as [Q|_]; [exfalso; apply N; rewrite Q; auto 10|] end). reflexivity.
  Qed.

  Lemma handle_more {S} clock (dev : DeviceGeneral S) cs1 cs2 : Forall2 cmd_alike cs1 cs2 -> forall h,
    handle_all (std_registry ++ ext) clock dev cs1 h = handle_all std_registry clock dev cs2 h.
  Proof.
    induction 1 as [|c1 c2 cs1 cs2 C _ IH]; intros h; [reflexivity|]. cbn [handle_all]. unfold seq.
    assert (X : handlePacket (std_registry ++ ext) clock dev c1 h = handlePacket std_registry clock dev c2 h).
    { destruct C as [->|[E N]]; [exact (packet_eq _ _ ids_more clock dev c2 h)|]. rewrite !unhandled_packet; [reflexivity|now rewrite <- E|exact N]. }
    rewrite X. destruct (handlePacket std_registry clock dev c2 h) as [[h' u]|]; cbn [bind]; [apply IH|reflexivity].
  Qed.

  Lemma server_more {S W} clock (dev : DeviceGeneral S) (tp : transport W) fuel : forall st w,
    same_unless_crash_io (processFrames_loop fuel rt (std_registry ++ ext) clock dev tp st w) (processFrames_loop fuel rt std_registry clock dev tp st w).
  Proof.
    induction fuel as [|fuel IH]; intros st w; cbn [processFrames_loop]; [right; reflexivity|].
    apply same_io_bind; [right; reflexivity|]. intros [w1 [f|e]]; [|destruct e; try apply IH; right; reflexivity].
    apply same_io_bind; [|intros [st' w']; apply IH].
    unfold process_frame, frame_packets. destruct (read_more (Datatypes.S (List.length (vis f))) (sv_mode st) (NewPacketReader f)) as [-> | [[-> ->] | (m & e1 & e2 & -> & -> & A)]];
      [left; reflexivity|right; reflexivity|]. cbn [io_bind done]. rewrite (handle_more clock dev _ _ A). right. reflexivity.
  Qed.
End more.

(** ** Registering again *)

Lemma by_size_app ts1 ts2 n : lookup_by_size (ts1 ++ ts2) n = match lookup_by_size ts1 n with Some r => Some r | None => lookup_by_size ts2 n end.
Proof.
  induction ts1 as [|t ts1 IH]; [reflexivity|]. cbn [app lookup_by_size]. destruct (struct_size (layout t)) as [k|]; [|exact IH].
  destruct (Nat.eqb k n); [reflexivity|]. destruct (Nat.eqb (k + 2) n); [reflexivity|exact IH].
Qed.

Lemma Lookup_again reg id n mode :
  Lookup (reg ++ reg) id n mode = lookup_by_size (types_of reg id) n.
Proof.
  unfold Lookup. rewrite types_of_app, by_size_app. destruct (lookup_by_size (types_of reg id) n); [reflexivity|].
  destruct (types_of reg id) as [|t [|u l]]; reflexivity.
Qed.
