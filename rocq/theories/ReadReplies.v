(** Reading the server's replies with the library (C97). *)
From Coq Require Import ZifyBool ZifyNat ZifyN Lia.
From Verif Require Import Base BaseFacts GoTypes GoTypesFacts Types Payload Util Lingo Command
  SpecPayload SpecCommand LingoFacts CommandFacts CommandThms PayloadFacts Handlers SpecHandlers HandlersFacts
  HandlersThms ReplyThms ServerThms SpecRead.
Ltac Zify.zify_post_hook ::= Z.div_mod_to_equations.
#[local] Opaque std_registry.

(** ** Variable-size payloads in general *)

Lemma variable_travels rt e id tr p t pb :
  payload_type p = Some t -> In (id, t) std_registry -> struct_size (layout t) = None ->
  payload_marshaler rt p = Some (Ret (Ok pb)) ->
  (forall x, tr = Some x -> u16 x) -> controls id = None -> (tr <> None <-> e = true) ->
  exists b, MarshalCmd rt e (mkCmd id tr (Some p)) = Ret (e, Ok b)
    /\ UnmarshalCmd rt std_registry e b
       = do r <- payload_unmarshal rt t pb;
         match r with
         | (_, Ok p) => Ret (e, mkCmd id tr (Some p), None)
         | (true, Err x) => Ret (e, mkCmd id tr None, Some (wrap "ipod.Command unmarshal: BinaryUnmarshaler: " x))
         | (false, Err x) => Ret (e, mkCmd id tr None, Some (wrap "ipod.Command unmarshal: binary.Read: " x))
         end.
Proof.
  intros Ht Hin Hvar Em Hu Hc Htr.
  assert (ME : mode_after e [id] = e) by (unfold mode_after; cbn [fold_left]; now rewrite Hc).
  exists (marshalLingoCmdID id ++ wire_trx e tr ++ pb).
  split; [rewrite (MarshalCmd_complete rt e id tr p pb) by (now left); now rewrite ME|].
  pose proof (std_wire_id _ _ Hin) as Hw.
  rewrite marshal_id_prefix by apply Hw.
  destruct (packet_id_prefix id (wire_trx e tr ++ pb) Hw) as [P1 P2].
  rewrite (UnmarshalCmd_found rt std_registry e _ id t e P1); [|rewrite ME; now apply variable_lookup].
  rewrite P2, ME. cbv zeta. destruct e.
  - destruct tr as [x|]; [|exfalso; now apply Htr]. change (wire_trx true (Some x)) with (trx_bytes x).
    assert (L : Nat.ltb (List.length (trx_bytes x ++ pb)) 2 = false).
    { apply Nat.ltb_ge. rewrite app_length. simpl. lia. }
    rewrite L. cbn [andb]. rewrite firstn_trx by auto.
    change (skipn 2 (trx_bytes x ++ pb)) with pb. reflexivity.
  - destruct tr as [x|]; [exfalso; assert (Hf : false = true) by (apply Htr; discriminate); discriminate|].
    change (wire_trx false None) with (@nil byte). cbn [app andb]. reflexivity.
Qed.

(** ** What the server writes *)

Definition named_types : list pty :=
  [general_ReturniPodName; general_ReturniPodSerialNum; general_ReturniPodModelNum; ext_ReturnIndexedPlayingTrackTitle;
   ext_ReturnIndexedPlayingTrackArtistName; ext_ReturnIndexedPlayingTrackAlbumName].
Definition sized (t : pty) : bool :=
  match struct_size (layout t) with Some _ => negb (pty_eqb t general_ACKDataDropped) | None => false end.
Definition plain (t : pty) : bool :=
  sized t || existsb (pty_eqb t) unsendable_replies || existsb (pty_eqb t) named_types.

Definition kind_ok (req : command) (p : payload) : Prop :=
  match p with
  | Pst t _ => plain t = true
  | PTokenAcks _ => token_acks_for req p
  | PExtTrackInfo ty i => u8 ty /\ i = ext_track_info ty
  | PExtArtwork l => l = []
  | PStateInfo ty i => exists t vs, i = IPtr t vs /\ In (ty, t) state_infos /\ typed t vs
  | PDispTrackInfo ty i => disp_track_info ty = Some i
  | PDispArtwork _ => True
  | PTokens _ | PUnknown _ => False
  end.
Definition number_ok (req : command) (tr : option N) (p : payload) : Prop :=
  tr = cmd_trx req
  \/ ((forall x, tr = Some x -> u16 x) /\ exists t vs, p = Pst t vs /\ sized t = true).

Definition kept (req c : command) : Prop :=
  exists p, cmd_payload c = Some p /\ kind_ok req p /\ number_ok req (cmd_trx c) p.
Definition all_kept (req : command) (evs : list event) : Prop := Forall (kept req) (written evs).

Lemma kept_cons req id tr p cs :
  kind_ok req p -> number_ok req tr p -> Forall (kept req) cs ->
  Forall (kept req) (mkCmd id tr (Some p) :: cs).
Proof. intros K N F. apply Forall_cons; [|exact F]. exists p. auto. Qed.

Lemma some_u16 n x : Some (n mod 65536)%N = Some x -> u16 x.
Proof. intros [= <-]. unfold u16. apply N.mod_lt. discriminate. Qed.

Ltac kept_case :=
  unfold all_kept; cbn [written flat_map app];
  repeat (apply kept_cons; [| |]); try apply Forall_nil;
  try (left; reflexivity);
  try (right; split; [apply some_u16|do 2 eexists; split; [reflexivity|vm_compute; reflexivity]]);
  try match goal with |- kind_ok _ ?p => let q := eval hnf in p in change p with q end;
  try match goal with
      | |- kind_ok _ (Pst _ _) => vm_compute; reflexivity
      | |- kind_ok _ (PDispArtwork _) => exact I
      | |- kind_ok _ (PExtArtwork _) => reflexivity
      end;
  try match goal with |- kind_ok _ (PTokenAcks _) => eexists; split; [eassumption|reflexivity] end.

Lemma ext_kept {S} req (h : hstate S) :
  request_ok req ->
  post (HandleExtRemote std_registry req) h (fun _ _ evs => all_kept req evs).
Proof.
  intros Hok. unfold request_ok in Hok. unfold HandleExtRemote.
  by_payload req; cbv beta zeta iota; hrun; kept_case.
  split; [|reflexivity]. fields Hok. unfold fu. cbn [nth]. unfold u8. assumption.
Qed.

Lemma audio_kept {S} req (h : hstate S) :
  post (HandleAudio std_registry req) h (fun _ _ evs => all_kept req evs).
Proof. unfold HandleAudio. by_payload req; cbv beta zeta iota; hrun; kept_case. Qed.

Lemma state_info_kind req ty i : disp_state_info ty = Some i -> kind_ok req (PStateInfo ty i).
Proof.
  intros H. unfold disp_state_info in H.
  repeat match type of H with
         | match ?x with _ => _ end = _ => destruct x; try discriminate H
         end; injection H as <-; do 2 eexists; (split; [reflexivity|]); (split; [cbn; auto 20|reflexivity]).
Qed.

Lemma disp_kept {S} clock req (h : hstate S) :
  request_ok req ->
  post (HandleDispRemote std_registry clock req) h (fun _ _ evs => all_kept req evs).
Proof.
  intros Hok. unfold request_ok in Hok. unfold HandleDispRemote.
  by_payload req; cbv beta zeta iota; hrun; kept_case; try assumption.
  all: try now apply state_info_kind.
  unfold disp_date_info. destruct (clock (h_ticks h)) as [[[[? ?] ?] ?] ?]. do 2 eexists. split; [reflexivity|].
  split.
  - match goal with H : (_ =? 9)%N = true |- _ => apply N.eqb_eq in H; rewrite H end. cbn. auto 20.
  - unfold typed. cbn [layout have_types has_type]. rewrite !andb_true_iff. cbn. repeat split; lia.
Qed.

Lemma general_kept {S} (dev : DeviceGeneral S) req h :
  post (HandleGeneral std_registry dev req) h (fun _ _ evs => all_kept req evs).
Proof.
  unfold HandleGeneral. by_payload req; cbv beta zeta iota; hrun;
  unfold all_kept; rewrite ?written_tokens; kept_case.
Qed.

Lemma all_kept_app req a b : all_kept req a -> all_kept req b -> all_kept req (a ++ b).
Proof. unfold all_kept, written. rewrite flat_map_app. intros. now apply Forall_app. Qed.

Lemma packet_kept {S} clock (dev : DeviceGeneral S) req h :
  request_ok req ->
  post (handlePacket std_registry clock dev req) h (fun _ _ evs => all_kept req evs).
Proof.
  intros Hok. unfold handlePacket. cbv zeta.
  destruct (LingoID (cmd_id req) =? LingoGeneralID)%N.
  { apply post_app; [exact (all_kept_app req)| |intros; apply general_kept].
    unfold audio_Start. by_payload req; cbv beta zeta iota; hrun; kept_case. }
  destruct (LingoID (cmd_id req) =? LingoDisplayRemoteID)%N.
  { apply post_app; [exact (all_kept_app req)|now apply disp_kept|]. intros. apply post_ret. kept_case. }
  destruct (LingoID (cmd_id req) =? LingoExtRemoteID)%N; [now apply ext_kept|].
  destruct (LingoID (cmd_id req) =? LingoDigitalAudioID)%N; [apply audio_kept|].
  apply post_ret. kept_case.
Qed.

(** ** Reading one reply *)

Lemma tokens_small rt n : forall data l, tokens_unmarshal_loop rt n data = Ret (Ok l) ->
  Forall (fun v => u8 (tv_type v) /\ u8 (tv_sub v)) l.
Proof.
  induction n as [|n IH]; intros data l; cbn [tokens_unmarshal_loop]; [intros [= <-]; apply Forall_nil|].
  destruct data as [|k r]; [discriminate|]. cbv zeta.
  destruct (token_value_unmarshal rt (firstn (N.to_nat (b2n k)) r)) as [[v|e]|] eqn:E; cbn [bind]; try discriminate.
  destruct (tokens_unmarshal_loop rt n (skipn (N.to_nat (b2n k)) r)) as [[vs|e]|] eqn:E2; try discriminate.
  intros [= <-]. apply Forall_cons; [|now apply (IH _ _ E2)].
  unfold token_value_unmarshal in E. destruct (read_full 2 _) as [[idb|e] r2]; [|discriminate]. cbv zeta in E.
  assert (K : forall ty sub t, tv_type (mkTV (b2n ty) (b2n sub) t) = b2n ty /\ tv_sub (mkTV (b2n ty) (b2n sub) t) = b2n sub) by (intros; split; reflexivity).
  assert (Q : tv_type v = b2n (nth 0 idb x00) /\ tv_sub v = b2n (nth 1 idb x00)).
  { repeat match type of E with
           | match ?x with _ => _ end = _ => destruct x; try discriminate E
           | bind ?x _ = _ => destruct x; cbn [bind] in E; try discriminate E
           end; injection E as <-; apply K. }
  destruct Q as [-> ->]. unfold u8. split; apply b2n_lt.
Qed.

Lemma wire_tokens rt req l : off_the_wire rt req -> cmd_payload req = Some (PTokens l) ->
  Forall consistent_token l /\ List.length l <= 255 /\ Forall (fun v => u8 (tv_type v) /\ u8 (tv_sub v)) l.
Proof.
  intros (e & pkt & e' & x & H) Hp. split; [exact (decoded_tokens _ _ _ _ _ _ _ _ H Hp)|].
  destruct x as [x|].
  - exfalso. destruct (packet_id pkt) as [id|] eqn:P.
    2:{ destruct (UnmarshalCmd_short rt std_registry e pkt P) as (y & E & _). rewrite E in H.
        apply ret3 in H. subst req. discriminate Hp. }
    destruct (Lookup std_registry id (List.length (packet_body pkt)) (mode_after e [id])) as [[t b]|] eqn:L.
    2:{ rewrite (UnmarshalCmd_unknown _ _ _ _ _ P L) in H. apply ret3 in H. subst req. discriminate Hp. }
    rewrite (UnmarshalCmd_found _ _ _ _ _ _ _ P L) in H. cbv zeta in H.
    destruct (b && _); [apply ret3 in H; subst req; discriminate Hp|].
    destruct (payload_unmarshal rt t _) as [[[|] [q|err]]|]; cbn [bind] in H; try discriminate H;
      apply ret3 in H; subst req; discriminate Hp.
  - apply UnmarshalCmd_ok in H as (id & t & b & q & body & P & He & L & (used & U) & Hc).
    assert (q = PTokens l).
    { destruct b; [destruct Hc as (? & ? & _ & ->) | destruct Hc as (_ & ->)]; cbn [cmd_payload] in Hp; congruence. }
    subst q. pose proof (payload_unmarshal_type _ _ _ _ _ U) as T. injection T as <-.
    cbn [payload_unmarshal] in U.
    destruct (tokens_unmarshal rt body) as [[l'|y]|] eqn:D; cbn in U; try discriminate U.
    injection U as _ <-. destruct (tokens_consistent _ _ _ D) as (_ & n & r & -> & E).
    split; [pose proof (b2n_lt n); unfold len in E; lia|]. exact (tokens_small _ _ _ _ D).
Qed.

Lemma wire_number rt req x : off_the_wire rt req -> cmd_trx req = Some x -> u16 x.
Proof.
  intros (e & pkt & e' & y & H) Hx.
  destruct (packet_id pkt) as [id|] eqn:P.
  2:{ destruct (UnmarshalCmd_short rt std_registry e pkt P) as (z & E & _). rewrite E in H.
      apply ret3 in H. subst req. discriminate Hx. }
  destruct (Lookup std_registry id (List.length (packet_body pkt)) (mode_after e [id])) as [[t b]|] eqn:L.
  2:{ rewrite (UnmarshalCmd_unknown _ _ _ _ _ P L) in H. apply ret3 in H. subst req. discriminate Hx. }
  rewrite (UnmarshalCmd_found _ _ _ _ _ _ _ P L) in H. cbv zeta in H.
  destruct b; cbn [andb] in H.
  - destruct (Nat.ltb_spec (List.length (packet_body pkt)) 2); [apply ret3 in H; subst req; discriminate Hx|].
    assert (B : u16 (be_dec (firstn 2 (packet_body pkt)))).
    { destruct (packet_body pkt) as [|a [|b r]]; [cbn in *; lia..|]. cbn [firstn].
      rewrite be_dec_2. pose proof (b2n_lt a). pose proof (b2n_lt b). unfold u16. lia. }
    destruct (payload_unmarshal rt t _) as [[[|] [q|err]]|]; cbn [bind] in H; try discriminate H;
      apply ret3 in H; subst req; cbn [cmd_trx] in Hx; injection Hx as <-; exact B.
  - destruct (payload_unmarshal rt t _) as [[[|] [q|err]]|]; cbn [bind] in H; try discriminate H;
      apply ret3 in H; subst req; discriminate Hx.
Qed.

Lemma reply_number rt req c p : off_the_wire rt req -> number_ok req (cmd_trx c) p -> forall x, cmd_trx c = Some x -> u16 x.
Proof. intros W [E|[H _]]; [|exact H]. rewrite E. intros x. exact (wire_number rt req x W). Qed.

(** Replies of a fixed size are read whatever the modes of the two sides. *)
Lemma fixed_back rt e e2 req c t n :
  fine_cmd req c -> kept req c -> off_the_wire rt req ->
  reply_type c = Some t -> fixed_size t n -> read_back rt e e2 c.
Proof.
  intros (p & (t0 & Ht & Hin & _ & Hp) & Hc & F & _) (q & Hq & K & N) W R Fx.
  destruct c as [id tr o]. unfold reply_type in R. cbn [cmd_id cmd_trx cmd_payload] in *. subst o. injection Hq as <-.
  rewrite Ht in R. injection R as ->.
  destruct p as [t' vs|l|l|ty i|l|ty i|ty i|l|l]; cbn [payload_type kind_ok] in Ht, K;
    try (match type of K with False => destruct K end);
    injection Ht as <-; try (unfold fixed_size in Fx; vm_compute in Fx; discriminate Fx).
  cbn [kind_ok] in K.
  assert (Hd : t' <> general_ACKDataDropped) by (intros ->; vm_compute in K; discriminate K).
  destruct F as [(Hw & _)|(l & _ & X)]; [|discriminate X]. cbn [well_formed] in Hw.
  assert (M : forall m, mode_after m [id] = m) by (intros m; unfold mode_after; cbn [fold_left]; now rewrite Hc).
  destruct (fixed_roundtrip_gen rt e e2 id tr t' n vs Hin Fx Hw) as (b & B1 & B2).
  - exact (reply_number rt req (mkCmd id tr (Some (Pst t' vs))) _ W N).
  - now left.
  - rewrite !M in *. exists b. split; [exact B1|exact B2].
Qed.

Lemma acks_codable l :
  Forall consistent_token l -> Forall (fun v => u8 (tv_type v) /\ u8 (tv_sub v)) l ->
  forallb has_ack (map ackFIDTokenValue l) = true -> Forall codable_ack (map ackFIDTokenValue l).
Proof.
  intros _ S. induction S as [|v l [H1 H2] S IH]; intros A; [apply Forall_nil|].
  cbn [map forallb] in *. apply andb_true_iff in A as [A1 A2]. apply Forall_cons; [|now apply IH].
  unfold ackFIDTokenValue, has_ack in *. cbn [ta_ack] in A1.
  destruct (ackToken (tv_token v)) as [b|] eqn:E; [|discriminate A1]. apply ca; [exact H1|exact H2|].
  unfold ackToken in E. repeat match type of E with match ?x with _ => _ end = _ => destruct x; try discriminate E end;
    injection E as <-; cbn; lia.
Qed.

Lemma variable_back rt e id tr p t :
  sendable rt p -> arrives p = p -> payload_type p = Some t -> In (id, t) std_registry -> controls id = None ->
  (forall x, tr = Some x -> u16 x) -> (tr <> None <-> e = true) ->
  read_back rt e e (mkCmd id tr (Some p)).
Proof.
  intros Hs Ha Ht Hin Hc Hu Hm.
  assert (M : mode_after e [id] = e) by (unfold mode_after; cbn [fold_left]; now rewrite Hc).
  destruct (variable_roundtrip rt e id tr p t Hs Ht Hin Hu) as (b & B1 & B2); [now rewrite M|].
  rewrite M in *. exists b. split; [exact B1|]. cbn [cmd_id cmd_trx cmd_payload option_map]. rewrite Ha, B2.
  destruct e; [reflexivity|]. destruct tr as [x|]; [|reflexivity].
  exfalso. assert (false = true) by (apply Hm; discriminate). discriminate.
Qed.

Lemma named_sendable rt t vs : typed t vs -> In t named_types -> sendable rt (Pst t vs).
Proof.
  intros T I. cbn [named_types In] in I.
  repeat match type of I with _ \/ _ => destruct I as [<-|I] end; try contradiction; fields T;
    try (apply sd_string; cbn [In]; tauto).
  apply sd_model. unfold u32. lia.
Qed.

Lemma text_type ty i : disp_track_info ty = Some i -> (1 <= ty <= 7)%N ->
  exists t vs, i = IPtr t vs /\ In (ty, t) text_track_infos.
Proof.
  intros H B. unfold disp_track_info in H.
  repeat match type of H with match ?x with _ => _ end = _ => destruct x; try discriminate H end;
    injection H as <-; try lia; do 2 eexists; (split; [reflexivity|cbn; tauto]).
Qed.
Lemma sized_type ty i : disp_track_info ty = Some i -> ~ (1 <= ty <= 7)%N ->
  exists t vs, i = IPtr t vs /\ In (ty, t) sized_track_infos /\ typed t vs.
Proof.
  intros H B. unfold disp_track_info in H.
  repeat match type of H with match ?x with _ => _ end = _ => destruct x; try discriminate H end;
    injection H as <-; try (exfalso; apply B; lia); do 2 eexists; (split; [reflexivity|split; [cbn; tauto|reflexivity]]).
Qed.

Lemma text_unread rt e id tr ty i :
  disp_track_info ty = Some i -> (1 <= ty <= 7)%N ->
  In (id, disp_RetIndexedPlayingTrackInfo) std_registry -> controls id = None ->
  (forall x, tr = Some x -> u16 x) -> (tr <> None <-> e = true) ->
  unreadable rt e e (mkCmd id tr (Some (PDispTrackInfo ty i))).
Proof.
  intros H B Hin Hc Hu Hm. destruct (text_type ty i H B) as (t & vs & -> & Ht).
  assert (E : disp_info_marshal ty (IPtr t vs) = Ret (Ok [n2b ty])
              /\ exists x, disp_info_unmarshal disp_track_info_type [n2b ty] = Err x).
  { cbn [text_track_infos In] in Ht.
    repeat match type of Ht with _ \/ _ => destruct Ht as [Ht|Ht] end;
      try (match type of Ht with False => destruct Ht end); injection Ht as <- <-;
      (split; [reflexivity|eexists; vm_compute; reflexivity]). }
  destruct E as [E1 (x & E2)].
  destruct (variable_travels rt e id tr (PDispTrackInfo ty (IPtr t vs)) disp_RetIndexedPlayingTrackInfo [n2b ty])
    as (b & B1 & B2); try assumption; try reflexivity.
  { cbn [payload_marshaler]. now rewrite E1. }
  cbn [payload_unmarshal] in B2. rewrite E2 in B2. cbn in B2.
  exists b. do 2 eexists. split; [exact B1|exact B2].
Qed.

Lemma info_kinds ty :
  if existsb (N.eqb ty) [0; 3; 4]%N then (ty = 0 \/ ty = 3 \/ ty = 4)%N else ty <> 0%N /\ ty <> 3%N /\ ty <> 4%N.
Proof.
  cbn [existsb]. destruct (N.eqb_spec ty 0), (N.eqb_spec ty 3), (N.eqb_spec ty 4); cbn [orb]; auto.
Qed.

Lemma ext_info_back rt e id tr ty :
  u8 ty -> In (id, ext_ReturnIndexedPlayingTrackInfo) std_registry -> controls id = None ->
  (forall x, tr = Some x -> u16 x) -> (tr <> None <-> e = true) ->
  read_back rt e e (mkCmd id tr (Some (PExtTrackInfo ty (ext_track_info ty)))).
Proof.
  intros Hty Hin Hc Hu Hm.
  destruct (existsb (N.eqb ty) [0; 3; 4]%N) eqn:K.
  - pose proof (info_kinds ty) as D. rewrite K in D.
    eapply variable_back; try eassumption; try reflexivity.
    + destruct D as [->|[->| ->]]; (eapply sd_ext_info; [assumption|reflexivity|reflexivity]).
    + cbn [arrives]. now rewrite K.
  - pose proof (info_kinds ty) as D. rewrite K in D.
    assert (X : exists pb, payload_marshaler rt (PExtTrackInfo ty (ext_track_info ty)) = Some (Ret (Ok (n2b ty :: pb)))
              /\ fst (binary_read anon_struct pb) = Ok []).
    { destruct (N.eq_dec ty 7) as [->|N7]; [exists []; split; reflexivity|].
      exists [x00]. assert (E : ext_track_info ty = IBytes [x00]).
      { unfold ext_track_info. destruct ty as [|p]; [lia|].
        repeat match goal with |- context[match ?x with _ => _ end] => destruct x; try reflexivity; try lia end. }
      rewrite E. split; reflexivity. }
    destruct X as (pb & X1 & X2).
    destruct (variable_travels rt e id tr (PExtTrackInfo ty (ext_track_info ty)) ext_ReturnIndexedPlayingTrackInfo (n2b ty :: pb))
      as (b & B1 & B2); try assumption; try reflexivity.
    cbn [payload_unmarshal] in B2. unfold ext_track_info_unmarshal in B2.
    assert (T : ext_track_info_type (b2n (n2b ty)) = anon_struct).
    { rewrite b2n_n2b. unfold u8 in Hty. rewrite N.mod_small by exact Hty. unfold ext_track_info_type.
      destruct ty as [|p]; [lia|].
      repeat match goal with |- context[match ?x with _ => _ end] => destruct x; try reflexivity; try lia end. }
    rewrite T, X2 in B2. cbv beta iota in B2. cbn [bind] in B2. rewrite b2n_n2b, N.mod_small in B2 by exact Hty.
    exists b. split; [exact B1|]. cbn [cmd_id cmd_trx cmd_payload option_map arrives]. rewrite K. cbn in B2. rewrite B2.
    destruct e; [reflexivity|]. destruct tr as [x|]; [|reflexivity].
    exfalso. assert (false = true) by (apply Hm; discriminate). discriminate.
Qed.

Lemma reply_read rt e req c :
  fine_cmd req c -> kept req c -> off_the_wire rt req -> numbered_properly e req -> ~ unsendable c ->
  (text_info c -> unreadable rt e e c) /\ (~ text_info c -> read_back rt e e c).
Proof.
  intros FC KC W NP U.
  destruct (reply_type c) as [t|] eqn:R.
  2:{ exfalso. destruct FC as (p & (t0 & Ht & _ & _ & Hp) & _). unfold reply_type in R. rewrite Hp in R. congruence. }
  destruct (struct_size (layout t)) as [n|] eqn:Sz.
  { split; [|intros _; exact (fixed_back rt e e req c t n FC KC W R Sz)].
    intros (ty & i & E & _). unfold reply_type in R. rewrite E in R. injection R as <-. vm_compute in Sz. discriminate. }
  destruct FC as (p & (t0 & Ht & Hin & _ & Hp) & Hc & F & _). destruct KC as (q & Hq & K & N).
  destruct c as [id tr o]. unfold reply_type in R. cbn [cmd_id cmd_trx cmd_payload] in *. subst o. injection Hq as <-.
  rewrite Ht in R. injection R as ->.
  assert (Tu : forall x, tr = Some x -> u16 x) by exact (reply_number rt req (mkCmd id tr (Some p)) _ W N).
  assert (Tm : tr <> None <-> e = true).
  { destruct N as [->|[_ (t' & vs & -> & S)]]; [exact NP|]. injection Ht as ->. unfold sized in S. rewrite Sz in S. discriminate S. }
  assert (NT : (forall ty i, p <> PDispTrackInfo ty i) -> read_back rt e e (mkCmd id tr (Some p)) ->
     (text_info (mkCmd id tr (Some p)) -> unreadable rt e e (mkCmd id tr (Some p)))
     /\ (~ text_info (mkCmd id tr (Some p)) -> read_back rt e e (mkCmd id tr (Some p)))).
  { intros D B. split; [|auto]. intros (ty & i & E & _). exfalso. injection E as ->. now apply (D ty i). }
  destruct p as [t' vs|l|l|ty i|l|ty i|ty i|l|l]; cbn [kind_ok] in K;
    try (match type of K with False => destruct K end);
    try (injection Ht as <-).
  - apply NT; [discriminate|]. unfold plain in K.
    assert (Sf : sized t' = false) by (unfold sized; now rewrite Sz). rewrite Sf in K. cbn [orb] in K.
    apply orb_true_iff in K as [K|K]; apply pty_in in K.
    + exfalso. apply U. left. exists t'. split; [reflexivity|exact K].
    + destruct F as [(Hw & _)|(l & _ & X)]; [|discriminate X].
      eapply variable_back; try eassumption; try reflexivity. now apply named_sendable.
  - apply NT; [discriminate|]. destruct K as (l0 & Hl & E). injection E as ->.
    destruct (wire_tokens rt req l0 W Hl) as (C1 & C2 & C3).
    assert (A : forallb has_ack (map ackFIDTokenValue l0) = true).
    { apply Bool.not_false_iff_true. intros A. apply U. now apply unsendable_acks. }
    eapply variable_back; try eassumption; try reflexivity.
    apply sd_acks; [now rewrite map_length|now apply acks_codable].
  - apply NT; [discriminate|]. destruct K as [K ->]. now apply ext_info_back.
  - apply NT; [discriminate|]. subst l. eapply variable_back; try eassumption; try reflexivity. apply sd_artwork, Forall_nil.
  - apply NT; [discriminate|]. destruct K as (t & vs & -> & K1 & K2).
    eapply variable_back; try eassumption; try reflexivity. now apply sd_state.
  - split.
    + intros (ty' & i' & E & B). injection E as <- <-. now apply text_unread.
    + intros NTx. assert (B : ~ (1 <= ty <= 7)%N) by (intros B; apply NTx; exists ty, i; auto).
      destruct (sized_type ty i K B) as (t & vs & -> & K1 & K2).
      eapply variable_back; try eassumption; try reflexivity. now apply sd_track.
  - exfalso. apply U. left. eexists. split; [reflexivity|]. apply pty_in. vm_compute. reflexivity.
Qed.

Lemma packet_read {S} clock (dev : DeviceGeneral S) req h rt e :
  answers_ok dev (h_dev h) -> off_the_wire rt req -> numbered_properly e req ->
  post (handlePacket std_registry clock dev req) h (fun _ _ evs =>
    Forall (fun c => ~ unsendable c ->
      (text_info c -> unreadable rt e e c) /\ (~ text_info c -> read_back rt e e c)) (written evs)).
Proof.
  intros Hd W NP. assert (Hok : request_ok req) by (destruct W as (? & ? & ? & ? & H); exact (decoded_ok _ _ _ _ _ _ _ H)).
  eapply post_weaken; [apply post_both; [now apply packet_fine|now apply packet_kept]|].
  intros h' u evs [F K]. unfold all_fine, all_kept in *. rewrite Forall_forall in *.
  intros c Hc U. apply (reply_read rt e req); auto.
Qed.

Lemma packet_read_fixed {S} clock (dev : DeviceGeneral S) req h rt e e2 :
  answers_ok dev (h_dev h) -> off_the_wire rt req ->
  post (handlePacket std_registry clock dev req) h (fun _ _ evs =>
    Forall (fun c => forall t n, reply_type c = Some t -> fixed_size t n -> read_back rt e e2 c) (written evs)).
Proof.
  intros Hd W. assert (Hok : request_ok req) by (destruct W as (? & ? & ? & ? & H); exact (decoded_ok _ _ _ _ _ _ _ H)).
  eapply post_weaken; [apply post_both; [now apply packet_fine|now apply packet_kept]|].
  intros h' u evs [F K]. unfold all_fine, all_kept in *. rewrite Forall_forall in *.
  intros c Hc t n R Fx. apply (fixed_back rt e e2 req c t n); auto.
Qed.
