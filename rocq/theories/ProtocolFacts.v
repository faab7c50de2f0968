(** The requests of SpecProtocol against the handlers, one by one. *)
From Coq Require Import ZifyBool ZifyNat ZifyN.
From Verif Require Import Base BaseFacts GoTypes GoTypesFacts Types Payload Util Lingo Command
  SpecPayload SpecCommand LingoFacts CommandFacts CommandThms Handlers SpecHandlers HandlersFacts HandlersThms
  SpecProtocol.
Ltac Zify.zify_post_hook ::= Z.div_mod_to_equations.
#[local] Opaque std_registry.

(** What of the state shows on the wire. *)
Definition mem (e : bool) (h : hstate DevGeneral) : memory :=
  mkMemory e (dg_uimode (h_dev h) =? 1)%N (h_trx h) (h_ticks h).

(** A command that is sent as a reply of the specification. *)
Definition conveys (rt : bool) (c : command) (r : reply) : Prop :=
  match r with
  | Reply _ _ _ => forall e, MarshalCmd rt e c = Ret (e, Ok (reply_bytes e r))
  | Unsendable => forall e, exists x, MarshalCmd rt e c = Ret (e, Err x)
  end.

Definition numbers_of (tr : option N) : option bytes := option_map trx_bytes tr.

(** What handling leads to is what the reaction says. *)
Definition as_said (rt e : bool) (h : hstate DevGeneral) (tr : option N) (said : option (memory * list saying))
  : hstate DevGeneral -> unit -> list event -> Prop :=
  fun h' _ evs => (dg_uimode (h_dev h') <= 1)%N /\
    exists m1 l, said = Some (m1, l)
      /\ mem e h' = mkMemory (numbered m1) (extended m1) (fst (with_numbers (numbers_of tr) (last_number m1) l)) (readings m1)
      /\ Forall2 (conveys rt) (written evs) (snd (with_numbers (numbers_of tr) (last_number m1) l)).

Definition request_types : list pty :=
  [general_RequestRemoteUIMode; general_EnterRemoteUIMode; general_ExitRemoteUIMode;
   general_RequestiPodName; general_RequestiPodSoftwareVersion; general_RequestiPodSerialNum;
   general_RequestiPodModelNum; general_RequestLingoProtocolVersion; general_RequestTransportMaxPayloadSize;
   general_IdentifyDeviceLingoes; general_RetDevAuthenticationInfo; general_RetDevAuthenticationSignature;
   general_GetiPodAuthenticationInfo; general_GetiPodAuthenticationSignature; general_GetiPodOptions;
   general_GetiPodPreferences; general_SetiPodPreferences; general_GetUIMode; general_SetUIMode;
   general_StartIDPS; general_SetFIDTokenValues; general_EndIDPS; general_SetEventNotification;
   general_GetiPodOptionsForLingo; general_GetEventNotification; general_GetSupportedEventNotification;
   general_CancelCommand; general_RequestApplicationLaunch; general_GetNowPlayingFocusApp;
   disp_GetCurrentEQProfileIndex; disp_SetCurrentEQProfileIndex; disp_GetNumEQProfiles;
   disp_GetIndexedEQProfileName; disp_SetRemoteEventNotification; disp_GetRemoteEventStatus;
   disp_GetiPodStateInfo; disp_SetiPodStateInfo; disp_GetPlayStatus; disp_SetCurrentPlayingTrack;
   disp_GetIndexedPlayingTrackInfo; disp_GetNumPlayingTracks; disp_GetArtworkFormats;
   disp_GetPowerBatteryState; disp_GetSoundCheckState; disp_SetSoundCheckState; disp_GetTrackArtworkTimes;
   ext_GetCurrentPlayingTrackChapterInfo; ext_SetCurrentPlayingTrackChapter;
   ext_GetCurrentPlayingTrackChapterPlayStatus; ext_GetCurrentPlayingTrackChapterName;
   ext_GetAudiobookSpeed; ext_SetAudiobookSpeed; ext_GetIndexedPlayingTrackInfo; ext_GetArtworkFormats;
   ext_GetTrackArtworkData; ext_ResetDBSelection; ext_SelectDBRecord; ext_GetNumberCategorizedDBRecords;
   ext_RetrieveCategorizedDatabaseRecords; ext_GetPlayStatus; ext_GetCurrentPlayingTrackIndex;
   ext_GetIndexedPlayingTrackTitle; ext_GetIndexedPlayingTrackArtistName; ext_GetIndexedPlayingTrackAlbumName;
   ext_SetPlayStatusChangeNotification; ext_SetPlayStatusChangeNotificationShort; ext_PlayCurrentSelection;
   ext_PlayControl; ext_GetTrackArtworkTimes; ext_GetShuffle; ext_SetShuffle; ext_GetRepeat; ext_SetRepeat;
   ext_SetDisplayImage; ext_GetMonoDisplayImageLimits; ext_GetNumPlayingTracks; ext_GetColorDisplayImageLimits;
   ext_ResetDBSelectionHierarchy; audio_RetAccSampleRateCaps].

(** A request type and its row. *)
Definition good (rt : bool) (clock : nat -> datetime) (t : pty) (r : request) : Prop :=
  let '(id, size, f) := r in
  id = id_prefix (the_id t) /\ size = struct_size (layout t)
  /\ forall tr c (h : hstate DevGeneral) e,
       (forall n, size = Some n -> List.length c = n) -> (dg_uimode (h_dev h) <= 1)%N ->
       match payload_unmarshal rt t c with
       | Panic => f (mem e h) c = None
       | Ret (_, res) =>
           post (handlePacket std_registry clock DevGeneral_device
                   (mkCmd (the_id t) tr (match res with Ok p => Some p | Err _ => None end))) h
                (as_said rt e h tr (f (mem e h) c))
       end.

Lemma reply_numbers e id tr c : reply_bytes e (Reply id (numbers_of tr) c) = id ++ wire_trx e tr ++ c.
Proof. destruct tr as [t|]; [|destruct e; reflexivity]. destruct e; reflexivity. Qed.

Lemma own_number n : trx_bytes ((n + 1) mod 2 ^ 32 mod 65536) = number_bytes (next_number n).
Proof.
  unfold trx_bytes, number_bytes, next_number. set (x := ((n + 1) mod 2 ^ 32)%N). clearbody x. clear n.
  assert (E : (x mod 65536 = x mod 256 + 256 * (x / 256 mod 256))%N).
  { change 65536%N with (256 * 256)%N. apply N.mod_mul_r; discriminate. }
  assert (R : (x mod 256 < 256)%N) by (apply N.mod_lt; discriminate).
  f_equal; [|f_equal]; apply n2b_eq; rewrite E.
  - rewrite N.mul_comm, N.div_add by discriminate. rewrite (N.div_small (x mod 256)) by exact R.
    rewrite N.add_0_l. apply N.mod_mod. discriminate.
  - rewrite N.mul_comm, N.mod_add by discriminate. rewrite !N.mod_mod by discriminate. reflexivity.
Qed.

(** ** Tactics *)

Section Dispatch.
Context {S : Type} (clock : nat -> datetime) (dev : DeviceGeneral S).

Lemma to_general id tr t vs (h : hstate S) Q :
  LingoID id = 0%N -> pty_eqb t general_RetDevAuthenticationInfo = false ->
  post (HandleGeneral std_registry dev (mkCmd id tr (Some (Pst t vs)))) h Q ->
  post (handlePacket std_registry clock dev (mkCmd id tr (Some (Pst t vs)))) h Q.
Proof.
  intros L T H. unfold handlePacket. cbn [cmd_id cmd_payload]. rewrite L. cbv zeta.
  cbn [N.eqb LingoGeneralID]. apply post_seq.
  destruct t; try discriminate T; apply post_ret; exact H.
Qed.

Lemma to_disp id tr p (h : hstate S) (Q : hstate S -> unit -> list event -> Prop) :
  LingoID id = LingoDisplayRemoteID ->
  post (HandleDispRemote std_registry clock (mkCmd id tr (Some p))) h (fun h' _ evs => Q h' tt evs) ->
  post (handlePacket std_registry clock dev (mkCmd id tr (Some p))) h Q.
Proof.
  intros L H. unfold handlePacket. cbn [cmd_id cmd_payload]. rewrite L. cbv zeta.
  cbn [N.eqb LingoGeneralID LingoDisplayRemoteID Pos.eqb]. apply post_seq.
  eapply post_weaken; [exact H|]. cbv beta. intros h' a evs K. apply post_ret. now rewrite app_nil_r.
Qed.

Lemma to_ext id tr p (h : hstate S) Q :
  LingoID id = LingoExtRemoteID ->
  post (HandleExtRemote std_registry (mkCmd id tr (Some p))) h Q ->
  post (handlePacket std_registry clock dev (mkCmd id tr (Some p))) h Q.
Proof. intros L H. unfold handlePacket. cbn [cmd_id cmd_payload]. rewrite L. exact H. Qed.

Lemma to_audio id tr p (h : hstate S) Q :
  LingoID id = LingoDigitalAudioID ->
  post (HandleAudio std_registry (mkCmd id tr (Some p))) h Q ->
  post (handlePacket std_registry clock dev (mkCmd id tr (Some p))) h Q.
Proof. intros L H. unfold handlePacket. cbn [cmd_id cmd_payload]. rewrite L. exact H. Qed.
End Dispatch.

(** ** Tactics *)

Ltac conc u := let i := eval vm_compute in (the_id u) in change (the_id u) with i.

Lemma convey_reply rt id tr p pb l q :
  payload_bytes rt p pb -> (forall e, mode_after e [id] = e) -> marshalLingoCmdID id = l -> pb = q ->
  conveys rt (mkCmd id tr (Some p)) (Reply l (numbers_of tr) q).
Proof.
  intros H1 H2 H3 H4 e. rewrite reply_numbers, (MarshalCmd_complete _ _ _ _ _ _ H1), H2, H3, H4. reflexivity.
Qed.

Lemma convey_question rt id n p pb l q :
  payload_bytes rt p pb -> (forall e, mode_after e [id] = e) -> marshalLingoCmdID id = l -> pb = q ->
  conveys rt (mkCmd id (Some ((n + 1) mod 2 ^ 32 mod 65536)%N) (Some p)) (Reply l (Some (number_bytes (next_number n))) q).
Proof.
  intros H1 H2 H3 H4. rewrite <- own_number.
  change (Some (trx_bytes ?x)) with (numbers_of (Some x)). now apply convey_reply with pb.
Qed.

(** One command and its reply. *)
Ltac convey1 :=
  cbn [cmd_trx];
  match goal with |- conveys _ (mkCmd (the_id ?u) _ _) _ => conc u end;
  match goal with
  | |- conveys _ _ Unsendable => intros ?e; eexists; rewrite MarshalCmd_eq; reflexivity
  | |- conveys _ _ (Reply _ (Some _) _) =>
      eapply convey_question; [first [left; reflexivity | right; split; reflexivity]|reflexivity|reflexivity|]
  | |- conveys _ _ (Reply _ _ _) =>
      eapply convey_reply; [first [left; reflexivity | right; split; reflexivity]|reflexivity|reflexivity|]
  end.

Ltac convey :=
  cbn [app written flat_map map fst snd with_numbers last_number mem];
  repeat (apply Forall2_cons; [convey1; try reflexivity|]); try apply Forall2_nil.

Ltac enter :=
  match goal with |- post (handlePacket _ _ _ (mkCmd (the_id ?u) _ _)) _ _ => conc u end;
  first [apply to_general; [reflexivity|reflexivity|] | apply to_disp; [reflexivity|]
        | apply to_ext; [reflexivity|] | apply to_audio; [reflexivity|]].

(** The content of a fixed request, byte by byte. *)
Ltac split_bytes c n :=
  match n with
  | O => let H := fresh in intros H; destruct c as [|? ?]; [clear H|discriminate H]
  | S ?n' => let H := fresh in let b := fresh "b" in let c' := fresh "c" in
             intros H; destruct c as [|b c']; [discriminate H|]; apply eq_add_S in H; revert H; split_bytes c' n'
  end.

Ltac ready :=
  match goal with
  | |- good ?rt ?clock ?t ?r =>
      split; [vm_compute; reflexivity|]; split; [vm_compute; reflexivity|];
      let tr := fresh "tr" in let c := fresh "c" in let h := fresh "h" in let e := fresh "e" in
      let L := fresh "L" in let U := fresh "U" in
      intros tr c h e L U;
      match goal with
      | L : forall n, Some ?k = Some n -> _ |- _ => specialize (L k eq_refl); revert L; split_bytes c k
      | _ => clear L
      end
  end.

Definition ro (rt : bool) (clock : nat -> datetime) (n : nat) : Prop :=
  match nth_error request_types n, nth_error (requests rt clock) n with
  | Some t, Some r => good rt clock t r
  | _, _ => False
  end.

Ltac finish :=
  split; [first [assumption | reflexivity | discriminate]|];
  do 2 eexists; split; [reflexivity|]; split; [reflexivity|convey].


Lemma be1 b : be_dec [b] = b2n b.
Proof. unfold be_dec. cbn. lia. Qed.

Ltac reading :=
  cbv beta iota zeta delta [payload_unmarshal];
  try match goal with |- context[fst (binary_read ?t ?c)] =>
    let v := eval lazy -[be_dec z_dec] in (fst (binary_read t c)) in
    replace (fst (binary_read t c)) with v by (lazy -[be_dec z_dec]; reflexivity)
  end; cbv iota beta; rewrite ?be1.
(** The two modes of the user interface. *)
Ltac modes :=
  match goal with U : (dg_uimode (h_dev ?h) <= 1)%N |- _ =>
    destruct h as [[ui toks] cert trx ticks lg]; cbn [h_dev dg_uimode] in U;
    assert (ui = 0 \/ ui = 1)%N as [-> | ->] by lia; clear U
  end.

Lemma byte_back b : n2b (b2n b) = b.
Proof. apply n2b_b2n. Qed.

Ltac row := cbv beta iota delta [ro nth_error request_types requests]; ready; reading; enter;
  unfold HandleGeneral, HandleDispRemote, HandleExtRemote, HandleAudio; cbn [cmd_payload cmd_id]; hrun.

(** ** The rows *)

Ltac plain := repeat (apply Forall_cons; [solve [row; finish]|]); apply Forall_nil.

Lemma rows_plain_0 rt clock : Forall (ro rt clock) [3; 5; 6; 8; 11; 12; 13; 14; 16; 18; 19; 22; 24; 25; 26; 28].
Proof. plain. Qed.
Lemma rows_plain_3 rt clock : Forall (ro rt clock) [29; 30; 31; 32; 33; 34; 36; 37; 38; 40; 41; 42; 43; 44; 45].
Proof. plain. Qed.
Lemma rows_plain_4 rt clock : Forall (ro rt clock) [46; 47; 48; 49; 50; 51; 53; 54; 55; 56; 57; 58; 59; 60; 61; 62; 63; 64; 65; 66; 67; 68; 69; 70; 71; 72; 73; 74; 75; 76; 77; 78].
Proof. plain. Qed.

Lemma row_0 rt clock : ro rt clock 0.
Proof. row. modes. all: finish. Qed.
Lemma row_1 rt clock : ro rt clock 1.
Proof. row. all: modes; try discriminate E. all: finish. Qed.
Lemma row_2 rt clock : ro rt clock 2.
Proof. row. all: modes; try discriminate E. all: finish. Qed.
Lemma row_4 rt clock : ro rt clock 4.
Proof. row. cbn in E. injection E as <- <- <-. finish. Qed.
Lemma row_7 rt clock : ro rt clock 7.
Proof.
  row. assert (V : lingo_version [b] = [n2b (b2n b); n2b n; n2b n0]).
  { rewrite byte_back. destruct b; vm_compute in E; injection E as <- <-; reflexivity. }
  clear E. unfold echoes. rewrite V. finish.
Qed.
Lemma row_15 rt clock : ro rt clock 15.
Proof. row. rewrite <- (byte_back b) at 1. finish. Qed.
Lemma row_17 rt clock : ro rt clock 17.
Proof. row. all: modes; finish. Qed.

Lemma zero_id a b c d :
  forallb (Byte.eqb x00) [a; b; c; d] = (be_dec [a; b; c; d] =? 0)%N.
Proof.
  unfold be_dec. cbn [forallb fold_left].
  assert (Z : forall x, Byte.eqb x00 x = (b2n x =? 0)%N) by (intros x; destruct x; reflexivity).
  rewrite !Z. generalize (b2n a) (b2n b) (b2n c) (b2n d). intros p q r t.
  destruct (N.eqb_spec p 0), (N.eqb_spec q 0), (N.eqb_spec r 0), (N.eqb_spec t 0); cbn [andb]; subst; symmetry;
    (apply N.eqb_eq || apply N.eqb_neq); lia.
Qed.

Lemma row_9 rt clock : ro rt clock 9.
Proof.
  row.
  all: unfold identify; cbn [skipn]; rewrite zero_id; cbn [fu nth] in E; rewrite E; finish.
Qed.

Lemma byte_is b n : b2n b = n -> b = n2b n.
Proof. intros <-. now rewrite byte_back. Qed.

(** The state of the player. *)
Lemma year_bytes y : be_enc 2 (y mod 65536) = [n2b (y / 256); n2b y].
Proof.
  change (be_enc 2 (y mod 65536)) with [n2b (y mod 65536 / 256); n2b (y mod 65536)].
  assert (E : (y mod 65536 = y mod 256 + 256 * (y / 256 mod 256))%N).
  { change 65536%N with (256 * 256)%N. apply N.mod_mul_r; discriminate. }
  assert (R : (y mod 256 < 256)%N) by (apply N.mod_lt; discriminate).
  f_equal; [|f_equal]; apply n2b_eq; rewrite E.
  - rewrite N.mul_comm, N.div_add by discriminate. rewrite (N.div_small (y mod 256)) by exact R.
    rewrite N.add_0_l. apply N.mod_mod. discriminate.
  - rewrite N.mul_comm, N.mod_add by discriminate. rewrite !N.mod_mod by discriminate. reflexivity.
Qed.

Lemma date_bytes d : disp_info_marshal 9 (disp_date_info d) = Ret (Ok (x09 :: date_wire d)).
Proof.
  destruct d as [[[[y mo] da] ho] mi]. unfold date_wire.
  assert (M : forall x, be_enc 1 (x mod 256) = [n2b x]).
  { intros x. change (be_enc 1 (x mod 256)) with [n2b (x mod 256)]. f_equal. apply n2b_eq. apply N.mod_mod; discriminate. }
  unfold disp_info_marshal, disp_date_info, write_iface, binary_write.
  change (struct_size (layout disp_InfoDateTime)) with (Some 6).
  change (layout disp_InfoDateTime) with [FU 2; FU 1; FU 1; FU 1; FU 1].
  cbn [enc_fields enc_field]. rewrite !M, year_bytes. reflexivity.
Qed.

Lemma state_found b i : disp_state_info (b2n b) = Some i ->
  exists v, (forall clock m, player_state clock m [b] = Some (m, [Answer [x03; x0d] v]))
         /\ disp_info_marshal (b2n b) i = Ret (Ok v).
Proof.
  intros E. destruct b; try discriminate E; vm_compute in E; injection E as <-; eexists; (split; [reflexivity|vm_compute; reflexivity]).
Qed.

Lemma state_unknown b : disp_state_info (b2n b) = None -> b <> x09 ->
  forall clock m, player_state clock m [b] = Some (m, []).
Proof. intros E N. destruct b; try discriminate E; try reflexivity. now destruct N. Qed.

Lemma row_35 rt clock : ro rt clock 35.
Proof.
  row. all: change (fu [VU (b2n b)] 0) with (b2n b) in *.
  - apply N.eqb_eq, byte_is in E. subst b. change (n2b 9) with x09. change (b2n x09) with 9%N.
    split; [assumption|]. do 2 eexists. split; [reflexivity|]. split; [reflexivity|].
    cbn [app written flat_map map fst snd with_numbers last_number mem]. apply Forall2_cons; [|apply Forall2_nil].
    cbn [cmd_trx]. conc disp_RetiPodStateInfo.
    eapply convey_reply; [left; exact (f_equal Some (date_bytes (clock (h_ticks h))))|reflexivity..].
  - destruct (state_found _ _ E0) as (v & V & B). rewrite V.
    split; [assumption|]. do 2 eexists. split; [reflexivity|]. split; [reflexivity|].
    cbn [app written flat_map map fst snd with_numbers last_number mem]. apply Forall2_cons; [|apply Forall2_nil].
    cbn [cmd_trx]. conc disp_RetiPodStateInfo.
    eapply convey_reply; [left; exact (f_equal Some B)|reflexivity..].
  - rewrite state_unknown; [finish|exact E0|]. intros ->. discriminate E.
Qed.

Lemma track_found b c i : disp_track_info (b2n b) = Some i ->
  exists v, (forall m, track_display m (b :: c) = Some (m, [Answer [x03; x13] v]))
         /\ disp_info_marshal (b2n b) i = Ret (Ok v).
Proof.
  intros E. destruct b; try discriminate E; vm_compute in E; injection E as <-; eexists; (split; [reflexivity|vm_compute; reflexivity]).
Qed.

Lemma track_unknown b c : disp_track_info (b2n b) = None -> forall m, track_display m (b :: c) = Some (m, []).
Proof. intros E. destruct b; try discriminate E; reflexivity. Qed.

Lemma row_39 rt clock : ro rt clock 39.
Proof.
  row. all: cbn [fu nth] in *.
  - destruct (track_found _ [b0; b1; b2; b3; b4; b5] _ E) as (v & V & B). rewrite V.
    split; [assumption|]. do 2 eexists. split; [reflexivity|]. split; [reflexivity|].
    cbn [app written flat_map map fst snd with_numbers last_number mem]. apply Forall2_cons; [|apply Forall2_nil].
    cbn [cmd_trx]. conc disp_RetIndexedPlayingTrackInfo.
    eapply convey_reply; [left; exact (f_equal Some B)|reflexivity..].
  - rewrite track_unknown by exact E. finish.
Qed.

Lemma track_ext b c :
  exists v, (forall m, track_extended m (b :: c) = Some (m, [Answer [x04; x00; x0d] v]))
         /\ ext_track_info_marshal (b2n b) (ext_track_info (b2n b)) = Ret (Ok v).
Proof. destruct b; eexists; (split; [reflexivity|vm_compute; reflexivity]). Qed.

Lemma row_52 rt clock : ro rt clock 52.
Proof.
  row. cbn [fu nth] in *. destruct (track_ext b [b0; b1; b2; b3; b4; b5]) as (v & V & B). rewrite V.
  split; [assumption|]. do 2 eexists. split; [reflexivity|]. split; [reflexivity|].
  cbn [app written flat_map map fst snd with_numbers last_number mem]. apply Forall2_cons; [|apply Forall2_nil].
  cbn [cmd_trx]. conc ext_ReturnIndexedPlayingTrackInfo.
  eapply convey_reply; [left; exact (f_equal Some B)|reflexivity..].
Qed.

Lemma row_21 rt clock : ro rt clock 21.
Proof.
  row.
  all: change (fu [VU (b2n b)] 0) with (b2n b) in E.
  all: try (apply byte_is in E; subst b; finish).
  all: (assert (V : forall m, end_identification m [b] = Some (m, []));
        [intros m; destruct b; try reflexivity; discriminate E|rewrite V; finish]).
Qed.

Lemma row_23 rt clock : ro rt clock 23.
Proof.
  row. unfold echoes.
  assert (V : lingo_options [b] = n2b (b2n b) :: be_enc 8 (snd (dev_LingoOptions DevGeneral_device (h_dev h) (b2n b)))).
  { rewrite byte_back. clear. destruct (h_dev h). destruct b; reflexivity. }
  rewrite V. finish.
Qed.
