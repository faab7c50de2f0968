(** Properties C28-C37, C69-C71: the handlers of the lingos and the dispatcher.

    [post m h Q]: running [m] in state [h] ends normally and [Q] holds of the final state, the
    result and the events (commands written, device methods called, in order). *)
From Verif Require Import Base GoTypes Types Payload Lingo Command SpecPayload SpecCommand Handlers
  SpecHandlers HandlersFacts HandlersThms ReplyThms.
#[local] Opaque std_registry.

(** The hypothesis [request_ok] of the theorems holds of whatever was decoded from the wire. *)
Theorem C28_decoded_requests rt reg e pkt e' c x :
  UnmarshalCmd rt reg e pkt = Ret (e', c, x) -> request_ok c.
Proof. exact (decoded_ok rt reg e pkt e' c x). Qed.
Print Assumptions C28_decoded_requests.

(** Sample state: the device of the command line tool. *)
Definition h0 : hstate DevGeneral := mkH DevGeneral_init [] 41 0 [].
Definition clock0 : nat -> datetime := fun _ => (2024, 5, 17, 12, 30)%N.
Definition req (id : N) (p : payload) : command := mkCmd id (Some 7%N) (Some p).

(** What a run wrote and called, for the examples. *)
Definition outcome_of {A} (r : outcome (hstate DevGeneral * A)) : option (list command * list devcall) :=
  match r with Ret (h, _) => Some (written (h_log h), calls (h_log h)) | Panic => None end.

(** ** C28 *)

Theorem C28_general {S} (dev : DeviceGeneral S) req h :
  request_ok req ->
  post (HandleGeneral std_registry dev req) h
    (fun _ _ evs => forall c, In c (written evs) ->
       cmd_trx c = cmd_trx req \/ (is_request req general_EndIDPS [VU 0] /\ next_auth h c)).
Proof. exact (general_trx dev req h). Qed.
Print Assumptions C28_general.

Theorem C28_ext {S} req (h : hstate S) :
  post (HandleExtRemote std_registry req) h
    (fun h' _ evs => Forall (fun c => cmd_trx c = cmd_trx req) (written evs) /\ calls evs = []
                     /\ h_dev h' = h_dev h /\ h_cert h' = h_cert h /\ h_trx h' = h_trx h).
Proof. exact (ext_trx req h). Qed.
Print Assumptions C28_ext.

Theorem C28_disp {S} clock req (h : hstate S) :
  post (HandleDispRemote std_registry clock req) h
    (fun h' _ evs => Forall (fun c => cmd_trx c = cmd_trx req) (written evs) /\ calls evs = []
                     /\ h_dev h' = h_dev h /\ h_cert h' = h_cert h /\ h_trx h' = h_trx h).
Proof. exact (disp_trx clock req h). Qed.
Print Assumptions C28_disp.

Theorem C28_audio {S} req (h : hstate S) :
  post (HandleAudio std_registry req) h
    (fun h' _ evs => Forall (fun c => cmd_trx c = cmd_trx req) (written evs) /\ calls evs = []
                     /\ h_dev h' = h_dev h /\ h_cert h' = h_cert h /\ h_trx h' = h_trx h).
Proof. exact (audio_trx req h). Qed.
Print Assumptions C28_audio.

Example C28_case :
  outcome_of (HandleGeneral std_registry DevGeneral_device (req 59 (Pst general_EndIDPS [VU 0])) h0)
  = Some ([mkCmd 60 (Some 7%N) (Some (Pst general_IDPSStatus [VU 0]));
           mkCmd 20 (Some 42%N) (Some (Pst general_GetDevAuthenticationInfo []))],
          [CEndIDPS 0]).
Proof. vm_compute. reflexivity. Qed.

(** ** C29 *)

Theorem C29_acks {S} clock (dev : DeviceGeneral S) req h :
  wire_id (cmd_id req) ->
  post (handlePacket std_registry clock dev req) h
    (fun _ _ evs => acks_ok (cmd_id req mod 65536)%N evs).
Proof. exact (handle_acks clock dev req h). Qed.
Print Assumptions C29_acks.

(** Decoded requests have such ids. *)
Theorem C29_decoded rt reg e pkt e' c x :
  UnmarshalCmd rt reg e pkt = Ret (e', c, x) -> wire_id (cmd_id c).
Proof. exact (decoded_wire rt reg e pkt e' c x). Qed.
Print Assumptions C29_decoded.

Example C29_case :
  outcome_of (handlePacket std_registry clock0 DevGeneral_device
                (req (4 * 65536 + 41) (Pst ext_PlayControl [VU 1])) h0)
  = Some ([mkCmd (4 * 65536 + 1) (Some 7%N) (Some (Pst ext_ACK [VU 0; VU 41]))], [])
  /\ wire_id (4 * 65536 + 41).
Proof. split; [vm_compute; reflexivity|]. split; [vm_compute; reflexivity|left; reflexivity]. Qed.

(** ** C30 *)

Theorem C30_remote_mode {S} (dev : DeviceGeneral S) mode reqs r vs h :
  keeps_mode dev mode -> is_request r general_RequestRemoteUIMode vs ->
  post (run _ <- serve (HandleGeneral std_registry dev) reqs; HandleGeneral std_registry dev r) h
    (fun _ _ evs => exists before c, evs = before ++ [Called CUIMode; Wrote c]
       /\ is_reply c (cmd_trx r) (Pst general_ReturnRemoteUIMode
            [VU (if entered (mode (h_dev h) =? 1)%N reqs then 1 else 0)%N])).
Proof. exact (mode_history dev mode reqs r vs h). Qed.
Print Assumptions C30_remote_mode.

Theorem C30_ui_mode {S} (dev : DeviceGeneral S) mode reqs r vs h :
  keeps_mode dev mode -> (mode (h_dev h) <= 1)%N -> is_request r general_GetUIMode vs ->
  post (run _ <- serve (HandleGeneral std_registry dev) reqs; HandleGeneral std_registry dev r) h
    (fun _ _ evs => exists before c, evs = before ++ [Called CUIMode; Wrote c]
       /\ is_reply c (cmd_trx r) (Pst general_RetUIMode
            [VU (if entered (mode (h_dev h) =? 1)%N reqs then 1 else 0)%N])).
Proof. exact (ui_mode_history dev mode reqs r vs h). Qed.
Print Assumptions C30_ui_mode.

Theorem C30_change {S} (dev : DeviceGeneral S) req vs h (enter : bool) :
  is_request req (if enter then general_EnterRemoteUIMode else general_ExitRemoteUIMode) vs ->
  post (HandleGeneral std_registry dev req) h
    (fun _ _ evs =>
       if Bool.eqb (snd (dev_UIMode dev (h_dev h)) =? 1)%N enter
       then exists c, evs = [Called CUIMode; Wrote c] /\ is_reply c (cmd_trx req) (success_ack req)
       else exists c1 c2, evs = [Called CUIMode; Wrote c1; Called (CSetUIMode (if enter then 1 else 0)%N); Wrote c2]
            /\ is_reply c1 (cmd_trx req) (pending_ack req)
            /\ is_reply c2 (cmd_trx req) (success_ack req)).
Proof. exact (mode_change dev req vs h enter). Qed.
Print Assumptions C30_change.

(** The tool's own device keeps its mode. *)
Theorem C30_tool_device : keeps_mode DevGeneral_device dg_uimode.
Proof. exact DevGeneral_keeps. Qed.
Print Assumptions C30_tool_device.

Example C30_case :
  outcome_of (serve (HandleGeneral std_registry DevGeneral_device)
    [req 3 (Pst general_RequestRemoteUIMode []); req 5 (Pst general_EnterRemoteUIMode []);
     req 5 (Pst general_EnterRemoteUIMode []); req 3 (Pst general_RequestRemoteUIMode []);
     req 6 (Pst general_ExitRemoteUIMode [])] h0)
  = Some ([mkCmd 4 (Some 7%N) (Some (Pst general_ReturnRemoteUIMode [VU 0]));
           mkCmd 2 (Some 7%N) (Some (Pst general_ACKPending [VU 6; VU 5; VU 300]));
           mkCmd 2 (Some 7%N) (Some (Pst general_ACK [VU 0; VU 5]));
           mkCmd 2 (Some 7%N) (Some (Pst general_ACK [VU 0; VU 5]));
           mkCmd 4 (Some 7%N) (Some (Pst general_ReturnRemoteUIMode [VU 1]));
           mkCmd 2 (Some 7%N) (Some (Pst general_ACKPending [VU 6; VU 6; VU 300]));
           mkCmd 2 (Some 7%N) (Some (Pst general_ACK [VU 0; VU 6]))],
          [CUIMode; CUIMode; CSetUIMode 1; CUIMode; CUIMode; CUIMode; CSetUIMode 0])%N.
Proof. vm_compute. reflexivity. Qed.

(** ** C31 *)

(** SetUIMode is acknowledged with success, and the mode read right after is the old one. *)
Theorem C31_never_set {S} (dev : DeviceGeneral S) mode r r2 vs vs2 h :
  keeps_mode dev mode -> is_request r general_SetUIMode vs -> is_request r2 general_GetUIMode vs2 ->
  post (run _ <- HandleGeneral std_registry dev r; HandleGeneral std_registry dev r2) h
    (fun _ _ evs => exists c1 c2, evs = [Wrote c1; Called CUIMode; Wrote c2]
       /\ is_reply c1 (cmd_trx r) (success_ack r)
       /\ is_reply c2 (cmd_trx r2) (Pst general_RetUIMode [VU (mode (h_dev h))])).
Proof. exact (setuimode_refuted dev mode r r2 vs vs2 h). Qed.
Print Assumptions C31_never_set.

Theorem C31_refuted :
  exists r r2 m old, is_request r general_SetUIMode [VU m] /\ is_request r2 general_GetUIMode []
    /\ m <> old
    /\ outcome_of (serve (HandleGeneral std_registry DevGeneral_device) [r; r2] h0)
       = Some ([mkCmd 2 (cmd_trx r) (Some (Pst general_ACK [VU 0; VU 55]));
                mkCmd 54 (cmd_trx r2) (Some (Pst general_RetUIMode [VU old]))], [CUIMode]).
Proof.
  exists (req 55 (Pst general_SetUIMode [VU 1])), (req 53 (Pst general_GetUIMode [])), 1%N, 0%N.
  split; [reflexivity|]. split; [reflexivity|]. split; [discriminate|]. vm_compute. reflexivity.
Qed.
Print Assumptions C31_refuted.

(** ** C32 *)

Theorem C32_acks {S} (dev : DeviceGeneral S) req l h :
  cmd_payload req = Some (PTokens l) -> Forall consistent_token l ->
  post (HandleGeneral std_registry dev req) h
    (fun _ _ evs => exists c acks, evs = map (fun t => Called (CSetToken t)) l ++ [Wrote c]
       /\ is_reply c (cmd_trx req) (PTokenAcks acks)
       /\ Forall2 (fun v a => ta_type a = tv_type v /\ ta_sub a = tv_sub v
            /\ match ta_ack a with
               | Some b => known_token (tv_type v) (tv_sub v) /\ ack_content (tv_token v) b
               | None => ~ known_token (tv_type v) (tv_sub v)
               end) l acks).
Proof. exact (token_acks dev req l h). Qed.
Print Assumptions C32_acks.

(** Decoded token lists meet the hypothesis. *)
Theorem C32_decoded rt reg e pkt e' c x l :
  UnmarshalCmd rt reg e pkt = Ret (e', c, x) -> cmd_payload c = Some (PTokens l) ->
  Forall consistent_token l.
Proof. exact (decoded_tokens rt reg e pkt e' c x l). Qed.
Print Assumptions C32_decoded.

(** The tool's device. *)
Theorem C32_kept reqs h :
  post (serve (HandleGeneral std_registry DevGeneral_device) reqs) h
    (fun h' _ _ => dg_tokens (h_dev h') = tokens_since_start (dg_tokens (h_dev h)) reqs).
Proof. exact (serve_tokens reqs h). Qed.
Print Assumptions C32_kept.

Definition tok1 : token_value := mkTV 0 1 (TokStruct general_FIDAccCapsToken [VU 5]).
Definition tok2 : token_value := mkTV 0 3 (TokStruct general_FIDiPodPreferenceToken [VU 9; VU 1; VU 1]).

Example C32_case :
  outcome_of (serve (HandleGeneral std_registry DevGeneral_device)
    [req 56 (Pst general_StartIDPS []); req 57 (PTokens [tok1; tok2])] h0)
  = Some ([mkCmd 2 (Some 7%N) (Some (Pst general_ACK [VU 0; VU 56]));
           mkCmd 58 (Some 7%N) (Some (PTokenAcks [mkTA 0 1 (Some [x00]); mkTA 0 3 (Some [x00; x09])]))],
          [CStartIDPS; CSetToken tok1; CSetToken tok2])
  /\ Forall consistent_token [tok1; tok2].
Proof.
  split; [vm_compute; reflexivity|].
  apply Forall_cons; [apply cons_struct; [constructor|reflexivity]|].
  apply Forall_cons; [apply cons_struct; [constructor|reflexivity]|]. constructor.
Qed.

(** ** C33 *)

Theorem C33_certificate {S} (dev : DeviceGeneral S) reqs r h :
  Forall request_ok (reqs ++ [r]) ->
  post (serve (HandleGeneral std_registry dev) reqs) h (fun h1 _ _ =>
    post (HandleGeneral std_registry dev r) h1 (fun _ _ evs =>
      if match section r with Some (n, last, _) => (last <=? n)%N | None => false end
      then exists cert, certs evs = [cert]
           /\ ((exists pre r0 suf, reqs ++ [r] = pre ++ r0 :: suf /\ first_section r0
                  /\ Forall (fun r => ~ first_section r) suf /\ cert = sections_data (r0 :: suf))
               \/ (Forall (fun r => ~ first_section r) (reqs ++ [r])
                   /\ cert = h_cert h ++ sections_data (reqs ++ [r])))
      else certs evs = [])).
Proof. exact (certificate dev reqs r h). Qed.
Print Assumptions C33_certificate.

(** Sections 0..n in order, with any other messages between them. *)
Theorem C33_whole {S} (dev : DeviceGeneral S) reqs ds h :
  Forall request_ok reqs -> ds <> [] -> sections reqs = whole_certificate ds ->
  post (serve (HandleGeneral std_registry dev) reqs) h (fun _ _ evs => certs evs = [List.concat ds]).
Proof. exact (certificate_once dev reqs ds h). Qed.
Print Assumptions C33_whole.

Definition auth (n last : N) (d : bytes) : command :=
  req 21 (Pst general_RetDevAuthenticationInfo [VU 2; VU 0; VU n; VU last; VBytes d]).

Example C33_case :
  let reqs := [auth 0 1 [x0a]; req 3 (Pst general_RequestRemoteUIMode []); auth 1 1 [x0b; x0c]] in
  Forall request_ok reqs /\ sections reqs = whole_certificate [[x0a]; [x0b; x0c]]
  /\ match HandleGeneral std_registry DevGeneral_device (auth 0 1 [x0a]) h0 with
     | Ret (h1, _) =>
         outcome_of (HandleGeneral std_registry DevGeneral_device (auth 1 1 [x0b; x0c]) h1)
         = Some ([mkCmd 2 (Some 7%N) (Some (Pst general_ACK [VU 0; VU 21]));
                  mkCmd 22 (Some 7%N) (Some (Pst general_AckDevAuthenticationInfo [VU 0]));
                  mkCmd 23 (Some 7%N) (Some (Pst general_GetDevAuthenticationSignatureV2
                                               [VArr (repeat x00 20); VU 0]))],
                 [CAccAuthCert [x0a; x0b; x0c]])
     | Panic => False
     end.
Proof.
  split; [|split; [reflexivity|vm_compute; reflexivity]].
  apply Forall_cons; [reflexivity|]. apply Forall_cons; [reflexivity|].
  apply Forall_cons; [reflexivity|]. constructor.
Qed.

(** ** C34 *)

Theorem C34_end {S} (dev : DeviceGeneral S) req status h :
  is_request req general_EndIDPS [VU status] ->
  post (HandleGeneral std_registry dev req) h
    (fun h' _ evs => exists rest, evs = Called (CEndIDPS status) :: rest
       /\ (status = 0%N -> exists c1 c2, rest = [Wrote c1; Wrote c2]
             /\ is_reply c1 (cmd_trx req) (Pst general_IDPSStatus [VU 0]) /\ next_auth h c2)
       /\ (status = 1%N -> exists c, rest = [Wrote c] /\ is_reply c (cmd_trx req) (Pst general_IDPSStatus [VU 4]))
       /\ (status = 2%N -> exists c, rest = [Wrote c] /\ is_reply c (cmd_trx req) (Pst general_IDPSStatus [VU 6]))
       /\ ((2 < status)%N -> rest = [])).
Proof. exact (end_idps dev req status h). Qed.
Print Assumptions C34_end.

Theorem C34_start {S} (dev : DeviceGeneral S) r vs h :
  is_request r general_StartIDPS vs ->
  post (HandleGeneral std_registry dev r) h
    (fun h' _ evs => h_trx h' = 0%N
       /\ exists c, evs = [Called CStartIDPS; Wrote c] /\ is_reply c (cmd_trx r) (success_ack r)).
Proof. exact (start_idps dev r vs h). Qed.
Print Assumptions C34_start.

Theorem C34_first_number {S} (dev : DeviceGeneral S) r vs r2 h :
  is_request r general_StartIDPS vs -> is_request r2 general_EndIDPS [VU 0] ->
  post (run _ <- HandleGeneral std_registry dev r; HandleGeneral std_registry dev r2) h
    (fun _ _ evs => exists before c, evs = before ++ [Wrote c]
       /\ is_reply c (Some 1%N) (Pst general_GetDevAuthenticationInfo [])).
Proof. exact (start_then_send dev r vs r2 h). Qed.
Print Assumptions C34_first_number.

(** No other general request changes the counter. *)
Theorem C34_counter {S} (dev : DeviceGeneral S) req h :
  request_ok req ->
  post (HandleGeneral std_registry dev req) h
    (fun h' _ _ => h_trx h' = match cmd_payload req with
                              | Some (Pst general_StartIDPS _) => 0%N
                              | Some (Pst general_EndIDPS [VU 0]) => ((h_trx h + 1) mod 2 ^ 32)%N
                              | _ => h_trx h
                              end).
Proof. exact (counter_changes dev req h). Qed.
Print Assumptions C34_counter.

Example C34_case :
  outcome_of (serve (HandleGeneral std_registry DevGeneral_device)
    [req 56 (Pst general_StartIDPS []); req 59 (Pst general_EndIDPS [VU 0]);
     req 59 (Pst general_EndIDPS [VU 2]); req 59 (Pst general_EndIDPS [VU 9])] h0)
  = Some ([mkCmd 2 (Some 7%N) (Some (Pst general_ACK [VU 0; VU 56]));
           mkCmd 60 (Some 7%N) (Some (Pst general_IDPSStatus [VU 0]));
           mkCmd 20 (Some 1%N) (Some (Pst general_GetDevAuthenticationInfo []));
           mkCmd 60 (Some 7%N) (Some (Pst general_IDPSStatus [VU 6]))],
          [CStartIDPS; CEndIDPS 0; CEndIDPS 2; CEndIDPS 9])%N.
Proof. vm_compute. reflexivity. Qed.

(** ** C35 *)

Theorem C35_audio_start {S} clock (dev : DeviceGeneral S) req h :
  request_ok req ->
  post (handlePacket std_registry clock dev req) h
    (fun _ _ evs =>
       if starts_audio req
       then exists c rest, evs = Wrote c :: rest
            /\ is_reply c (Some ((h_trx h + 1) mod 2 ^ 32 mod 65536)%N) (Pst audio_GetAccSampleRateCaps [])
            /\ no_audio_start rest
       else no_audio_start evs).
Proof. exact (audio_start clock dev req h). Qed.
Print Assumptions C35_audio_start.

Example C35_case :
  starts_audio (auth 1 1 [x0b]) = true /\ starts_audio (auth 0 1 [x0b]) = false
  /\ option_map fst (outcome_of (handlePacket std_registry clock0 DevGeneral_device (auth 1 1 [x0b]) h0))
     = Some [mkCmd (10 * 65536 + 2) (Some 42%N) (Some (Pst audio_GetAccSampleRateCaps []));
             mkCmd 22 (Some 7%N) (Some (Pst general_AckDevAuthenticationInfo [VU 0]));
             mkCmd 23 (Some 7%N) (Some (Pst general_GetDevAuthenticationSignatureV2
                                          [VArr (repeat x00 20); VU 0]))].
Proof. vm_compute. repeat split. Qed.

(** ** C36 *)

Theorem C36_general {S} (dev : DeviceGeneral S) req h :
  request_ok req ->
  post (HandleGeneral std_registry dev req) h
    (fun _ _ evs => of_types (written evs)
       (general_replies (snd (dev_UIMode dev (h_dev h)) =? 1)%N (cmd_payload req))).
Proof. exact (general_table dev req h). Qed.
Print Assumptions C36_general.

Theorem C36_ext {S} req (h : hstate S) :
  post (HandleExtRemote std_registry req) h
    (fun _ _ evs => of_types (written evs) (simple_replies ext_rows (cmd_payload req))).
Proof. exact (ext_table req h). Qed.
Print Assumptions C36_ext.

Theorem C36_disp {S} clock req (h : hstate S) :
  request_ok req ->
  post (HandleDispRemote std_registry clock req) h
    (fun _ _ evs => of_types (written evs) (disp_replies (cmd_payload req))).
Proof. exact (disp_table clock req h). Qed.
Print Assumptions C36_disp.

Theorem C36_audio {S} req (h : hstate S) :
  post (HandleAudio std_registry req) h
    (fun _ _ evs => of_types (written evs) (simple_replies audio_rows (cmd_payload req))).
Proof. exact (audio_table req h). Qed.
Print Assumptions C36_audio.

(** An unknown general command is refused with status 5 and its own id. *)
Theorem C36_unknown {S} (dev : DeviceGeneral S) req l h :
  cmd_payload req = Some (PUnknown l) ->
  post (HandleGeneral std_registry dev req) h
    (fun _ _ evs => exists c, evs = [Wrote c]
       /\ is_reply c (cmd_trx req) (Pst general_ACK [VU 5; VU (cmd_id req mod 65536 mod 256)])%N).
Proof. exact (unknown_refused dev req l h). Qed.
Print Assumptions C36_unknown.

(** Every acknowledgement of every lingo tells the status of its request. *)
Theorem C36_status {S} clock (dev : DeviceGeneral S) req h :
  post (handlePacket std_registry clock dev req) h
    (fun _ _ evs => Forall (acked_as (request_status (cmd_payload req))) (written evs)).
Proof. exact (packet_status clock dev req h). Qed.
Print Assumptions C36_status.

Example C36_status_case :
  outcome_of (handlePacket std_registry clock0 DevGeneral_device
                (req 100 (Pst general_RequestApplicationLaunch [VU 0; VU 0; VU 0; VBytes []])) h0)
  = Some ([mkCmd 2 (Some 7%N) (Some (Pst general_ACK [VU 2; VU 100]))], [])%N
  /\ acked_as (request_status (Some (Pst general_RequestApplicationLaunch [VU 0; VU 0; VU 0; VBytes []])))
       (mkCmd 2 (Some 7%N) (Some (Pst general_ACK [VU 2; VU 100]%N))).
Proof. split; [vm_compute; reflexivity|]. exists 100%N. reflexivity. Qed.

Example C36_case :
  outcome_of (HandleGeneral std_registry DevGeneral_device (mkCmd 200 None (Some (PUnknown [x01]))) h0)
  = Some ([mkCmd 2 None (Some (Pst general_ACK [VU 5; VU 200]))], [])%N
  /\ outcome_of (HandleGeneral std_registry DevGeneral_device (mkCmd 56 None None) h0) = Some ([], [])
  /\ outcome_of (HandleDispRemote std_registry clock0 (req (3 * 65536 + 12) (Pst disp_GetiPodStateInfo [VU 9])) h0)
     = Some ([mkCmd (3 * 65536 + 13) (Some 7%N) (Some (PStateInfo 9 (IPtr disp_InfoDateTime
                [VU 2024; VU 5; VU 17; VU 12; VU 30])))], [])%N.
Proof. vm_compute. repeat split. Qed.

(** ** C37 *)

(** Exactly the replies of six types, and ack lists with a missing ack, cannot be marshalled. *)
Theorem C37_unsent {S} clock (dev : DeviceGeneral S) req h rt e :
  answers_ok dev (h_dev h) -> request_ok req ->
  post (handlePacket std_registry clock dev req) h (fun _ _ evs =>
    Forall (fun c => (marshals rt e c <-> ~ unsendable c)
                     /\ (rt = false -> unsendable c -> marshal_fails rt e c)) (written evs)).
Proof. exact (packet_marshals clock dev req h rt e). Qed.
Print Assumptions C37_unsent.

(** An ack is missing exactly when one of the tokens is unknown. *)
Theorem C37_missing_ack {S} (dev : DeviceGeneral S) req h l :
  cmd_payload req = Some (PTokens l) -> Forall consistent_token l ->
  post (HandleGeneral std_registry dev req) h (fun _ _ evs =>
    exists c, written evs = [c]
      /\ (missing_ack c <-> Exists (fun v => ~ known_token (tv_type v) (tv_sub v)) l)).
Proof. exact (missing_ack_iff dev req h l). Qed.
Print Assumptions C37_missing_ack.

Theorem C37_refuted :
  exists r c, request_ok r
    /\ outcome_of (handlePacket std_registry clock0 DevGeneral_device r h0) = Some ([c], [])
    /\ forall rt e, ~ marshals rt e c.
Proof.
  exists (req 26 (Pst general_GetiPodAuthenticationInfo [])).
  exists (mkCmd 27 (Some 7%N) (Some (Pst general_RetiPodAuthenticationInfo [VU 1; VU 1; VU 0; VU 0; VBytes []]))).
  split; [reflexivity|]. split; [vm_compute; reflexivity|].
  intros rt e (e' & b & H). destruct rt; vm_compute in H; discriminate.
Qed.
Print Assumptions C37_refuted.

(** The tool's device gives answers of the right types. *)
Theorem C37_tool_device s : u8 (dg_uimode s) -> answers_ok DevGeneral_device s.
Proof. exact (DevGeneral_answers s). Qed.
Print Assumptions C37_tool_device.

(** ** C69 *)

Theorem C69_answers {S} (dev : DeviceGeneral S) r p h :
  device_answer dev (h_dev h) r p ->
  post (HandleGeneral std_registry dev r) h
    (fun _ _ evs => exists c, written evs = [c] /\ is_reply c (cmd_trx r) p).
Proof. exact (device_answers dev r p h). Qed.
Print Assumptions C69_answers.

Example C69_case :
  device_answer DevGeneral_device (h_dev h0) (req 7 (Pst general_RequestiPodName []))
    (Pst general_ReturniPodName [VBytes (list_byte_of_string "ipod-gadget" ++ [x00])])
  /\ outcome_of (HandleGeneral std_registry DevGeneral_device (req 9 (Pst general_RequestiPodSoftwareVersion [])) h0)
     = Some ([mkCmd 10 (Some 7%N) (Some (Pst general_ReturniPodSoftwareVersion [VU 7; VU 1; VU 2]))],
             [CSoftwareVersion]).
Proof.
  split; [|vm_compute; reflexivity].
  apply (da_name DevGeneral_device (h_dev h0) _ []). reflexivity.
Qed.

(** ** C70 *)

Theorem C70_calls {S} (dev : DeviceGeneral S) r h :
  request_ok r ->
  post (HandleGeneral std_registry dev r) h
    (fun _ _ evs => calls evs
       = device_calls (snd (dev_UIMode dev (h_dev h)) =? 1)%N (h_cert h) (cmd_payload r)).
Proof. exact (device_called dev r h). Qed.
Print Assumptions C70_calls.

(** Over any history of packets: the device is in the state its calls, and nothing else, lead to. *)
Theorem C70_state {S} clock (dev : DeviceGeneral S) reqs h :
  post (serve (handlePacket std_registry clock dev) reqs) h
    (fun h' _ evs => h_dev h' = fold_left (after_call dev) (calls evs) (h_dev h)).
Proof. exact (serve_after clock dev reqs h). Qed.
Print Assumptions C70_state.

Example C70_case :
  outcome_of (HandleGeneral std_registry DevGeneral_device
                (req 43 (Pst general_SetiPodPreferences [VU 3; VU 2; VU 1])) h0)
  = Some ([mkCmd 2 (Some 7%N) (Some (Pst general_ACK [VU 0; VU 43]))], [CSetPrefSettingID 3 2 true])%N.
Proof. vm_compute. reflexivity. Qed.

(** ** C71 *)

(** Replies for the info types 1..7 consist of the type byte alone. *)
Theorem C71_text_lost {S} clock r ty rest (h : hstate S) rt e :
  is_request r disp_GetIndexedPlayingTrackInfo (VU ty :: rest) -> (1 <= ty <= 7)%N ->
  post (HandleDispRemote std_registry clock r) h
    (fun _ _ evs => exists c, written evs = [c] /\ reply_type c = Some disp_RetIndexedPlayingTrackInfo
       /\ MarshalCmd rt e c
          = Ret (e, Ok ([x03; x13] ++ match cmd_trx r with
                                      | Some t => if e then trx_bytes t else []
                                      | None => [] end ++ [n2b ty]))).
Proof. exact (track_text_lost clock r ty rest h rt e). Qed.
Print Assumptions C71_text_lost.

(** The title the handler puts in the reply never leaves. *)
Theorem C71_refuted :
  exists r c title, request_ok r
    /\ outcome_of (HandleDispRemote std_registry clock0 r h0) = Some ([c], [])
    /\ cmd_payload c = Some (PDispTrackInfo 5 (IPtr disp_TrackInfoTrack [VBytes title]))
    /\ title = list_byte_of_string "track" ++ [x00]
    /\ MarshalCmd false true c = Ret (true, Ok [x03; x13; x00; x07; x05]).
Proof.
  exists (req (3 * 65536 + 18) (Pst disp_GetIndexedPlayingTrackInfo [VU 5; VU 0; VU 0])).
  eexists. eexists. split; [reflexivity|]. split; [vm_compute; reflexivity|].
  split; [reflexivity|]. split; reflexivity.
Qed.
Print Assumptions C71_refuted.
