(** Properties C12-C27: command ids, serialisation, registry, replies, transaction numbers. *)
From Coq Require Import Permutation Sorted Ascii.
From Verif Require Import Base GoTypes Types Payload Lingo Command SpecPayload SpecCommand
  LingoFacts CommandFacts CommandThms CommandProps TypedThms.

(** ** C12 *)

Theorem C12_parts l c :
  (l < 256)%N -> (c < 65536)%N ->
  LingoID (NewLingoCmdID l c) = l /\ CmdID (NewLingoCmdID l c) = c.
Proof. exact (fun Hl Hc => conj (LingoID_New l c Hl Hc) (CmdID_New l c Hc)). Qed.
Print Assumptions C12_parts.

Theorem C12_injective l c l' c' :
  (l < 256)%N -> (c < 65536)%N -> (l' < 256)%N -> (c' < 65536)%N ->
  NewLingoCmdID l c = NewLingoCmdID l' c' -> l = l' /\ c = c'.
Proof. exact (New_inj l c l' c'). Qed.
Print Assumptions C12_injective.

Theorem C12_repack id : (id < 2 ^ 24)%N -> NewLingoCmdID (LingoID id) (CmdID id) = id.
Proof. exact (New_parts id). Qed.
Print Assumptions C12_repack.

Example C12_case :
  NewLingoCmdID 4 769 = 262913%N /\ LingoID 262913 = 4%N /\ CmdID 262913 = 769%N.
Proof. repeat split. Qed.

(** ** C13 *)

Theorem C13_roundtrip id rest :
  wire_id id ->
  marshalLingoCmdID id = id_prefix id
  /\ unmarshalLingoCmdID (marshalLingoCmdID id ++ rest) = (Ok id, rest).
Proof. exact (fun H => conj (marshal_id_prefix id (proj1 H)) (id_roundtrip id rest H)). Qed.
Print Assumptions C13_roundtrip.

(** Parsing any packet: the id is the one at its front, the rest is its body. *)
Theorem C13_parse pkt id :
  packet_id pkt = Some id -> unmarshalLingoCmdID pkt = (Ok id, packet_body pkt).
Proof. intros H. pose proof (unmarshal_id_spec pkt) as U. rewrite H in U. exact (proj1 U). Qed.
Print Assumptions C13_parse.

Theorem C13_truncation l c :
  (l < 256)%N -> (c < 65536)%N -> l <> 4%N ->
  marshalLingoCmdID (NewLingoCmdID l c) = [n2b l; n2b (c mod 256)]
  /\ forall rest, unmarshalLingoCmdID (marshalLingoCmdID (NewLingoCmdID l c) ++ rest)
                  = (Ok (NewLingoCmdID l (c mod 256)), rest).
Proof. exact (truncated_id l c). Qed.
Print Assumptions C13_truncation.

Theorem C13_short_packet rt reg e pkt :
  (pkt = [] \/ List.length pkt = 1 \/ exists c, pkt = [x04; c]) ->
  exists x, UnmarshalCmd rt reg e pkt = Ret (e, mkCmd 0 None None, Some x).
Proof. exact (short_packet rt reg e pkt). Qed.
Print Assumptions C13_short_packet.

Example C13_case :
  wire_id 262913 /\ id_prefix 262913 = [x04; x03; x01]
  /\ wire_id 56 /\ id_prefix 56 = [x00; x38]
  /\ ~ wire_id 769 /\ marshalLingoCmdID 769 = [x00; x01].
Proof.
  unfold wire_id. repeat split; try reflexivity; try (right; reflexivity); try (left; reflexivity).
  intros [_ [H | H]]; vm_compute in H; discriminate.
Qed.

(** ** C14 *)

(** The receiving serde may even be in another mode. *)
Theorem C14_fixed_roundtrip rt e e2 id tr t n vs :
  In (id, t) std_registry -> fixed_size t n -> typed t vs -> t <> general_ACKDataDropped ->
  (forall x, tr = Some x -> u16 x) ->
  exists b, MarshalCmd rt e (mkCmd id tr (Some (Pst t vs))) = Ret (mode_after e [id], Ok b)
    /\ UnmarshalCmd rt std_registry e2 b
       = Ret (mode_after e2 [id],
              mkCmd id (if mode_after e [id] then tr else None) (Some (Pst t vs)), None).
Proof.
  exact (fun Hin Hn Ht Hd Hx => fixed_roundtrip_gen rt e e2 id tr t n vs Hin Hn Ht Hx (or_introl Hd)).
Qed.
Print Assumptions C14_fixed_roundtrip.

(** ACKDataDropped too, when it is sent with a transaction. *)
Theorem C14_ackdatadropped_with_trx rt e e2 x vs :
  typed general_ACKDataDropped vs -> u16 x -> e = true ->
  exists b, MarshalCmd rt e (mkCmd 2 (Some x) (Some (Pst general_ACKDataDropped vs))) = Ret (true, Ok b)
    /\ UnmarshalCmd rt std_registry e2 b
       = Ret (e2, mkCmd 2 (Some x) (Some (Pst general_ACKDataDropped vs)), None).
Proof.
  intros Ht Hx ->.
  refine (fixed_roundtrip_gen rt true e2 2 (Some x) general_ACKDataDropped 8 vs _ _ Ht _ _).
  - apply id_of_in. reflexivity.
  - reflexivity.
  - intros y E. injection E as <-. exact Hx.
  - right. split; [reflexivity|discriminate].
Qed.
Print Assumptions C14_ackdatadropped_with_trx.

Example C14_case :
  In (2%N, general_ACKPending) std_registry
  /\ fixed_size general_ACKPending 6
  /\ typed general_ACKPending [VU 6; VU 23; VU 1000]
  /\ MarshalCmd true true (mkCmd 2 (Some 7%N) (Some (Pst general_ACKPending [VU 6; VU 23; VU 1000])))
     = Ret (true, Ok [x00; x02; x00; x07; x06; x17; x00; x00; x03; xe8]).
Proof. repeat split. apply id_of_in. reflexivity. Qed.

(** ** C15 *)

Theorem C15_variable_roundtrip rt e id tr p t :
  sendable rt p -> payload_type p = Some t -> In (id, t) std_registry ->
  (forall x, tr = Some x -> u16 x) ->
  (tr <> None <-> mode_after e [id] = true) ->
  exists b, MarshalCmd rt e (mkCmd id tr (Some p)) = Ret (mode_after e [id], Ok b)
    /\ UnmarshalCmd rt std_registry e b = Ret (mode_after e [id], mkCmd id tr (Some p), None).
Proof. exact (variable_roundtrip rt e id tr p t). Qed.
Print Assumptions C15_variable_roundtrip.

(** Without the condition on the mode the round trip fails: a name sent without a transaction
    loses its first two characters in transaction mode (finding). *)
Theorem C15_unconditional_refuted :
  exists id p b, MarshalCmd true true (mkCmd id None (Some p)) = Ret (true, Ok b)
    /\ sendable true p
    /\ exists q, UnmarshalCmd true std_registry true b = Ret (true, mkCmd id (Some 26991%N) (Some q), None)
       /\ q = Pst general_ReturniPodName [VBytes [x64]].
Proof.
  exists 8%N, (Pst general_ReturniPodName [VBytes [x69; x6f; x64]]). eexists.
  split; [reflexivity|]. split; [apply sd_string; cbn; auto|]. eexists. split; reflexivity.
Qed.
Print Assumptions C15_unconditional_refuted.

Example C15_case :
  let p := PTokens [mkTV 0 0 (TokIdentify [x00; x03] 1 2); mkTV 0 3 (TokStruct general_FIDiPodPreferenceToken [VU 1; VU 2; VU 3])] in
  sendable true p /\ In (57%N, general_SetFIDTokenValues) std_registry
  /\ exists b, MarshalCmd true true (mkCmd 57 (Some 9%N) (Some p)) = Ret (true, Ok b)
     /\ b = [x00; x39; x00; x09; x02;
             x0d; x00; x00; x02; x00; x03; x00; x00; x00; x01; x00; x00; x00; x02;
             x05; x00; x03; x01; x02; x03].
Proof.
  split; [|split].
  - apply sd_tokens; [cbn; lia|]. repeat constructor; cbn; try lia; unfold u32; lia.
  - apply id_of_in. reflexivity.
  - eexists. split; reflexivity.
Qed.

(** ** C16 *)

(** Whatever is decoded has the first registered type whose size fits the body, with a
    transaction iff the body is two bytes longer, whatever the mode; only when no size fits and
    the id has one type, does the mode decide. *)
Theorem C16_selection rt reg e pkt e' c :
  UnmarshalCmd rt reg e pkt = Ret (e', c, None) ->
  exists t p, cmd_payload c = Some p /\ payload_type p = Some t
    /\ packet_id pkt = Some (cmd_id c)
    /\ let n := List.length (packet_body pkt) in
       let b := match cmd_trx c with Some _ => true | None => false end in
       (exists pre post, types_of reg (cmd_id c) = pre ++ t :: post /\ size_match t n b
          /\ forall u k, In u pre -> ~ size_match u n k)
       \/ (types_of reg (cmd_id c) = [t] /\ b = e' /\ forall k, ~ size_match t n k).
Proof. exact (selection rt reg e pkt e' c). Qed.
Print Assumptions C16_selection.

(** Finding: without a transaction on the wire an ACKDataDropped always comes back as an
    ACKPending with a transaction, whatever the modes. *)
Theorem C16_ackdatadropped_confused rt e tr vs :
  typed general_ACKDataDropped vs ->
  wire_trx e tr = [] ->
  exists b t vs', MarshalCmd rt e (mkCmd 2 tr (Some (Pst general_ACKDataDropped vs))) = Ret (e, Ok b)
    /\ forall e2, UnmarshalCmd rt std_registry e2 b
       = Ret (e2, mkCmd 2 (Some t) (Some (Pst general_ACKPending vs')), None).
Proof. exact (ackdatadropped_confused rt e tr vs). Qed.
Print Assumptions C16_ackdatadropped_confused.

(** No other confusion: every other fixed-size type is recognised in both forms, whatever the
    receiver's mode. *)
Theorem C16_no_other_confusion rt e e2 id tr t n vs :
  In (id, t) std_registry -> fixed_size t n -> typed t vs ->
  (forall x, tr = Some x -> u16 x) ->
  (t <> general_ACKDataDropped \/ (mode_after e [id] = true /\ tr <> None)) ->
  exists b c, MarshalCmd rt e (mkCmd id tr (Some (Pst t vs))) = Ret (mode_after e [id], Ok b)
    /\ UnmarshalCmd rt std_registry e2 b = Ret (mode_after e2 [id], c, None)
    /\ cmd_payload c = Some (Pst t vs).
Proof.
  intros Hin Hn Ht Hx Hc.
  destruct (fixed_roundtrip_gen rt e e2 id tr t n vs Hin Hn Ht Hx Hc) as (b & E1 & E2).
  exact (ex_intro _ b (ex_intro _ _ (conj E1 (conj E2 eq_refl)))).
Qed.
Print Assumptions C16_no_other_confusion.

Example C16_case :
  typed general_ACKDataDropped [VU 8; VU 66; VU 5; VU 100]
  /\ wire_trx false (Some 3%N) = []
  /\ UnmarshalCmd true std_registry false [x00; x02; x08; x42; x00; x05; x00; x00; x00; x64]
     = Ret (false, mkCmd 2 (Some 2114%N) (Some (Pst general_ACKPending [VU 0; VU 5; VU 100])), None)
  /\ types_of std_registry 2 = [general_ACK; general_ACKPending; general_ACKDataDropped].
Proof. repeat split. Qed.

(** ** C17 *)

Theorem C17_mode_history rt reg ops e e' :
  serde_run rt reg e ops = Ret e' -> e' = mode_after e (ids_seen ops).
Proof. exact (serde_run_mode rt reg ops e e'). Qed.
Print Assumptions C17_mode_history.

(** That is: what the last of the three commands says, whatever came before it, and the initial
    mode if there was none. *)
Theorem C17_last_control rt reg e ops e' pre id m post :
  serde_run rt reg e ops = Ret e' -> ids_seen ops = pre ++ id :: post ->
  controls id = Some m -> Forall (fun i => controls i = None) post -> e' = m.
Proof.
  intros R E C F. apply C17_mode_history in R. subst e'. exact (mode_last e _ pre id m post E C F).
Qed.
Print Assumptions C17_last_control.

Theorem C17_no_control rt reg e ops e' :
  serde_run rt reg e ops = Ret e' -> Forall (fun i => controls i = None) (ids_seen ops) -> e' = e.
Proof. intros R F. apply C17_mode_history in R. subst e'. exact (mode_none e _ F). Qed.
Print Assumptions C17_no_control.

Example C17_case :
  serde_run true std_registry false
    [SUnmarshal [x00; x38; x00; x01]; SUnmarshal [x00; xee; x01]; SMarshal (mkCmd 39 None None); SUnmarshal [x04]]
  = Ret true
  /\ ids_seen [SUnmarshal [x00; x38; x00; x01]; SUnmarshal [x00; xee; x01]; SMarshal (mkCmd 39 None None); SUnmarshal [x04]]
     = [56; 238; 39]%N.
Proof. split; reflexivity. Qed.

(** ** C18 *)

Theorem C18_wire_form rt e id tr p e' b :
  (id < 2 ^ 24)%N -> wire_specified rt p ->
  MarshalCmd rt e (mkCmd id tr (Some p)) = Ret (e', Ok b) ->
  e' = mode_after e [id]
  /\ exists pb, payload_wire p pb
       /\ b = id_prefix id ++ match e', tr with true, Some t => trx_bytes t | _, _ => [] end ++ pb.
Proof. exact (marshal_wire rt e id tr p e' b). Qed.
Print Assumptions C18_wire_form.

(** The same for any payload, in terms of what its own encoder returns. *)
Theorem C18_any_payload rt e id tr p e' b :
  (id < 2 ^ 24)%N ->
  MarshalCmd rt e (mkCmd id tr (Some p)) = Ret (e', Ok b) ->
  exists pb, payload_bytes rt p pb
    /\ b = id_prefix id ++ match mode_after e [id], tr with true, Some t => trx_bytes t | _, _ => [] end ++ pb.
Proof. exact (marshal_shape rt e id tr p e' b). Qed.
Print Assumptions C18_any_payload.

(** The values called [typed] here and elsewhere are those that have a wire form. *)
Theorem C18_values t vs n : fixed_size t n -> typed t vs <-> exists b, struct_wire (layout t) vs b.
Proof. exact (typed_iff t vs n). Qed.
Print Assumptions C18_values.

(** The types called [fixed_size] are those with integers, booleans and arrays only, and the size is the
    length of every wire form. *)
Theorem C18_sizes t n :
  fixed_size t n <-> Forall scalar (layout t) /\ forall vs b, struct_wire (layout t) vs b -> List.length b = n.
Proof. exact (size_iff t n). Qed.
Print Assumptions C18_sizes.

Example C18_case :
  wire_specified true (Pst general_StartIDPS [])
  /\ MarshalCmd true false (mkCmd 56 (Some 258%N) (Some (Pst general_StartIDPS []))) = Ret (true, Ok [x00; x38; x01; x02])
  /\ MarshalCmd true true (mkCmd 19 (Some 258%N) (Some (Pst general_IdentifyDeviceLingoes [VU 1; VU 2; VU 3])))
     = Ret (false, Ok [x00; x13; x00; x00; x00; x01; x00; x00; x00; x02; x00; x00; x00; x03]).
Proof. repeat split. right. right. exists general_StartIDPS, [], 0. repeat split. Qed.

(** ** C19 *)

Theorem C19_unknown_verbatim rt reg e pkt id :
  packet_id pkt = Some id ->
  (forall u c, In u (types_of reg id) -> ~ size_match u (List.length (packet_body pkt)) c) ->
  List.length (types_of reg id) <> 1 ->
  exists x, UnmarshalCmd rt reg e pkt
  = Ret (mode_after e [id], mkCmd id None (Some (PUnknown (packet_body pkt))), Some x).
Proof. exact (unknown_verbatim rt reg e pkt id). Qed.
Print Assumptions C19_unknown_verbatim.

Theorem C19_unregistered rt reg e pkt id :
  packet_id pkt = Some id -> (forall t, ~ In (id, t) reg) ->
  exists x, UnmarshalCmd rt reg e pkt
  = Ret (mode_after e [id], mkCmd id None (Some (PUnknown (packet_body pkt))), Some x).
Proof.
  intros P H. refine (unknown_verbatim rt reg e pkt id P _ _); rewrite (types_of_nil reg id H).
  - intros u c [].
  - discriminate.
Qed.
Print Assumptions C19_unregistered.

Example C19_case :
  (forall t, ~ In (238%N, t) std_registry)
  /\ UnmarshalCmd true std_registry true [x00; xee; x01; x02; x03]
     = Ret (true, mkCmd 238 None (Some (PUnknown [x01; x02; x03])), Some (errUnknownCmd 238))
  /\ UnmarshalCmd true std_registry true [x00; x02; x01]
     = Ret (true, mkCmd 2 None (Some (PUnknown [x01])), Some (errUnknownCmd 2)).
Proof.
  split; [|split; reflexivity]. intros t H. apply types_of_in in H. vm_compute in H. exact H.
Qed.

(** ** C20 *)

Theorem C20_panic_iff rt e pkt :
  UnmarshalCmd rt std_registry e pkt = Panic <->
  exists id t pre body, packet_id pkt = Some id /\ In (id, t) std_registry
    /\ packet_body pkt = pre ++ body /\ List.length pre = (if e then 2 else 0)
    /\ crashing_body rt t body.
Proof. exact (UnmarshalCmd_panic rt e pkt). Qed.
Print Assumptions C20_panic_iff.

(** Finding: short application-launch requests, and one token record, crash the decoder on
    every Go version. *)
Theorem C20_never_panics_refuted :
  exists pkt1 pkt2, forall rt, UnmarshalCmd rt std_registry false pkt1 = Panic
    /\ UnmarshalCmd rt std_registry false pkt2 = Panic.
Proof.
  exists [x00; x64; x00; x01], [x00; x39; x01; x02; x00; x04]. intros rt.
  split; destruct rt; reflexivity.
Qed.
Print Assumptions C20_never_panics_refuted.

Example C20_case :
  crashing_body true general_SetFIDTokenValues [x01; x03; x00; x06; xaa]
  /\ UnmarshalCmd true std_registry false [x00; x39; x01; x03; x00; x06; xaa] = Panic
  /\ UnmarshalCmd false std_registry false [x00; x39; x01; x03; x00; x06; xaa]
     = Ret (false, mkCmd 57 None (Some (PTokens [mkTV 0 6 (TokRaw [xaa])])), None).
Proof.
  split; [|split; reflexivity]. right. split; [reflexivity|].
  exists x01, [x03; x00; x06; xaa], [x00; x06; xaa]. split; [reflexivity|].
  split; [apply (reach_here true 0 x03 [x00; x06; xaa])|]. right. split; [reflexivity|].
  exists x00, x06, [xaa]. split; [reflexivity|]. unfold known_token. vm_compute. intuition discriminate.
Qed.

(** ** C21 *)

(** A body of exactly the size, or of two more bytes, is never short (C16); any other body is
    measured against the size expected in the current mode. *)
Theorem C21_short rt reg e pkt id t n :
  packet_id pkt = Some id -> types_of reg id = [t] -> fixed_size t n ->
  let e' := mode_after e [id] in
  let body := packet_body pkt in
  List.length body <> n -> List.length body < n + (if e' then 2 else 0) ->
  exists tr x, UnmarshalCmd rt reg e pkt = Ret (e', mkCmd id tr None, Some x).
Proof. exact (short_body rt reg e pkt id t n). Qed.
Print Assumptions C21_short.

Theorem C21_long rt reg e pkt id t n :
  packet_id pkt = Some id -> types_of reg id = [t] -> fixed_size t n ->
  let e' := mode_after e [id] in
  let body := packet_body pkt in
  List.length body <> n -> List.length body <> n + 2 -> n + (if e' then 2 else 0) <= List.length body ->
  exists pre front tail vs,
    body = pre ++ front ++ tail
    /\ List.length pre = (if e' then 2 else 0) /\ struct_reads (layout t) vs front
    /\ UnmarshalCmd rt reg e pkt
       = Ret (e', mkCmd id (if e' then Some (number pre) else None) (Some (Pst t vs)), None).
Proof. exact (long_body rt reg e pkt id t n). Qed.
Print Assumptions C21_long.

Example C21_case :
  types_of std_registry 19 = [general_IdentifyDeviceLingoes]
  /\ fixed_size general_IdentifyDeviceLingoes 12
  /\ UnmarshalCmd true std_registry true [x00; x13; x00; x00] = Ret (false, mkCmd 19 None None,
       Some (ErrMsg "ipod.Command unmarshal: binary.Read: unexpected EOF"))
  /\ UnmarshalCmd true std_registry true
       [x00; x13; x00; x00; x00; x01; x00; x00; x00; x02; x00; x00; x00; x03; x63]
     = Ret (false, mkCmd 19 None (Some (Pst general_IdentifyDeviceLingoes [VU 1; VU 2; VU 3])), None).
Proof. repeat split. Qed.

(** ** C22 *)

(** For every payload of a registered type (or raw bytes) without nil interfaces: marshalling
    succeeds exactly for the encodable ones, and otherwise returns an error and no bytes. *)
Theorem C22_marshal_exactly rt e id tr p :
  known_payload std_registry p -> well_formed p -> nil_free p = true ->
  if encodable p
  then exists b, MarshalCmd rt e (mkCmd id tr (Some p)) = Ret (mode_after e [id], Ok b)
  else exists x, MarshalCmd rt e (mkCmd id tr (Some p)) = Ret (mode_after e [id], Err x).
Proof. exact (marshal_exactly rt e id tr p). Qed.
Print Assumptions C22_marshal_exactly.

Theorem C22_nil_payload rt e id tr :
  exists x, MarshalCmd rt e (mkCmd id tr None) = Ret (mode_after e [id], Err x).
Proof. exact (ex_intro _ _ (nil_payload_fails rt e id tr)). Qed.
Print Assumptions C22_nil_payload.

Theorem C22_decoded_never_panics rt e pkt e' c x e2 id tr p :
  UnmarshalCmd rt std_registry e pkt = Ret (e', c, x) -> cmd_payload c = Some p ->
  MarshalCmd rt e2 (mkCmd id tr (Some p)) <> Panic.
Proof. exact (decoded_marshal_no_panic rt e pkt e' c x e2 id tr p). Qed.
Print Assumptions C22_decoded_never_panics.

(** A hand-built payload with a nil interface does panic. *)
Theorem C22_nil_interface_panics rt e id tr ty :
  MarshalCmd rt e (mkCmd id tr (Some (PStateInfo ty INil))) = Panic.
Proof. reflexivity. Qed.
Print Assumptions C22_nil_interface_panics.

Example C22_case :
  let p := Pst general_RetDevAuthenticationInfo [VU 2; VU 0; VU 0; VU 0; VBytes [x01]] in
  known_payload std_registry p /\ well_formed p /\ nil_free p = true /\ encodable p = false
  /\ encodable (Pst general_ACK [VU 0; VU 1]) = true
  /\ exists c, UnmarshalCmd true std_registry false [x00; x15; x02; x00; x00; x00; x01] = Ret (false, c, None)
               /\ cmd_payload c = Some p.
Proof.
  repeat split.
  - exists 21%N. apply id_of_in. reflexivity.
  - eexists. split; reflexivity.
Qed.

(** ** C23 *)

(** LookupID gives the id of the last registration of the type. *)
Theorem C23_lookup_id reg p t :
  payload_type p = Some t ->
  (forall a id b, reg = a ++ (id, t) :: b -> (forall i, ~ In (i, t) b) -> LookupID reg p = Ret (Some id))
  /\ ((forall i, ~ In (i, t) reg) -> LookupID reg p = Ret None).
Proof.
  intros H. unfold LookupID. rewrite H. split.
  - intros a id b -> Hb. f_equal. exact (id_of_last a id t b Hb).
  - intros Hn. f_equal. exact (proj2 (id_of_none reg t) Hn).
Qed.
Print Assumptions C23_lookup_id.

(** The candidates for an id are its registered types, in registration order. *)
Theorem C23_candidates reg id :
  (forall t, In t (types_of reg id) <-> In (id, t) reg)
  /\ (forall t, types_of (reg ++ [(id, t)]) id = types_of reg id ++ [t])
  /\ (forall id' t, id' <> id -> types_of (reg ++ [(id', t)]) id = types_of reg id).
Proof.
  split; [exact (types_of_in reg id)|]. split.
  - intros t. rewrite types_of_app. unfold types_of at 2. cbn. now rewrite N.eqb_refl.
  - intros id' t H. rewrite types_of_app. unfold types_of at 2. cbn.
    destruct (N.eqb_spec id' id); [contradiction|apply app_nil_r].
Qed.
Print Assumptions C23_candidates.

(** Lookup only returns candidates, and finds nothing for unregistered ids. *)
Theorem C23_lookup reg id n mode :
  (forall t b, Lookup reg id n mode = Some (mkLookup t b) -> In (id, t) reg)
  /\ ((forall t, ~ In (id, t) reg) -> Lookup reg id n mode = None).
Proof.
  split.
  - intros t b H. apply types_of_in.
    destruct (Lookup_Some reg id n mode t b H) as [(pre & post & -> & _) | (-> & _)];
      [apply in_elt | now left].
  - intros H. unfold Lookup. now rewrite (types_of_nil reg id H).
Qed.
Print Assumptions C23_lookup.

(** A table with readable tags is registered completely, in order; a bad tag stops it keeping
    the entries before. *)
Theorem C23_register reg lingo pre es :
  table_entries lingo pre es ->
  RegisterLingos reg lingo pre = (reg ++ es, None)
  /\ forall tag t post, bad_tag tag ->
       exists x, RegisterLingos reg lingo (pre ++ (tag, t) :: post) = (reg ++ es, Some x).
Proof.
  exact (fun H => conj (register_all reg lingo pre es H)
                       (fun tag t post Hb => register_bad reg lingo pre es tag t post H Hb)).
Qed.
Print Assumptions C23_register.

(** Shipped tables: every type has one id, and the two maps are inverse. *)
Theorem C23_shipped id t :
  (In (id, t) std_registry <-> id_of std_registry t = Some id) /\ NoDup (map snd std_registry).
Proof. exact (conj (std_inverse id t) std_nodup_types). Qed.
Print Assumptions C23_shipped.

(** The shipped tables are registered completely, each under the id of its lingo. *)
Theorem C23_all_registered :
  exists a d e g s,
    table_entries 10 audio_Lingos a /\ table_entries 3 disp_Lingos d /\ table_entries 4 ext_Lingos e
    /\ table_entries 0 general_Lingos g /\ table_entries 2 simple_Lingos s
    /\ Permutation std_registry (a ++ d ++ e ++ g ++ s).
Proof. exact std_tables. Qed.
Print Assumptions C23_all_registered.

(** Lookups do not depend on the order in which tables without common ids are registered. *)
Theorem C23_table_order tabs tabs' id n mode :
  Permutation tabs tabs' ->
  (forall i j a b, nth_error tabs i = Some a -> nth_error tabs j = Some b -> i <> j ->
     forall x t u, In (x, t) a -> In (x, u) b -> False) ->
  Lookup (List.concat tabs) id n mode = Lookup (List.concat tabs') id n mode.
Proof. intros P H. unfold Lookup. now rewrite (tables_order tabs tabs' id P H). Qed.
Print Assumptions C23_table_order.

Example C23_case :
  table_entries 0 [("0x38", general_StartIDPS); ("0x39", general_SetFIDTokenValues)]%string
                  [(56%N, general_StartIDPS); (57%N, general_SetFIDTokenValues)]
  /\ bad_tag "0x-1" /\ bad_tag "0x10000"
  /\ List.length std_registry = 195.
Proof.
  split; [apply entries_check_ok; reflexivity|]. split; [apply (bad_char "0x-1" 2 "-"); reflexivity|].
  split; [|reflexivity]. apply (bad_large _ 65536); [|lia]. exists "10000"%string.
  split; [reflexivity|]. split; [discriminate|]. apply hexes_number. reflexivity.
Qed.

(** ** C24 *)

(** Whatever duplicate-free order the map iteration yields: every id once, increasing, with the
    first type registered for it. *)
Theorem C24_listing order reg :
  NoDup order -> (forall id, In id order -> exists t, In (id, t) reg) ->
  exists ids lines, Permutation order ids /\ StronglySorted N.lt ids
    /\ Forall2 (listing_line reg) ids lines
    /\ DumpLingos order reg = fold_right append EmptyString lines.
Proof. exact (dump_listing order reg). Qed.
Print Assumptions C24_listing.

Theorem C24_map_order order order' reg :
  NoDup order -> Permutation order order' -> DumpLingos order reg = DumpLingos order' reg.
Proof. exact (dump_order order order' reg). Qed.
Print Assumptions C24_map_order.

Example C24_case :
  let reg := [(56%N, general_StartIDPS); (262144 + 1, ext_ACK)%N; (2%N, general_ACK); (2%N, general_ACKPending)] in
  DumpLingos [262145; 2; 56]%N reg = DumpLingos [56; 262145; 2]%N reg
  /\ DumpLingos [56; 2]%N reg
     = ("(0x00|0x02)" ++ String "009" ("general.ACK" ++ String "010"
        ("(0x00|0x38)" ++ String "009" ("general.StartIDPS" ++ String "010" EmptyString))))%string.
Proof. split; reflexivity. Qed.

(** ** C25 *)

Theorem C25_respond reg req p t :
  payload_type p = Some t ->
  (forall id, LookupID reg p = Ret (Some id) -> Respond reg req p = Ret [mkCmd id (cmd_trx req) (Some p)])
  /\ (LookupID reg p = Ret None -> Respond reg req p = Ret []).
Proof.
  intros H. unfold LookupID. rewrite H, Respond_spec, H. split.
  - intros id E. injection E as ->. reflexivity.
  - intros E. injection E as ->. reflexivity.
Qed.
Print Assumptions C25_respond.

Theorem C25_non_pointer reg req p : payload_type p = None -> Respond reg req p = Panic.
Proof. intros H. rewrite Respond_spec, H. reflexivity. Qed.
Print Assumptions C25_non_pointer.

Example C25_case :
  Respond std_registry (mkCmd 15 (Some 7%N) None) (Pst general_ReturnLingoProtocolVersion [VU 4; VU 1; VU 14])
  = Ret [mkCmd 16 (Some 7%N) (Some (Pst general_ReturnLingoProtocolVersion [VU 4; VU 1; VU 14]))]
  /\ Respond [] (mkCmd 15 (Some 7%N) None) (Pst general_ReturnLingoProtocolVersion [VU 4; VU 1; VU 14]) = Ret []
  /\ Respond std_registry (mkCmd 15 (Some 7%N) None) (PUnknown [x01]) = Panic.
Proof. repeat split. Qed.

(** ** C26 *)

Theorem C26_kth_number ths c log c' :
  trx_exec ths c log c' -> (c < 2 ^ 32)%N ->
  (forall i op r, In (i, op, r) log -> op = TNext) ->
  forall k i op r, nth_error log k = Some (i, op, r) ->
    r = Some ((c + N.of_nat k + 1) mod 65536)%N.
Proof. exact (trx_exec_numbers ths c log c'). Qed.
Print Assumptions C26_kth_number.

Theorem C26_distinct ths c log c' :
  trx_exec ths c log c' -> (c < 2 ^ 32)%N ->
  (forall i op r, In (i, op, r) log -> op = TNext) ->
  forall j k a b r, nth_error log j = Some (a, TNext, r) -> nth_error log k = Some (b, TNext, r) ->
    (N.of_nat j < N.of_nat k < N.of_nat j + 65536)%N -> False.
Proof. exact (trx_exec_distinct ths c log c'). Qed.
Print Assumptions C26_distinct.

Theorem C26_after_reset ths c pre i log c' j r :
  trx_exec ths c (pre ++ (i, TReset, None) :: (j, TNext, r) :: log) c' -> r = Some 1%N.
Proof. exact (fun H => trx_exec_after_reset ths c pre i log c' j TNext r H eq_refl). Qed.
Print Assumptions C26_after_reset.

Example C26_case :
  trx_exec [[TNext; TNext]; [TNext; TReset]] 65534
    [(0, TNext, Some 65535%N); (1, TNext, Some 0%N); (0, TNext, Some 1%N)] 65537.
Proof.
  eapply te_step; [reflexivity|reflexivity|]. eapply te_step; [reflexivity|reflexivity|].
  eapply te_step; [reflexivity|reflexivity|]. apply te_stop.
Qed.

(** ** C27 *)

Theorem C27_delta t d :
  u16 t -> exists r, trx_Delta (Some t) d = Some r /\ u16 r /\ (exists k, Z.of_N r = Z.of_N t + d + k * 65536)%Z.
Proof. exact (trx_Delta_spec t d). Qed.
Print Assumptions C27_delta.

Theorem C27_delta_inverse t d : u16 t -> trx_Delta (trx_Delta (Some t) d) (- d) = Some t.
Proof. exact (trx_Delta_inverse t d). Qed.
Print Assumptions C27_delta_inverse.

Theorem C27_copy_and_nil tr d : trx_Copy tr = tr /\ trx_Delta None d = None.
Proof. exact (conj eq_refl eq_refl). Qed.
Print Assumptions C27_copy_and_nil.

Example C27_case :
  trx_Delta (Some 65535%N) 1 = Some 0%N /\ trx_Delta (Some 3%N) (-5) = Some 65534%N.
Proof. split; reflexivity. Qed.
