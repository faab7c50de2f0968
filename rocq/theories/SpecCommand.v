(** Specification vocabulary for commands, independent of lingo.go and cmd.go's code. *)
From Coq Require Import Ascii.
From Verif Require Import Base GoTypes Types Payload Lingo Command SpecPayload SpecText.

(** ** Ids on the wire *)

(** The command id at the front of a packet: the lingo byte, then 2 bytes for the extended
    interface lingo (4) and 1 byte for any other lingo. *)
Definition packet_id (pkt : bytes) : option N :=
  match pkt with
  | l :: c :: r =>
      if (b2n l =? 4)%N
      then match r with
           | d :: _ => Some (4 * 65536 + b2n c * 256 + b2n d)%N
           | [] => None
           end
      else Some (b2n l * 65536 + b2n c)%N
  | _ => None
  end.

(** The bytes after that id. *)
Definition packet_body (pkt : bytes) : bytes :=
  match pkt with
  | l :: r => if (b2n l =? 4)%N then skipn 2 r else skipn 1 r
  | [] => []
  end.

(** Ids that have a faithful wire form. *)
Definition wire_id (id : N) : Prop :=
  (id < 2 ^ 24)%N /\ ((id / 65536 = 4)%N \/ (id mod 65536 < 256)%N).

(** That form. *)
Definition id_prefix (id : N) : bytes :=
  if (id / 65536 =? 4)%N
  then [x04; n2b (id mod 65536 / 256); n2b (id mod 256)]
  else [n2b (id / 65536); n2b (id mod 256)].

(** ** Transaction mode *)

(** The three commands that set the mode: RequestIdentify 0x00 and IdentifyDeviceLingoes 0x13
    switch it off, StartIDPS 0x38 switches it on. *)
Definition controls (id : N) : option bool :=
  if (id =? 0)%N then Some false
  else if (id =? 19)%N then Some false
  else if (id =? 56)%N then Some true
  else None.

(** Mode after a sequence of processed ids: that of the last controlling one. *)
Fixpoint mode_after (init : bool) (ids : list N) : bool :=
  match ids with
  | [] => init
  | id :: ids' => mode_after (match controls id with Some m => m | None => init end) ids'
  end.

(** Calls on one serde. *)
Inductive serde_op :=
| SMarshal (c : command)
| SUnmarshal (pkt : bytes).

Definition serde_step (rt : bool) (reg : registry) (e : bool) (op : serde_op) : outcome bool :=
  match op with
  | SMarshal c => do r <- MarshalCmd rt e c; Ret (fst r)
  | SUnmarshal pkt => do r <- UnmarshalCmd rt reg e pkt; Ret (fst (fst r))
  end.

Fixpoint serde_run (rt : bool) (reg : registry) (e : bool) (ops : list serde_op) : outcome bool :=
  match ops with
  | [] => Ret e
  | op :: ops' => do e' <- serde_step rt reg e op; serde_run rt reg e' ops'
  end.

(** Ids processed by a sequence of calls. *)
Fixpoint ids_seen (ops : list serde_op) : list N :=
  match ops with
  | [] => []
  | SMarshal c :: ops' => cmd_id c :: ids_seen ops'
  | SUnmarshal pkt :: ops' =>
      match packet_id pkt with
      | Some id => id :: ids_seen ops'
      | None => ids_seen ops'
      end
  end.

(** ** Payload bytes: what the payload's own MarshalBinary, or encoding/binary when it has
       none, produces *)
Definition payload_bytes (rt : bool) (p : payload) (b : bytes) : Prop :=
  payload_marshaler rt p = Some (Ret (Ok b))
  \/ (payload_marshaler rt p = None /\ payload_binary_write p = Ok b).

(** Big-endian 16-bit transaction number. *)
Definition trx_bytes (t : N) : bytes := [n2b (t / 256); n2b (t mod 256)].

(** ** Crashing packets *)

(** [x] is the body of a token that the parser of a token list reaches: the records before it
    are understood.  [n] tokens are announced and [data] follows. *)
Inductive reaches (rt : bool) : nat -> bytes -> bytes -> Prop :=
| reach_here n k r : reaches rt (S n) (k :: r) (firstn (N.to_nat (b2n k)) r)
| reach_next n k r x v :
    token_reads rt v (firstn (N.to_nat (b2n k)) r) ->
    reaches rt n (skipn (N.to_nat (b2n k)) r) x ->
    reaches rt (S n) (k :: r) x.

(** A token record that crashes: an EA protocol token (0,4) with nothing after its id, or, on
    older Go versions, a token of unknown id. *)
Definition crashing_token (rt : bool) (x : bytes) : Prop :=
  x = [x00; x04]
  \/ (rt = true /\ exists a b r, x = a :: b :: r /\ ~ known_token (b2n a) (b2n b)).

(** Payload bytes (after id and transaction) that crash the decoder of type [t]. *)
Definition crashing_body (rt : bool) (t : pty) (body : bytes) : Prop :=
  (t = general_RequestApplicationLaunch /\ List.length body < 3)
  \/ (t = general_SetFIDTokenValues
      /\ exists n r x, body = n :: r /\ reaches rt (N.to_nat (b2n n)) r x /\ crashing_token rt x).

(** ** What can be marshalled *)

(** Struct types holding a slice although they have no MarshalBinary method. *)
Definition no_encoding : list pty :=
  [general_RetDevAuthenticationInfo; general_RetDevAuthenticationSignature;
   general_RetiPodAuthenticationInfo; general_RetAccessoryInfo; general_DevDataTransfer;
   general_IPodDataTransfer; general_AccessoryStatusNotification; general_IPodNotification;
   general_RequestApplicationLaunch; general_RetNowPlayingFocusApp;
   disp_RetIndexedEQProfileName; disp_RemoteEventNotification; disp_RetTrackArtworkTimes;
   ext_ReturnCurrentPlayingTrackChapterName; ext_RetTrackArtworkData].

(** Tokens whose encoding exists: all but the accessory-info, EA-protocol and nil ones. *)
Definition encodable_token (v : token_value) : bool :=
  match tv_token v with
  | TokIdentify _ _ _ | TokRaw _ => true
  | TokStruct t _ => match struct_size (layout t) with Some _ => true | None => false end
  | TokAccInfo _ _ | TokEAProtocol _ _ | TokNil => false
  end.

(** Payload values MarshalCmd can encode. *)
Definition encodable (p : payload) : bool :=
  match p with
  | Pst t _ => negb (existsb (pty_eqb t) no_encoding)
  | PTokens l => forallb encodable_token l
  | PTokenAcks l => forallb (fun a => match ta_ack a with Some _ => true | None => false end) l
  | PExtTrackInfo _ i => match i with
                         | IPtr t _ | IVal t _ => match struct_size (layout t) with Some _ => true | None => false end
                         | IBytes _ => true
                         | INil => false
                         end
  | PExtArtwork _ => true
  | PStateInfo _ i | PDispTrackInfo _ i => match i with INil => false | _ => true end
  | PDispArtwork _ => false
  | PUnknown _ => true
  end.

(** Values a Go program can hold: the fields of a struct have the values of their types, and
    the nil interfaces, which no decoder produces, are absent. *)
Definition nil_free (p : payload) : bool :=
  match p with
  | PTokens l => forallb (fun v => match tv_token v with TokNil => false | _ => true end) l
  | PTokenAcks l => forallb (fun a => match ta_ack a with Some _ => true | None => false end) l
  | PExtTrackInfo _ i | PStateInfo _ i | PDispTrackInfo _ i => match i with INil => false | _ => true end
  | _ => true
  end.

(** ** Transaction counter: goroutines calling TrxNext and TrxReset *)
Inductive trx_op := TNext | TReset.

(** One atomic step of the counter; the number returned, if any. *)
Definition trx_step (c : N) (op : trx_op) : N * option N :=
  match op with TNext => TrxNext c | TReset => (TrxReset c, None) end.

(** [trx_exec threads c log c']: some interleaving of the threads' calls, starting with counter
    [c], ends with counter [c'] after the calls of [log] (thread, call, result) took effect in
    that order.  Threads need not run to completion. *)
Inductive trx_exec : list (list trx_op) -> N -> list (nat * trx_op * option N) -> N -> Prop :=
| te_stop ths c : trx_exec ths c [] c
| te_step ths i op rest c c1 r log c' :
    nth_error ths i = Some (op :: rest) ->
    trx_step c op = (c1, r) ->
    trx_exec (firstn i ths ++ rest :: skipn (S i) ths) c1 log c' ->
    trx_exec ths c ((i, op, r) :: log) c'.

(** The fields of a struct payload have the values of their Go types. *)
Definition well_formed (p : payload) : Prop :=
  match p with Pst t vs => typed t vs | _ => True end.

(** The payload is of a registered type, or the raw bytes of an unknown command. *)
Definition known_payload (reg : registry) (p : payload) : Prop :=
  match payload_type p with
  | Some t => exists id, In (id, t) reg
  | None => True
  end.

(** A body of [n] bytes is exactly a value of [t], preceded by a transaction number iff [b]. *)
Definition size_match (t : pty) (n : nat) (b : bool) : Prop :=
  exists m, fixed_size t m /\ n = m + (if b then 2 else 0).

(** The type chosen for a body of [n] bytes: the first one registered for the id whose size is
    [n], or [n - 2] (then with a transaction); when no size fits and the id has one type only,
    that one, with a transaction iff the mode is on. *)
Inductive chosen (reg : registry) (id : N) (mode : bool) (n : nat) : pty -> bool -> Prop :=
| ch_size pre t post b :
    types_of reg id = pre ++ t :: post -> size_match t n b ->
    (forall u c, In u pre -> ~ size_match u n c) -> chosen reg id mode n t b
| ch_only t : types_of reg id = [t] -> (forall c, ~ size_match t n c) -> chosen reg id mode n t mode.

(** What is understood from a packet, [mode] being the transaction mode after its id. *)
Definition command_reads (rt : bool) (reg : registry) (mode : bool) (pkt : bytes) (c : command) : Prop :=
  exists id t b tb body p,
    packet_id pkt = Some id /\ chosen reg id mode (List.length (packet_body pkt)) t b
    /\ packet_body pkt = tb ++ body /\ List.length tb = (if b then 2 else 0)
    /\ payload_reads rt t body p
    /\ c = mkCmd id (if b then Some (number tb) else None) (Some p).

(** Payloads whose complete wire form is specified (SpecPayload.payload_wire). *)
Definition wire_specified (rt : bool) (p : payload) : Prop :=
  sendable rt p \/ (exists l, p = PUnknown l) \/ (exists t vs n, p = Pst t vs /\ fixed_size t n /\ typed t vs).

(** Hexadecimal numbers, and the id tags of the tables: "0x" and digits. *)
Inductive hex_number : string -> N -> Prop :=
| hex_nil : hex_number EmptyString 0
| hex_snoc s n c d :
    hex_number s n ->
    String.get (N.to_nat d) "0123456789abcdef" = Some c \/ String.get (N.to_nat d) "0123456789ABCDEF" = Some c ->
    hex_number (s ++ String c EmptyString) (n * 16 + d).
Definition hex_tag (tag : string) (n : N) : Prop :=
  exists s, tag = ("0x" ++ s)%string /\ s <> EmptyString /\ hex_number s n.

(** Tags that are no number of 16 bits. *)
Definition tag_char (c : ascii) : bool :=
  let n := N_of_ascii c in
  (((48 <=? n) && (n <=? 57)) || ((65 <=? n) && (n <=? 90)) || ((97 <=? n) && (n <=? 122)) || (n =? 95))%N.
Inductive bad_tag : string -> Prop :=
| bad_empty : bad_tag EmptyString
| bad_large tag n : hex_tag tag n -> (65536 <= n)%N -> bad_tag tag
| bad_char tag k c : String.get k tag = Some c -> tag_char c = false -> bad_tag tag.

(** Registry entries of a table whose id tags are all readable. *)
Inductive table_entries (lingo : N) : list (string * pty) -> list (N * pty) -> Prop :=
| tbl_nil : table_entries lingo [] []
| tbl_cons tag c t fs es :
    hex_tag tag c -> (c < 65536)%N -> table_entries lingo fs es ->
    table_entries lingo ((tag, t) :: fs) ((lingo * 65536 + c, t)%N :: es).

(** One line of the listing of commands: the id, a tab, the type's name. *)
Definition listing_line (reg : registry) (id : N) (line : string) : Prop :=
  exists t ts l c, types_of reg id = t :: ts /\ id_text id l c
    /\ line = ("(" ++ l ++ "|" ++ c ++ ")" ++ String "009" (type_name t ++ String "010" EmptyString))%string.
