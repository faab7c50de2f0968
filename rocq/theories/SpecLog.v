(** Specification of the tool's log, independent of the code that writes it. *)
From Coq Require Import Ascii.
From Verif Require Import Base SpecText GoTypes Types Payload Lingo Command SpecPayload SpecCommand Handlers SpecHandlers Packet Hid Trace Server SpecServer
  Log.
Local Open Scope string_scope.

(** ** Entries *)

(** An entry: at level info (4), or at level error (2) with the error's text as a last field. *)
Definition entry (errText : goerr -> string) (msg : string) (fields : list (string * string)) (err : option goerr) (r : log_rec) : Prop :=
  match err with
  | None => r = mkRec 4 msg fields
  | Some e => r = mkRec 2 msg (fields ++ [("error", errText e)])
  end.

(** Of a frame or a packet its length is shown. *)
Definition sized_entry errText msg (n : N) err (r : log_rec) : Prop :=
  exists s, decimal 1 n s /\ entry errText msg [("len", s)] err r.

(** Of a command its id, transaction and type are shown. *)
Definition trx_shown (t : option N) (s : string) : Prop :=
  match t with None => s = "<nil>" | Some x => hexadecimal 4 x s end.
Definition type_shown (p : option payload) (s : string) : Prop :=
  match p with
  | None => s = "<nil>"
  | Some p => match payload_type p with Some t => s = "*" ++ type_name t | None => s = "ipod.UnknownPayload" end
  end.
Definition command_entry errText msg (c : command) err (r : log_rec) : Prop :=
  exists l k t ty, id_text (cmd_id c) l k /\ trx_shown (cmd_trx c) t /\ type_shown (cmd_payload c) ty
    /\ entry errText msg [("id", l ++ "," ++ k); ("trx", t); ("type", ty)] err r.

(** Transaction numbers being switched on or off is told; [m] and [m'] say whether they are used
    before and after. *)
Definition switching (m m' : bool) : list log_rec :=
  match m, m' with
  | false, true => [mkRec 3 "Enabling transaction support" []]
  | true, false => [mkRec 3 "Disabling transaction support" []]
  | _, _ => []
  end.

(** The entries of what came of reading a frame in mode [m]; [arrow] tells the direction. *)
Inductive packet_entries errText (arrow : string) : bool -> list pkt_event -> list log_rec -> Prop :=
| pe_nil m : packet_entries errText arrow m [] []
| pe_error m e evs r rs :
    sized_entry errText (arrow ++ "PACKET") 0 (Some e) r -> packet_entries errText arrow m evs rs ->
    packet_entries errText arrow m (PktErr e :: evs) (r :: rs)
| pe_packet m p c e evs r1 r2 rs :
    sized_entry errText (arrow ++ "PACKET") (len p) None r1 -> command_entry errText (arrow ++ "CMD") c e r2 ->
    packet_entries errText arrow (mode_after m (ids_of [p])) evs rs ->
    packet_entries errText arrow m (PktCmd p c e :: evs) (r1 :: switching m (mode_after m (ids_of [p])) ++ r2 :: rs).

(** The packets of these events. *)
Definition packets_of (evs : list pkt_event) : list bytes :=
  flat_map (fun ev => match ev with PktCmd p _ _ => [p] | PktErr _ => [] end) evs.

(** The viewer's log from mode [m] on: incoming messages have direction 0, outgoing ones 1. *)
Inductive view_entries errText : bool -> list view_entry -> list log_rec -> Prop :=
| ve_end m : view_entries errText m [] [mkRec 3 "EOF" []]
| ve_error m d arrow e vs r rs :
    (d = 0 /\ arrow = "<< " \/ d = 1 /\ arrow = ">> ")%N ->
    sized_entry errText (arrow ++ "FRAME") 0 (Some e) r -> view_entries errText m vs rs ->
    view_entries errText m (mkView d (inr e) [] :: vs) (r :: rs)
| ve_frame m d arrow f evs vs r ps rs :
    (d = 0 /\ arrow = "<< " \/ d = 1 /\ arrow = ">> ")%N ->
    sized_entry errText (arrow ++ "FRAME") (len f) None r -> packet_entries errText arrow m evs ps ->
    view_entries errText (mode_after m (ids_of (packets_of evs))) vs rs ->
    view_entries errText m (mkView d (inl f) evs :: vs) (r :: ps ++ rs).

(** ** What the handlers log *)

Definition nl : string := String "010" "".

(** The Go type of a token. *)
Definition token_type_shown (t : token) : string :=
  match t with
  | TokNil => "<nil>"
  | TokIdentify _ _ _ => "*general.FIDIdentifyToken"
  | TokAccInfo _ _ => "*general.FIDAccInfoToken"
  | TokEAProtocol _ _ => "*general.FIDEAProtocolToken"
  | TokStruct t _ => "*" ++ type_name t
  | TokRaw _ => "[]uint8"
  end.

(** What is told of a token: the names of an accessory's capabilities, or an item of information
    about it. *)
Inductive token_told (sdump : option bytes -> string) : token -> string -> Prop :=
| told_caps m vs names :
    names = map snd (filter (fun p => negb (N.land m (fst p) =? 0)%N) AccCapBit_names) ->
    token_told sdump (TokStruct general_FIDAccCapsToken (VU m :: vs)) (String.concat "" (map (fun s => "Capability: " ++ s ++ nl) names))
| told_info ty v name : text_of AccInfoType_names "AccInfoType" ty name ->
    token_told sdump (TokAccInfo ty v) (name ++ ": " ++ sdump v ++ nl)
| told_nothing t :
    (forall ty v, t <> TokAccInfo ty v) -> (forall m vs, t <> TokStruct general_FIDAccCapsToken (VU m :: vs)) ->
    token_told sdump t "".

(** The report on an accessory's tokens. *)
Inductive tokens_told sdump : list token_value -> string -> Prop :=
| tokens_told_nil : tokens_told sdump [] ""
| tokens_told_cons v l a s : token_told sdump (tv_token v) a -> tokens_told sdump l s ->
    tokens_told sdump (v :: l) ("* Token: " ++ token_type_shown (tv_token v) ++ nl ++ a ++ s).
Definition report sdump (l : list token_value) (s : string) : Prop :=
  exists t, tokens_told sdump l t /\ s = "Tokens:" ++ nl ++ t.

Definition ends_identification (c : command) : bool :=
  match cmd_payload c with Some (Pst general_EndIDPS _) => true | _ => false end.
Definition lingo_of (c : command) : N := (cmd_id c / 65536 mod 256)%N.

(** What handling [c] logs, when [tokens] and [cert] are the tokens and certificate received so
    far: a report on the tokens when identification ends, the certificate when it is complete, and
    a warning for the lingo that is not supported. *)
Definition says sdump (certLog : bytes -> list log_rec) (tokens : list token_value) (cert : bytes) (c : command) (l : list log_rec) : Prop :=
  if (lingo_of c =? 2)%N then l = [mkRec 3 "Lingo SimpleRemote is not supported yet" []]
  else if (lingo_of c =? 0)%N then
    if ends_identification c then exists s, report sdump tokens s /\ l = [mkRec 4 s []]
    else match section c with
         | Some (n, last, d) => l = if (last <=? n)%N then certLog (if (n =? 0)%N then d else cert ++ d)%list else []
         | None => l = []
         end
  else l = [].

(** The tokens and the certificate after [c]. *)
Definition tokens_after (tokens : list token_value) (c : command) : list token_value :=
  if (lingo_of c =? 0)%N then tokens_since_start tokens [c] else tokens.
Definition cert_after (cert : bytes) (c : command) : bytes :=
  match section c with
  | Some (n, _, d) => if (lingo_of c =? 0)%N then (if (n =? 0)%N then d else cert ++ d)%list else cert
  | None => cert
  end.

Inductive said sdump certLog : list token_value -> bytes -> list command -> list log_rec -> Prop :=
| said_nil tokens cert : said sdump certLog tokens cert [] []
| said_cons tokens cert c cs l ls :
    says sdump certLog tokens cert c l -> said sdump certLog (tokens_after tokens c) (cert_after cert c) cs ls ->
    said sdump certLog tokens cert (c :: cs) (l ++ ls).

(** ** The server *)

(** Sending replies in mode [m]: for each the command, its packet and its frame are logged, with
    the errors of encoding and writing. *)
Inductive sends {W} errText (rt : bool) (tp : transport W) (m : bool) : list command -> W -> list log_rec -> W -> Prop :=
| sends_nil w : sends errText rt tp m [] w [] w
| sends_reply c cs w w1 w2 b me f we r1 r2 r3 rs :
    command_entry errText ">> CMD" c None r1 ->
    (MarshalCmd rt m c = Ret (m, Ok b) /\ me = None /\ WritePacket [] b = (f, None)
     \/ exists e, MarshalCmd rt m c = Ret (m, Err e) /\ me = Some e /\ b = [] /\ f = []) ->
    sized_entry errText ">> PACKET" (len b) me r2 ->
    tp_WriteFrame tp w f = done (w1, we) -> sized_entry errText ">> FRAME" (len f) we r3 ->
    sends errText rt tp m cs w1 rs w2 ->
    sends errText rt tp m (c :: cs) w (r1 :: r2 :: r3 :: rs) w2.

(** The server's log up to io.EOF: of every frame read its length, its packets and commands, what
    handling these says, and the replies sent. *)
Inductive transcript {W} errText sdump certLog (rt : bool) (clock : nat -> datetime) (tp : transport W)
  : server DevGeneral -> W -> list log_rec -> server DevGeneral -> W -> Prop :=
| tr_eof st w w' : tp_ReadFrame tp w = done (w', inr EOF) ->
    transcript errText sdump certLog rt clock tp st w [mkRec 3 "EOF" []] st w'
| tr_error st w w1 e r rs st' w' :
    tp_ReadFrame tp w = done (w1, inr e) -> e <> EOF -> sized_entry errText "<< FRAME" 0 (Some e) r ->
    transcript errText sdump certLog rt clock tp st w1 rs st' w' ->
    transcript errText sdump certLog rt clock tp st w (r :: rs) st' w'
| tr_frame st w w1 fr ps r evs l1 l2 devs l3 st1 w2 rs st' w' :
    tp_ReadFrame tp w = done (w1, inl fr) -> sized_entry errText "<< FRAME" (len (vis fr)) None r ->
    holds fr ps -> happens rt (spare fr) (sv_mode st) (vis fr) evs -> packet_entries errText "<< " (sv_mode st) evs l1 ->
    said sdump certLog (dg_tokens (h_dev (sv_h st))) (h_cert (sv_h st)) (inCmds evs) l2 ->
    does (serve (handlePacket std_registry clock DevGeneral_device) (inCmds evs)) (sv_h st) (sv_h st1) tt devs ->
    sv_mode st1 = mode_after (sv_mode st) (ids_of ps) ->
    sends errText rt tp (sv_mode st1) (written devs) w1 l3 w2 ->
    transcript errText sdump certLog rt clock tp st1 w2 rs st' w' ->
    transcript errText sdump certLog rt clock tp st w (r :: l1 ++ l2 ++ l3 ++ rs) st' w'.

(** ** One session in both logs *)

(** Entries about what the accessory sent and what that switched, and about what was sent to it. *)
Definition incoming (r : log_rec) : bool :=
  prefix "<< " (lr_Message r)
  || (lr_Message r =? "Enabling transaction support") || (lr_Message r =? "Disabling transaction support").
Definition outgoing (r : log_rec) : bool := prefix ">> " (lr_Message r).

Definition field (k : string) (r : log_rec) : option string :=
  match find (fun p => fst p =? k) (lr_Data r) with Some p => Some (snd p) | None => None end.

(** Neighbouring entries with the messages [m1] and [m2]. *)
Fixpoint neighbours (m1 m2 : string) (l : list log_rec) : list (log_rec * log_rec) :=
  match l with
  | r1 :: (r2 :: _) as l' => (if (lr_Message r1 =? m1) && (lr_Message r2 =? m2) then [(r1, r2)] else []) ++ neighbours m1 m2 l'
  | _ => []
  end%list.

(** The replies that became packets, by command id and length of the packet: the server logs the
    command first, the viewer the packet. *)
Definition replies_sent (l : list log_rec) : list (option string * option string) :=
  map (fun p => (field "id" (fst p), field "len" (snd p)))
      (filter (fun p => (lr_Level (snd p) =? 4)%N) (neighbours ">> CMD" ">> PACKET" l)).
Definition replies_viewed (l : list log_rec) : list (option string * option string) :=
  map (fun p => (field "id" (snd p), field "len" (fst p)))
      (filter (fun p => (lr_Level (fst p) =? 4)%N) (neighbours ">> PACKET" ">> CMD" l)).

(** Entries about neither direction. *)
Definition quiet (r : log_rec) : Prop := incoming r = false /\ outgoing r = false.
