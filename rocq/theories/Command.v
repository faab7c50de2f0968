(** Model of cmd.go: commands, their (de)serialisation, replies and transaction numbers. *)
From Verif Require Import Base GoTypes Types Payload Lingo.

(** cmd.go:28-33.  Transactions are uint16 values. *)
Record command := mkCmd { cmd_id : N; cmd_trx : option N; cmd_payload : option payload }.

(** ** Transactions (cmd.go:35-62) *)
Definition NewTransaction (t : N) : option N := Some (t mod 65536)%N.       (* 37-40 *)
Definition trx_Copy (tr : option N) : option N := tr.                       (* 50-56 *)
(** 57-62: [uint16(int( *tr) + d)]; int addition wraps at 2^64, which uint16() cannot see. *)
Definition trx_Delta (tr : option N) (d : Z) : option N :=
  match tr with
  | Some t => Some (Z.to_N ((Z.of_N t + d) mod 65536))
  | None => None
  end.

(** ** CommandSerde (cmd.go:64-163); its state is TrxEnabled *)

(** cmd.go:68-88 [handleCmdID]; the log messages are not modelled. *)
Definition handleCmdID (enabled : bool) (id : N) : bool :=
  if (id =? NewLingoCmdID LingoGeneralID 0)%N then false                    (* 72-73 *)
  else if (id =? NewLingoCmdID LingoGeneralID 19)%N then false              (* 75-76, 0x13 *)
  else if (id =? NewLingoCmdID LingoGeneralID 56)%N then true               (* 78-79, 0x38 *)
  else enabled.

Definition wrap (pre : string) (e : goerr) : goerr := ErrMsg (pre ++ err_text e).
Definition errNilPayload := ErrMsg "ipod.Command marshal: nil payload".

(** cmd.go:90-121 [MarshalCmd]: new TrxEnabled and the bytes or an error. *)
Definition MarshalCmd (rt : bool) (enabled : bool) (cmd : command) : outcome (bool * res bytes) :=
  let idb := marshalLingoCmdID (cmd_id cmd) in                              (* 93-95 *)
  let enabled := handleCmdID enabled (cmd_id cmd) in                        (* 97 *)
  let trx := match cmd_trx cmd with                                         (* 99-101 *)
             | Some t => if enabled then be_enc 2 t else []
             | None => []
             end in
  match cmd_payload cmd with
  | None => Ret (enabled, Err errNilPayload)                                (* 102-104 *)
  | Some p =>
      match payload_marshaler rt p with
      | Some m =>                                                           (* 106-111 *)
          do r <- m;
          Ret (enabled, match r with
                        | Ok b => Ok (idb ++ trx ++ b)
                        | Err e => Err (wrap "ipod.Command marshal: BinaryMarshaler: " e)
                        end)
      | None =>                                                             (* 112-117 *)
          Ret (enabled, match payload_binary_write p with
                        | Ok b => Ok (idb ++ trx ++ b)
                        | Err e => Err (wrap "ipod.Command marshal: binary.Write: " e)
                        end)
      end
  end.

Definition errUnknownCmd (id : N) := ErrMsg ("ipod.Command unmarshal: unknown cmd " ++ id_String id).

(** cmd.go:123-163 [UnmarshalCmd]: new TrxEnabled, the (possibly partial) command, the error. *)
Definition UnmarshalCmd (rt : bool) (reg : registry) (enabled : bool) (pkt : bytes)
  : outcome (bool * command * option goerr) :=
  match unmarshalLingoCmdID pkt with
  | (Err e, _) =>                                                           (* 126-128 *)
      Ret (enabled, mkCmd 0 None None, Some (wrap "ipod.Command unmarshal: " e))
  | (Ok id, body) =>
      let enabled := handleCmdID enabled id in                              (* 130 *)
      match Lookup reg id (List.length body) enabled with                   (* 132 *)
      | None =>                                                             (* 133-136 *)
          Ret (enabled, mkCmd id None (Some (PUnknown body)), Some (errUnknownCmd id))
      | Some lr =>
          let '(tr, terr, body2) :=                                         (* 138-145 *)
            if lr_trx lr then
              match read_full 2 body with
              | (Ok b, r) => (Some (be_dec b), None, r)
              | (Err e, r) => (None, Some e, r)
              end
            else (None, None, body) in
          match terr with
          | Some e => Ret (enabled, mkCmd id None None, Some e)             (* 141-143 *)
          | None =>
              do r <- payload_unmarshal rt (lr_type lr) body2;              (* 147-158 *)
              match r with
              | (_, Ok p) => Ret (enabled, mkCmd id tr (Some p), None)      (* 160-161 *)
              | (true, Err e) =>
                  Ret (enabled, mkCmd id tr None, Some (wrap "ipod.Command unmarshal: BinaryUnmarshaler: " e))
              | (false, Err e) =>
                  Ret (enabled, mkCmd id tr None, Some (wrap "ipod.Command unmarshal: binary.Read: " e))
              end
          end
      end
  end.

(** ** Building and sending commands *)

Definition errPayloadNotKnown := ErrMsg "payload not known".

(** cmd.go:165-175 [BuildCommand]. *)
Definition BuildCommand (reg : registry) (p : payload) : outcome (res command) :=
  do id <- LookupID reg p;
  Ret (match id with
       | Some id => Ok (mkCmd id None (Some p))
       | None => Err errPayloadNotKnown
       end).

(** cmd.go:177-185 [Respond]: the commands passed to the writer's WriteCommand, whose error is
    ignored. *)
Definition Respond (reg : registry) (req : command) (p : payload) : outcome (list command) :=
  do r <- BuildCommand reg p;
  Ret (match r with
       | Err _ => []
       | Ok cmd => [mkCmd (cmd_id cmd) (trx_Copy (cmd_trx req)) (cmd_payload cmd)]
       end).

(** cmd.go:187-195: the uint32 counter; both operations are atomic. *)
Definition TrxReset (c : N) : N := 0%N.
Definition TrxNext (c : N) : N * option N :=
  let c' := ((c + 1) mod 2 ^ 32)%N in (c', NewTransaction c').

(** cmd.go:197-204 [Send]: new counter and the commands written. *)
Definition Send (reg : registry) (c : N) (p : payload) : outcome (N * list command) :=
  do r <- BuildCommand reg p;
  Ret (match r with
       | Err _ => (c, [])
       | Ok cmd => let '(c', tr) := TrxNext c in
                   (c', [mkCmd (cmd_id cmd) tr (cmd_payload cmd)])
       end).

(** cmd.go:206-213 [CmdBuffer.WriteCommand] appends. *)
Definition CmdBuffer := list command.
Definition CmdBuffer_write (b : CmdBuffer) (c : command) : CmdBuffer * option goerr := (b ++ [c], None).
