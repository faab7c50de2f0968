(** Model of lingo.go: command ids, their text and wire forms, the type registry. *)
From Coq Require Import Ascii.
From Verif Require Import Base GoTypes Types Payload.

(** ** Lingo ids (lingo.go:196-207) *)
Definition LingoGeneralID : N := 0.
Definition LingoSimpleRemoteID : N := 2.
Definition LingoDisplayRemoteID : N := 3.
Definition LingoExtRemoteID : N := 4.
Definition LingoUSBHostID : N := 6.
Definition LingoRFTunerID : N := 7.
Definition LingoEqID : N := 8.
Definition LingoSportsID : N := 9.
Definition LingoDigitalAudioID : N := 10.
Definition LingoStorageID : N := 12.

(** ** LingoCmdID, a uint32 (lingo.go:14) *)

(** lingo.go:16-18, [uint8(id >> 16 & 0xff)]. *)
Definition LingoID (id : N) : N := N.land (N.shiftr id 16) 255.
(** lingo.go:20-22, [uint16(id & 0xffff)]. *)
Definition CmdID (id : N) : N := N.land id 65535.
(** lingo.go:79-81, on uint16 arguments: [uint32(lingo)<<16 | uint32(cmd)]. *)
Definition NewLingoCmdID (lingo cmd : N) : N := N.lor (N.shiftl lingo 16) cmd.
(** lingo.go:32-39. *)
Definition cmdIDLen (lingo : N) : nat := if (lingo =? LingoExtRemoteID)%N then 2 else 1.

(** ** Text forms *)

Definition hex_digit (n : N) : ascii :=
  match n with
  | 0 => "0" | 1 => "1" | 2 => "2" | 3 => "3" | 4 => "4" | 5 => "5" | 6 => "6" | 7 => "7"
  | 8 => "8" | 9 => "9" | 10 => "a" | 11 => "b" | 12 => "c" | 13 => "d" | 14 => "e" | _ => "f"
  end%N%char.

(** The low [k] hex digits of [n], most significant first. *)
Fixpoint hex_digits (k : nat) (n : N) : string :=
  match k with
  | 0 => EmptyString
  | S k' => append (hex_digits k' (n / 16)) (String (hex_digit (n mod 16)) EmptyString)
  end.

(** fmt's verb %#0wx on an unsigned integer: "0x" and at least [w] digits. *)
Definition fmt_hex0 (w : nat) (n : N) : string :=
  append "0x" (hex_digits (Nat.max w (N.to_nat ((N.size n + 3) / 4))) n).

(** lingo.go:24-26 [GoString]. *)
Definition id_GoString (id : N) : string :=
  ("(" ++ fmt_hex0 2 (LingoID id) ++ "|" ++ fmt_hex0 (cmdIDLen (LingoID id) * 2) (CmdID id) ++ ")")%string.
(** lingo.go:28-30 [String]. *)
Definition id_String (id : N) : string :=
  (fmt_hex0 2 (LingoID id) ++ "," ++ fmt_hex0 (cmdIDLen (LingoID id) * 2) (CmdID id))%string.

(** ** Wire form of ids *)

(** lingo.go:41-52 [marshalLingoCmdID]; writing to a bytes.Buffer cannot fail. *)
Definition marshalLingoCmdID (id : N) : bytes :=
  match cmdIDLen (LingoID id) with
  | 2 => be_enc 1 (LingoID id) ++ be_enc 2 (CmdID id)              (* 46-48 *)
  | _ => be_enc 1 (LingoID id) ++ be_enc 1 (CmdID id)              (* 49-50: byte(CmdID) truncates *)
  end.

(** lingo.go:54-77 [unmarshalLingoCmdID]: result and unread bytes. *)
Definition unmarshalLingoCmdID (data : bytes) : res N * bytes :=
  match read_full 1 data with
  | (Err e, r) => (Err e, r)                                       (* 57-59 *)
  | (Ok lb, r) =>
      let lingo := be_dec lb in
      match read_full (cmdIDLen lingo) r with
      | (Err e, r2) => (Err e, r2)
      | (Ok cb, r2) => (Ok (NewLingoCmdID lingo (be_dec cb)), r2)
      end
  end.

(** ** Registry *)

(** The two maps of lingo.go:88-89 are both determined by the sequence of [storeMapping]
    calls (91-94), which is what the model keeps, oldest first. *)
Definition registry := list (N * pty).

(** lingo.go:91-94. *)
Definition storeMapping (reg : registry) (id : N) (t : pty) : registry := reg ++ [(id, t)].

(** [mIDToType[id]]: the types stored for [id], oldest first. *)
Definition types_of (reg : registry) (id : N) : list pty :=
  map snd (filter (fun e => (fst e =? id)%N) reg).

(** [mTypeToID[t]]: the last id stored for [t]. *)
Definition id_of (reg : registry) (t : pty) : option N :=
  match filter (fun e => pty_eqb (snd e) t) (rev reg) with
  | (id, _) :: _ => Some id
  | [] => None
  end.

(** strconv.ParseUint(s, 0, 16), standard library: base prefixes 0x 0b 0o 0, underscores. *)
Definition lower (c : ascii) : N :=
  let n := N_of_ascii c in if ((65 <=? n) && (n <=? 90))%N then (n + 32)%N else n.

Definition digit_val (c : ascii) : option N :=
  let n := lower c in
  if ((48 <=? n) && (n <=? 57))%N then Some (n - 48)%N
  else if ((97 <=? n) && (n <=? 122))%N then Some (n - 87)%N else None.

Fixpoint parse_digits (base : N) (acc : N) (s : string) : option N :=
  match s with
  | EmptyString => Some acc
  | String c s' =>
      if (N_of_ascii c =? 95)%N then parse_digits base acc s'
      else match digit_val c with
           | Some d => if (d <? base)%N then parse_digits base (acc * base + d)%N s' else None
           | None => None
           end
  end.

(** strconv's underscoreOK, after the optional base prefix: [saw] is 0 for a digit (or prefix),
    1 for an underscore, 2 otherwise. *)
Fixpoint underscores_ok (hex : bool) (saw : N) (s : string) : bool :=
  match s with
  | EmptyString => negb (saw =? 1)%N
  | String c s' =>
      let n := lower c in
      if (((48 <=? n) && (n <=? 57)) || (hex && (97 <=? n) && (n <=? 102)))%N
      then underscores_ok hex 0 s'
      else if (n =? 95)%N then (saw =? 0)%N && underscores_ok hex 1 s'
      else negb (saw =? 1)%N && underscores_ok hex 2 s'
  end.

Definition parse_uint16 (s : string) : option N :=
  let finish hex saw base body :=
    match parse_digits base 0 body with
    | Some n => if ((n <=? 65535)%N && underscores_ok hex saw body)%bool then Some n else None
    | None => None
    end in
  match s with
  | EmptyString => None
  | String c s1 =>
      if (N_of_ascii c =? 48)%N then
        match s1 with
        | String d (String _ _ as s2) =>
            if (lower d =? 120)%N then finish true 0%N 16%N (match s1 with String _ r => r | _ => s1 end)
            else if (lower d =? 98)%N then finish false 0%N 2%N (match s1 with String _ r => r | _ => s1 end)
            else if (lower d =? 111)%N then finish false 0%N 8%N (match s1 with String _ r => r | _ => s1 end)
            else finish false 0%N 8%N s1
        | _ => finish false 0%N 8%N s1
        end
      else finish false 2%N 10%N s
  end.

(** lingo.go:97-111 [RegisterLingos] on a table of (id tag, type) fields, in order. *)
Definition errIdTag := ErrMsg "register lingos: parse id tag err".
Fixpoint RegisterLingos (reg : registry) (lingo : N) (fields : list (string * pty)) : registry * option goerr :=
  match fields with
  | [] => (reg, None)
  | (tag, t) :: fs =>
      match parse_uint16 tag with
      | None => (reg, Some errIdTag)                               (* 102-105; text simplified *)
      | Some cmd => RegisterLingos (storeMapping reg (NewLingoCmdID lingo cmd) t) lingo fs (* 107 *)
      end
  end.

(** The init functions: general.go:15-17, simpleremote.go:12-14, dispremote.go:11-13,
    extremote.go:11-13, audio.go:10-12.  The tables do not share types or ids, so the order in
    which Go runs the packages' init functions does not matter to lookups. *)
Definition std_registry : registry :=
  let r := [] in
  let r := fst (RegisterLingos r LingoDigitalAudioID audio_Lingos) in
  let r := fst (RegisterLingos r LingoDisplayRemoteID disp_Lingos) in
  let r := fst (RegisterLingos r LingoExtRemoteID ext_Lingos) in
  let r := fst (RegisterLingos r LingoGeneralID general_Lingos) in
  fst (RegisterLingos r LingoSimpleRemoteID simple_Lingos).

(** lingo.go:138-145 [LookupID]: a payload that is not a pointer panics. *)
Definition LookupID (reg : registry) (p : payload) : outcome (option N) :=
  match payload_type p with
  | None => Panic
  | Some t => Ret (id_of reg t)
  end.

(** lingo.go:150-153. *)
Record LookupResult := mkLookup { lr_type : pty; lr_trx : bool }.

(** lingo.go:161-179, the search by size.  [payloadSize - 2] may be negative in Go; a size is
    never, so [size + 2 = payloadSize] is the same test. *)
Fixpoint lookup_by_size (ts : list pty) (payloadSize : nat) : option LookupResult :=
  match ts with
  | [] => None
  | t :: ts' =>
      match struct_size (layout t) with
      | None => lookup_by_size ts' payloadSize                     (* 164-166 *)
      | Some n =>
          if Nat.eqb n payloadSize then Some (mkLookup t false)    (* 169-173 *)
          else if Nat.eqb (n + 2) payloadSize then Some (mkLookup t true) (* 174-178 *)
          else lookup_by_size ts' payloadSize
      end
  end.

(** lingo.go:156-190 [Lookup]. *)
Definition Lookup (reg : registry) (id : N) (payloadSize : nat) (defaultTrx : bool) : option LookupResult :=
  let ts := types_of reg id in                                     (* 157-160 *)
  match lookup_by_size ts payloadSize with
  | Some r => Some r
  | None => match ts with
            | [t] => Some (mkLookup t defaultTrx)                  (* 182-187 *)
            | _ => None
            end
  end.

(** ** DumpLingos *)

(** sort.Slice by id (lingo.go:126-128).  Ids are distinct map keys, so every sorting algorithm
    gives the same result; insertion sort is used. *)
Fixpoint insert_by_id (c : N * string) (l : list (N * string)) : list (N * string) :=
  match l with
  | [] => [c]
  | d :: l' => if (fst d <? fst c)%N then d :: insert_by_id c l' else c :: l
  end.
Fixpoint sort_by_id (l : list (N * string)) : list (N * string) :=
  match l with [] => [] | c :: l' => insert_by_id c (sort_by_id l') end.

Definition dump_line (c : N * string) : string :=
  (id_GoString (fst c) ++ String "009" (snd c ++ String "010" EmptyString))%string.

(** lingo.go:114-135 [DumpLingos]; [order] is the order in which ranging over the map yields
    its keys, unspecified in Go. *)
Definition DumpLingos (order : list N) (reg : registry) : string :=
  let cmds := map (fun id => (id, match types_of reg id with
                                  | t :: _ => type_name t
                                  | [] => EmptyString
                                  end)) order in
  fold_right (fun c s => append (dump_line c) s) EmptyString (sort_by_id cmds).
