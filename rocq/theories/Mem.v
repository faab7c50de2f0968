(** The memory behind the slices: which values share bytes with the HID decoder's buffer, the
    report reader's buffer and the certificate buffer, and when those are overwritten.

    The other model files treat slices as values.  Here byte arrays have an identity, so that two
    slices can share bytes: hid.go:82-120, report_transport.go:28-46, packet.go:26-76,
    cmd.go:123-163 and the UnmarshalBinary methods of general.go again, in terms of arrays. *)
From Verif Require Import Base GoTypes Types Payload Lingo Command Handlers Packet Hid Server.

(** ** Arrays and slices of them *)

(** Backing arrays, by address; an array never changes its length.  The garbage collector frees
    only arrays without references, so nothing is ever removed. *)
Definition heap := list bytes.
Definition array (h : heap) (a : nat) : bytes := nth a h [].

(** A Go [[]byte]: array, offset and length; the capacity reaches to the end of the array (/repo
    has no slice expression with a capacity). *)
Record ref := mkRef { rf_arr : nat; rf_off : nat; rf_len : nat }.
Definition nilref : ref := mkRef 0 0 0.

(** The bytes seen through a slice now, and those behind it up to its capacity. *)
Definition load (h : heap) (s : ref) : bytes := firstn (rf_len s) (skipn (rf_off s) (array h (rf_arr s))).
Definition behind (h : heap) (s : ref) : bytes := skipn (rf_off s + rf_len s) (array h (rf_arr s)).
Definition as_slice (h : heap) (s : ref) : slice := mkSlice (load h s) (behind h s).

(** [l] with [p] written at [off]. *)
Definition overwrite (l : bytes) (off : nat) (p : bytes) : bytes :=
  firstn off l ++ p ++ skipn (off + List.length p) l.

Fixpoint update (h : heap) (a : nat) (l : bytes) : heap :=
  match h, a with
  | [], _ => []
  | _ :: h', O => l :: h'
  | x :: h', S a' => x :: update h' a' l
  end.

(** Writing [p] into an array. *)
Definition store (h : heap) (a off : nat) (p : bytes) : heap := update h a (overwrite (array h a) off p).

(** [make] and [append] to nil: a new array. *)
Definition alloc (h : heap) (l : bytes) : heap * ref := (h ++ [l], mkRef (List.length h) 0 (List.length l)).
Fixpoint alloc_all (h : heap) (ls : list bytes) : heap * list ref :=
  match ls with
  | [] => (h, [])
  | l :: ls' => let '(h1, s) := alloc h l in
                let '(h2, ss) := alloc_all h1 ls' in (h2, s :: ss)
  end.

(** Go [s[n:]] and [s[:n]]. *)
Definition ref_from (s : ref) (n : nat) : outcome ref :=
  if Nat.leb n (rf_len s) then Ret (mkRef (rf_arr s) (rf_off s + n) (rf_len s - n)) else Panic.
Definition ref_to (h : heap) (s : ref) (n : nat) : outcome ref :=
  if Nat.leb n (List.length (array h (rf_arr s)) - rf_off s) then Ret (mkRef (rf_arr s) (rf_off s) n) else Panic.

(** ** bytes.Buffer, as far as it is used here: nothing is read from it, so its read offset is 0 *)

(** A buffer: its array and the number of bytes written.  A new buffer has an array of
    capacity 0. *)
Record hbuf := mkBuf { bf_arr : nat; bf_len : nat }.

(** Buffer.Reset keeps the array. *)
Definition buf_Reset (b : hbuf) : hbuf := mkBuf (bf_arr b) 0.
(** Buffer.Bytes: a slice of the array. *)
Definition buf_Bytes (b : hbuf) : ref := mkRef (bf_arr b) 0 (bf_len b).
(** Buffer.Write: in place when the capacity suffices, else in a new array.  The new capacity
    depends on the Go version: [pol cap len n], any function. *)
Definition buf_Write (pol : nat -> nat -> nat -> nat) (h : heap) (b : hbuf) (p : bytes) : heap * hbuf :=
  let cap := List.length (array h (bf_arr b)) in
  let need := bf_len b + List.length p in
  if Nat.leb need cap
  then (store h (bf_arr b) (bf_len b) p, mkBuf (bf_arr b) need)
  else let l := firstn (bf_len b) (array h (bf_arr b)) ++ p in
       (h ++ [l ++ repeat x00 (pol cap (bf_len b) (List.length p) - need)], mkBuf (List.length h) need).

(** bytes.Buffer.grow of Go 1.11 to 1.17, for a buffer nothing was read from.  Later versions
    also start with 64 bytes, but round the larger sizes to those of the allocator. *)
Definition go_growth (cap len n : nat) : nat :=
  if (cap =? 0) && (n <=? 64) then 64 else 2 * cap + n.

(** ** The buffers of a session *)

(** [m_buf]: Decoder.buf (hid.go:85); [m_raw]: rawReportReader.buf (report_transport.go:30);
    [m_cert]: accCertBuf (lingo-general/handler.go:91). *)
Record mem := mkMem { m_heap : heap; m_buf : hbuf; m_raw : nat; m_cert : hbuf }.

(** hid.go:122-127, report_transport.go:48-53, lingo-general/handler.go:91: at the start. *)
Definition new_mem : mem := mkMem [[]; repeat x00 maxRawSize; []] (mkBuf 0 0) 1 (mkBuf 2 0).

(** hid.go:8-12 with the data as a slice. *)
Record report_ref := mkRR { rr_ID : byte; rr_LinkControl : byte; rr_Data : ref }.

(** report_transport.go:33-46, given the result of the device's Read into the buffer. *)
Definition ReadReport_mem (h : heap) (raw : nat) (r : raw_read) : heap * (report_ref + goerr) :=
  let got := firstn maxRawSize (fst r) in
  let h' := store h raw 0 got in                                    (* 34 *)
  let n := List.length got in
  match snd r with
  | Some e => (h', inr e)                                           (* 35-37 *)
  | None => if Nat.ltb n 3 then (h', inr NoProgress)                (* 38-40 *)
            else (h', inl (mkRR (nth 0 (array h' raw) x00) (nth 1 (array h' raw) x00)
                                (mkRef raw 2 (n - 2))))             (* 41-45 *)
  end.

(** hid.go:88-120 [Decoder.ReadFrame]: the loop.  [rd] is the device's Read; [fuel] bounds the
    number of reports. *)
Fixpoint ReadFrame_mem_loop {D} (fuel : nat) (defs : list ReportDef) (pol : nat -> nat -> nat -> nat)
  (rd : D -> io (D * raw_read)) (m : mem) (d : D) : io (mem * D * (ref + goerr)) :=
  match fuel with
  | O => None
  | S fuel' =>
      go (d', got) <- rd d;                                         (* 93 *)
      let '(h1, rep) := ReadReport_mem (m_heap m) (m_raw m) got in
      let m1 := mkMem h1 (m_buf m) (m_raw m) (m_cert m) in
      match rep with
      | inr e => done (m1, d', inr e)                               (* 94-96 *)
      | inl report =>
          match Find defs (Z.of_N (b2n (rr_ID report))) with        (* 97 *)
          | inr e => done (m1, d', inr e)                           (* 98-100 *)
          | inl reportDef =>
              let n := Z.min (Z.of_nat (rf_len (rr_Data report))) (MaxPayload reportDef) in (* 102 *)
              if (n <? 0)%Z then Some Panic                         (* 103 *)
              else
                let reportData := load h1 (mkRef (rf_arr (rr_Data report)) (rf_off (rr_Data report)) (Z.to_nat n)) in
                let write b := let '(h2, b2) := buf_Write pol h1 b reportData in
                               mkMem h2 b2 (m_raw m) (m_cert m) in
                let finish m2 := done (m2, d', inl (buf_Bytes (m_buf m2))) in (* 119 *)
                let lc := b2n (rr_LinkControl report) in
                if (lc =? LinkControlDone)%N                        (* 105-108 *)
                then finish (write (buf_Reset (m_buf m)))
                else if (lc =? LinkControlMoreToFollow)%N           (* 109-111 *)
                then ReadFrame_mem_loop fuel' defs pol rd (write (buf_Reset (m_buf m))) d'
                else if (lc =? N.lor LinkControlContinue LinkControlMoreToFollow)%N (* 112-113 *)
                then ReadFrame_mem_loop fuel' defs pol rd (write (m_buf m)) d'
                else if (lc =? LinkControlContinue)%N               (* 114-116 *)
                then finish (write (m_buf m))
                else ReadFrame_mem_loop fuel' defs pol rd m1 d'     (* no case *)
          end
      end
  end.

Definition ReadFrame_mem {D} (fuel : nat) (defs : list ReportDef) (pol : nat -> nat -> nat -> nat)
  (rd : D -> io (D * raw_read)) (m : mem) (d : D) : io (mem * D * (ref + goerr)) :=
  ReadFrame_mem_loop fuel defs pol rd (mkMem (m_heap m) (buf_Reset (m_buf m)) (m_raw m) (m_cert m)) d. (* 90 *)

(** hid.go:133-143 [NewTransport] with these buffers: what lies behind a frame is what the
    decoder's buffer holds there.  The encoder's reports are made anew (hid.go:54) and its writer
    has a buffer of its own (report_transport.go:57), so writing touches none of them. *)
Definition mem_transport {D} (fuel : nat) (defs : list ReportDef) (pol : nat -> nat -> nat -> nat)
  (rd : D -> io (D * raw_read)) (wd : D -> bytes -> outcome (D * (nat * option goerr)))
  : transport (mem * D) :=
  mkTransport
    (fun w => go (m', d', r) <- ReadFrame_mem fuel defs pol rd (fst w) (snd w);
              done ((m', d'), match r with inl s => inl (as_slice (m_heap m') s) | inr e => inr e end))
    (fun w frame => go (d', e) <- WriteFrame_dev defs wd (snd w) frame; done ((fst w, d'), e)).

(** ** Packets: slices of the frame *)

(** packet.go:47-62 [parsePacket]. *)
Definition parsePacket_mem (h : heap) (data : ref) : outcome (nat * ref * option goerr) :=
  match parseHeader (load h data) with
  | inr e => Ret (0, nilref, Some e)                                (* 49-51 *)
  | inl (payOff, payLen) =>
      let pktLen := payOff + payLen + 1 in                          (* 52 *)
      do pkt <- ref_to h data pktLen;                               (* 53 *)
      if Nat.ltb (rf_len pkt) pktLen                                (* 54-56 *)
      then Ret (pktLen, nilref, Some UnexpectedEOF)
      else if negb (N.eqb (checksum (load h pkt)) 0)                (* 57-59 *)
      then Ret (pktLen, nilref, Some errInvalidChecksum)
      else Ret (pktLen, mkRef (rf_arr pkt) (rf_off pkt + payOff) payLen, None) (* 61 *)
  end.

(** packet.go:64-76 [ReadPacket]: new reader state, payload, error. *)
Definition ReadPacket_mem (h : heap) (frame : ref) : outcome (ref * ref * option goerr) :=
  match index_byte PacketStartByte (load h frame) with              (* 65 *)
  | None => Ret (frame, nilref, Some EOF)                           (* 66-68 *)
  | Some next =>
      do frame1 <- ref_from frame (next + 1);                       (* 69 *)
      do r <- parsePacket_mem h frame1;                             (* 70 *)
      let '(pktLen, payload, err) := r in
      match err with
      | Some e => Ret (frame1, nilref, Some e)                      (* 71-73 *)
      | None =>
          do frame2 <- ref_from frame1 pktLen;                      (* 74 *)
          Ret (frame2, payload, None)                               (* 75 *)
      end
  end.

(** ** Commands: which slices of the packet they hold *)

(** A value with the slices it holds: [kp_build] puts it together from their contents. *)
Record kept (A : Type) := mkKept { kp_refs : list ref; kp_build : list bytes -> A }.
Arguments mkKept {A}. Arguments kp_refs {A}. Arguments kp_build {A}.

(** The value as a reader of memory [h] finds it. *)
Definition deref {A} (h : heap) (k : kept A) : A := kp_build k (map (load h) (kp_refs k)).

(** A value without slices of memory that is known here. *)
Definition plain {A} (a : A) : kept A := mkKept [] (fun _ => a).

(** The byte slices of a struct's fields, and the struct with other ones. *)
Fixpoint field_slices (vs : list fval) : list bytes :=
  match vs with
  | [] => []
  | VBytes l :: vs' => l :: field_slices vs'
  | _ :: vs' => field_slices vs'
  end.
Fixpoint refill (vs : list fval) (ls : list bytes) : list fval :=
  match vs with
  | [] => []
  | VBytes _ :: vs' => VBytes (hd [] ls) :: refill vs' (tl ls)
  | v :: vs' => v :: refill vs' ls
  end.

(** The slices of decoded acks (general.go:751-753: made and copied). *)
Fixpoint ack_slices (l : list token_ack) : list bytes :=
  match l with
  | [] => []
  | mkTA _ _ (Some b) :: l' => b :: ack_slices l'
  | mkTA _ _ None :: l' => ack_slices l'
  end.
Fixpoint refill_acks (l : list token_ack) (ls : list bytes) : list token_ack :=
  match l with
  | [] => []
  | mkTA ty sub (Some _) :: l' => mkTA ty sub (Some (hd [] ls)) :: refill_acks l' (tl ls)
  | a :: l' => a :: refill_acks l' ls
  end.

(** A value of which all slices are new arrays. *)
Definition own {A} (h : heap) (ls : list bytes) (build : list bytes -> A) : heap * kept A :=
  let '(h', ss) := alloc_all h ls in (h', mkKept ss build).

(** general.go:621-673 [FIDTokenValue.UnmarshalBinary]: the slices of the token decoded from
    [data]. *)
Definition token_value_unmarshal_mem (rt : bool) (h : heap) (data : ref)
  : outcome (res (heap * kept token_value)) :=
  do r <- token_value_unmarshal rt (load h data);
  match r with
  | Err e => Ret (Err e)
  | Ok v =>
      let tv t := mkTV (tv_type v) (tv_sub v) t in
      Ret (Ok (match tv_token v with
               | TokEAProtocol i _ =>                               (* 557: data[1:] of br.Bytes(), 662 *)
                   (h, mkKept [mkRef (rf_arr data) (rf_off data + 3) (rf_len data - 3)]
                              (fun ls => tv (TokEAProtocol i (hd [] ls))))
               | TokIdentify l o d =>                               (* 460-461: made and read into *)
                   own h [l] (fun ls => tv (TokIdentify (hd [] ls) o d))
               | TokAccInfo ty (Some b) =>                          (* 525: ReadBytes copies; 527-537: made *)
                   own h [b] (fun ls => tv (TokAccInfo ty (Some (hd [] ls))))
               | TokRaw l =>                                        (* 668-670: made and copied *)
                   own h [l] (fun ls => tv (TokRaw (hd [] ls)))
               | TokNil | TokAccInfo _ None | TokStruct _ _ => (h, plain v)
               end))
  end.

(** general.go:701-712; [br.Next] returns a slice of [data]. *)
Fixpoint tokens_unmarshal_loop_mem (rt : bool) (n : nat) (h : heap) (data : ref)
  : outcome (res (heap * list (kept token_value))) :=
  match n with
  | 0 => Ret (Ok (h, []))
  | S n' =>
      match load h data with
      | [] => Ret (Err EOF)                                         (* 703-706 *)
      | k :: r =>
          let tl := Nat.min (N.to_nat (b2n k)) (List.length r) in   (* 708: Next *)
          let tokenBytes := mkRef (rf_arr data) (rf_off data + 1) tl in
          do v <- token_value_unmarshal_mem rt h tokenBytes;        (* 709-711 *)
          match v with
          | Err e => Ret (Err e)
          | Ok (h1, v) =>
              do vs <- tokens_unmarshal_loop_mem rt n' h1
                         (mkRef (rf_arr data) (rf_off data + 1 + tl) (rf_len data - 1 - tl));
              match vs with
              | Err e => Ret (Err e)
              | Ok (h2, vs) => Ret (Ok (h2, v :: vs))
              end
          end
      end
  end.

(** general.go:694-714. *)
Definition tokens_unmarshal_mem (rt : bool) (h : heap) (data : ref)
  : outcome (res (heap * list (kept token_value))) :=
  match load h data with
  | [] => Ret (Err EOF)                                             (* 696-699 *)
  | n :: _ => tokens_unmarshal_loop_mem rt (N.to_nat (b2n n)) h
                (mkRef (rf_arr data) (rf_off data + 1) (rf_len data - 1))
  end.

(** A payload with the slices it holds; those of a token list are kept token by token. *)
Inductive kept_payload :=
| KPayload (k : kept payload)
| KTokens (l : list (kept token_value)).

Definition deref_payload (h : heap) (p : kept_payload) : payload :=
  match p with
  | KPayload k => deref h k
  | KTokens l => PTokens (map (deref h) l)
  end.

(** A decoded payload that owns its slices: general.go:146-150, 169-173, 189-198 (ReadAll),
    277-279, 309-313, 898 (append to nil), 751-753; extremote.go:323-327, 340-344, 357-361.  The
    other payloads hold values, empty slices, or structs read by encoding/binary. *)
Definition own_payload (h : heap) (p : payload) : heap * kept_payload :=
  match p with
  | Pst t vs => let '(h', k) := own h (field_slices vs) (fun ls => Pst t (refill vs ls)) in (h', KPayload k)
  | PTokenAcks l => let '(h', k) := own h (ack_slices l) (fun ls => PTokenAcks (refill_acks l ls)) in (h', KPayload k)
  | _ => (h, KPayload (plain p))
  end.

(** cmd.go:28-33. *)
Record kept_command := mkKC { kc_id : N; kc_trx : option N; kc_payload : option kept_payload }.
Definition deref_command (h : heap) (c : kept_command) : command :=
  mkCmd (kc_id c) (kc_trx c) (match kc_payload c with Some p => Some (deref_payload h p) | None => None end).

(** [pktBuf.Bytes()]: the unread part of the packet, given what is left to read. *)
Definition unread (s : ref) (left : bytes) : ref :=
  mkRef (rf_arr s) (rf_off s + (rf_len s - List.length left)) (List.length left).

(** cmd.go:123-163 [UnmarshalCmd] on a slice of memory: what it decodes (see [UnmarshalCmd] for
    the lines), and the slices the payload holds. *)
Definition UnmarshalCmd_mem (rt : bool) (reg : registry) (enabled : bool) (h : heap) (pkt : ref)
  : outcome (heap * (bool * kept_command * option goerr)) :=
  do r <- UnmarshalCmd rt reg enabled (load h pkt);
  let '(enabled', c, err) := r in
  let result h' p := Ret (h', (enabled', mkKC (cmd_id c) (cmd_trx c) p, err)) in
  match cmd_payload c with
  | None => result h None
  | Some (PUnknown body) =>                                         (* 134 *)
      result h (Some (KPayload (mkKept [unread pkt body] (fun ls => PUnknown (hd [] ls)))))
  | Some (PTokens _) =>                                             (* 148 *)
      let body := snd (unmarshalLingoCmdID (load h pkt)) in         (* 126 *)
      let body := match cmd_trx c with Some _ => skipn 2 body | None => body end in (* 140 *)
      do r <- tokens_unmarshal_mem rt h (unread pkt body);
      match r with
      | Ok (h', l) => result h' (Some (KTokens l))
      | Err _ => result h None                                      (* cannot happen, see C74_decoded *)
      end
  | Some p => let '(h', k) := own_payload h p in result h' (Some k)
  end.

(** ** The certificate buffer *)

(** lingo-general/handler.go:146-149: one section of an accessory certificate. *)
Definition cert_section (pol : nat -> nat -> nat -> nat) (m : mem) (section : N) (data : bytes) : mem :=
  let b := if (section =? 0)%N then buf_Reset (m_cert m) else m_cert m in
  let '(h', b') := buf_Write pol (m_heap m) b data in
  mkMem h' (m_buf m) (m_raw m) b'.

(** lingo-general/handler.go:154: the slice given to the device. *)
Definition cert_given (m : mem) : ref := buf_Bytes (m_cert m).
