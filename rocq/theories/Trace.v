(** Model of trace/trace.go. *)
From Verif Require Import Base.

(** ** Directions and messages *)

(** trace.go:11-16; Dir is a byte, so values other than these two exist. *)
Definition DirIn : N := 0.
Definition DirOut : N := 1.

(** trace.go:45-49. *)
Record Msg := mkMsg { msg_Dir : N; msg_TS : N; msg_Data : bytes }.

Definition LT : byte := x3c.                                        (* '<' *)
Definition GT : byte := x3e.                                        (* '>' *)
Definition SP : byte := x20.
Definition NL : byte := x0a.
Definition CR : byte := x0d.

(** The error texts' arguments are dropped. *)
Definition errBadDir : goerr := ErrMsg "bad dir".
Definition errDirValue : goerr := ErrMsg "trace dir unmarshal: bad value".
Definition errDirSymbol : goerr := ErrMsg "trace dir unmarshal: unknown symbol".
Definition errNoData : goerr := ErrMsg "trace marshal: no data".
Definition errShortMsg : goerr := ErrMsg "trace unmarshal: short msg".
Definition errBadData : goerr := ErrMsg "trace unmarshal: bad data".
Definition errTooLong : goerr := ErrMsg "bufio.Scanner: token too long".

(** trace.go:18-27 [Dir.MarshalText]. *)
Definition Dir_MarshalText (d : N) : bytes + goerr :=
  if (d =? DirIn)%N then inl [LT]
  else if (d =? DirOut)%N then inl [GT]
  else inr errBadDir.

(** trace.go:29-43 [Dir.UnmarshalText]; the direction is unchanged on error. *)
Definition Dir_UnmarshalText (d : N) (text : bytes) : N * option goerr :=
  match text with
  | [c] => if byte_eqb c LT then (DirIn, None)
           else if byte_eqb c GT then (DirOut, None)
           else (d, Some errDirSymbol)
  | _ => (d, Some errDirValue)
  end.

(** ** fmt's "% 02X" and "%x" *)

(** fmt's upper-case digits ("0123456789ABCDEFX"). *)
Definition udigit (n : N) : byte := if (n <? 10)%N then n2b (48 + n) else n2b (55 + n).

Definition hex2 (b : byte) : bytes := [udigit (b2n b / 16); udigit (b2n b mod 16)].

(** fmt.Sprintf("% 02X", data): two digits per byte, one space between bytes; the width of 2
    never pads since the data is not empty. *)
Fixpoint sprintf_X (data : bytes) : bytes :=
  match data with
  | [] => []
  | [b] => hex2 b
  | b :: data' => hex2 b ++ SP :: sprintf_X data'
  end.

(** fmt/scan.go hexDigit. *)
Definition hexDigit (c : byte) : option N :=
  let d := b2n c in
  if ((48 <=? d) && (d <=? 57))%N%bool then Some (d - 48)%N
  else if ((97 <=? d) && (d <=? 102))%N%bool then Some (d - 87)%N
  else if ((65 <=? d) && (d <=? 70))%N%bool then Some (d - 55)%N
  else None.

(** The one-byte runes other than newline that fmt's isSpace accepts. *)
Definition space1 (b : byte) : bool :=
  let n := b2n b in ((n =? 32) || (n =? 9) || ((11 <=? n) && (n <=? 13)))%N%bool.

(** U+0085 and U+00A0 in UTF-8. *)
Definition space2 (a b : byte) : bool :=
  (byte_eqb a xc2 && (byte_eqb b x85 || byte_eqb b xa0))%bool.

(** U+1680, U+2000-200A, U+2028, U+2029, U+202F, U+205F, U+3000 in UTF-8. *)
Definition space3 (a b c : byte) : bool :=
  ((byte_eqb a xe1 && byte_eqb b x9a && byte_eqb c x80)
   || (byte_eqb a xe2 && byte_eqb b x80
       && (((128 <=? b2n c)%N && (b2n c <=? 138)%N) || byte_eqb c xa8 || byte_eqb c xa9 || byte_eqb c xaf))
   || (byte_eqb a xe2 && byte_eqb b x81 && byte_eqb c x9f)
   || (byte_eqb a xe3 && byte_eqb b x80 && byte_eqb c x80))%bool.

(** fmt/scan.go SkipSpace for Sscanf (newlines are not space); [None]: "unexpected newline". *)
Fixpoint skip_space (l : bytes) : option bytes :=
  match l with
  | [] => Some []
  | a :: l1 =>
      if byte_eqb a NL then None
      else if space1 a then skip_space l1
      else match l1 with
           | b :: l2 =>
               if space2 a b then skip_space l2
               else match l2 with
                    | c :: l3 => if space3 a b c then skip_space l3 else Some l
                    | [] => Some l
                    end
           | [] => Some l
           end
  end.

(** fmt/scan.go hexString and hexByte; [None]: an error. *)
Fixpoint hex_string (l : bytes) : option bytes :=
  match l with
  | [] => Some []
  | c1 :: l1 =>
      match hexDigit c1 with
      | None => Some []
      | Some v1 =>
          match l1 with
          | [] => None
          | c2 :: l2 =>
              match hexDigit c2 with
              | None => None
              | Some v2 => option_map (cons (n2b (16 * v1 + v2))) (hex_string l2)
              end
          end
      end
  end.

(** fmt.Sscanf(h, "%x", &data): what remains after the digits is ignored; [None]: an error. *)
Definition Sscanf_x (h : bytes) : option bytes :=
  match skip_space h with
  | None => None
  | Some [] => None
  | Some l => match hex_string l with
              | Some [] => None
              | r => r
              end
  end.

(** ** Message text *)

(** trace.go:51-62 [Msg.MarshalText]. *)
Definition Msg_MarshalText (m : Msg) : bytes + goerr :=
  match Dir_MarshalText (msg_Dir m) with                            (* 52-55 *)
  | inr e => inr e
  | inl dt =>
      match msg_Data m with
      | [] => inr errNoData                                         (* 56-58 *)
      | _ => inl (firstn 1 dt ++ SP :: sprintf_X (msg_Data m))      (* 60 *)
      end
  end.

(** trace.go:64-81 [Msg.UnmarshalText]: the message after the call, and the error. *)
Definition Msg_UnmarshalText (m : Msg) (text : bytes) : Msg * option goerr :=
  if Nat.ltb (List.length text) 4 then (m, Some errShortMsg)        (* 65-67 *)
  else
    match Dir_UnmarshalText (msg_Dir m) (firstn 1 text) with        (* 68 *)
    | (_, Some e) => (m, Some e)                                    (* 69 *)
    | (d, None) =>
        let h := filter (fun c => negb (byte_eqb c SP)) (skipn 2 text) in (* 72 *)
        match Sscanf_x h with                                       (* 73-74 *)
        | None => (mkMsg d (msg_TS m) (msg_Data m), Some errBadData) (* 75-77 *)
        | Some data => (mkMsg d (msg_TS m) data, None)              (* 78 *)
        end
    end.

(** ** bufio.Scanner with ScanLines *)

(** The raw lines of a file: pieces ended by a newline, and what follows the last newline if not
    empty. *)
Fixpoint raw_lines (cur : bytes) (l : bytes) : list bytes :=
  match l with
  | [] => match cur with [] => [] | _ => [cur] end
  | b :: l' => if byte_eqb b NL then cur :: raw_lines [] l' else raw_lines (cur ++ [b]) l'
  end.

(** bufio dropCR. *)
Definition dropCR (l : bytes) : bytes :=
  match rev l with
  | c :: r => if byte_eqb c CR then rev r else l
  | [] => l
  end.

(** bufio.MaxScanTokenSize is 64*1024: the buffer must hold the line and its newline (or the end
    of the file). *)
Definition max_line : N := 65535.

(** The tokens returned by Scan, and what Err gives after them; [fin] is what the underlying
    reader returns at the end of its content. *)
Fixpoint scan (lines : list bytes) (fin : goerr) : list bytes * goerr :=
  match lines with
  | [] => ([], fin)
  | l :: lines' =>
      if (len l <=? max_line)%N
      then let '(ts, e) := scan lines' fin in (dropCR l :: ts, e)
      else ([], errTooLong)
  end.

(** ** Reader *)

(** trace.go:83-87.  The scanner is modelled by the tokens it has still to return and its final
    error (io.EOF for none); the underlying reader is a file whose content does not change. *)
Record Reader := mkReader { rd_tokens : list bytes; rd_fin : goerr; rd_err : option goerr; rd_ts : N }.

(** trace.go:89-93, on a reader with the given content that then returns [fin]. *)
Definition NewReader (content : bytes) (fin : goerr) : Reader :=
  let '(ts, e) := scan (raw_lines [] content) fin in mkReader ts e None 0.

Definition uint_max1 : N := (2 ^ 64)%N.

(** trace.go:99-115, the loop of [ReadMsg]. *)
Fixpoint ReadMsg_loop (tokens : list bytes) (fin : goerr) (ts : N) (m : Msg) : Reader * Msg * option goerr :=
  match tokens with
  | [] => (mkReader [] fin (Some fin) ts, m, Some fin)              (* 111-115 *)
  | text :: tokens' =>
      match text with
      | [] => ReadMsg_loop tokens' fin ts m                         (* 101-103 *)
      | _ =>
          match Msg_UnmarshalText m text with                       (* 104 *)
          | (m', None) =>                                           (* 105-109 *)
              (mkReader tokens' fin None ((ts + 1) mod uint_max1)%N,
               mkMsg (msg_Dir m') ts (msg_Data m'), None)
          | (m', Some e) => (mkReader tokens' fin None ts, m', Some e)
          end
      end
  end.

(** trace.go:95-116 [ReadMsg]: reader, message and error after the call. *)
Definition ReadMsg (r : Reader) (m : Msg) : Reader * Msg * option goerr :=
  match rd_err r with
  | Some e => (r, m, Some e)                                        (* 96-98 *)
  | None => ReadMsg_loop (rd_tokens r) (rd_fin r) (rd_ts r) m
  end.

(** ** Writer *)

(** An io.Writer with state: count and error of one Write. *)
Definition io_write (S : Type) : Type := S -> bytes -> S * (nat * option goerr).

(** trace.go:128-137 [WriteMsg]: one Write per message; the count is ignored. *)
Definition WriteMsg {S} (w : io_write S) (s : S) (m : Msg) : S * option goerr :=
  match Msg_MarshalText m with
  | inr e => (s, Some e)                                            (* 130-132 *)
  | inl t => let '(s', (_, err)) := w s (t ++ [NL]) in (s', err)    (* 133-136 *)
  end.

(** ** Tracer *)

(** An io.ReadWriter with state.  A Read with a buffer of [n] bytes returns at most [n] bytes and
    an error; a Write returns a count and an error. *)
Record io_rw (S : Type) := mkRW { rw_read : S -> nat -> S * (bytes * option goerr); rw_write : io_write S }.
Arguments mkRW {S}. Arguments rw_read {S}. Arguments rw_write {S}.

(** trace.go:144-150 [tracer.Write].  [p[:n]] is taken to panic when n > len(p) (exceeding the
    length but not the capacity would not, but breaks io.Writer's contract). *)
Definition tracer_Write {S T} (tw : io_write T) (dev : io_rw S) (st : S * T) (p : bytes)
  : outcome ((S * T) * (nat * option goerr)) :=
  let '(s, t) := st in
  let '(s', (n, err)) := rw_write dev s p in                        (* 145 *)
  match err with
  | Some _ => Ret ((s', t), (n, err))                               (* 149 *)
  | None =>
      if Nat.ltb (List.length p) n then Panic
      else let '(t', _) := WriteMsg tw t (mkMsg DirOut 0 (firstn n p)) in (* 147 *)
           Ret ((s', t'), (n, err))
  end.

(** trace.go:152-158 [tracer.Read] with a buffer of [n] bytes; a device that claims more than the
    buffer holds breaks io.Reader's contract and panics here. *)
Definition tracer_Read {S T} (tw : io_write T) (dev : io_rw S) (st : S * T) (n : nat)
  : outcome ((S * T) * (bytes * option goerr)) :=
  let '(s, t) := st in
  let '(s', (got, err)) := rw_read dev s n in                       (* 153 *)
  match err with
  | Some _ => Ret ((s', t), (got, err))                             (* 157 *)
  | None =>
      if Nat.ltb n (List.length got) then Panic
      else let '(t', _) := WriteMsg tw t (mkMsg DirIn 0 got) in     (* 155 *)
           Ret ((s', t'), (got, err))
  end.

(** ** Direction-filtered reader *)

(** trace.go:179-190 [traceDirReader.Read] with a buffer of [n] bytes; [fuel] bounds the messages
    read, one more than the tokens left is enough. *)
Fixpoint dir_Read_loop (fuel : nat) (dir : N) (r : Reader) (n : nat) : option (Reader * (bytes * option goerr)) :=
  match fuel with
  | O => None
  | S fuel' =>
      match ReadMsg r (mkMsg 0 0 []) with                           (* 181-184 *)
      | (r', _, Some e) => Some (r', ([], Some e))
      | (r', m, None) =>
          if negb (msg_Dir m =? dir)%N then dir_Read_loop fuel' dir r' n (* 185-187 *)
          else Some (r', (firstn n (msg_Data m), None))             (* 188 *)
      end
  end.

Definition dir_Read (dir : N) (r : Reader) (n : nat) : option (Reader * (bytes * option goerr)) :=
  dir_Read_loop (S (List.length (rd_tokens r))) dir r n.

(** ** Queue *)

(** trace.go:192-200.  A queue item is identified by a number (its address); the lists of
    container/list are lists of items.  The queued messages are not changed by their owner. *)
Definition item : Type := (nat * Msg)%type.
Record Queue := mkQueue { q_all : list item; q_in : list item; q_out : list item; q_next : nat }.

Definition NewQueue : Queue := mkQueue [] [] [] 0.

(** container/list Remove of the element that holds item [i]. *)
Definition remove_item (i : nat) (l : list item) : list item := filter (fun x => negb (Nat.eqb (fst x) i)) l.

(** trace.go:212-216 [Enqueue]: the queue after the call, and whether it panicked. *)
Definition Enqueue (q : Queue) (m : Msg) : Queue * outcome unit :=
  let qi := (q_next q, m) in                                        (* 213 *)
  let all := q_all q ++ [qi] in                                     (* 214 *)
  if (msg_Dir m =? DirIn)%N                                         (* 215 with 202-210 *)
  then (mkQueue all (q_in q ++ [qi]) (q_out q) (S (q_next q)), Ret tt)
  else if (msg_Dir m =? DirOut)%N
  then (mkQueue all (q_in q) (q_out q ++ [qi]) (S (q_next q)), Ret tt)
  else (mkQueue all (q_in q) (q_out q) (S (q_next q)), Panic).      (* 209 *)

(** trace.go:218-228 [Head]; [None]: nil. *)
Definition Head (q : Queue) : option Msg :=
  match q_all q with [] => None | qi :: _ => Some (snd qi) end.

(** trace.go:239-240, 254-255: removal from both lists; the second may panic (202-210). *)
Definition unlink (q : Queue) (qi : item) : Queue * outcome unit :=
  let all := remove_item (fst qi) (q_all q) in
  let d := msg_Dir (snd qi) in
  if (d =? DirIn)%N then (mkQueue all (remove_item (fst qi) (q_in q)) (q_out q) (q_next q), Ret tt)
  else if (d =? DirOut)%N then (mkQueue all (q_in q) (remove_item (fst qi) (q_out q)) (q_next q), Ret tt)
  else (mkQueue all (q_in q) (q_out q) (q_next q), Panic).

(** trace.go:230-243 [Dequeue]. *)
Definition Dequeue (q : Queue) : Queue * outcome (option Msg) :=
  match q_all q with
  | [] => (q, Ret None)
  | qi :: _ => let '(q', o) := unlink q qi in
               (q', do _ <- o; Ret (Some (snd qi)))
  end.

(** trace.go:245-258 [DequeueDir]. *)
Definition DequeueDir (q : Queue) (dir : N) : Queue * outcome (option Msg) :=
  if (dir =? DirIn)%N || (dir =? DirOut)%N then
    match (if (dir =? DirIn)%N then q_in q else q_out q) with
    | [] => (q, Ret None)
    | qi :: _ => let '(q', o) := unlink q qi in
                 (q', do _ <- o; Ret (Some (snd qi)))
    end
  else (q, Panic).

(** trace.go:272-278 [queueDirReader.Read] with a buffer of [n] bytes. *)
Definition queue_Read (q : Queue) (dir : N) (n : nat) : Queue * outcome (bytes * option goerr) :=
  let '(q', o) := DequeueDir q dir in
  (q', do m <- o;
       Ret match m with
           | None => ([], Some EOF)
           | Some m => (firstn n (msg_Data m), None)
           end).

(** ** Trace files (cmd/ipod/main.go) *)

(** main.go:47-49 [newTraceFile]: opened for writing at offset 0 without truncation, so that the
    bytes written replace the first bytes of the old content. *)
Definition overwrite (old new : bytes) : bytes := new ++ skipn (List.length new) old.
