(** Model of the hid package: report_def.go, report_transport.go, hid.go. *)
From Verif Require Import Base.

(** ** hid/report_def.go *)

(** report_def.go:9-16. *)
Definition ReportDirAccIn : N := 0.
Definition ReportDirAccOut : N := 1.

(** report_def.go:19-26; ids and lengths are Go ints, any value is allowed. *)
Record ReportDef := mkDef { def_ID : Z; def_Len : Z; def_Dir : N }.

(** report_def.go:29-31. *)
Definition MaxPayload (d : ReportDef) : Z := (def_Len d - 1)%Z.

(** report_def.go:38-49. *)
Definition DefaultReportDefs : list ReportDef :=
  [mkDef 1 12 0; mkDef 2 14 0; mkDef 3 20 0; mkDef 4 63 0;
   mkDef 5 8 0; mkDef 6 10 0; mkDef 7 14 0; mkDef 8 20 0; mkDef 9 63 0].

(** report_def.go:51-74. *)
Definition LegacyReportDefs : list ReportDef :=
  [mkDef 1 5 0; mkDef 2 9 0; mkDef 3 13 0; mkDef 4 17 0; mkDef 5 25 0; mkDef 6 49 0;
   mkDef 7 95 0; mkDef 8 193 0; mkDef 9 257 0; mkDef 10 385 0; mkDef 11 513 0; mkDef 12 767 0;
   mkDef 13 5 1; mkDef 14 9 1; mkDef 15 13 1; mkDef 16 17 1; mkDef 17 25 1; mkDef 18 49 1;
   mkDef 19 95 1; mkDef 20 193 1; mkDef 21 255 1].

Definition errNoReport : goerr := ErrMsg "no matching report found".
Definition errReportID : goerr := ErrMsg "report id no found".      (* report_def.go:103; the id is dropped *)

(** report_def.go:80-87, the loop of [Pick]; [def] is the variable of line 78. *)
Fixpoint pick_loop (defs : list ReportDef) (payloadSize : Z) (dir : N) (def : option ReportDef)
  : option ReportDef :=
  match defs with
  | [] => def
  | d :: defs' =>
      if (def_Dir d =? dir)%N                                       (* 81 *)
      then if (payloadSize <=? MaxPayload d)%Z                      (* 83-85 *)
           then Some d
           else pick_loop defs' payloadSize dir (Some d)
      else pick_loop defs' payloadSize dir def
  end.

(** report_def.go:77-94. *)
Definition Pick (defs : list ReportDef) (payloadSize : Z) (dir : N) : ReportDef + goerr :=
  match pick_loop defs payloadSize dir None with
  | Some d => inl d
  | None => inr errNoReport
  end.

(** report_def.go:97-104. *)
Fixpoint Find (defs : list ReportDef) (id : Z) : ReportDef + goerr :=
  match defs with
  | [] => inr errReportID
  | d :: defs' => if (def_ID d =? id)%Z then inl d else Find defs' id
  end.

(** ** hid/hid.go *)

(** hid.go:8-12. *)
Record Report := mkReport { rep_ID : byte; rep_LinkControl : byte; rep_Data : bytes }.

(** hid.go:16-20; bytes. *)
Definition LinkControlDone : N := 0.
Definition LinkControlContinue : N := 1.
Definition LinkControlMoreToFollow : N := 2.

(** Go conversion [byte(i)] of an int. *)
Definition z2b (z : Z) : byte := n2b (Z.to_N (z mod 256)).

(** hid.go:34-69 [Encoder.WriteFrame]: the loop.  [wr] is the report writer, with its own state.
    [None]: out of fuel.  [fuel] bounds the number of reports. *)
Fixpoint WriteFrame_loop {S} (fuel : nat) (defs : list ReportDef) (wr : S -> Report -> S * option goerr)
  (s : S) (data : bytes) (offset bytesLeft : Z) : option (outcome (S * option goerr)) :=
  if (bytesLeft <=? 0)%Z then Some (Ret (s, None))                  (* 37, 67 *)
  else
    match fuel with
    | O => None
    | S fuel' =>
        match Pick defs bytesLeft ReportDirAccIn with               (* 38 *)
        | inr e => Some (Ret (s, Some e))                           (* 39-41 *)
        | inl reportDef =>
            let max := MaxPayload reportDef in
            let more := (max <? bytesLeft)%Z in                     (* 44 *)
            let payloadLen := if more then max else bytesLeft in    (* 42, 45 *)
            let linkControl :=
              if more
              then if (offset =? 0)%Z then LinkControlMoreToFollow  (* 46-47 *)
                   else N.lor LinkControlContinue LinkControlMoreToFollow (* 49 *)
              else if (0 <? offset)%Z then LinkControlContinue      (* 51-52 *)
                   else LinkControlDone in                          (* 43 *)
            if (max <? 0)%Z then Some Panic                         (* 54: make of a negative length *)
            else
              let chunk := firstn (Z.to_nat payloadLen) (skipn (Z.to_nat offset) data) in
              let reportData := copy_zeroed (Z.to_nat max) chunk in (* 54-55 *)
              let report := mkReport (z2b (def_ID reportDef)) (n2b linkControl) reportData in
              let '(s', err) := wr s report in                      (* 61 *)
              match err with
              | Some e => Some (Ret (s', Some e))                   (* 62 *)
              | None => WriteFrame_loop fuel' defs wr s' data
                          (offset + payloadLen)%Z (bytesLeft - payloadLen)%Z (* 64-65 *)
              end
        end
    end.

(** [WriteFrame] allowed [fuel] reports. *)
Definition WriteFrame {S} (fuel : nat) (defs : list ReportDef) (wr : S -> Report -> S * option goerr)
  (s : S) (data : bytes) : option (outcome (S * option goerr)) :=
  WriteFrame_loop fuel defs wr s data 0 (Z.of_nat (List.length data)).

(** hid.go:88-120 [Decoder.ReadFrame]: the loop.  The report reader's future results are the list
    [input], then io.EOF.  [buf] is the decoder's buffer (its spare capacity is not modelled).
    Result: remaining input, buffer, and the frame or the error. *)
Definition errEOF_reader : goerr := EOF.

Fixpoint ReadFrame_loop (defs : list ReportDef) (buf : bytes) (input : list (Report + goerr))
  : outcome (list (Report + goerr) * bytes * (bytes + goerr)) :=
  match input with
  | [] => Ret ([], buf, inr errEOF_reader)                          (* 93-96 *)
  | inr e :: input' => Ret (input', buf, inr e)                     (* 93-96 *)
  | inl report :: input' =>
      match Find defs (Z.of_N (b2n (rep_ID report))) with           (* 97 *)
      | inr e => Ret (input', buf, inr e)                           (* 98-100 *)
      | inl reportDef =>
          let n := Z.min (Z.of_nat (List.length (rep_Data report))) (MaxPayload reportDef) in (* 102 *)
          if (n <? 0)%Z then Panic                                  (* 103 *)
          else
            let reportData := firstn (Z.to_nat n) (rep_Data report) in
            let lc := b2n (rep_LinkControl report) in
            if (lc =? LinkControlDone)%N                            (* 105-108 *)
            then let buf' := [] ++ reportData in Ret (input', buf', inl buf')
            else if (lc =? LinkControlMoreToFollow)%N               (* 109-111 *)
            then ReadFrame_loop defs ([] ++ reportData) input'
            else if (lc =? N.lor LinkControlContinue LinkControlMoreToFollow)%N (* 112-113 *)
            then ReadFrame_loop defs (buf ++ reportData) input'
            else if (lc =? LinkControlContinue)%N                   (* 114-116 *)
            then let buf' := buf ++ reportData in Ret (input', buf', inl buf')
            else ReadFrame_loop defs buf input'                     (* no case *)
      end
  end.

Definition ReadFrame (defs : list ReportDef) (buf : bytes) (input : list (Report + goerr))
  : outcome (list (Report + goerr) * bytes * (bytes + goerr)) :=
  ReadFrame_loop defs [] input.                                     (* 90: buf.Reset *)

(** ** hid/report_transport.go *)

(** report_transport.go:18-24. *)
Definition SingleReport_ReadReport (s : bytes) : outcome (Report + goerr) :=
  match s with
  | id :: lc :: data => Ret (inl (mkReport id lc data))
  | _ => Panic
  end.

Definition maxRawSize : nat := 1024.                                (* 26 *)

(** One result of the device's Read: the bytes put in the buffer (at most as many as it holds)
    and the error. *)
Definition raw_read := (bytes * option goerr)%type.

(** report_transport.go:33-46 [rawReportReader.ReadReport], given the result of the device's
    Read.  The report's data aliases the reader's buffer, which only the next ReadReport changes;
    the decoder copies the data before that. *)
Definition ReadReport (r : raw_read) : Report + goerr :=
  match r with
  | (_, Some e) => inr e                                            (* 35-37 *)
  | (got, None) =>
      match firstn maxRawSize got with
      | id :: lc :: d :: data => inl (mkReport id lc (d :: data))   (* 41-45 *)
      | _ => inr NoProgress                                         (* 38-40 *)
      end
  end.

Definition errShortWrite : goerr := ErrMsg "short write".

(** report_transport.go:60-67 [rawReportWriter.WriteReport] with a device whose Write returns a
    count and an error; bytes.Buffer.WriteTo issues one Write and panics on an impossible
    count. *)
Definition WriteReport {S} (dev : S -> bytes -> S * (nat * option goerr)) (s : S) (r : Report)
  : outcome (S * option goerr) :=
  let all := rep_ID r :: rep_LinkControl r :: rep_Data r in         (* 61-64 *)
  let '(s', (m, err)) := dev s all in                               (* 65 *)
  if Nat.ltb (List.length all) m then Panic
  else match err with
       | Some e => Ret (s', Some e)
       | None => Ret (s', if Nat.eqb m (List.length all) then None else Some errShortWrite)
       end.
