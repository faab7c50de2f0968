(** Model of the [send] mode of cmd/ipod/main.go with -w, step by step: the two goroutines share the tracer, and what one
    does may come between the transfer of the other and the line of the trace that tells of it. *)
From Verif Require Import Base GoTypes Types Payload Lingo Command Handlers Packet Hid Trace Server Send.

(** The trace to send and whether the sending loop runs; the device; the trace file being written;
    the message that the sending goroutine is about to record and the read that the receiving goroutine is about to record;
    and the reads that it has been given. *)
Record fine_state (D T : Type) := mkFine {
  fn_trace : Reader; fn_sending : bool; fn_dev : D; fn_file : T;
  fn_out : option Msg; fn_in : option raw_read; fn_got : list raw_read
}.
Arguments mkFine {D T}. Arguments fn_trace {D T}. Arguments fn_sending {D T}. Arguments fn_dev {D T}. Arguments fn_file {D T}.
Arguments fn_out {D T}. Arguments fn_in {D T}. Arguments fn_got {D T}.

(** main.go:217-283 with trace.go:138-158.  A transfer on the device and a write to the trace file are each atomic, and
    nothing else is: the steps of the two goroutines are interleaved in any way.  The receiver takes a step only while it
    waits for a read; when it panics the process ends, but the sending goroutine may have gone on until then, so that the
    sending steps do not ask for the state of the receiver.  A device that claims to have written or read more than it was
    given crashes the process and has no step here.  The log lines and the sleep are left out. *)
Section Fine.
  Context {S D T : Type} (rt : bool) (reg : registry) (clock : nat -> datetime) (g : DeviceGeneral S)
          (defs : list ReportDef) (spares : nat -> bytes) (h : hstate S) (tw : io_write T) (dev : io_rw D).

  Inductive fine_step : fine_state D T -> fine_state D T -> Prop :=
  | fine_stop r d f i got r' x e :                                  (* main.go:266-269 *)
      replay_read r = done (r', x) -> ReadReport x = inr e ->
      fine_step (mkFine r true d f None i got) (mkFine r' false d f None i got)
  | fine_write r d f i got r' x rep d' n err :                      (* main.go:271, report_transport.go:60-67, trace.go:145 *)
      replay_read r = done (r', x) -> ReadReport x = inl rep ->
      rw_write dev d (rep_ID rep :: rep_LinkControl rep :: rep_Data rep) = (d', (n, err)) ->
      n <= Datatypes.S (Datatypes.S (List.length (rep_Data rep))) ->
      fine_step (mkFine r true d f None i got)
        (mkFine r' true d' f
           match err with
           | None => Some (mkMsg DirOut 0 (firstn n (rep_ID rep :: rep_LinkControl rep :: rep_Data rep)))  (* trace.go:146 *)
           | Some _ => None
           end i got)
  | fine_wrote r b d f m i got :                                    (* trace.go:147 *)
      fine_step (mkFine r b d f (Some m) i got) (mkFine r b d (fst (WriteMsg tw f m)) None i got)
  | fine_read r b d f o got d' x :                                  (* report_transport.go:34, trace.go:153 *)
      receiver rt reg clock g defs spares h got = None ->
      rw_read dev d maxRawSize = (d', x) -> (snd x = None -> List.length (fst x) <= maxRawSize) ->
      fine_step (mkFine r b d f o None got) (mkFine r b d' f o (Some x) got)
  | fine_was_read r b d f o x got :                                 (* trace.go:154-157 *)
      fine_step (mkFine r b d f o (Some x) got)
        (mkFine r b d
           match snd x with
           | None => fst (WriteMsg tw f (mkMsg DirIn 0 (fst x)))
           | Some _ => f
           end o None (got ++ [x])).

  Inductive fine_steps : fine_state D T -> fine_state D T -> Prop :=
  | fine_refl s : fine_steps s s
  | fine_more s s1 s' : fine_steps s s1 -> fine_step s1 s' -> fine_steps s s'.

  (** main.go:241-263: the start, on a trace file with the given content and a new file to write to. *)
  Definition fine_start (content : bytes) (fin : goerr) (d : D) (f : T) : fine_state D T :=
    mkFine (NewReader content fin) true d f None None [].
End Fine.
