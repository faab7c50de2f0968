(** Model of the [send] mode of cmd/ipod/main.go: the tool plays an accessory. *)
From Verif Require Import Base GoTypes Types Payload Lingo Command Handlers Packet Hid Trace Server.

(** main.go:265-279: one round of the sending loop.  A recorded report is read from the trace and
    written to the device; errors of the write are dropped.  The last component tells whether the
    loop goes on ([false]: break).  The log line and the sleep are left out. *)
Definition send_once {D} (wd : D -> bytes -> outcome (D * (nat * option goerr))) (r : Reader) (d : D)
  : io (Reader * D * bool) :=
  go (r', got) <- replay_read r;                                    (* 266, the reader of 243 and 259 *)
  match ReadReport got with
  | inr _ => done (r', d, false)                                    (* 267-269 *)
  | inl report =>
      match dev_WriteReport wd (Ret d) report with                  (* 271 *)
      | (Ret d', _) => done (r', d', true)
      | (Panic, _) => Some Panic
      end
  end.

(** main.go:261-263: the goroutine that processes frames from the device and writes its replies to
    ioutil.Discard.  What it does is determined by the results of its device reads so far: given
    these it waits for the next one ([None]), or has ended at io.EOF, or has panicked.  Every
    ReadFrame and every report takes a read, so the fuel does not run out first. *)
Definition wait_read (l : list raw_read) : io (list raw_read * raw_read) :=
  match l with [] => None | x :: l' => done (l', x) end.
Definition receiver {S} (rt : bool) (reg : registry) (clock : nat -> datetime) (g : DeviceGeneral S)
  (defs : list ReportDef) (spares : nat -> bytes) (h : hstate S) (got : list raw_read) : io (server S) :=
  go (st, _) <- processFrames (Datatypes.S (List.length got)) rt reg clock g
                  (hid_transport (Datatypes.S (List.length got)) defs spares wait_read discard) h (got, 0);
  done st.

(** The state of the mode: the trace to send, whether the sending loop runs (after it comes
    [select {}], line 281), the device (with a tracer in front of it if there is one), and the
    reads of the receiving goroutine. *)
Record send_state (D : Type) := mkSend { sn_trace : Reader; sn_sending : bool; sn_dev : D; sn_got : list raw_read }.
Arguments mkSend {D}. Arguments sn_trace {D}. Arguments sn_sending {D}. Arguments sn_dev {D}. Arguments sn_got {D}.

(** main.go:217-283.  The two goroutines take turns in any order.  A round of the sending loop and
    a read of the receiver are atomic: they share only the device and the trace file (for the
    lines of the latter see C55).  A panic of either ends the process. *)
Section Send.
  Context {S D : Type} (rt : bool) (reg : registry) (clock : nat -> datetime) (g : DeviceGeneral S)
          (defs : list ReportDef) (spares : nat -> bytes) (h : hstate S)
          (rd : D -> io (D * raw_read)) (wd : D -> bytes -> outcome (D * (nat * option goerr))).

  Inductive send_step : send_state D -> send_state D -> Prop :=
  | step_send r d got r' d' b :
      receiver rt reg clock g defs spares h got <> Some Panic ->
      send_once wd r d = done (r', d', b) ->
      send_step (mkSend r true d got) (mkSend r' b d' got)
  | step_receive r b d got d' x :
      receiver rt reg clock g defs spares h got = None ->
      rd d = done (d', x) ->
      send_step (mkSend r b d got) (mkSend r b d' (got ++ [x])).

  Inductive send_steps : send_state D -> send_state D -> Prop :=
  | send_refl s : send_steps s s
  | send_more s s1 s' : send_steps s s1 -> send_step s1 s' -> send_steps s s'.

  (** main.go:241-263: the start, on a trace file with the given content. *)
  Definition send_start (content : bytes) (fin : goerr) (d : D) : send_state D :=
    mkSend (NewReader content fin) true d [].
End Send.
