(** Model of the commands of cmd/ipod/main.go:27-290 as a user starts them: which paths are opened
    and how, what is printed and logged, and how the process ends.

    Command-line parsing is urfave/cli's: an invocation is given by its flags, command and
    arguments.  Paths name files one to one (no links).  Trace files that are char devices are left
    out ([None]), and so are -w files read at the same time ([send] with the same file twice).
    What happened before a panic is not kept here. *)
From Coq Require Import Ascii.
From Verif Require Import Base Text GoTypes Types Payload Lingo Command Handlers Packet Hid Trace SpecTrace Server Log.
Local Open Scope string_scope.

(** A file with its content and the error that ends its reading ([EOF]; a directory is an empty
    file with another error), or a char device in a state of type [D]. *)
Inductive node (D : Type) := Regular (content : bytes) (fin : goerr) | CharDevice (d : D).
Arguments Regular {D}. Arguments CharDevice {D}.

(** What is printed on stdout: text, log entries, or the help of a command (urfave/cli's). *)
Inductive output := Printed (s : string) | Logged (r : log_rec) | Help (command : string).

Record world (D : Type) := mkWorld { w_nodes : string -> option (node D); w_stdout : list output; w_stderr : string }.
Arguments mkWorld {D}. Arguments w_nodes {D}. Arguments w_stdout {D}. Arguments w_stderr {D}.

(** main.go:110-291: the commands. *)
Inductive cmd_name := Lingos | Serve | Replay | View | SendCmd.
(** The parsed command line: --legacy, the command, its arguments and --write-trace.  (--debug only
    adds dumps to the log, which are not modelled.) *)
Record invocation := mkInv { iv_legacy : bool; iv_cmd : cmd_name; iv_args : list string; iv_trace : string }.

(** How the process goes on: it has exited with a code, or [send] has started on a device, a trace
    to send and perhaps a trace to write; what it does then is in Send.v. *)
Inductive finish := Exited (code : N) | Sending (dev : string) (content : bytes) (fin : goerr) (wr : option string).

(** The modes of opening: os.O_RDWR, os.O_RDONLY, os.O_RDWR|os.O_CREATE. *)
Inductive access := ORdWr | ORdOnly | OCreate.
(** The errors of the OS: of opening a path that exists or may be created, and a path that does not
    exist. *)
Record os_errors := mkOS { os_denies : access -> string -> option goerr; os_absent : string -> goerr }.

Definition FatalLevel : N := 1.                                     (* logrus *)
Definition two_newlines : string := newline ++ newline.

Section Main.
  Context {D : Type} (devs : io_rw D) (os : os_errors)
          (errText : goerr -> string) (sdump : option bytes -> string) (certLog : bytes -> list log_rec)
          (rt : bool) (clock : nat -> datetime) (mapOrder : list N) (spares : nat -> bytes) (fuel fuel2 : nat).

  Definition set_node (w : world D) (p : string) (n : node D) : world D :=
    mkWorld (fun q => if q =? p then Some n else w_nodes w q) (w_stdout w) (w_stderr w).
  Definition print (w : world D) (l : list output) : world D := mkWorld (w_nodes w) (w_stdout w ++ l)%list (w_stderr w).
  Definition print_err (w : world D) (s : string) : world D := mkWorld (w_nodes w) (w_stdout w) (w_stderr w ++ s).

  (** os.OpenFile. *)
  Definition os_open (a : access) (p : string) (w : world D) : world D * (node D + goerr) :=
    match os_denies os a p with
    | Some e => (w, inr e)
    | None =>
        match w_nodes w p with
        | Some n => (w, inl n)
        | None => match a with
                  | OCreate => (set_node w p (Regular [] EOF), inl (Regular [] EOF))
                  | _ => (w, inr (os_absent os p))
                  end
        end
    end.

  (** main.go:27-37.  Stat of an open file does not fail. *)
  Definition openDevice (p : string) (w : world D) : D + goerr :=
    match snd (os_open ORdWr p w) with
    | inr e => inr e
    | inl (CharDevice d) => inl d
    | inl (Regular _ _) => inr (ErrMsg "not a char device")
    end.
  (** main.go:39-45. *)
  Definition openTraceFile (p : string) (w : world D) : node D + goerr := snd (os_open ORdOnly p w).
  (** main.go:47-49. *)
  Definition newTraceFile (p : string) (w : world D) : world D * (node D + goerr) := os_open OCreate p w.

  (** main.go:85-95 [ExitErrHandler] on a UsageError, and on other errors. *)
  Definition usage_error (inv_cmd : string) (msg : string) (w : world D) : io (world D * finish) :=
    done (print (print_err w ("usage error: " ++ msg ++ two_newlines)) [Help inv_cmd], Exited 1).
  Definition other_error (e : goerr) (w : world D) : io (world D * finish) :=
    done (print_err w ("error: " ++ errText e ++ two_newlines), Exited 1).

  (** log.WithField("path", p), with or without an error. *)
  Definition log_path (p : string) (level : N) (msg : string) : output := Logged (mkRec level msg [("path", p)]).
  Definition log_path_error (p : string) (e : goerr) (msg : string) : output :=
    Logged (mkRec ErrorLevel msg [("path", p); ("error", errText e)]).

  (** c.Args().Get(n). *)
  Definition arg (l : list string) (n : nat) : string := nth n l "".

  (** main.go:98-108 [Before]. *)
  Definition hidReportDefs (inv : invocation) : list ReportDef :=
    if iv_legacy inv then LegacyReportDefs else DefaultReportDefs.

  (** main.go:386 and the zero values of the other globals. *)
  Definition start : server DevGeneral := mkServer false (mkH DevGeneral_init [] 0 0 []).

  (** processFrames on the device itself. *)
  Definition plain_read (d : D) : io (D * raw_read) := done (rw_read devs d maxRawSize).
  Definition plain_write (d : D) (p : bytes) : outcome (D * (nat * option goerr)) := Ret (rw_write devs d p).

  Definition serve_plain (inv : invocation) (d : D) : io (D * list log_rec) :=
    go (_, w, l) <- processFrames_log fuel errText sdump certLog rt std_registry clock
                      (hid_transport fuel2 (hidReportDefs inv) spares plain_read plain_write) start (d, 0);
    done (fst w, l).
  (** The same with the tracer: the last component is what it wrote. *)
  Definition serve_traced (inv : invocation) (d : D) : io (D * bytes * list log_rec) :=
    go (_, w, l) <- processFrames_log fuel errText sdump certLog rt std_registry clock
                      (hid_transport fuel2 (hidReportDefs inv) spares (traced_read append_file devs) (tracer_Write append_file devs))
                      start ((d, []), 0);
    done (fst w, l).

  (** main.go:146-155 and 246-256: the trace file, if one was asked for.  [inl None]: none asked. *)
  Definition prepare_trace (tracePath : string) (w : world D) : world D * (option (node D) + goerr) :=
    if tracePath =? "" then (w, inl None)
    else
      let '(w1, r) := newTraceFile tracePath w in
      match r with
      | inr e => (print w1 [log_path_error tracePath e "could not create a trace file"], inr e)
      | inl n => (print w1 [log_path tracePath WarnLevel "writing trace"], inl (Some n))
      end.

  (** main.go:132-163 [serve]. *)
  Definition serve_action (inv : invocation) (w : world D) : io (world D * finish) :=
    let path := arg (iv_args inv) 0 in
    if path =? "" then usage_error "serve" "device path is missing" w
    else match openDevice path w with
    | inr e => other_error e (print w [log_path_error path e "could not open the device"])
    | inl d =>
        let w1 := print w [log_path path InfoLevel "device opened"] in
        let '(w2, r) := prepare_trace (iv_trace inv) w1 in
        match r with
        | inr e => other_error e w2
        | inl None =>
            go (d', l) <- serve_plain inv d;
            done (print (set_node w2 path (CharDevice d')) (map Logged l), Exited 0)
        | inl (Some (Regular old fin)) =>
            go (d', file, l) <- serve_traced inv d;
            done (print (set_node (set_node w2 path (CharDevice d')) (iv_trace inv) (Regular (overwrite old file) fin))
                    (map Logged l), Exited 0)
        | inl (Some (CharDevice _)) => None
        end
    end.

  (** main.go:171-190 and 197-213: opening the trace of [replay] and [view]. *)
  Definition with_trace (cmd : string) (inv : invocation) (w : world D)
    (k : bytes -> goerr -> world D -> io (world D * finish)) : io (world D * finish) :=
    let path := arg (iv_args inv) 0 in
    if path =? "" then usage_error cmd "trace file path is missing" w
    else match openTraceFile path w with
    | inr e => other_error e (print w [log_path_error path e "could not open the trace file"])
    | inl (Regular content fin) => k content fin (print w [log_path path WarnLevel "trace file opened"])
    | inl (CharDevice _) => None
    end.

  (** main.go:183-188. *)
  Definition replay_action (inv : invocation) (w : world D) : io (world D * finish) :=
    with_trace "replay" inv w (fun content fin w1 =>
      go (_, _, l) <- processFrames_log fuel errText sdump certLog rt std_registry clock
                        (hid_transport fuel2 (hidReportDefs inv) spares replay_read discard) start (NewReader content fin, 0);
      done (print w1 (map Logged l), Exited 0)).

  (** main.go:210-212; log.Fatal logs the error and exits with code 1. *)
  Definition view_action (inv : invocation) (w : world D) : io (world D * finish) :=
    with_trace "view" inv w (fun content fin w1 =>
      go x <- dumpTrace rt std_registry (hidReportDefs inv) spares (NewReader content fin);
      match x with
      | inr e => done (print w1 [Logged (mkRec FatalLevel (errText e) [])], Exited 1)
      | inl (_, es) => done (print w1 (map Logged (dump_log errText es)), Exited 0)
      end).

  (** main.go:224-259 [send], up to the start of its goroutine and loop. *)
  Definition send_action (inv : invocation) (w : world D) : io (world D * finish) :=
    let path := arg (iv_args inv) 0 in
    if path =? "" then usage_error "send" "device path is missing" w
    else match openDevice path w with
    | inr e => other_error e (print w [log_path_error path e "could not open the device"])
    | inl _ =>
        let w1 := print w [log_path path InfoLevel "device opened"] in
        let tpath := arg (iv_args inv) 1 in
        if tpath =? "" then usage_error "send" "trace file path is missing" w1
        else match openTraceFile tpath w1 with
        | inr e => other_error e (print w1 [log_path_error tpath e "could not open the trace file"])
        | inl (CharDevice _) => None
        | inl (Regular content fin) =>
            let w2 := print w1 [log_path tpath WarnLevel "trace file opened"] in
            let '(w3, r) := prepare_trace (iv_trace inv) w2 in
            match r with
            | inr e => other_error e w3
            | inl None => done (w3, Sending path content fin None)
            | inl (Some (Regular _ _)) =>
                if tpath =? iv_trace inv then None else done (w3, Sending path content fin (Some (iv_trace inv)))
            | inl (Some (CharDevice _)) => None
            end
        end
    end.

  (** main.go:110-290. *)
  Definition run_tool (inv : invocation) (w : world D) : io (world D * finish) :=
    match iv_cmd inv with
    | Lingos =>                                                     (* 114-118 *)
        done (print w [Printed ("Registered lingos:" ++ newline); Printed (DumpLingos mapOrder std_registry ++ newline)], Exited 0)
    | Serve => serve_action inv w
    | Replay => replay_action inv w
    | View => view_action inv w
    | SendCmd => send_action inv w
    end.
End Main.
