(** Specification of the tool's commands, independent of the code that runs them. *)
From Coq Require Import Ascii.
From Verif Require Import Base SpecText GoTypes Types Payload Lingo Command Handlers Packet Hid Trace SpecTrace Server Log SpecLog Main.
Local Open Scope string_scope.

(** ** What a command line may change *)

(** Only [serve] and [send] change anything: the device they are given and the file to record to. *)
Definition may_change (inv : invocation) (p : string) : Prop :=
  (iv_cmd inv = Serve \/ iv_cmd inv = SendCmd)
  /\ (nth_error (iv_args inv) 0 = Some p \/ iv_trace inv = p /\ p <> "").

(** ** Command lines that cannot be run *)

Inductive problem := Missing (msg : string) | Unopenable (p msg : string) (e : goerr).

(** The [k]-th argument names no path. *)
Definition unnamed (args : list string) (k : nat) : Prop := nth_error args k = None \/ nth_error args k = Some "".

Section Problems.
  Context {D : Type} (os : os_errors) (w : world D).

  Inductive device_problem (args : list string) : problem -> Prop :=
  | dp_missing : unnamed args 0 -> device_problem args (Missing "device path is missing")
  | dp_denied p e : nth_error args 0 = Some p -> p <> "" -> os_denies os ORdWr p = Some e ->
      device_problem args (Unopenable p "could not open the device" e)
  | dp_absent p : nth_error args 0 = Some p -> p <> "" -> os_denies os ORdWr p = None -> w_nodes w p = None ->
      device_problem args (Unopenable p "could not open the device" (os_absent os p))
  | dp_file p c f : nth_error args 0 = Some p -> p <> "" -> os_denies os ORdWr p = None -> w_nodes w p = Some (Regular c f) ->
      device_problem args (Unopenable p "could not open the device" (ErrMsg "not a char device")).

  Inductive trace_problem (args : list string) (k : nat) : problem -> Prop :=
  | tp_missing : unnamed args k -> trace_problem args k (Missing "trace file path is missing")
  | tp_denied p e : nth_error args k = Some p -> p <> "" -> os_denies os ORdOnly p = Some e ->
      trace_problem args k (Unopenable p "could not open the trace file" e)
  | tp_absent p : nth_error args k = Some p -> p <> "" -> os_denies os ORdOnly p = None -> w_nodes w p = None ->
      trace_problem args k (Unopenable p "could not open the trace file" (os_absent os p)).

  Inductive recording_problem (p : string) : problem -> Prop :=
  | rp_denied e : p <> "" -> os_denies os OCreate p = Some e ->
      recording_problem p (Unopenable p "could not create a trace file" e).

  (** The device, the trace and the recording can be opened. *)
  Definition device_at (args : list string) (p : string) (d : D) : Prop :=
    nth_error args 0 = Some p /\ p <> "" /\ os_denies os ORdWr p = None /\ w_nodes w p = Some (CharDevice d).
  Definition trace_at (args : list string) (k : nat) (p : string) (n : node D) : Prop :=
    nth_error args k = Some p /\ p <> "" /\ os_denies os ORdOnly p = None /\ w_nodes w p = Some n.
  Definition recording_at (p : string) : Prop := p = "" \/ os_denies os OCreate p = None.

  Definition device_opened (p : string) : output := Logged (mkRec 4 "device opened" [("path", p)]).
  Definition trace_opened (p : string) : output := Logged (mkRec 3 "trace file opened" [("path", p)]).
  Definition recording_opened (p : string) : list output :=
    if p =? "" then [] else [Logged (mkRec 3 "writing trace" [("path", p)])].

  (** The first problem of a command line, and what was logged before it. *)
  Inductive stops : invocation -> list output -> problem -> Prop :=
  | stops_device inv pb : iv_cmd inv = Serve \/ iv_cmd inv = SendCmd -> device_problem (iv_args inv) pb -> stops inv [] pb
  | stops_trace inv pb : iv_cmd inv = Replay \/ iv_cmd inv = View -> trace_problem (iv_args inv) 0 pb -> stops inv [] pb
  | stops_recording inv p d pb : iv_cmd inv = Serve -> device_at (iv_args inv) p d -> recording_problem (iv_trace inv) pb ->
      stops inv [device_opened p] pb
  | stops_send_trace inv p d pb : iv_cmd inv = SendCmd -> device_at (iv_args inv) p d -> trace_problem (iv_args inv) 1 pb ->
      stops inv [device_opened p] pb
  | stops_send_recording inv p d t n pb : iv_cmd inv = SendCmd -> device_at (iv_args inv) p d -> trace_at (iv_args inv) 1 t n ->
      (forall d, n <> CharDevice d) -> recording_problem (iv_trace inv) pb ->
      stops inv [device_opened p; trace_opened t] pb.

  (** A command line that has all it needs.  (Trace files that are char devices are not
      modelled.) *)
  Inductive starts : invocation -> Prop :=
  | starts_lingos inv : iv_cmd inv = Lingos -> starts inv
  | starts_serve inv p d : iv_cmd inv = Serve -> device_at (iv_args inv) p d -> recording_at (iv_trace inv) -> starts inv
  | starts_trace inv p n : iv_cmd inv = Replay \/ iv_cmd inv = View -> trace_at (iv_args inv) 0 p n -> starts inv
  | starts_send inv p d t n : iv_cmd inv = SendCmd -> device_at (iv_args inv) p d -> trace_at (iv_args inv) 1 t n ->
      recording_at (iv_trace inv) \/ (exists d, n = CharDevice d) -> starts inv.
End Problems.

(** What the user is told of a problem: on stderr, and on stdout. *)
Definition told_stderr (errText : goerr -> string) (pb : problem) : string :=
  match pb with
  | Missing msg => "usage error: " ++ msg ++ nl ++ nl
  | Unopenable _ _ e => "error: " ++ errText e ++ nl ++ nl
  end.
Definition command_text (c : cmd_name) : string :=
  match c with Lingos => "lingos" | Serve => "serve" | Replay => "replay" | View => "view" | SendCmd => "send" end.
Definition told_stdout (errText : goerr -> string) (c : cmd_name) (pb : problem) : output :=
  match pb with
  | Missing _ => Help (command_text c)
  | Unopenable p msg e => Logged (mkRec 2 msg [("path", p); ("error", errText e)])
  end.

(** ** Sessions *)

(** The entry of a frame sent, with and without the error of a failed write. *)
Definition same_entry (r1 r2 : log_rec) : Prop :=
  r1 = r2 \/ exists n e, r1 = mkRec 2 ">> FRAME" [("len", n); ("error", e)] /\ r2 = mkRec 4 ">> FRAME" [("len", n)].

(** The tables of reports of the two kinds of accessories. *)
Definition table (legacy : bool) : list ReportDef := if legacy then LegacyReportDefs else DefaultReportDefs.

(** A file that a recording fills alone: it did not exist, or was shorter. *)
Definition fresh {D} (w w1 : world D) (t : string) : Prop :=
  w_nodes w t = None
  \/ exists old new fin, w_nodes w t = Some (Regular old EOF) /\ w_nodes w1 t = Some (Regular new fin) /\ List.length old < List.length new.
