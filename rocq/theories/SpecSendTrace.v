(** Specification of the send mode with a recording (C126), independent of its steps. *)
From Verif Require Import Base Hid Trace Server SpecView.

(** What passed between the tool and the device: a read and its result, or a write of [p] answered with [n] and [err]. *)
Inductive moved := Came (x : raw_read) | Went (p : bytes) (n : nat) (err : option goerr).

(** A device that also keeps a list of it. *)
Definition witnessed {D} (dev : io_rw D) : io_rw (D * list moved) :=
  mkRW (fun d n => let '(d', x) := rw_read dev (fst d) n in ((d', snd d ++ [Came x]), x))
       (fun d p => let '(d', (n, err)) := rw_write dev (fst d) p in ((d', snd d ++ [Went p n err]), (n, err))).

(** What was offered to the device; the bytes that it took without an error; what it gave; and the bytes that it gave without
    an error. *)
Definition offered (l : list moved) : list bytes := flat_map (fun e => match e with Went p _ _ => [p] | Came _ => [] end) l.
Definition went (l : list moved) : list bytes := flat_map (fun e => match e with Went p n None => [firstn n p] | _ => [] end) l.
Definition given (l : list moved) : list raw_read := flat_map (fun e => match e with Came x => [x] | Went _ _ _ => [] end) l.
Definition came (l : list moved) : list bytes := flat_map (fun x => match snd x with None => [fst x] | Some _ => [] end) (given l).

(** A trace has no line for a transfer of no bytes. *)
Definition some_bytes (l : list bytes) : list bytes := filter (fun b => match b with [] => false | _ => true end) l.

(** What a list of messages says was received, and what it says was sent. *)
Definition in_data (ms : list Msg) : list bytes := map msg_Data (of_dir 0 ms).
Definition out_data (ms : list Msg) : list bytes := map msg_Data (of_dir 1 ms).
