(** Model of a process with several servers: the package variables are shared between them. *)
From Verif Require Import Base Payload Lingo Command Handlers Packet Hid Server.

(** The package variables the handlers use: general/handler.go:91 [accCertBuf], cmd.go:187 [trxCounter]; and
    the number of clock readings so far, which stands for the time. *)
Record globals := mkGlobals { g_cert : bytes; g_trx : N; g_ticks : nat }.
Definition globals_of {S} (h : hstate S) : globals := mkGlobals (h_cert h) (h_trx h) (h_ticks h).
Definition with_globals {S} (g : globals) (h : hstate S) : hstate S :=
  mkH (h_dev h) (g_cert g) (g_trx g) (g_ticks g) (h_log h).

(** What others do to the package variables; [env n] is what they do before the n-th command of this server.
    Simplification: nothing is done to them while one command is handled. *)
Definition meanwhile {S} (env : nat -> globals -> globals) (n : nat) : act S unit :=
  fun h => Ret (with_globals (env n (globals_of h)) h, tt).

(** main.go:362-366 with other servers in the process. *)
Fixpoint handle_all_shared {S} (reg : registry) (clock : nat -> datetime) (env : nat -> globals -> globals) (dev : DeviceGeneral S)
  (n : nat) (cmds : list command) : act S unit :=
  match cmds with
  | [] => ret tt
  | c :: cmds' =>
      run _ <- meanwhile env n;
      run _ <- handlePacket reg clock dev c;
      handle_all_shared reg clock env dev (1 + n) cmds'
  end.

(** main.go:345-380: one received frame; the counter of commands goes on. *)
Definition process_frame_shared {S W} (rt : bool) (reg : registry) (clock : nat -> datetime) (env : nat -> globals -> globals)
  (dev : DeviceGeneral S) (tp : transport W) (n : nat) (st : server S) (w : W) (inFrame : slice) : io (nat * server S * W) :=
  go (mode1, evs) <- frame_packets rt reg (sv_mode st) inFrame;
  go (h1, _) <- Some (handle_all_shared reg clock env dev n (inCmds evs) (sv_h st));
  go (mode2, w') <- write_replies rt tp mode1 (outCmds (h_log (sv_h st)) (h_log h1)) w;
  done (n + List.length (inCmds evs), mkServer mode2 h1, w').

(** main.go:332-384 [processFrames] with other servers in the process. *)
Fixpoint processFrames_shared {S W} (fuel : nat) (rt : bool) (reg : registry) (clock : nat -> datetime) (env : nat -> globals -> globals)
  (dev : DeviceGeneral S) (tp : transport W) (n : nat) (st : server S) (w : W) : io (server S * W) :=
  match fuel with
  | O => None
  | S fuel' =>
      go (w1, r) <- tp_ReadFrame tp w;
      match r with
      | inr EOF => done (st, w1)
      | inr _ => processFrames_shared fuel' rt reg clock env dev tp n st w1
      | inl inFrame =>
          go (n', st', w2) <- process_frame_shared rt reg clock env dev tp n st w1 inFrame;
          processFrames_shared fuel' rt reg clock env dev tp n' st' w2
      end
  end.

(** Another server of the process that handles the n-th list of commands before the n-th command of this one: what
    it does to the package variables.  [s0] is its device; simplification: it is the same at the start of each list,
    as no handler's use of the package variables depends on it. *)
Fixpoint device_after {S} (reg : registry) (clock : nat -> datetime) (dev : DeviceGeneral S) (cs : list command) (h : hstate S) : hstate S :=
  match cs with
  | [] => h
  | c :: cs' => match handlePacket reg clock dev c h with Ret (h', _) => device_after reg clock dev cs' h' | Panic => h end
  end.
Definition neighbour {S} (reg : registry) (clock : nat -> datetime) (dev : DeviceGeneral S) (s0 : S) (css : list (list command)) (n : nat) (g : globals) : globals :=
  globals_of (device_after reg clock dev (nth n css []) (with_globals g (mkH s0 [] 0 0 []))).
