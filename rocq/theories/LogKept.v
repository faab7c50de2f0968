(** Model of the server's log as it stands at any moment, also when the process crashes: the loop of
    cmd/ipod/main.go again, every entry being written when the code writes it.

    Simplified: what a handler logs (see [Log.calls_log]) is written when the handler returns; no handler
    crashes on a request from the wire (C28). *)
From Verif Require Import Base GoTypes Types Payload Lingo Command Handlers Packet Hid Trace Server Text Log.
Local Open Scope string_scope.

(** ** Code that logs *)

(** The entries written, and how the code ends. *)
Definition logged (A : Type) : Type := (list log_rec * io A)%type.
Definition saying {A} (l : list log_rec) (k : logged A) : logged A := (l ++ fst k, snd k)%list.
Definition silent {A} (m : io A) : logged A := ([], m).
Definition log_bind {A B} (m : logged A) (k : A -> logged B) : logged B :=
  match m with
  | (l, Some (Ret a)) => saying l (k a)
  | (l, Some Panic) => (l, Some Panic)
  | (l, None) => (l, None)
  end.
Notation "'next' x <- m ; k" := (log_bind m (fun x => k))
  (at level 200, x pattern, m at level 100, k at level 200).

(** ** The loops of main.go *)

(** main.go:347-360. *)
Fixpoint read_packets_kept (fuel : nat) (errText : goerr -> string) (rt : bool) (reg : registry) (mode : bool) (frame : slice)
  : logged (bool * list command) :=
  match fuel with
  | O => silent None
  | S fuel' =>
      next (frame', pkt, err) <- silent (Some (ReadPacket frame));  (* 348 *)
      match err with
      | Some EOF => silent (done (mode, []))                        (* 349-351 *)
      | Some e =>                                                   (* 352-355 *)
          saying [logPacket errText [] (Some e) "<< PACKET"] (read_packets_kept fuel' errText rt reg mode frame')
      | None =>
          saying [logPacket errText pkt None "<< PACKET"]           (* 352 *)
            (saying (mode_log mode (packet_mode mode pkt))          (* cmd.go:130, before the rest of UnmarshalCmd *)
               (next (mode1, cmd, uerr) <- silent (Some (UnmarshalCmd rt reg mode pkt)); (* 357 *)
                saying [logCmd errText cmd uerr "<< CMD"]           (* 358 *)
                  (next (mode', cmds) <- read_packets_kept fuel' errText rt reg mode1 frame';
                   silent (done (mode', cmd :: cmds)))))            (* 359 *)
      end
  end.

(** main.go:362-366 with 398-400. *)
Fixpoint handle_all_kept sdump certLog (reg : registry) (clock : nat -> datetime) (cmds : list command) (h : hstate DevGeneral)
  : logged (hstate DevGeneral) :=
  match cmds with
  | [] => silent (done h)
  | c :: cmds' =>
      next (h1, _) <- silent (Some (handlePacket reg clock DevGeneral_device c h));
      next l <- silent (Some (calls_log sdump certLog (h_dev h) (skipn (List.length (h_log h)) (h_log h1))));
      saying l
        (saying (if (LingoID (cmd_id c) =? LingoSimpleRemoteID)%N
                 then [mkRec WarnLevel "Lingo SimpleRemote is not supported yet" []] else [])
           (handle_all_kept sdump certLog reg clock cmds' h1))
  end.

(** main.go:368-380. *)
Fixpoint write_replies_kept {W} (errText : goerr -> string) (rt : bool) (tp : transport W) (mode : bool) (cmds : list command) (w : W)
  : logged (bool * W) :=
  match cmds with
  | [] => silent (done (mode, w))
  | c :: cmds' =>
      saying [logCmd errText c None ">> CMD"]                       (* 370 *)
        (saying (mode_log mode (handleCmdID mode (cmd_id c)))       (* cmd.go:97, before the rest of MarshalCmd *)
           (next (mode', res) <- silent (Some (MarshalCmd rt mode c)); (* 372 *)
            let outPacket := match res with Ok b => b | Err _ => [] end in
            saying [logPacket errText outPacket (match res with Ok _ => None | Err e => Some e end) ">> PACKET"] (* 373 *)
              (let '(outFrame, _) := WritePacket NewPacketWriter outPacket in (* 375-377 *)
               next (w', e) <- silent (tp_WriteFrame tp w outFrame); (* 378 *)
               saying [logFrame errText outFrame e ">> FRAME"]      (* 379 *)
                 (write_replies_kept errText rt tp mode' cmds' w'))))
  end.

(** main.go:340-380. *)
Definition process_frame_kept {W} errText sdump certLog (rt : bool) (reg : registry) (clock : nat -> datetime)
  (tp : transport W) (st : server DevGeneral) (w : W) (inFrame : slice) : logged (server DevGeneral * W) :=
  saying [logFrame errText (vis inFrame) None "<< FRAME"]           (* 340 *)
    (next (mode1, cmds) <- read_packets_kept (S (List.length (vis inFrame))) errText rt reg (sv_mode st) (NewPacketReader inFrame);
     next h1 <- handle_all_kept sdump certLog reg clock cmds (sv_h st);
     next (mode2, w') <- write_replies_kept errText rt tp mode1 (outCmds (h_log (sv_h st)) (h_log h1)) w;
     silent (done (mkServer mode2 h1, w'))).

(** main.go:332-384. *)
Fixpoint processFrames_kept {W} (fuel : nat) errText sdump certLog (rt : bool) (reg : registry) (clock : nat -> datetime)
  (tp : transport W) (st : server DevGeneral) (w : W) : logged (server DevGeneral * W) :=
  match fuel with
  | O => silent None
  | S fuel' =>
      next (w1, r) <- silent (tp_ReadFrame tp w);                   (* 336 *)
      match r with
      | inr EOF => saying [mkRec WarnLevel "EOF" []] (silent (done (st, w1)))  (* 337-339, 383 *)
      | inr e =>                                                    (* 340-343 *)
          saying [logFrame errText [] (Some e) "<< FRAME"] (processFrames_kept fuel' errText sdump certLog rt reg clock tp st w1)
      | inl inFrame =>
          next (st1, w2) <- process_frame_kept errText sdump certLog rt reg clock tp st w1 inFrame;
          processFrames_kept fuel' errText sdump certLog rt reg clock tp st1 w2
      end
  end.
