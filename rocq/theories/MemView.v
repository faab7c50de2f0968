(** The trace viewer with its real buffers: main.go:419-469 [dumpTrace] again, with the memory of [Mem].
    A decoder and a report reader are made anew for every frame (main.go:441-442), so nothing of a frame is
    left for the next one. *)
From Verif Require Import Base GoTypes Types Payload Lingo Command Packet Hid Trace Server Mem.

(** main.go:433-467; see [view_loop].  What lies behind a frame is what the new decoder's buffer holds there. *)
Fixpoint view_loop_mem (fuel : nat) (rt : bool) (reg : registry) (defs : list ReportDef) (pol : nat -> nat -> nat -> nat)
  (mode : bool) (q : Queue) : io (Queue * list view_entry) :=
  match fuel with
  | O => None
  | S fuel' =>
      match Head q with                                             (* 436-439 *)
      | None => done (q, [])
      | Some head =>
          let dir := msg_Dir head in                                (* 440 *)
          let rd := fun q => let '(q', o) := queue_Read q dir maxRawSize in
                             go x <- Some o; done (q', x) in        (* 441 *)
          go (m, q', r) <- ReadFrame_mem (S (List.length (q_all q))) defs pol rd new_mem q;  (* 442-444 *)
          match r with
          | inr EOF => done (q', [])                                (* 445-447 *)
          | inr e =>                                                (* 448-451 *)
              go (q'', es) <- view_loop_mem fuel' rt reg defs pol mode q';
              done (q'', mkView dir (inr e) [] :: es)
          | inl s =>
              go (mode', evs) <- frame_packets rt reg mode (as_slice (m_heap m) s); (* 453-466 *)
              go (q'', es) <- view_loop_mem fuel' rt reg defs pol mode' q';
              done (q'', mkView dir (inl (load (m_heap m) s)) evs :: es)
          end
      end
  end.

(** main.go:419-469 [dumpTrace]; see the definition of that name. *)
Definition dumpTrace_mem (rt : bool) (reg : registry) (defs : list ReportDef) (pol : nat -> nat -> nat -> nat) (r : Reader)
  : io ((Queue * list view_entry) + goerr) :=
  go x <- load_trace (S (List.length (rd_tokens r))) r NewQueue;
  match x with
  | inr e => done (inr e)
  | inl q => go v <- view_loop_mem (S (List.length (q_all q))) rt reg defs pol false q; done (inl v)
  end.
