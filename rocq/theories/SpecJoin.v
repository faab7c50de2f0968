(** Specification of joining trace files (C112). *)
From Verif Require Import Base Command Hid Trace SpecTrace Server SpecServer SpecView.

(** The packets that a view shows, in order. *)
Definition packets_in (es : list view_entry) : list bytes := flat_map (fun e => map fst (shown (vw_packets e))) es.

(** Whether transaction numbers are in use after these packets, if before they were as [m] says:
    the start of identification (00 38) turns them on, identification without them (00 00, 00 13) off. *)
Fixpoint numbers_after (m : bool) (ps : list bytes) : bool :=
  match ps with
  | [] => m
  | p :: ps' =>
      numbers_after (match p with
                     | x00 :: x38 :: _ => true
                     | x00 :: x00 :: _ | x00 :: x13 :: _ => false
                     | _ => m
                     end) ps'
  end.

(** The first packet, if there is one, settles it. *)
Definition begins_anew (ps : list bytes) : Prop :=
  match ps with [] => True | p :: _ => exists c b, p = x00 :: c :: b /\ In c [x00; x13; x38] end.

(** What the viewer prints. *)
Definition printed (r : io ((Queue * list view_entry) + goerr)) : io (list view_entry + goerr) :=
  go x <- r; done (match x with inl (_, es) => inl es | inr e => inr e end).

(** What is printed behind [ea]. *)
Definition behind (ea : list view_entry) (r : io (list view_entry + goerr)) : io (list view_entry + goerr) :=
  go x <- r; done (match x with inl eb => inl (ea ++ eb) | inr e => inr e end).

(** No frame is left unfinished at the end of the messages. *)
Definition whole (defs : list ReportDef) (ms : list Msg) : Prop := forall d, closed defs d ms.
