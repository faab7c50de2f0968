(** Specification of disturbances on the way to the server (C113). *)
From Verif Require Import Base Packet SpecPacket Hid SpecHid.

(** [found_in defs reads p]: the packet [p] is somewhere in what the reports of these reads, some of them in a
    row, contribute to a frame. *)
Definition found_in (defs : list ReportDef) (reads : list raw_read) (p : bytes) : Prop :=
  exists some_before row some_after rs cs u w v,
    reads = some_before ++ row ++ some_after /\ map ReadReport row = map inl rs /\ Forall2 (contributes defs) rs cs
    /\ List.concat cs = u ++ w ++ v /\ is_packet p w.

(** A read that is noise: an error, a report of unknown id, or a report with no byte that can start a packet. *)
Definition noise (defs : list ReportDef) (x : raw_read) : Prop :=
  match ReadReport x with
  | inl r => unknown defs r \/ (live defs r /\ ~ In x55 (rep_Data r))
  | inr e => e <> EOF
  end.

(** The first frame, if there is one, has a report that starts a frame. *)
Definition starts_frame (rss : list (list Report)) : Prop := match rss with [] => True | rs :: _ => Exists starts rs end.
