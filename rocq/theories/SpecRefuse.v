(** Specification of an accessory that does not take all it is sent (C122). *)
From Verif Require Import Base Hid SpecHid SpecWire Server.

(** A device file with a state of its own: what the next read gives, and what it answers to a write: how many bytes it
    says it took, and an error or none. *)
Record chooser (D : Type) := mkChooser {
  ch_sends : D -> D * raw_read;
  ch_takes : D -> bytes -> D * (nat * option goerr)
}.
Arguments mkChooser {D}. Arguments ch_sends {D}. Arguments ch_takes {D}.

Definition ch_read {D} (a : chooser D) (d : D) : io (D * raw_read) := done (ch_sends a d).
Definition ch_write {D} (a : chooser D) (d : D) (p : bytes) : outcome (D * (nat * option goerr)) := Ret (ch_takes a d p).

(** It does not claim to have taken more than it was given. *)
Definition plausible {D} (a : chooser D) : Prop := forall d p, fst (snd (ch_takes a d p)) <= List.length p.

(** A report is taken if all its bytes are, without an error; else it is refused. *)
Definition took (p : bytes) (r : nat * option goerr) : Prop := r = (List.length p, None).

(** What goes on between it and the server, in order. *)
Inductive happened := Read (x : raw_read) | Taken (p : bytes) | Refused (p : bytes).

Inductive happens {D} (a : chooser D) : D -> list happened -> D -> Prop :=
| hp_end d : happens a d [] d
| hp_read d evs d' : happens a (fst (ch_sends a d)) evs d' -> happens a d (Read (snd (ch_sends a d)) :: evs) d'
| hp_taken d p evs d' : took p (snd (ch_takes a d p)) -> happens a (fst (ch_takes a d p)) evs d' -> happens a d (Taken p :: evs) d'
| hp_refused d p evs d' : ~ took p (snd (ch_takes a d p)) -> happens a (fst (ch_takes a d p)) evs d' -> happens a d (Refused p :: evs) d'.

Definition reads (evs : list happened) : list raw_read := flat_map (fun e => match e with Read x => [x] | _ => [] end) evs.
Definition writes (evs : list happened) : list happened := filter (fun e => match e with Read _ => false | _ => true end) evs.
Definition taken (evs : list happened) : list bytes := flat_map (fun e => match e with Taken p => [p] | _ => [] end) evs.

(** [tries defs fs ws whole]: to send the frames [fs], each cut into reports, the writes [ws] were tried; a frame is broken
    off at the first report that is refused, and the next frame is begun all the same.  [whole] are the frames of which
    every report was taken.  An empty frame has no reports. *)
Inductive tries (defs : list ReportDef) : list bytes -> list happened -> list bytes -> Prop :=
| tries_end : tries defs [] [] []
| tries_empty fs ws whole : tries defs fs ws whole -> tries defs ([] :: fs) ws whole
| tries_whole f rs fs ws whole :
    segments defs true f rs -> tries defs fs ws whole -> tries defs (f :: fs) (map (fun r => Taken (report_bytes r)) rs ++ ws) (f :: whole)
| tries_broken f a r b fs ws whole :
    segments defs true f (a ++ r :: b) -> tries defs fs ws whole ->
    tries defs (f :: fs) (map (fun r => Taken (report_bytes r)) a ++ Refused (report_bytes r) :: ws) whole.
