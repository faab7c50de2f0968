(** Specification of orderly traces (C103). *)
From Verif Require Import Base Hid SpecHid Trace SpecTrace SpecView SpecLoss.

(** The messages of direction [d] are whole frames, one after the other. *)
Definition orderly (defs : list ReportDef) (d : N) (ms : list Msg) : Prop :=
  exists rss fs, Forall2 (carries defs) rss fs /\ map report_of (of_dir d ms) = map inl (List.concat rss).

Definition zeros (b : bytes) : Prop := exists k, b = repeat x00 k.
