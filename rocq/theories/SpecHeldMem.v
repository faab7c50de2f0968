(** Specification of how much memory the decoder takes (C116). *)
From Verif Require Import Base Hid Mem.

(** The capacity of the decoder's buffer. *)
Definition capacity (m : mem) : nat := List.length (array (m_heap m) (bf_arr (m_buf m))).

(** A read that ends a frame: a report with link control 0 or 1, or an error. *)
Definition ends_frame (got : raw_read) : bool :=
  match got with
  | (_, Some _) => true
  | (_ :: x00 :: _, None) | (_ :: x01 :: _, None) => true
  | _ => false
  end.

(** [within B cur reads]: when [cur] bytes came since the last frame ended, no frame comes to more than [B] bytes of
    reports. *)
Fixpoint within (B cur : nat) (reads : list raw_read) : Prop :=
  match reads with
  | [] => True
  | got :: reads' => cur + List.length (fst got) <= B /\ within B (if ends_frame got then 0 else cur + List.length (fst got)) reads'
  end.
