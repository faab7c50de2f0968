(** Specification of what the Go version the tool is built with matters for (C117).  The model's flag [rt] is true for the
    versions up to 1.21, in which binary.Size of a nil interface panics. *)
From Verif Require Import Base SpecProtocol SpecIdentify.

(** Two programs: the first crashes, or both do exactly the same. *)
Definition same_unless_crash {A} (older newer : outcome A) : Prop := older = Panic \/ older = newer.
Definition same_unless_crash_io {A} (older newer : option (outcome A)) : Prop := older = Some Panic \/ older = newer.

(** Whether a reader of [n] tokens comes upon one of which the program knows nothing. *)
Fixpoint comes_upon_strange (n : nat) (data : bytes) : bool :=
  match n, data with
  | S n', k :: r =>
      match token (firstn (N.to_nat (b2n k)) r) with
      | Accepted _ => comes_upon_strange n' (skipn (N.to_nat (b2n k)) r)
      | Strange => true
      | Unreadable | Crashing => false
      end
  | _, _ => false
  end.

(** Whether a packet brings such a token. *)
Definition strange_packet (numbers : bool) (p : bytes) : bool :=
  match p with
  | x00 :: x39 :: b =>
      match (if numbers then skipn 2 b else b) with
      | n :: r => comes_upon_strange (N.to_nat (b2n n)) r
      | [] => false
      end
  | _ => false
  end.

(** Whether one of the packets [ps] does. *)
Fixpoint strange_among (numbers : bool) (ps : list bytes) : bool :=
  match ps with
  | [] => false
  | p :: ps' => strange_packet numbers p || strange_among (numbers_behind numbers p) ps'
  end.
