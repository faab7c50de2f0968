(** Specification of what the server holds on to (C116).  Bytes only. *)
From Verif Require Import Base SpecProtocol SpecIdentify.

(** ** The certificate being collected *)

(** Section 0 starts anew, every other one is appended. *)
Fixpoint collected (held : bytes) (l : list (N * N * bytes)) : bytes :=
  match l with
  | [] => held
  | (number, _, data) :: l' => collected (if (number =? 0)%N then data else held ++ data) l'
  end.

(** ** Identification tokens *)

(** A start of identification, which forgets the tokens there are. *)
Definition forgets (p : bytes) : bool :=
  match p with x00 :: x38 :: b => negb (List.length b =? 1) | _ => false end.

(** The number of tokens a packet brings: all of them if they can be read, else none. *)
Definition brings (rt numbers : bool) (p : bytes) : nat :=
  match p with
  | x00 :: x39 :: b =>
      match (if numbers then skipn 2 b else b) with
      | n :: r => match tokens rt (N.to_nat (b2n n)) r with AcceptedAll l => List.length l | _ => 0 end
      | [] => 0
      end
  | _ => 0
  end.

(** How many tokens are held behind the packets [ps], [n] before. *)
Fixpoint tokens_held (rt numbers : bool) (n : nat) (ps : list bytes) : nat :=
  match ps with
  | [] => n
  | p :: ps' => tokens_held rt (numbers_behind numbers p) (if forgets p then 0 else n + brings rt numbers p) ps'
  end.

(** ** Amounts *)

Definition volume (ps : list bytes) : nat := list_sum (map (@List.length byte) ps).
