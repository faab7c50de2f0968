(** Common ground of the model: bytes, fixed-width integers, Go outcomes.

    Everything in the model is a total computable function. *)
From Coq Require Export List Arith NArith ZArith Lia Bool String.
From Coq Require Export Init.Byte.
From Coq Require Export Strings.Byte.
Export ListNotations.
#[global] Open Scope list_scope.

Notation bytes := (list byte).

(** ** Bytes and integers *)

(** Value of a Go [byte]/[uint8]. *)
Definition b2n (b : byte) : N := Byte.to_N b.

(** Go conversion [byte(n)] of an unsigned integer: keeps the low 8 bits. *)
Definition n2b (n : N) : byte :=
  match Byte.of_N (n mod 256) with Some b => b | None => x00 end.

Definition byte_eqb (a b : byte) : bool := N.eqb (b2n a) (b2n b).

(** Big-endian encoding of the low [8*k] bits of [n] on [k] bytes:
    encoding/binary's BigEndian.PutUint16/32/64. *)
Fixpoint be_enc (k : nat) (n : N) : bytes :=
  match k with
  | O => []
  | S k' => be_enc k' (n / 256) ++ [n2b n]
  end.

(** Big-endian value of a byte string: BigEndian.Uint16/32/64. *)
Definition be_dec (l : bytes) : N :=
  fold_left (fun acc b => (acc * 256 + b2n b)%N) l 0%N.

(** Little-endian, as used by lingo-simpleremote/simpleremote.go:48,60. *)
Fixpoint le_enc (k : nat) (n : N) : bytes :=
  match k with
  | O => []
  | S k' => n2b n :: le_enc k' (n / 256)
  end.

Fixpoint le_dec (l : bytes) : N :=
  match l with
  | [] => 0%N
  | b :: l' => (b2n b + 256 * le_dec l')%N
  end.

(** Two's complement on [8*k] bits. *)
Definition z_enc (k : nat) (z : Z) : N := Z.to_N (z mod 2 ^ (8 * Z.of_nat k)).
Definition z_dec (k : nat) (n : N) : Z :=
  let h := (2 ^ (8 * Z.of_nat k - 1))%Z in
  if (Z.of_N n <? h)%Z then Z.of_N n else (Z.of_N n - 2 * h)%Z.

(** ** Outcomes and errors *)

(** Result of running Go code: it returns, or it panics.  /repo has no
    [recover], so a panic ends the process. *)
Inductive outcome (A : Type) : Type :=
| Ret (a : A)
| Panic.
Arguments Ret {A} a.
Arguments Panic {A}.

Definition bind {A B} (m : outcome A) (f : A -> outcome B) : outcome B :=
  match m with Ret a => f a | Panic => Panic end.
Notation "'do' x <- m ; k" := (bind m (fun x => k))
  (at level 200, x pattern, m at level 100, k at level 200).

(** Errors that the code or its callers distinguish; the text of other
    errors is kept as a string. *)
Inductive goerr : Type :=
| EOF
| UnexpectedEOF
| NoProgress
| ErrMsg (s : string).

(** ** Small list functions *)

(** bytes.IndexByte *)
Fixpoint index_byte (b : byte) (l : bytes) : option nat :=
  match l with
  | [] => None
  | c :: l' => if byte_eqb c b then Some 0
               else match index_byte b l' with Some i => Some (S i) | None => None end
  end.

Definition len {A} (l : list A) : N := N.of_nat (List.length l).

(** [copy(dst, src)] into a zeroed destination of length [n]. *)
Definition copy_zeroed (n : nat) (src : bytes) : bytes :=
  firstn n src ++ repeat x00 (n - List.length src).

Definition option_eqb {A} (eqb : A -> A -> bool) (x y : option A) : bool :=
  match x, y with
  | Some a, Some b => eqb a b
  | None, None => true
  | _, _ => false
  end.
