(** Model of util.go. *)
From Verif Require Import Base.

(** util.go:3-8. *)
Definition BoolToByte (b : bool) : N := if b then 1%N else 0%N.
(** util.go:10-12. *)
Definition ByteToBool (b : N) : bool := (b =? 1)%N.
(** util.go:15-17; a Go string is a sequence of bytes. *)
Definition StringToBytes (s : bytes) : bytes := s ++ [x00].

(** Bytes of a string literal. *)
Definition lit (s : string) : bytes := list_byte_of_string s.
