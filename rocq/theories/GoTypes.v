(** Field types and field values of the Go structs, and encoding/binary on them. *)
From Verif Require Import Base.

(** Types of struct fields occurring in /repo. *)
Inductive fty : Type :=
| FU (k : nat)      (** unsigned integer on [k] bytes *)
| FI (k : nat)      (** signed integer on [k] bytes *)
| FBool
| FArr (n : nat)    (** [[n]byte] *)
| FBytes            (** [[]byte] *)
| FBlank            (** a blank field [_ []byte] (simpleremote.go:43,119) *)
| FU32s             (** [[]uint32] *)
| FStructs          (** slice of structs *)
| FIface.           (** [interface{}] *)

(** Values of fields.  Slices of structs and interfaces only occur in types that have their
    own constructor of [payload] (Payload.v), so they have no value form here. *)
Inductive fval : Type :=
| VU (n : N)
| VI (z : Z)
| VBool (b : bool)
| VArr (l : bytes)
| VBytes (l : bytes)
| VBlank
| VU32s (l : list N).

(** [has_type f v]: [v] is a value of the field type [f]. *)
Definition has_type (f : fty) (v : fval) : bool :=
  match f, v with
  | FU k, VU n => (n <? 256 ^ N.of_nat k)%N
  | FI k, VI z => let h := (2 ^ (8 * Z.of_nat k - 1))%Z in
                  Nat.ltb 0 k && (- h <=? z)%Z && (z <? h)%Z
  | FBool, VBool _ => true
  | FArr n, VArr l => Nat.eqb (List.length l) n
  | FBytes, VBytes _ => true
  | FBlank, VBlank => true
  | FU32s, VU32s l => forallb (fun n => n <? 2 ^ 32)%N l
  | _, _ => false
  end.

Fixpoint have_types (fs : list fty) (vs : list fval) : bool :=
  match fs, vs with
  | [], [] => true
  | f :: fs', v :: vs' => has_type f v && have_types fs' vs'
  | _, _ => false
  end.

(** Zero value of a field type ([FStructs] and [FIface] fields are never built this way). *)
Definition zero_val (f : fty) : fval :=
  match f with
  | FU _ => VU 0
  | FI _ => VI 0
  | FBool => VBool false
  | FArr n => VArr (repeat x00 n)
  | FBytes => VBytes []
  | FBlank => VBlank
  | FU32s => VU32s []
  | FStructs => VBlank
  | FIface => VBlank
  end.

(** ** encoding/binary on structs (Go standard library, not part of /repo)

    The standard library is modelled by its documented behaviour, not transcribed. *)

(** Size of one field, [None] where encoding/binary's sizeof gives -1. *)
Definition field_size (f : fty) : option nat :=
  match f with
  | FU k | FI k => Some k
  | FBool => Some 1
  | FArr n => Some n
  | FBytes | FBlank | FU32s | FStructs | FIface => None
  end.

(** binary.Size of a struct with these fields: [None] stands for -1. *)
Fixpoint struct_size (fs : list fty) : option nat :=
  match fs with
  | [] => Some 0
  | f :: fs' => match field_size f, struct_size fs' with
                | Some a, Some b => Some (a + b)
                | _, _ => None
                end
  end.

(** Big-endian encoding of one field. *)
Definition enc_field (f : fty) (v : fval) : bytes :=
  match f, v with
  | FU k, VU n => be_enc k n
  | FI k, VI z => be_enc k (z_enc k z)
  | FBool, VBool b => [if b then x01 else x00]
  | FArr _, VArr l => l
  | _, _ => []
  end.

Fixpoint enc_fields (fs : list fty) (vs : list fval) : bytes :=
  match fs, vs with
  | f :: fs', v :: vs' => enc_field f v ++ enc_fields fs' vs'
  | _, _ => []
  end.

(** Decoding of one field from exactly its bytes; a bool is any non-zero byte. *)
Definition dec_field (f : fty) (l : bytes) : fval :=
  match f with
  | FU _ => VU (be_dec l)
  | FI k => VI (z_dec k (be_dec l))
  | FBool => VBool (negb (byte_eqb (hd x00 l) x00))
  | FArr _ => VArr l
  | _ => zero_val f
  end.

Fixpoint dec_fields (fs : list fty) (l : bytes) : list fval :=
  match fs with
  | [] => []
  | f :: fs' =>
      let n := match field_size f with Some n => n | None => 0 end in
      dec_field f (firstn n l) :: dec_fields fs' (skipn n l)
  end.

(** Results of Go functions that return a value or an error. *)
Inductive res (A : Type) : Type :=
| Ok (a : A)
| Err (e : goerr).
Arguments Ok {A} a.
Arguments Err {A} e.

(** io.ReadFull of [n] bytes from the unread bytes [l]: result and unread rest. *)
Definition read_full (n : nat) (l : bytes) : res bytes * bytes :=
  match n, l with
  | 0, _ => (Ok [], l)
  | S _, [] => (Err EOF, [])
  | S _, _ => if Nat.leb n (List.length l) then (Ok (firstn n l), skipn n l)
              else (Err UnexpectedEOF, [])
  end.
