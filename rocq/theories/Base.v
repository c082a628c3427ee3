(** Base definitions shared by the whole model: bytes, fixed-width integers and results.
    Platform conventions (DESIGN.md): x86-64 Linux, little endian, signed [char]. *)
From Coq Require Export Strings.String Strings.Byte.
From Coq Require Export ZArith Bool List.
Export ListNotations.
Open Scope list_scope.
Open Scope Z_scope.

(** A buffer of C++ [char]s / [unsigned char]s. *)
Definition bytes := list byte.

(** [unsigned char] value of a byte. *)
Definition b2z (b : byte) : Z := Z.of_N (Byte.to_N b).

(** The byte stored when an integer is converted to [char]/[unsigned char]
    (conversion modulo 256). *)
Definition z2b (z : Z) : byte :=
  match Byte.of_N (Z.to_N (z mod 256)) with
  | Some b => b
  | None => x00
  end.

(** Text constants. *)
Definition str (s : string) : bytes := list_byte_of_string s.

Definition blen (s : bytes) : Z := Z.of_nat (List.length s).
Definition zlen {A} (s : list A) : Z := Z.of_nat (List.length s).

(** [firstn]/[skipn] with a [Z] count. *)
Definition ztake {A} (n : Z) (l : list A) : list A := firstn (Z.to_nat n) l.
Definition zdrop {A} (n : Z) (l : list A) : list A := skipn (Z.to_nat n) l.

(** Unsigned and signed (two's complement) integers of [k] bits: the value obtained when
    an integer is converted to the C++ type. *)
Definition unsigned (k : Z) (z : Z) : Z := z mod 2 ^ k.
Definition signed (k : Z) (z : Z) : Z :=
  let u := z mod 2 ^ k in if u <? 2 ^ (k - 1) then u else u - 2 ^ k.

Definition u8 := unsigned 8.
Definition u16 := unsigned 16.
Definition u32 := unsigned 32.
Definition u64 := unsigned 64.
Definition s8 := signed 8.
Definition s16 := signed 16.
Definition s32 := signed 32.
Definition s64 := signed 64.

Definition in_s8 (z : Z) : Prop := - 2 ^ 7 <= z < 2 ^ 7.
Definition in_s16 (z : Z) : Prop := - 2 ^ 15 <= z < 2 ^ 15.
Definition in_s32 (z : Z) : Prop := - 2 ^ 31 <= z < 2 ^ 31.
Definition in_s64 (z : Z) : Prop := - 2 ^ 63 <= z < 2 ^ 63.
Definition in_u32 (z : Z) : Prop := 0 <= z < 2 ^ 32.
Definition in_u64 (z : Z) : Prop := 0 <= z < 2 ^ 64.

(** Little-endian bytes of an integer ([memcpy] out of a union / integer). *)
Fixpoint le_bytes (n : nat) (z : Z) : bytes :=
  match n with
  | O => []
  | S k => z2b z :: le_bytes k (z / 256)
  end.

(** Unsigned value of a little-endian byte sequence. *)
Fixpoint le_val (s : bytes) : Z :=
  match s with
  | [] => 0
  | b :: r => b2z b + 256 * le_val r
  end.

(** Exceptions the library throws (src/frpc*error.h, frpcfault.h).  The message is kept when it is
    a constant of the source, otherwise it is dropped (simplification). *)
Inductive exn : Type :=
| StreamError (msg : string)
| LenError
| TypeError
| KeyError
| IndexError
| FaultExn (code : Z) (msg : bytes)
| FrpcError (msg : string)          (* Error_t and other subclasses of it *)
| HTTPError (code : Z)
| ProtocolError (code : Z)
| ResponseError
| RuntimeError                      (* std::runtime_error *)
| OutOfRange                        (* std::out_of_range *)
| OtherExn (n : Z).                 (* any exception of user code *)

(** How a C++ call can fail: by throwing or by undefined behaviour. *)
Inductive fail : Type :=
| Exn (e : exn)
| Undef.

Inductive res (A : Type) : Type :=
| Ok (a : A)
| Err (e : exn)
| UB.
Arguments Ok {A} a.
Arguments Err {A} e.
Arguments UB {A}.

Definition bind {A B} (r : res A) (f : A -> res B) : res B :=
  match r with
  | Ok a => f a
  | Err e => Err e
  | UB => UB
  end.

(** Byte string equality and the order of [std::string] ([memcmp], unsigned). *)
Definition byte_eqb (a b : byte) : bool := b2z a =? b2z b.

Fixpoint bytes_eqb (a b : bytes) : bool :=
  match a, b with
  | [], [] => true
  | x :: a', y :: b' => byte_eqb x y && bytes_eqb a' b'
  | _, _ => false
  end.

Fixpoint bytes_cmp (a b : bytes) : comparison :=
  match a, b with
  | [], [] => Eq
  | [], _ :: _ => Lt
  | _ :: _, [] => Gt
  | x :: a', y :: b' =>
      match b2z x ?= b2z y with
      | Eq => bytes_cmp a' b'
      | c => c
      end
  end.
