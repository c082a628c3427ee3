(** Decimal text of integers ([std::to_string], [%d], [%llu]) and small text helpers used by several
    model files. *)
From Verif Require Import Base.

(** The digit character of 0..9. *)
Definition digit (d : Z) : byte := z2b (48 + d).

Fixpoint dec_aux (fuel : nat) (n : Z) (acc : bytes) : bytes :=
  if n <? 10 then digit n :: acc
  else match fuel with
       | O => acc
       | S f => dec_aux f (n / 10) (digit (n mod 10) :: acc)
       end.

(** Decimal text of a non-negative integer. *)
Definition dec (n : Z) : bytes := dec_aux (Z.to_nat (Z.log2 n)) n [].

(** Decimal text of any integer. *)
Definition dec_signed (n : Z) : bytes := if n <? 0 then x2d :: dec (- n) else dec n.

Definition is_digit (b : byte) : bool := (48 <=? b2z b) && (b2z b <=? 57).
Definition digit_val (b : byte) : Z := b2z b - 48.

(** Value of a digit sequence. *)
Definition undec (s : bytes) : Z := fold_left (fun a b => a * 10 + digit_val b) s 0.

(** Zero-padded decimal of at least [w] characters ([std::setw]/[setfill('0')], [%0wd]). *)
Definition pad0 (w : nat) (s : bytes) : bytes := repeat x30 (w - length s) ++ s.
