(** Specification for value comparison. *)
From Verif Require Import Base Value.

(** A double that is not a number: exponent bits all one, fraction not zero. *)
Definition is_nan (bits : Z) : Prop := (bits / 2 ^ 52) mod 2 ^ 11 = 2 ^ 11 - 1 /\ bits mod 2 ^ 52 <> 0.

(** Values [compare] is meant for: no NaN, no string views, binary references or secrets, anywhere. *)
Fixpoint comparable (v : value) : Prop :=
  match v with
  | VDouble d => in_u64 d /\ ~ is_nan d
  | VStringView _ | VBinaryRef _ _ | VSecret _ => False
  | VStruct m =>
      (fix all (l : list (bytes * value)) : Prop :=
         match l with [] => True | (_, x) :: r => comparable x /\ all r end) m
  | VArray l =>
      (fix all (l : list value) : Prop := match l with [] => True | x :: r => comparable x /\ all r end) l
  | _ => True
  end.

(** Equal up to the sign of zero and up to date-times of the same instant. *)
Fixpoint same (v w : value) : Prop :=
  match v, w with
  | VDouble a, VDouble b => a = b \/ (a mod 2 ^ 63 = 0 /\ b mod 2 ^ 63 = 0)
  | VDateTime a, VDateTime b => dt_unix a = dt_unix b
  | VStruct m, VStruct n =>
      (fix all (m n : list (bytes * value)) : Prop :=
         match m, n with
         | [], [] => True
         | (k, x) :: m', (k', y) :: n' => k = k' /\ same x y /\ all m' n'
         | _, _ => False
         end) m n
  | VArray m, VArray n =>
      (fix all (m n : list value) : Prop :=
         match m, n with
         | [], [] => True
         | x :: m', y :: n' => same x y /\ all m' n'
         | _, _ => False
         end) m n
  | VDouble _, _ | VDateTime _, _ | VStruct _, _ | VArray _, _ => False
  | _, _ => v = w
  end.
