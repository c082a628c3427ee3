(** Specification: what a reader of a dump may not be able to tell apart. *)
From Verif Require Import Base Value.

Section Alike.
  Variable names : list bytes.   (* hidden member names *)
  Variable maxlen : Z.           (* strings are cut here; -1: never *)

  Definition below (level : Z) : Z := if level =? -1 then -1 else level - 1.

  (** Equal, or both longer than the limit and equal up to it. *)
  Definition alike_text (s t : bytes) : Prop :=
    s = t \/ (0 <= maxlen < blen s /\ maxlen < blen t /\ ztake maxlen s = ztake maxlen t).

  (** The two values differ at most: inside secrets; under hidden member names; at the hidden positions
      ([pos], a bit set) of an outermost array; in containers deeper than [level]; in strings behind
      the limit. *)
  Fixpoint alike (level pos : Z) (v w : value) : Prop :=
    match v, w with
    | VSecret _, VSecret _ => True
    | VString s, VString t => alike_text s t
    | VStringView s, VStringView t => alike_text s t
    | VStruct m, VStruct n =>
        level = 0 \/
        (fix all (m n : list (bytes * value)) : Prop :=
           match m, n with
           | [], [] => True
           | (k, x) :: m', (k', y) :: n' => k = k' /\ (In k names \/ alike (below level) 0 x y) /\ all m' n'
           | _, _ => False
           end) m n
    | VArray l, VArray l' =>
        level = 0 \/
        (fix all (i : Z) (m n : list value) : Prop :=
           match m, n with
           | [], [] => True
           | x :: m', y :: n' => (0 <= i < 64 /\ Z.testbit pos i = true \/ alike (below level) 0 x y) /\ all (i + 1) m' n'
           | _, _ => False
           end) 0 l l'
    | _, _ => v = w
    end.
End Alike.

(** Bytes in hexadecimal, two digits each, a space between two. *)
Definition digits16 : bytes := str "0123456789abcdef".
Definition in_hex (c : byte) : bytes := [nth (Z.to_nat (b2z c / 16)) digits16 x00; nth (Z.to_nat (b2z c mod 16)) digits16 x00].
Fixpoint spaced (l : list bytes) : bytes := match l with [] => [] | [x] => x | x :: r => x ++ x20 :: spaced r end.
Definition hex_text (s : bytes) : bytes := spaced (map in_hex s).
