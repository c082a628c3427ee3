(** Specification: who deletes the method objects given to a registry. *)
From Verif Require Import Base Value M_Owner.

(** The objects given, in order. *)
Definition objects (l : list given_object) : list Z :=
  flat_map (fun g => match g with G_method _ m => [m] | G_default (Some d) => [d] | G_head (Some h) => [h] | _ => [] end) l.

Definition again (n : bytes) (l : list given_object) : bool := existsb (fun g => match g with G_method k _ => bytes_eqb k n | _ => false end) l.
Definition other_default (l : list given_object) : bool := existsb (fun g => match g with G_default _ => true | _ => false end) l.
Definition other_head (l : list given_object) : bool := existsb (fun g => match g with G_head _ => true | _ => false end) l.

(** The objects that are lost: methods whose name is given again later. *)
Fixpoint replaced (l : list given_object) : list Z :=
  match l with
  | [] => []
  | G_method n m :: r => if again n r then m :: replaced r else replaced r
  | _ :: r => replaced r
  end.
(** The default method and the method for HEAD given last. *)
Fixpoint last_ones (l : list given_object) : list Z :=
  match l with
  | [] => []
  | G_default (Some d) :: r => if other_default r then last_ones r else d :: last_ones r
  | G_head (Some h) :: r => if other_head r then last_ones r else h :: last_ones r
  | _ :: r => last_ones r
  end.
