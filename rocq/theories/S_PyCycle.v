(** Specification: which finite tree an object in memory is, and which objects contain which. *)
From Coq Require Import Relations.
From Verif Require Import Base Value M_Python M_PyCycle.

Definition plain (p : py) : Prop := match p with PyList _ | PyTuple _ | PyDict _ => False | _ => True end.
Section Holds.
  Variable heap : Z -> node.
  (** The object at [i] is the tree [p]. *)
  Fixpoint holds (p : py) (i : Z) : Prop :=
    let all := fix all (l : list py) (ids : list Z) : Prop := match l, ids with [], [] => True | x :: l, j :: ids => holds x j /\ all l ids | _, _ => False end in
    match p with
    | PyList l => exists ids, heap i = N_list false ids /\ all l ids
    | PyTuple l => exists ids, heap i = N_list true ids /\ all l ids
    | PyDict m => exists ks, heap i = N_dict ks /\
        (fix every (m : list (py * py)) (ks : list (py * Z)) : Prop :=
           match m, ks with [], [] => True | (k, x) :: m, (k', j) :: ks => k = k' /\ holds x j /\ every m ks | _, _ => False end) m ks
    | p => heap i = N_plain p
    end.
  (** [j] is directly in [i]. *)
  Definition is_in (j i : Z) : Prop :=
    match heap i with N_plain _ => False | N_list _ ids => In j ids | N_dict ks => In j (map snd ks) end.
  Definition contains_itself (i : Z) : Prop := clos_trans Z is_in i i.
End Holds.

(** How deep a tree is. *)
Fixpoint depth (p : py) : nat :=
  match p with
  | PyList l | PyTuple l => S (list_max (map depth l))
  | PyDict m => S (list_max (map (fun kv => depth (snd kv)) m))
  | _ => 1
  end.
