(** Values that refer to no others. *)
From Verif Require Import Base Value.

Definition scalar (v : value) : Prop := match v with VInt _ | VBool _ | VDouble _ | VString _ | VBinary _ | VBinaryRef _ _ | VDateTime _ => True | _ => False end.

(** A value is directly in another; a value contains itself, over any number of others. *)
From Coq Require Import Relations.
From Verif Require Import M_Pool.
Definition directly_in (s : pools) (x r : ref) : Prop :=
  match r with
  | RNull => False
  | RObj n => match cell (st_heap s) n with Some (NArray l) => In x l | Some (NStruct m) => In x (map snd m) | Some (NSecret t) => x = t | _ => False end
  end.
Definition value_in_itself (s : pools) (r : ref) : Prop := clos_trans ref (directly_in s) r r.
