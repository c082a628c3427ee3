(** Model of the tree feeder over values as they are in memory (M_Pool.v), where a value can be in several others, in itself, or deleted;
    [feed] of M_Marshal.v feeds trees. *)
From Verif Require Import Base Value M_Marshal M_Pool.

(** The loops of [packStruct] and [packArray] (frpctreefeeder.cc 247-273). *)
Definition ref_items (f : ref -> option (res (list mcall))) : list ref -> option (res (list mcall)) :=
  fix go l :=
    match l with
    | [] => Some (Ok [])
    | x :: t =>
        match f x with
        | Some (Ok c) => match go t with Some (Ok c') => Some (Ok (c ++ c')) | e => e end
        | e => e
        end
    end.
Definition ref_members (f : ref -> option (res (list mcall))) : list (bytes * ref) -> option (res (list mcall)) :=
  fix go m :=
    match m with
    | [] => Some (Ok [])
    | (key, x) :: t =>
        match f x with
        | Some (Ok c) => match go t with Some (Ok c') => Some (Ok (PMember key :: c ++ c')) | e => e end
        | e => e
        end
    end.
Definition after_call (c : mcall) (r : option (res (list mcall))) : option (res (list mcall)) :=
  match r with Some (Ok l) => Some (Ok (c :: l)) | e => e end.

(** [feedValueImpl] (frpctreefeeder.cc 275-342) with a stack that holds [stack] calls of it; [None]: the stack is exhausted, which ends the
    process (nothing bounds the recursion).  Reading a deleted object, or the buffer of a view that is gone, is undefined.  Simplification: the
    calls of the marshaller are collected, it does not throw. *)
Fixpoint feed_ref (stack : nat) (s : pools) (r : ref) : option (res (list mcall)) :=
  match stack with
  | O => None
  | S k =>
      match r with
      | RNull => Some (Ok (feed VNull))
      | RObj n =>
          match cell (st_heap s) n with
          | None => Some UB
          | Some (NLeaf v) => Some (Ok (feed v))
          | Some (NView b) => match nth_error (st_buffers s) b with Some (Some t) => Some (Ok (feed (VStringView t))) | _ => Some UB end
          | Some (NSecret x) => feed_ref k s x
          | Some (NArray l) => after_call (PArray (u32 (zlen l))) (ref_items (feed_ref k s) l)
          | Some (NStruct m) => after_call (PStruct (u32 (zlen m))) (ref_members (feed_ref k s) m)
          end
      end
  end.
