(** Model of the recursion of [Feeder_t::feedValue] (python/pythonfeeder.cc 126-333) over objects as they are in memory, where an object can
    contain itself; M_Python.v feeds finite trees.  Nothing bounds the recursion (no [Py_EnterRecursiveCall]). *)
From Verif Require Import Base Value M_Marshal M_Python.

(** An object in memory: no container, a list or (with [true]) a tuple of objects, a dict. *)
Inductive node : Type := N_plain (p : py) | N_list (tuple : bool) (items : list Z) | N_dict (items : list (py * Z)).

Section Feed.
  Variable host : datetime -> datetime.
  Variable heap : Z -> node.

  Definition item_result : Type := option (list mcall * option pyexn).
  (** The loops over items (pythonfeeder.cc 236-249, 251-289), as [feed_seq] and [feed_items] of M_Python.v. *)
  Definition obj_seq (f : Z -> item_result) : list Z -> item_result :=
    fix go l :=
      match l with
      | [] => Some ([], None)
      | x :: r =>
          match f x with
          | None => None
          | Some (c, Some e) => Some (c, Some e)
          | Some (c, None) => match go r with None => None | Some (c', e) => Some (c ++ c', e) end
          end
      end.
  Definition obj_items (f : Z -> item_result) : list (py * Z) -> item_result :=
    fix go l :=
      match l with
      | [] => Some ([], None)
      | (PyStr k, x) :: r =>
          match py_encode k with
          | None => Some ([], Some PE_Encode)
          | Some k =>
              match f x with
              | None => None
              | Some (c, Some e) => Some (PMember k :: c, Some e)
              | Some (c, None) => match go r with None => None | Some (c', e) => Some (PMember k :: c ++ c', e) end
              end
          end
      | _ :: _ => Some ([], Some PE_Type)
      end.

  (** [feedValue] with a stack that holds [stack] calls of it; [None]: the stack is exhausted, which ends the process. *)
  Fixpoint feed_obj (stack : nat) (i : Z) : item_result :=
    match stack with
    | O => None
    | S k =>
        match heap i with
        | N_plain p => Some (feed_py host p)
        | N_list _ ids => match obj_seq (feed_obj k) ids with None => None | Some (c, e) => Some (PArray (u32 (zlen ids)) :: c, e) end
        | N_dict ks => match obj_items (feed_obj k) ks with None => None | Some (c, e) => Some (PStruct (u32 (zlen ks)) :: c, e) end
        end
    end.
End Feed.
