(** Model of [Pool_t] and of the objects it owns: src/frpcpool.h, src/frpcpool.cc, and [clone] of all value classes.
    Here a value is an object in memory referring to other objects; the tree it denotes is in S_Pool.v.
    Not modelled: failing allocations (a value whose [push_back] into the pool throws is lost), the validation of
    strings, and the chunk feeders of binary references, which are user functions shared by copies. *)
From Verif Require Import Base Value M_TreeBuilder.

(** A pointer to a value: the static null value (frpcnull.cc [Null_t::staticValue], frpcpool.cc 434-436), which no pool
    owns, or an object. *)
Inductive ref : Type := RNull | RObj (n : nat).

(** What an object holds: a scalar; a view of a buffer of the user (frpcstring_view.h); pointers to other objects
    (frpcarray.h [arrayData], frpcstruct.h [structData], frpcsecret.h [value]). *)
Inductive node : Type :=
| NLeaf (v : value)
| NView (buffer : nat)
| NArray (l : list ref)
| NStruct (m : list (bytes * ref))
| NSecret (r : ref).

(** Memory: object number [n] is at index [n]; [None]: deleted.  The buffers of the user are kept apart.  A pool is the
    list of its pointers ([pointerStorage]); [None]: the pool was destroyed.  [st_released]: objects deleted, in
    order. *)
Definition heap := list (option node).
Record pools : Type := mkPools { st_heap : heap; st_buffers : list (option bytes); st_pools : list (option (list nat)); st_released : list nat }.

(** Nothing allocated, no pool made. *)
Definition init_pools : pools := mkPools [] [] [] [].

(** Update of one position (auxiliary). *)
Fixpoint set_nth {A} (n : nat) (x : A) (l : list A) : list A :=
  match l, n with
  | [], _ => []
  | _ :: r, O => x :: r
  | y :: r, S k => y :: set_nth k x r
  end.

(** The object a number stands for; the list a pool keeps ([pointerStorage], frpcpool.h 455). *)
Definition cell (h : heap) (n : nat) : option node := match nth_error h n with Some (Some x) => Some x | _ => None end.
Definition storage (s : pools) (p : nat) : option (list nat) := match nth_error (st_pools s) p with Some (Some l) => Some l | _ => None end.

(** [delete ptr] for every pointer (frpcpool.cc 61-65); deleting an object again is undefined. *)
Fixpoint delete_all (h : heap) (l : list nat) : res heap :=
  match l with
  | [] => Ok h
  | n :: r => match cell h n with Some _ => delete_all (set_nth n None h) r | None => UB end
  end.

(** What a program does with pools, buffers and containers. *)
Inductive op : Type :=
| New_pool                                  (* Pool_t() *)
| Create (p : nat) (x : node)               (* Int(), String(), Array(...), Struct(...), Secret(), create<T>() *)
| Clone (p : nat) (r : ref)                 (* r.clone(p) *)
| Append (a : nat) (r : ref)                (* Array_t::append *)
| Set_member (a : nat) (k : bytes) (r : ref)(* Struct_t::append *)
| Free (p : nat)                            (* Pool_t::free *)
| Steal (p q : nat)                         (* p.steal_pointers(q) *)
| Move_construct (q : nat)                  (* Pool_t(std::move(q)) *)
| Move_assign (p q : nat)                   (* p = std::move(q) *)
| Destroy (p : nat)                         (* ~Pool_t *)
| New_buffer (b : bytes)
| Drop_buffer (b : nat).

(** The constructors with members keep the first of two equal keys ([insert], frpcpool.cc 361-432, frpcstruct.cc 71-85). *)
Definition made (x : node) : node :=
  match x with
  | NStruct m => NStruct (fold_left (fun acc kv => map_insert (fst kv) (snd kv) acc) m [])
  | _ => x
  end.

(** [new] and [push_back] (frpcpool.cc 67-442, frpcpool.h 441-445). *)
Definition create (h : heap) (own : list nat) (x : node) : heap * list nat * ref :=
  (h ++ [Some x], own ++ [length h], RObj (length h)).

(** [clone] (frpcarray.cc 51-59, frpcbinary.cc 84-87, frpcbool.cc 45-50, frpcdatetime.cc 238-242, frpcdouble.cc 44-47,
    frpcint.cc 39-42, frpcnull.cc 45-50, frpcsecret.cc 39-41, frpcstring.cc 157-160, frpcstring_view.cc 45-47,
    frpcstruct.cc 56-65, frpcbinaryref.h 144-146).  The fuel bounds the depth ([None]: not enough; the code recurses
    without bound over a value that contains itself).  The new container is filled at the end instead of item by item;
    nothing reads it in between. *)
Definition clone_leaf (val : option mktime_t) (v : value) : value :=
  match v with VDateTime d => VDateTime (make_datetime val d) | _ => v end.
Fixpoint clone (val : option mktime_t) (fuel : nat) (h : heap) (own : list nat) (r : ref) : option (res (heap * list nat * ref)) :=
  match fuel with
  | O => None
  | S f =>
      match r with
      | RNull => Some (Ok (h, own, RNull))
      | RObj n =>
          match cell h n with
          | None => Some UB
          | Some (NLeaf v) => Some (Ok (create h own (NLeaf (clone_leaf val v))))
          | Some (NView b) => Some (Ok (create h own (NView b)))
          | Some (NSecret x) =>
              match clone val f h own x with
              | Some (Ok (h1, own1, r1)) => Some (Ok (create h1 own1 (NSecret r1)))
              | e => e
              end
          | Some (NArray l) =>
              let k := length h in
              (fix items (h : heap) (own : list nat) (l : list ref) (acc : list ref) : option (res (heap * list nat * ref)) :=
                 match l with
                 | [] => Some (Ok (set_nth k (Some (NArray acc)) h, own, RObj k))
                 | x :: t =>
                     match clone val f h own x with
                     | Some (Ok (h1, own1, r1)) => items h1 own1 t (acc ++ [r1])
                     | e => e
                     end
                 end) (h ++ [Some (NArray [])]) (own ++ [k]) l []
          | Some (NStruct m) =>
              let k := length h in
              (fix members (h : heap) (own : list nat) (m : list (bytes * ref)) (acc : list (bytes * ref)) : option (res (heap * list nat * ref)) :=
                 match m with
                 | [] => Some (Ok (set_nth k (Some (NStruct acc)) h, own, RObj k))
                 | (key, x) :: t =>
                     match clone val f h own x with
                     | Some (Ok (h1, own1, r1)) => members h1 own1 t (map_insert key r1 acc)
                     | e => e
                     end
                 end) (h ++ [Some (NStruct [])]) (own ++ [k]) m []
          end
      end
  end.

(** One operation; the result is what the C++ call returns a reference to ([RNull] if nothing).  Using a destroyed pool
    or a deleted object is undefined. *)
Definition step (val : option mktime_t) (fuel : nat) (s : pools) (o : op) : option (res (pools * ref)) :=
  match o with
  | New_pool => Some (Ok (mkPools (st_heap s) (st_buffers s) (st_pools s ++ [Some []]) (st_released s), RNull))
  | Create p x =>
      match storage s p with
      | None => Some UB
      | Some own =>
          let '(h, own', r) := create (st_heap s) own (made x) in
          Some (Ok (mkPools h (st_buffers s) (set_nth p (Some own') (st_pools s)) (st_released s), r))
      end
  | Clone p r =>
      match storage s p with
      | None => Some UB
      | Some own =>
          match clone val fuel (st_heap s) own r with
          | Some (Ok (h, own', r')) => Some (Ok (mkPools h (st_buffers s) (set_nth p (Some own') (st_pools s)) (st_released s), r'))
          | Some (Err e) => Some (Err e)
          | Some UB => Some UB
          | None => None
          end
      end
  | Append a r =>   (* frpcarray.cc 122-127 *)
      match cell (st_heap s) a with
      | Some (NArray l) => Some (Ok (mkPools (set_nth a (Some (NArray (l ++ [r]))) (st_heap s)) (st_buffers s) (st_pools s) (st_released s), RNull))
      | _ => Some UB
      end
  | Set_member a k r =>   (* frpcstruct.cc 119-132; a longer key throws before anything is changed *)
      match cell (st_heap s) a with
      | Some (NStruct m) =>
          if 255 <? blen k then Some (Err LenError)
          else Some (Ok (mkPools (set_nth a (Some (NStruct (map_set k r m))) (st_heap s)) (st_buffers s) (st_pools s) (st_released s), RNull))
      | _ => Some UB
      end
  | Free p =>   (* frpcpool.cc 61-65 *)
      match storage s p with
      | None => Some UB
      | Some own =>
          match delete_all (st_heap s) own with
          | Ok h => Some (Ok (mkPools h (st_buffers s) (set_nth p (Some []) (st_pools s)) (st_released s ++ own), RNull))
          | _ => Some UB
          end
      end
  | Steal p q =>   (* frpcpool.h 447-452; a pool stealing from itself doubles its list, then clears it *)
      match storage s p, storage s q with
      | Some own, Some other =>
          Some (Ok (mkPools (st_heap s) (st_buffers s) (set_nth q (Some []) (set_nth p (Some (own ++ other)) (st_pools s))) (st_released s), RNull))
      | _, _ => Some UB
      end
  | Move_construct q =>   (* frpcpool.h 72, the moved-from vector is empty *)
      match storage s q with
      | Some other => Some (Ok (mkPools (st_heap s) (st_buffers s) (set_nth q (Some []) (st_pools s) ++ [Some other]) (st_released s), RNull))
      | None => Some UB
      end
  | Move_assign p q =>   (* frpcpool.h 73: the vector's assignment drops the pointers it had; moved to itself it is left empty (libstdc++) *)
      match storage s p, storage s q with
      | Some _, Some other =>
          Some (Ok (mkPools (st_heap s) (st_buffers s) (set_nth q (Some []) (set_nth p (Some other) (st_pools s))) (st_released s), RNull))
      | _, _ => Some UB
      end
  | Destroy p =>   (* frpcpool.cc 57-59 *)
      match storage s p with
      | None => Some UB
      | Some own =>
          match delete_all (st_heap s) own with
          | Ok h => Some (Ok (mkPools h (st_buffers s) (set_nth p None (st_pools s)) (st_released s ++ own), RNull))
          | _ => Some UB
          end
      end
  | New_buffer b => Some (Ok (mkPools (st_heap s) (st_buffers s ++ [Some b]) (st_pools s) (st_released s), RNull))
  | Drop_buffer b => Some (Ok (mkPools (st_heap s) (set_nth b None (st_buffers s)) (st_pools s) (st_released s), RNull))
  end.

(** A program: operations one after the other; an operation that throws changes nothing (only [Set_member] does). *)
Fixpoint run (val : option mktime_t) (fuel : nat) (s : pools) (l : list op) : option (res pools) :=
  match l with
  | [] => Some (Ok s)
  | o :: r =>
      match step val fuel s o with
      | Some (Ok (s', _)) => run val fuel s' r
      | Some (Err _) => run val fuel s r
      | Some UB => Some UB
      | None => None
      end
  end.
