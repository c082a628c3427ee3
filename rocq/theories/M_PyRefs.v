(** Model of the references taken and given back by the builder of Python objects ([Builder_t] of python/pythonbuilder.{h,cc},
    Python 3), on the same calls as M_Python.v, where the objects themselves are.  Every reference taken is a new number; who holds it
    is written down.  [None], [True] and [False] are counted as any object.  Simplifications: a value that is replaced by a later member
    of the same name counts as held by its container; making objects does not fail but for texts that cannot be decoded; there is no
    [datetimeBuilder]. *)
From Verif Require Import Base Value M_Marshal M_BinUnmarshal M_Python.

(** Who holds a reference: the builder ([retValue]), a container, or nobody any more. *)
Inductive holder : Type := H_builder | H_in (c : Z) | H_nobody.

(** [Builder_t] (pythonbuilder.h 246-258): [rb_held] the references held, oldest first, [rb_next] the number of the next, [rb_stack] the
    containers of [entityStorage] (with [true] for a dict). *)
Record rbuilder : Type := mkRB {
  rb_held : list (Z * holder); rb_next : Z; rb_ret : option Z; rb_first : bool; rb_error : bool; rb_member : bytes; rb_stack : list (Z * bool)
}.
(** Constructor (pythonbuilder.h 79-85): a reference to None. *)
Definition rb_init : rbuilder := mkRB [(0, H_builder)] 1 (Some 0) true false [] [].

Definition among (x : Z) (l : list Z) : bool := existsb (Z.eqb x) l.
(** [Py_DECREF] of the last reference to [dead]: what they hold is given back, too. *)
Fixpoint release (dead : list Z) (l : list (Z * holder)) : list (Z * holder) :=
  match l with
  | [] => []
  | (i, h) :: r =>
      if among i dead || match h with H_in c => among c dead | _ => false end then release (i :: dead) r
      else (i, h) :: release dead r
  end.
Definition give_back (o : option Z) (l : list (Z * holder)) : list (Z * holder) := match o with Some r => release [r] l | None => l end.

(** [setError] (pythonbuilder.h 116-122). *)
Definition rb_fail (b : rbuilder) : rbuilder :=
  mkRB (give_back (rb_ret b) (rb_held b)) (rb_next b) None false true (rb_member b) (rb_stack b).
(** A new reference with its holder. *)
Definition rb_take (h : holder) (b : rbuilder) : rbuilder :=
  mkRB (rb_held b ++ [(rb_next b, h)]) (rb_next b + 1) (rb_ret b) (rb_first b) (rb_error b) (rb_member b) (rb_stack b).
Definition rb_push (i : Z) (dict : bool) (b : rbuilder) : rbuilder :=
  mkRB (rb_held b) (rb_next b) (rb_ret b) (rb_first b) (rb_error b) (rb_member b) ((i, dict) :: rb_stack b).

(** [isFirst] (pythonbuilder.h 127-139) of a new object. *)
Definition rb_is_first (b : rbuilder) : rbuilder :=
  if rb_error b then rb_take H_nobody b
  else if rb_first b then
    mkRB (give_back (rb_ret b) (rb_held b) ++ [(rb_next b, H_builder)]) (rb_next b + 1) (Some (rb_next b)) false false (rb_member b) (rb_stack b)
  else rb_take H_nobody b.

(** [isMember] (pythonbuilder.h 140-222), then [isFirst], of a new object.  A key that was decoded is not given back (184-203); if it cannot
    be decoded the value is.  [Undef]: the container is used after it was freed. *)
Definition non_ascii (name : bytes) : bool := existsb (fun c => 128 <=? b2z c) name.
Definition alive (i : Z) (b : rbuilder) : bool := among i (map fst (rb_held b)).
Definition rb_place (b : rbuilder) : rbuilder * option fail :=
  if rb_error b then (rb_is_first b, None) else
  match rb_stack b with
  | [] => (rb_is_first b, None)
  | (c, false) :: _ => if alive c b then (rb_take (H_in c) b, None) else (b, Some Undef)
  | (c, true) :: _ =>
      match key_of (rb_member b) with
      | None => (rb_fail b, None)
      | Some _ =>
          let b := if non_ascii (rb_member b) then rb_take H_nobody b else b in
          if alive c b then (rb_take (H_in c) b, None) else (b, Some Undef)
      end
  end.

(** build* (pythonbuilder.cc 66-279) but for [buildNull], which does not look for errors (102-107); [openArray], [openStruct] (303-330). *)
Definition rb_value (b : rbuilder) : rbuilder * option fail := if rb_error b then (b, None) else rb_place b.
Definition rb_open (dict : bool) (b : rbuilder) : rbuilder * option fail :=
  if rb_error b then (b, None) else
  match rb_place b with
  | (b', None) => (rb_push (rb_next b' - 1) dict b', None)    (* the object made last; after an error nothing looks at it *)
  | x => x
  end.
(** [closeArray], [closeStruct] (pythonbuilder.cc 293-302). *)
Definition rb_close (b : rbuilder) : rbuilder * option fail :=
  if rb_error b then (b, None) else
  match rb_stack b with
  | [] => (b, Some Undef)
  | _ :: r => (mkRB (rb_held b) (rb_next b) (rb_ret b) (rb_first b) (rb_error b) (rb_member b) r, None)
  end.

Section Refs.
  Variable pass : bool.    (* allowSurrogates *)

  (** All calls.  [buildMethodCall] (pythonbuilder.cc 203-222) does not look for errors.  [buildFault] (152-182): the arguments are never given
      back; null arguments if the message cannot be decoded. *)
  Definition rb_step (b : rbuilder) (e : event) : rbuilder * option fail :=
    match e with
    | EInt _ | EBool _ | EDouble _ | EBinary _ | EDateTime _ => rb_value b
    | ENull => rb_place b
    | EString s => if rb_error b then (b, None) else match py_decode pass s with Some _ => rb_place b | None => (rb_fail b, None) end
    | EOpenStruct _ => rb_open true b
    | EOpenArray _ => rb_open false b
    | ECloseStruct | ECloseArray => rb_close b
    | EMember k => (if rb_error b then b else mkRB (rb_held b) (rb_next b) (rb_ret b) (rb_first b) (rb_error b) k (rb_stack b), None)
    | EMethodCall _ => let b' := rb_is_first b in (rb_push (rb_next b' - 1) false b', None)
    | EMethodResponse => (b, None)
    | EFault _ msg =>
        if rb_error b then (b, None) else
        match py_decode false msg with
        | None => (b, Some Undef)
        | Some _ =>
            let b1 := rb_take H_nobody b in
            (mkRB (give_back (rb_ret b1) (rb_held b1) ++ [(rb_next b1, H_builder)]) (rb_next b1 + 1) (Some (rb_next b1)) true false (rb_member b1) (rb_stack b1), None)
        end
    end.
  Fixpoint rb_run (b : rbuilder) (l : list event) : rbuilder * option fail :=
    match l with
    | [] => (b, None)
    | e :: r => match rb_step b e with (b', None) => rb_run b' r | x => x end
    end.
  (** The references still held when the builder is gone (destructor, pythonbuilder.h 87-90). *)
  Definition rb_left (l : list event) : list (Z * holder) * option fail :=
    let '(b, f) := rb_run rb_init l in (give_back (rb_ret b) (rb_held b), f).
End Refs.
