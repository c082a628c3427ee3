(** What [datetimeBuilder] is for: the dates of a value, the callable called with them, and the object of the value. *)
From Verif Require Import Base Value M_Python S_Python.

(** The dates of a value, in the order of the message. *)
Fixpoint dates (v : value) : list datetime :=
  match v with
  | VDateTime d => [d]
  | VStruct m => flat_map (fun kv => dates (snd kv)) m
  | VArray l => flat_map dates l
  | VSecret x => dates x
  | _ => []
  end.

(** The callable called with them, one after the other, until it raises an exception. *)
Section Calls.
  Variable W E : Type.
  Variable call : W -> datetime -> W * (py + E).
  Fixpoint made (w : W) (ds : list datetime) : W * (list py + E) :=
    match ds with
    | [] => (w, inl [])
    | d :: r =>
        match call w d with
        | (w, inr x) => (w, inr x)
        | (w, inl p) => match made w r with (w, inl ps) => (w, inl (p :: ps)) | (w, inr x) => (w, inr x) end
        end
    end.
End Calls.

(** The object of a value whose dates are, in order, the given objects; everything else is as without [datetimeBuilder] ([reads]). *)
Section Filled.
  Variable native : bool.
  Inductive filled : value -> list py -> py -> Prop :=
  | filled_date : forall d p, filled (VDateTime d) [p] p
  | filled_plain : forall host v p, (forall d, v <> VDateTime d) -> (forall m, v <> VStruct m) -> (forall l, v <> VArray l) -> (forall x, v <> VSecret x) ->
      reads host native v p -> filled v [] p
  | filled_struct : forall m ps m', filled_members m ps m' -> filled (VStruct m) ps (PyDict m')
  | filled_array : forall l ps l', filled_items l ps l' -> filled (VArray l) ps (PyList l')
  | filled_secret : forall v ps p, filled v ps p -> filled (VSecret v) ps p
  with filled_items : list value -> list py -> list py -> Prop :=
  | filled_nil : filled_items [] [] []
  | filled_cons : forall v ps p l qs l', filled v ps p -> filled_items l qs l' -> filled_items (v :: l) (ps ++ qs) (p :: l')
  with filled_members : list (bytes * value) -> list py -> list (py * py) -> Prop :=
  | filled_none : filled_members [] [] []
  | filled_more : forall k u v ps p m qs m', same_str k u -> filled v ps p -> filled_members m qs m' -> filled_members ((k, v) :: m) (ps ++ qs) ((PyStr u, p) :: m').
End Filled.
