(** What a dump of the Python module may show, and of what there is one. *)
From Verif Require Import Base Value Unicode M_Python S_Python.

(** A member is to be hidden if its name is a key of [names]; NUL does not occur in names. *)
Definition secret (names : option py) (k : py) : Prop :=
  exists u m, k = PyStr u /\ names = Some (PyDict m) /\ In (PyStr u) (map fst m) /\ Forall uchar u /\ ~ In 0 u.

(** The item [i] of the object itself is to be hidden if the bit is set in [pos]. *)
Definition hidden_item (pos : Z) (i : nat) : Prop := Z.of_nat i < 64 /\ Z.testbit pos (Z.of_nat i) = true.

(** Objects that are to look the same: they differ only in what is to be hidden, and in what is [level] deep. *)
Inductive alike (names : option py) : Z -> Z -> py -> py -> Prop :=
| alike_same : forall level pos v, alike names level pos v v
| alike_deep_list : forall pos l l', alike names 0 pos (PyList l) (PyList l')
| alike_deep_tuple : forall pos l l', alike names 0 pos (PyTuple l) (PyTuple l')
| alike_deep_dict : forall pos m m', alike names 0 pos (PyDict m) (PyDict m')
| alike_list : forall level pos l l', length l = length l' ->
    (forall i x y, nth_error l i = Some x -> nth_error l' i = Some y -> hidden_item pos i \/ alike names (level - 1) 0 x y) ->
    alike names level pos (PyList l) (PyList l')
| alike_tuple : forall level pos l l', length l = length l' ->
    (forall i x y, nth_error l i = Some x -> nth_error l' i = Some y -> hidden_item pos i \/ alike names (level - 1) 0 x y) ->
    alike names level pos (PyTuple l) (PyTuple l')
| alike_dict : forall level pos m m', length m = length m' ->
    (forall i a b, nth_error m i = Some a -> nth_error m' i = Some b ->
       fst a = fst b /\ (secret names (fst a) \/ alike names (level - 1) 0 (snd a) (snd b))) ->
    alike names level pos (PyDict m) (PyDict m').

(** Strings of characters that are less than ten bytes of UTF-8, or ASCII. *)
Definition short_or_ascii (u : pystr) : Prop := Forall uchar u /\ (blen (flat_map utf8_char u) < 10 \/ Forall (fun c => c < 128) u).

(** Objects of which there is a dump. *)
Inductive printable : py -> Prop :=
| printable_none : printable PyNone
| printable_bool : forall b, printable (PyBool b)
| printable_boolean : forall b, printable (PyBoolean b)
| printable_int : forall z, - 2 ^ 63 <= z < 2 ^ 63 -> printable (PyInt z)
| printable_float : forall d, printable (PyFloat d)
| printable_bytes : forall s, printable (PyBytes s)
| printable_str : forall u, short_or_ascii u -> printable (PyStr u)
| printable_date : forall d, printable (PyDate d)
| printable_std : forall d, printable (PyStdDate d)
| printable_fault : forall c m, printable (PyFault c m)
| printable_other : printable PyOther
| printable_list : forall l, Forall printable l -> printable (PyList l)
| printable_tuple : forall l, Forall printable l -> printable (PyTuple l)
| printable_dict : forall m, Forall (fun kv => (exists u, fst kv = PyStr u /\ short_or_ascii u) /\ printable (snd kv)) m -> printable (PyDict m).
