(** Specification: the types hints give to what JavaScript sends. *)
From Verif Require Import Base Value Text Unicode M_Js M_JsHints.

(** A position in the data: the keys that lead to it.  In JavaScript the index of an array is a key, too: its decimal digits. *)
Definition position := list jstring.
Definition key_of_index (i : Z) : jstring := map b2z (dec i).

(** The types a hint can give. *)
Inductive kind : Type := K_float | K_binary.
Definition kind_text (k : kind) : jstring := match k with K_float => map b2z (str "float") | K_binary => map b2z (str "binary") end.

(** The hints a caller means, for some positions the type of what is there, and how they are written (fastrpc.mjs 556-560:
    "keys and/or indices divided by dots"). *)
Definition meant := list (position * kind).
Fixpoint dotted (l : list jstring) : jstring :=
  match l with [] => [] | [s] => s | s :: r => s ++ map b2z (str ".") ++ dotted r end.
Definition written (m : meant) : hints := H_object (map (fun e => (dotted (fst e), kind_text (snd e))) m).

(** Keys a position can be written with: not empty, without dots. *)
Definition plain (k : jstring) : Prop := k <> [] /\ ~ In 46 k.

(** Which positions are floats and which are binary data, for the hints a caller gives: none, "float", or some positions. *)
Inductive gives : hints -> (position -> Prop) -> (position -> Prop) -> Prop :=
| gives_nothing : gives H_none (fun _ => False) (fun _ => False)
| gives_floats : gives (H_scalar (kind_text K_float)) (fun _ => True) (fun _ => False)
| gives_meant : forall m, NoDup (map fst m) -> Forall (fun e => Forall plain (fst e)) m ->
    gives (written m) (fun p => In (p, K_float) m) (fun p => In (p, K_binary) m).

(** The integer a number is: a finite double is a number of units of 2^-1074. *)
Definition integer (bits z : Z) : Prop :=
  exists s u, number_of bits = N_finite s u /\ Z.abs z * 2 ^ 1074 = u /\ (s = true -> z <= 0) /\ (s = false -> 0 <= z).

(** The bytes an array of numbers stands for. *)
Definition byte_array (l : list raw) (s : bytes) : Prop :=
  Forall2 (fun v b => exists bits, v = RNum bits /\ integer bits (b2z b)) l s.

(** What a value is: a number is a float if its position says so or it is wrapped, and an integer otherwise; an array is binary
    data if its position says so or it is wrapped. *)
Section Typed.
  Variables F B : position -> Prop.
  Inductive typed : position -> raw -> js -> Prop :=
  | t_null : forall p, typed p RNull JNull
  | t_bool : forall p b, typed p (RBool b) (JBool b)
  | t_string : forall p s, typed p (RStr s) (JStr s)
  | t_float : forall p bits, F p -> typed p (RNum bits) (JFloat bits)
  | t_int : forall p bits z, ~ F p -> integer bits z -> typed p (RNum bits) (JNum z)
  | t_buffer : forall p s, typed p (RBuffer s) (JBytes s)
  | t_date : forall p ms, typed p (RDate (Some ms)) (JDate (Some ms))
  | t_binary : forall p l s, B p -> byte_array l s -> typed p (RArr l) (JBytes s)
  | t_array : forall p l l', ~ B p -> typed_items p 0 l l' -> typed p (RArr l) (JArr l')
  | t_wrapped_binary : forall p l s, byte_array l s ->
      typed p (RObj [(jtext "_hint", RStr (kind_text K_binary)); (jtext "value", RArr l)]) (JBytes s)
  | t_wrapped_float : forall p bits,
      typed p (RObj [(jtext "_hint", RStr (kind_text K_float)); (jtext "value", RNum bits)]) (JFloat bits)
  | t_object : forall p o o', (forall k, ~ In (jtext "_hint", RStr (kind_text k)) o) -> Forall plain (map fst o) ->
      typed_members p o o' -> typed p (RObj o) (JObj o')
  with typed_items : position -> Z -> list raw -> list js -> Prop :=
  | ti_nil : forall p i, typed_items p i [] []
  | ti_cons : forall p i v j l l', typed (p ++ [key_of_index i]) v j -> typed_items p (i + 1) l l' -> typed_items p i (v :: l) (j :: l')
  with typed_members : position -> list (jstring * raw) -> list (jstring * js) -> Prop :=
  | tm_nil : forall p, typed_members p [] []
  | tm_cons : forall p k v j o o', typed (p ++ [k]) v j -> typed_members p o o' -> typed_members p ((k, v) :: o) ((k, j) :: o').

  (** Something JSON-like data cannot have (undefined, a function) is in the data, outside of what is binary. *)
  Inductive undefined_in : position -> raw -> Prop :=
  | u_here : forall p, undefined_in p RUndef
  | u_item : forall p l i v, ~ B p -> nth_error l i = Some v -> undefined_in (p ++ [key_of_index (Z.of_nat i)]) v -> undefined_in p (RArr l)
  | u_member : forall p o k v, (forall k, ~ In (jtext "_hint", RStr (kind_text k)) o) -> In (k, v) o -> plain k -> undefined_in (p ++ [k]) v ->
      undefined_in p (RObj o).
End Typed.
