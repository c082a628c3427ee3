(** Specifications of structs as finite maps and of array formats. *)
From Verif Require Import Base Value.

(** Operations on a struct. *)
Inductive struct_op : Type :=
| OAppend (k : bytes) (v : value)       (* append(key, value) *)
| OAppendPair (k : bytes) (v : value)   (* append(pair) *)
| OInsert (k : bytes) (v : value)       (* insert(key, value), insert(pair) *)
| OErase (k : bytes)
| OClear.

(** A finite map seen from outside. *)
Definition fmap := bytes -> option value.
Definition upd (k : bytes) (o : option value) (f : fmap) : fmap := fun k' => if bytes_eqb k' k then o else f k'.

(** What each operation should do. *)
Definition op_effect (o : struct_op) (f : fmap) : fmap :=
  match o with
  | OAppend k v => if 255 <? blen k then f else upd k (Some v) f
  | OAppendPair k v => upd k (Some v) f
  | OInsert k v => match f k with Some _ => f | None => upd k (Some v) f end
  | OErase k => upd k None f
  | OClear => fun _ => None
  end.

Definition effects (ops : list struct_op) : fmap := fold_left (fun f o => op_effect o f) ops (fun _ => None).

(** An array format: letters, each with an optional '?'. *)
Inductive letter : Type := L_int | L_string | L_double | L_bool | L_datetime | L_binary | L_struct | L_array.
Definition letter_char (l : letter) : byte :=
  match l with
  | L_int => x69 | L_string => x73 | L_double => x64 | L_bool => x62
  | L_datetime => x44 | L_binary => x42 | L_struct => x53 | L_array => x41
  end.
Definition format_text (f : list (letter * bool)) : bytes :=
  flat_map (fun l : letter * bool => letter_char (fst l) :: (if snd l then [x3f] else [])) f.

(** Does a value have the type a letter names? *)
Definition has_type (l : letter) (v : value) : Prop :=
  match l, v with
  | L_int, VInt _ | L_string, VString _ | L_double, VDouble _ | L_bool, VBool _
  | L_datetime, VDateTime _ | L_binary, VBinary _ | L_struct, VStruct _ | L_array, VArray _ => True
  | _, _ => False
  end.
Definition item_ok (l : letter * bool) (v : value) : Prop := has_type (fst l) v \/ (snd l = true /\ v = VNull).
