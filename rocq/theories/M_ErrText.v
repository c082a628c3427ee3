(** Model of the texts of the errors raised by access to arrays and structs and by [checkItems]: Array_t::operator[], replace, checkItems
    (frpcarray.cc 129-237), Struct_t::operator[], append (frpcstruct.cc 49, 121, 173-189), Value_t::operator[] (frpcvalue.cc 40-64), the
    conversions Int, String, ... (frpcint.h 117-141 and alike), and [format] of the error classes (frpcerror.cc 36-50 and alike). *)
From Verif Require Import Base Value Text M_Url M_Values.

(** [getTypeName] of the classes of values (frpcint.h 69 and alike). *)
Definition type_name (v : value) : bytes :=
  match v with
  | VInt _ => str "int" | VBool _ => str "bool" | VNull => str "null" | VDouble _ => str "double"
  | VString _ => str "string" | VStringView _ => str "string_view" | VBinary _ => str "binary" | VBinaryRef _ _ => str "binaryref"
  | VDateTime _ => str "dateTime" | VStruct _ => str "struct" | VArray _ => str "array" | VSecret _ => str "secret_value"
  end.

(** [vsnprintf] to 1024 bytes (frpcerror.cc 41-43).  [%s] is [c_str], [%zd] of a size is [dec_signed] of it as a signed number. *)
Definition formatted (parts : list bytes) : bytes := ztake 1023 (List.concat parts).
Definition zd (n : Z) : bytes := dec_signed (s64 n).

(** frpcarray.cc 131, 146, 155; frpcstruct.cc 178, 187; frpcstruct.cc 50, 122. *)
Definition index_text (i n : Z) : bytes := formatted [str "index "; zd i; str " is out of range 0 - "; zd n; str "."].
Definition key_text (k : bytes) : bytes := formatted [str "Key """; c_str k; str """ does not exist."].
Definition name_text (n : Z) : bytes := formatted [str "Size of member name must be max 255 not "; zd n; str "."].
(** frpcvalue.cc 40-64; frpcint.h 121 and alike. *)
Definition operator_text (v : value) (what : bytes) : bytes := formatted [str "Type of object is "; type_name v; str " but "; what; str " operator used."].
Definition retype_text (v : value) (what : bytes) : bytes := formatted [str "Type is "; type_name v; str " but not "; what].

(** [value[index]] with a size and with a key: the element or the text of the error. *)
Definition element (v : value) (i : Z) : value + bytes :=
  match v with
  | VArray l => if i <? zlen l then match nth_error l (Z.to_nat i) with Some x => inl x | None => inr [] end else inr (index_text i (zlen l))
  | _ => inr (operator_text v (str "array"))
  end.
Fixpoint find_member (k : bytes) (m : list (bytes * value)) : option value :=
  match m with [] => None | (k', v) :: r => if bytes_eqb k k' then Some v else find_member k r end.
Definition member (v : value) (k : bytes) : value + bytes :=
  match v with
  | VStruct m => match find_member k m with Some x => inl x | None => inr (key_text k) end
  | _ => inr (operator_text v (str "struct"))
  end.

(** The names in the texts of [checkItems] (frpcarray.cc 184-231). *)
Definition wanted_name (c : byte) : bytes :=
  if byte_eqb c x69 then str "int" else if byte_eqb c x73 then str "string" else if byte_eqb c x64 then str "double" else
  if byte_eqb c x62 then str "bool" else if byte_eqb c x44 then str "dateTime" else if byte_eqb c x42 then str "binary" else
  if byte_eqb c x53 then str "struct" else str "array".
Definition parameter_text (number : Z) (wanted : bytes) (v : value) : bytes :=
  formatted [str "Parameter "; dec_signed (s32 number); str " must be "; wanted; str " not "; type_name v; str "."].
(** [checkItems] (frpcarray.cc 161-238) as [check_items] of M_Values.v, with the text; [n] is [itemNum], an unsigned int. *)
Fixpoint check_loop_text (n : Z) (rest : bytes) (l : list value) : option bytes :=
  match l with
  | [] => None
  | v :: l' =>
      match rest with
      | [] => None
      | c :: r =>
          let can_be_null := match r with q :: _ => byte_eqb q quest | [] => false end in
          let next := if can_be_null then tl r else r in
          let n' := u32 (n + (if can_be_null then 2 else 1)) in
          if can_be_null && (type_tag v =? 12) then check_loop_text n' next l'
          else
            match letter_type c with
            | Some t => if type_tag v =? t then check_loop_text n' next l' else Some (parameter_text (u32 (n + 1)) (wanted_name c) v)
            | None => check_loop_text n' next l'
            end
      end
  end.
Definition check_text (items : bytes) (l : list value) : option bytes :=
  let n := zlen (filter (fun c => negb (byte_eqb c quest)) items) in
  if zlen l =? n then check_loop_text 0 items l else Some (formatted [str "Array must have "; zd n; str " parameters."]).
