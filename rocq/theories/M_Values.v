(** Model of operations on values: src/frpccompare.cc, src/frpcstruct.cc, src/frpcarray.cc. *)
From Verif Require Import Base Value.

(** [TypeTag] (frpcvalue.h 48-61). *)
Definition type_tag (v : value) : Z :=
  match v with
  | VInt _ => 1
  | VBool _ => 2
  | VDouble _ => 3
  | VString _ => 4
  | VDateTime _ => 5
  | VBinary _ => 6
  | VStruct _ => 10
  | VArray _ => 11
  | VNull => 12
  | VBinaryRef _ _ => 13
  | VStringView _ => 14
  | VSecret _ => 62
  end.

(** C++ [operator<] on two doubles given by their IEEE 754 bit patterns: false if one is a NaN, else the
    order of the signed magnitudes (so that both zeros are equal). *)
Definition dbl_nan (b : Z) : bool := 2047 * 2 ^ 52 <? b mod 2 ^ 63.
Definition dbl_key (b : Z) : Z := if b <? 2 ^ 63 then b else - (b mod 2 ^ 63).
Definition dbl_lt (a b : Z) : bool := negb (dbl_nan a) && negb (dbl_nan b) && (dbl_key a <? dbl_key b).

(** [compareValue] (frpccompare.cc 98-109): [lhs < rhs ? -1 : rhs < lhs ? 1 : 0]. *)
Definition cmp_by {A} (lt : A -> A -> bool) (a b : A) : comparison :=
  if lt a b then Lt else if lt b a then Gt else Eq.

(** [operator<] of [bool] and [std::string], as compareValue (frpccompare.cc 98-109) uses it. *)
Definition bool_lt (a b : bool) : bool := negb a && b.
Definition bytes_lt (a b : bytes) : bool := match bytes_cmp a b with Lt => true | _ => false end.

(** [compare] (frpccompare.cc 121-184).  An [int] result is represented by its sign.  The type tags are
    compared first; the last case is [throw std::runtime_error]. *)
Fixpoint compare (a b : value) : res comparison :=
  match cmp_by Z.ltb (type_tag a) (type_tag b) with
  | Eq =>
      match a, b with
      | VBool x, VBool y => Ok (cmp_by bool_lt x y)
      | VInt x, VInt y => Ok (cmp_by Z.ltb x y)
      | VDouble x, VDouble y => Ok (cmp_by dbl_lt x y)
      | VString x, VString y => Ok (cmp_by bytes_lt x y)
      | VBinary x, VBinary y => Ok (cmp_by bytes_lt x y)
      | VDateTime x, VDateTime y => Ok (cmp_by Z.ltb (dt_unix x) (dt_unix y))
      | VStruct x, VStruct y =>
          (fix go (x y : list (bytes * value)) : res comparison :=
             match x, y with
             | (k, v) :: x', (k', w) :: y' =>
                 match bytes_cmp k k' with
                 | Eq => bind (compare v w) (fun c => match c with Eq => go x' y' | c => Ok c end)
                 | c => Ok c
                 end
             | _ :: _, [] => Ok Gt
             | [], _ :: _ => Ok Lt
             | [], [] => Ok Eq
             end) x y
      | VArray x, VArray y =>
          (fix go (x y : list value) : res comparison :=
             match x, y with
             | v :: x', w :: y' =>
                 bind (compare v w) (fun c => match c with Eq => go x' y' | c => Ok c end)
             | _ :: _, [] => Ok Gt
             | [], _ :: _ => Ok Lt
             | [], [] => Ok Eq
             end) x y
      | VNull, VNull => Ok Eq
      | _, _ => Err RuntimeError
      end
  | c => Ok c
  end.

(** ** Struct_t: the operations besides [struct_append] of [Value]. *)
Definition members := list (bytes * value).

(** [append(pair)] (frpcstruct.cc 111-117): no length check. *)
Definition struct_append_pair (k : bytes) (v : value) (m : members) : members := map_set k v m.
(** [insert] (frpcstruct.cc 71-85): an existing member wins; no length check. *)
Definition struct_insert (k : bytes) (v : value) (m : members) : members := map_insert k v m.
(** [has_key] (frpcstruct.cc 67-69). *)
Definition struct_has_key (k : bytes) (m : members) : bool := match map_get k m with Some _ => true | None => false end.
(** [get(key)] (frpcstruct.cc 134-150), [get(key, default)] (frpcstruct.cc 153-172). *)
Definition struct_get (k : bytes) (m : members) : option value := map_get k m.
Definition struct_get_default (k : bytes) (d : value) (m : members) : value :=
  match map_get k m with Some v => v | None => d end.
(** [operator[]] (frpcstruct.cc 174-190). *)
Definition struct_at (k : bytes) (m : members) : res value :=
  match map_get k m with Some v => Ok v | None => Err KeyError end.
(** [erase] (frpcstruct.cc 197-199): the number of members erased and the rest ([std::map::erase]). *)
Fixpoint map_erase {A} (k : bytes) (m : list (bytes * A)) : list (bytes * A) :=
  match m with
  | [] => []
  | (k', v) :: r => match bytes_cmp k k' with Eq => r | _ => (k', v) :: map_erase k r end
  end.
Definition struct_erase (k : bytes) (m : members) : Z * members :=
  (if struct_has_key k m then 1 else 0, map_erase k m).

(** ** Array_t *)
(** [operator[]] (frpcarray.cc 143-159), [replace] (129-136). *)
Definition array_at (i : Z) (l : list value) : res value :=
  match nth_error l (Z.to_nat i) with Some v => Ok v | None => Err IndexError end.
Definition array_replace (i : Z) (v : value) (l : list value) : res (list value) :=
  if zlen l <=? i then Err IndexError else Ok (ztake i l ++ v :: zdrop (i + 1) l).

(** The type a letter of the format asks for (frpcarray.cc 184-234); other letters ask for nothing. *)
Definition letter_type (c : byte) : option Z :=
  if b2z c =? 105 then Some 1           (* i *)
  else if b2z c =? 115 then Some 4      (* s *)
  else if b2z c =? 100 then Some 3      (* d *)
  else if b2z c =? 98 then Some 2       (* b *)
  else if b2z c =? 68 then Some 5       (* D *)
  else if b2z c =? 66 then Some 6       (* B *)
  else if b2z c =? 83 then Some 10      (* S *)
  else if b2z c =? 65 then Some 11      (* A *)
  else None.

(** The mark for "may be null" (frpcarray.cc 164, 177). *)
Definition quest : byte := x3f.

(** The loop of [checkItems] (frpcarray.cc 176-237).  [rest] is [items] from position [itemNum] on; reading
    [items[itemNum]] behind the end would be undefined. *)
Fixpoint check_loop (rest : bytes) (l : list value) : res unit :=
  match l with
  | [] => Ok tt
  | v :: l' =>
      match rest with
      | [] => UB
      | c :: r =>
          let can_be_null := match r with q :: _ => byte_eqb q quest | [] => false end in
          let next := if can_be_null then tl r else r in
          if can_be_null && (type_tag v =? 12) then check_loop next l'
          else
            match letter_type c with
            | Some t => if type_tag v =? t then check_loop next l' else Err TypeError
            | None => check_loop next l'
            end
      end
  end.

(** [checkItems] (frpcarray.cc 161-238). *)
Definition check_items (items : bytes) (l : list value) : res unit :=
  if zlen l =? zlen (filter (fun c => negb (byte_eqb c quest)) items) then check_loop items l
  else Err LenError.
