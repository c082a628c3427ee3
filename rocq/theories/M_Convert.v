(** Model of the converters from C++ containers to values (src/frpcconverters.h) and of wide strings (src/frpcstring.cc). *)
From Verif Require Import Base Value M_Values.

(** [to_array] (frpcconverters.h 327-346): [std::transform] into [back_inserter], that is [push_back] of the converted
    elements one by one.  An exception of the conversion ends it; the array made so far stays in the pool (not modelled). *)
Fixpoint push_all {A} (convert : A -> res value) (array : list value) (l : list A) : res (list value) :=
  match l with
  | [] => Ok array
  | a :: l => bind (convert a) (fun v => push_all convert (array ++ [v]) l)
  end.
Definition to_array {A} (convert : A -> res value) (l : list A) : res value := bind (push_all convert [] l) (fun x => Ok (VArray x)).

(** [array_cnvt] (frpcconverters.h 213-252): the converter for containers of what the converter converts. *)
Definition array_cnvt {A} (convert : A -> res value) : list A -> res value := to_array convert.

(** [to_struct] (frpcconverters.h 354-380): [std::transform] through [pair_cnvt] (258-288) into [inserter], that is
    [Struct_t::insert(iterator, pair)] (frpcstruct.cc 83-86; the position is a hint only). *)
Fixpoint insert_all {A} (convert : A -> res value) (structure : members) (l : list (bytes * A)) : res members :=
  match l with
  | [] => Ok structure
  | (k, a) :: l => bind (convert a) (fun v => insert_all convert (struct_insert k v structure) l)
  end.
Definition to_struct {A} (convert : A -> res value) (l : list (bytes * A)) : res value :=
  bind (insert_all convert [] l) (fun x => Ok (VStruct x)).

(** The converters for simple types (frpcconverters.h 92-205, 383-408); those for strings as long as nothing is validated. *)
Definition int_cnvt (z : Z) : res value := Ok (VInt z).
Definition bool_cnvt (b : bool) : res value := Ok (VBool b).
Definition string_cnvt (s : bytes) : res value := Ok (VString s).
Definition binary_cnvt (s : bytes) : res value := Ok (VBinary s).

(** [String_t(const std::wstring &)] and [operator std::wstring] (frpcstring.cc 97-99, 103-126), except on Windows: the argument is not used
    and the result is empty. *)
Definition string_of_wide (w : list Z) : bytes := [].
Definition wide_of_string (s : bytes) : list Z := [].
Definition wstring_cnvt (w : list Z) : res value := Ok (VString (string_of_wide w)).
