(** Value trees (src/frpcvalue.h and the classes derived from [Value_t]). *)
From Verif Require Import Base.

(** [DateTime_t] members (frpcdatetime.h 225-255). *)
Record datetime : Type := mkDT {
  dt_year : Z;    (* short *)
  dt_month : Z;   (* char *)
  dt_day : Z;     (* char *)
  dt_hour : Z;    (* char *)
  dt_min : Z;     (* char *)
  dt_sec : Z;     (* char *)
  dt_wday : Z;    (* char *)
  dt_unix : Z;    (* time_t *)
  dt_tz : Z       (* int, seconds *)
}.

(** A value.  [VStruct] lists the members in iteration order of the [std::map];
    [VBinaryRef size chunks] is a feeder announcing [size] bytes and then delivering [chunks];
    doubles are represented by their 64-bit pattern. *)
Inductive value : Type :=
| VInt (z : Z)
| VBool (b : bool)
| VNull
| VDouble (bits : Z)
| VString (s : bytes)
| VStringView (s : bytes)
| VBinary (s : bytes)
| VBinaryRef (size : Z) (chunks : list bytes)
| VDateTime (d : datetime)
| VStruct (m : list (bytes * value))
| VArray (l : list value)
| VSecret (v : value).

(** Nested induction principle. *)
Section value_ind.
  Variable P : value -> Prop.
  Hypothesis HInt : forall z, P (VInt z).
  Hypothesis HBool : forall b, P (VBool b).
  Hypothesis HNull : P VNull.
  Hypothesis HDouble : forall z, P (VDouble z).
  Hypothesis HString : forall s, P (VString s).
  Hypothesis HStringView : forall s, P (VStringView s).
  Hypothesis HBinary : forall s, P (VBinary s).
  Hypothesis HBinaryRef : forall n s, P (VBinaryRef n s).
  Hypothesis HDateTime : forall d, P (VDateTime d).
  Hypothesis HStruct : forall m, Forall (fun kv => P (snd kv)) m -> P (VStruct m).
  Hypothesis HArray : forall l, Forall P l -> P (VArray l).
  Hypothesis HSecret : forall v, P v -> P (VSecret v).

  Fixpoint value_nested_ind (v : value) : P v :=
    match v with
    | VInt z => HInt z
    | VBool b => HBool b
    | VNull => HNull
    | VDouble z => HDouble z
    | VString s => HString s
    | VStringView s => HStringView s
    | VBinary s => HBinary s
    | VBinaryRef n s => HBinaryRef n s
    | VDateTime d => HDateTime d
    | VStruct m =>
        HStruct m
          ((fix go (l : list (bytes * value)) : Forall (fun kv => P (snd kv)) l :=
              match l with
              | [] => Forall_nil _
              | (k, x) :: r => Forall_cons (k, x) (value_nested_ind x) (go r)
              end) m)
    | VArray l =>
        HArray l
          ((fix go (l : list value) : Forall P l :=
              match l with
              | [] => Forall_nil _
              | x :: r => Forall_cons x (value_nested_ind x) (go r)
              end) l)
    | VSecret x => HSecret x (value_nested_ind x)
    end.
End value_ind.

(** [Struct_t::append] (frpcstruct.cc 111-132) on the underlying [std::map]: insert the pair, or
    replace the mapped value of an existing key.  The length check of [append] is in
    [struct_append] below. *)
Fixpoint map_set {A} (k : bytes) (v : A) (m : list (bytes * A)) : list (bytes * A) :=
  match m with
  | [] => [(k, v)]
  | (k', v') :: r =>
      match bytes_cmp k k' with
      | Lt => (k, v) :: (k', v') :: r
      | Eq => (k', v) :: r
      | Gt => (k', v') :: map_set k v r
      end
  end.

(** [std::map::insert] (frpcstruct.cc 71-85): keeps an existing value. *)
Fixpoint map_insert {A} (k : bytes) (v : A) (m : list (bytes * A)) : list (bytes * A) :=
  match m with
  | [] => [(k, v)]
  | (k', v') :: r =>
      match bytes_cmp k k' with
      | Lt => (k, v) :: (k', v') :: r
      | Eq => (k', v') :: r
      | Gt => (k', v') :: map_insert k v r
      end
  end.

(** [std::map::find]. *)
Fixpoint map_get {A} (k : bytes) (m : list (bytes * A)) : option A :=
  match m with
  | [] => None
  | (k', v') :: r =>
      match bytes_cmp k k' with
      | Eq => Some v'
      | _ => map_get k r
      end
  end.

(** [Struct_t::append(key, value)] (frpcstruct.cc 119-132). *)
Definition struct_append (k : bytes) (v : value) (m : list (bytes * value))
  : res (list (bytes * value)) :=
  if 255 <? blen k then Err LenError else Ok (map_set k v m).
