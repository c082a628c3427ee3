(** Specification: what a value of the C++ library and an object of Python have in common. *)
From Coq Require Import Permutation.
From Verif Require Import Base Value Unicode M_Marshal S_Value M_Python.

(** Q if P holds, R if it does not. *)
Definition if_then_else (P Q R : Prop) : Prop := (P /\ Q) \/ (~ P /\ R).

(** The same text: in UTF-8 and as code points. *)
Definition same_str (s : bytes) (u : pystr) : Prop := Forall uchar u /\ s = flat_map utf8_char u.

(** Objects of Python as they are: strings of code points, floats of 64 bits, [dict]s without equal keys. *)
Definition is_str (u : pystr) : Prop := Forall (fun c => 0 <= c < 1114112) u.
Fixpoint is_object (p : py) : Prop :=
  match p with
  | PyFloat d => in_u64 d
  | PyStr s => is_str s
  | PyList l | PyTuple l => (fix all (l : list py) : Prop := match l with [] => True | x :: r => is_object x /\ all r end) l
  | PyDict m =>
      NoDup (map fst m) /\
      (fix all (l : list (py * py)) : Prop := match l with [] => True | (k, x) :: r => is_object k /\ is_object x /\ all r end) m
  | PyFault c m => is_object c /\ is_object m
  | _ => True
  end.

Section Host.
  (** The host's clock, as in the model. *)
  Variable host : datetime -> datetime.

  (** What the host makes of the fields of a [datetime.datetime], marked as UTC. *)
  Definition as_local (d : datetime) : datetime :=
    let t := host (mkDT (dt_year d) (dt_month d) (dt_day d) (dt_hour d) (dt_min d) (dt_sec d) 0 0 0) in
    mkDT (dt_year t) (dt_month t) (dt_day t) (dt_hour t) (dt_min t) (dt_sec t) (dt_wday t) (dt_unix t) 0.

  (** ** Sending *)
  Section Sends.
    Variable ver : version.

    (** The sizes and the date-times the format has. *)
    Fixpoint within (p : py) : Prop :=
      match p with
      | PyStr s => blen (flat_map utf8_char s) < 2 ^ 30
      | PyBytes s => blen s < 2 ^ 30
      | PyDate d => dt_ok (unix_bits ver) d
      | PyStdDate d => dt_ok (unix_bits ver) (as_local d)
      | PyList l | PyTuple l =>
          zlen l < 2 ^ 30 /\ (fix all (l : list py) : Prop := match l with [] => True | x :: r => within x /\ all r end) l
      | PyDict m =>
          zlen m < 2 ^ 30 /\ (fix all (l : list (py * py)) : Prop := match l with [] => True | (_, x) :: r => within x /\ all r end) m
      | _ => True
      end.

    (** No integer from 2^63 to 2^64 - 1 anywhere. *)
    Fixpoint no_large (p : py) : Prop :=
      match p with
      | PyInt z => ~ 2 ^ 63 <= z < 2 ^ 64
      | PyList l | PyTuple l => (fix all (l : list py) : Prop := match l with [] => True | x :: r => no_large x /\ all r end) l
      | PyDict m => (fix all (l : list (py * py)) : Prop := match l with [] => True | (_, x) :: r => no_large x /\ all r end) m
      | _ => True
      end.

    (** Names the format has: 1 to 255 bytes in UTF-8. *)
    Definition name_fits (u : pystr) : Prop := Forall uchar u /\ 1 <= blen (flat_map utf8_char u) <= 255.

    (** Objects the format has: integers of 64 bits, strings without surrogates, [dict]s with names for keys, no other classes;
        None from version 2.1 on. *)
    Fixpoint py_sends (p : py) : Prop :=
      match p with
      | PyNone => has_null ver
      | PyBool _ | PyBoolean _ | PyFloat _ | PyBytes _ | PyDate _ | PyStdDate _ => True
      | PyInt z => in_s64 z
      | PyStr s => Forall uchar s
      | PyList l | PyTuple l => (fix all (l : list py) : Prop := match l with [] => True | x :: r => py_sends x /\ all r end) l
      | PyDict m =>
          (fix all (l : list (py * py)) : Prop :=
             match l with [] => True | (k, x) :: r => (exists u, k = PyStr u /\ name_fits u) /\ py_sends x /\ all r end) m
      | PyFault _ _ | PyOther => False
      end.
  End Sends.

  (** The value a C++ program gets for an object: a [dict] is a struct with the same members in any order. *)
  Inductive means : value -> py -> Prop :=
  | means_none : means VNull PyNone
  | means_bool : forall b, means (VBool b) (PyBool b)
  | means_boolean : forall b, means (VBool b) (PyBoolean b)
  | means_int : forall z, means (VInt z) (PyInt z)
  | means_float : forall d, means (VDouble d) (PyFloat d)
  | means_bytes : forall s, means (VBinary s) (PyBytes s)
  | means_str : forall s u, same_str s u -> means (VString s) (PyStr u)
  | means_date : forall d, means (VDateTime d) (PyDate d)
  | means_std : forall d, means (VDateTime (as_local d)) (PyStdDate d)
  | means_list : forall l l', Forall2 means l l' -> means (VArray l) (PyList l')
  | means_tuple : forall l l', Forall2 means l l' -> means (VArray l) (PyTuple l')
  | means_dict : forall m m' m'',
      Forall2 (fun kv kp => (exists u, fst kp = PyStr u /\ same_str (fst kv) u) /\ means (snd kv) (snd kp)) m m' -> Permutation m' m'' ->
      means (VStruct m) (PyDict m'').

  (** ** Reading *)
  (** The object of a date-time: one without a time gets the time and the day of the week the host computes. *)
  Definition timed (d : datetime) : datetime :=
    if dt_unix d =? -1 then
      let t := host (mkDT (dt_year d) (dt_month d) (dt_day d) (dt_hour d) (dt_min d) (dt_sec d) 0 0 0) in
      mkDT (dt_year d) (dt_month d) (dt_day d) (dt_hour d) (dt_min d) (dt_sec d)
           (if dt_unix t =? -1 then -1 else s8 (dt_wday t)) (dt_unix t) (dt_tz d)
    else d.

  (** Values whose texts are UTF-8; member names without a NUL. *)
  Definition is_text (s : bytes) : Prop := exists u, same_str s u.
  Fixpoint texts (v : value) : Prop :=
    match v with
    | VString s | VStringView s => is_text s
    | VStruct m =>
        (fix all (l : list (bytes * value)) : Prop := match l with [] => True | (k, x) :: r => is_text k /\ texts x /\ all r end) m
    | VArray l => (fix all (l : list value) : Prop := match l with [] => True | x :: r => texts x /\ all r end) l
    | VSecret x => texts x
    | _ => True
    end.
  Fixpoint no_nul_names (v : value) : Prop :=
    match v with
    | VStruct m =>
        (fix all (l : list (bytes * value)) : Prop := match l with [] => True | (k, x) :: r => ~ In x00 k /\ no_nul_names x /\ all r end) m
    | VArray l => (fix all (l : list value) : Prop := match l with [] => True | x :: r => no_nul_names x /\ all r end) l
    | VSecret x => no_nul_names x
    | _ => True
    end.

  (** The object a Python program gets for a value. *)
  Inductive reads (native : bool) : value -> py -> Prop :=
  | reads_int : forall z, reads native (VInt z) (PyInt z)
  | reads_bool : forall b, reads native (VBool b) (if native then PyBool b else PyBoolean b)
  | reads_null : reads native VNull PyNone
  | reads_double : forall d, reads native (VDouble d) (PyFloat d)
  | reads_string : forall s u, same_str s u -> reads native (VString s) (PyStr u)
  | reads_view : forall s u, same_str s u -> reads native (VStringView s) (PyStr u)
  | reads_binary : forall s, reads native (VBinary s) (PyBytes s)
  | reads_ref : forall n cs, reads native (VBinaryRef n cs) (PyBytes (concat cs))
  | reads_date : forall d, reads native (VDateTime d) (PyDate (timed d))
  | reads_struct : forall m m',
      Forall2 (fun kv kp => (exists u, fst kp = PyStr u /\ same_str (fst kv) u) /\ reads native (snd kv) (snd kp)) m m' ->
      reads native (VStruct m) (PyDict m')
  | reads_array : forall l l', Forall2 (reads native) l l' -> reads native (VArray l) (PyList l')
  | reads_secret : forall v p, reads native v p -> reads native (VSecret v) p.

  (** ** From Python to Python *)
  (** The object that comes back: [list]s for [tuple]s, one kind of booleans, [fastrpc.DateTime]s for dates. *)
  Fixpoint seen (native : bool) (p : py) : py :=
    match p with
    | PyBool b | PyBoolean b => if native then PyBool b else PyBoolean b
    | PyDate d => PyDate (timed d)
    | PyStdDate d => PyDate (timed (as_local d))
    | PyList l | PyTuple l => PyList (map (seen native) l)
    | PyDict m => PyDict (map (fun kv => (fst kv, seen native (snd kv))) m)
    | x => x
    end.
  (** No name in it has a NUL. *)
  Fixpoint no_nul_keys (p : py) : Prop :=
    match p with
    | PyList l | PyTuple l => (fix all (l : list py) : Prop := match l with [] => True | x :: r => no_nul_keys x /\ all r end) l
    | PyDict m =>
        (fix all (l : list (py * py)) : Prop :=
           match l with [] => True | (k, x) :: r => (forall u, k = PyStr u -> ~ In 0 u) /\ no_nul_keys x /\ all r end) m
    | _ => True
    end.
End Host.

(** The parameters as a [tuple] or as a [list]. *)
Definition args_of (params : py) (l : list py) : Prop := params = PyTuple l \/ params = PyList l.
