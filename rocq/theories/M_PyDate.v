(** Model of the types of python/fastrpcmodule.cc, for Python 3: [DateTime], [LocalTime], [UTCTime] (262-686), [newDateTime]
    (690-730), [Boolean] (1037-1209) and the function [boolean] (2247-2290).  Not modelled: reference counts, keyword arguments of
    the constructors (ignored by them), classes derived from the built-in ones, objects of other classes with an [__index__]. *)
From Verif Require Import Base Value Text M_Base64 M_Iso M_Marshal M_BinUnmarshal M_TreeBuilder M_Dump M_Python.
From Verif Require M_DateTime.

(** What the constructors see: the C library, what [time] returns, and the times for which [localtime] returns a structure. *)
Record clock : Type := mkClock { k_host : M_DateTime.host; k_now : Z; k_fits : Z -> bool }.

(** The outcome of a constructor: an object, an exception, a plain [Exception] (a text that is no date), a null pointer
    dereferenced. *)
Inductive made : Type := Made (d : datetime) | Raised (e : pyexn) | Bad_text | Crash.

(** [PyInt_Check] and [PyInt_AsLong], which is [PyLong_AsLong]; the conversion "i" of [PyArg_ParseTuple] (CPython). *)
Definition is_int (v : py) : bool := match v with PyInt _ | PyBool _ => true | _ => false end.
Definition as_long (v : py) : option Z :=
  match v with
  | PyInt z => if (- 2 ^ 63 <=? z) && (z <? 2 ^ 63) then Some z else None
  | PyBool b => Some (if b then 1 else 0)
  | _ => None
  end.
Definition as_cint (v : py) : option Z :=
  match as_long v with
  | Some z => if (- 2 ^ 31 <=? z) && (z <? 2 ^ 31) then Some z else None
  | None => None
  end.

(** The fields taken from [localtime] (296-302, 310-318). *)
Definition fields_at_time (k : clock) (t tz : Z) : made :=
  if k_fits k t then match M_DateTime.of_tm (M_DateTime.localtime (k_host k) t) t tz with Ok d => Made d | _ => Crash end else Crash.

(** The zone added by [UTCTime()] (286-292): a [long]. *)
Definition zone_now (k : clock) : Z :=
  let l := M_DateTime.localtime (k_host k) (k_now k) in
  if 0 <? M_DateTime.tm_isdst l then M_DateTime.timezone (k_host k) - 3600 else M_DateTime.timezone (k_host k).

(** [TimeObject_init_parseInt] (307-321), followed by the zone.  A failed conversion is -1; the constructor returns without error,
    but the exception is pending, which CPython turns into SystemError. *)
Definition of_number (k : clock) (v : py) (tz : Z -> Z) : made :=
  match as_long v with
  | Some t => fields_at_time k t (tz t)
  | None => match fields_at_time k (-1) (tz (-1)) with Made _ => Raised PE_System | m => m end
  end.

(** [TimeObject_init_parseString] (323-376). *)
Definition of_text (k : clock) (s : pystr) : made :=
  match py_encode s with
  | None => Raised PE_System
  | Some text =>
      match parse_iso text with
      | Ok d =>
          let t := fst (M_DateTime.mktime (k_host k) (M_DateTime.tm_of_fields (dt_year d) (dt_month d) (dt_day d) (dt_hour d) (dt_min d) (dt_sec d))) in
          Made (mkDT (dt_year d) (dt_month d) (dt_day d) (dt_hour d) (dt_min d) (dt_sec d)
                     (if t =? -1 then -1 else s8 (M_DateTime.tm_wday (M_DateTime.localtime (k_host k) t))) t (dt_tz d))
      | _ => Bad_text
      end
  end.

(** [DateTimeObject_init] (378-430). *)
Definition date_time (k : clock) (args : list py) : made :=
  match args with
  | [v; z] => match as_cint z with
              | Some tz => of_number k v (fun _ => tz)
              | None => Raised PE_Type
              end
  | [PyStr s] => of_text k s
  | _ => Raised PE_Type
  end.

(** [LocalTimeObject_init] (432-458). *)
Definition local_time (k : clock) (args : list py) : made :=
  let zone t := M_DateTime.zone_of (k_host k) (M_DateTime.localtime (k_host k) t) in
  match args with
  | [] => fields_at_time k (k_now k) (zone (k_now k))
  | [v] => if is_int v then of_number k v zone else Raised PE_Type
  | _ => Raised PE_Type
  end.

(** [UTCTimeObject_init] (460-481), [TimeObject_init_getNow] (280-305). *)
Definition utc_time (k : clock) (args : list py) : made :=
  match args with
  | [] => if k_fits k (k_now k) then fields_at_time k (s64 (k_now k + zone_now k)) 0 else Crash
  | [v] => if is_int v then of_number k v (fun _ => 0) else Raised PE_Type
  | _ => Raised PE_Type
  end.

(** [DateTimeObject_repr] and the attribute [value] (488-496, 540-551). *)
Definition date_text (d : datetime) : py :=
  PyStr (map b2z (iso_text (dt_year d) (dt_month d) (dt_day d) (dt_hour d) (dt_min d) (dt_sec d) (dt_tz d))).

(** The other attributes (498-539, 557-620). *)
Inductive field : Type := F_year | F_month | F_day | F_hour | F_min | F_sec | F_weekDay | F_unixTime | F_timeZone.
Definition get_field (f : field) (d : datetime) : py :=
  PyInt match f with
        | F_year => dt_year d | F_month => dt_month d | F_day => dt_day d | F_hour => dt_hour d | F_min => dt_min d
        | F_sec => dt_sec d | F_weekDay => dt_wday d | F_unixTime => dt_unix d | F_timeZone => dt_tz d
        end.
Definition put_field (f : field) (z : Z) (d : datetime) : datetime :=
  let '(mkDT y mo da h mi s w u tz) := d in
  match f with
  | F_year => mkDT (s16 z) mo da h mi s w u tz
  | F_month => mkDT y (s8 z) da h mi s w u tz
  | F_day => mkDT y mo (s8 z) h mi s w u tz
  | F_hour => mkDT y mo da (s8 z) mi s w u tz
  | F_min => mkDT y mo da h (s8 z) s w u tz
  | F_sec => mkDT y mo da h mi (s8 z) w u tz
  | F_weekDay => mkDT y mo da h mi s (s8 z) u tz
  | F_unixTime => mkDT y mo da h mi s w z tz
  | F_timeZone => mkDT y mo da h mi s w u (s32 z)
  end.
(** An assignment to an attribute, [None] standing for [del] (a null pointer: [PyInt_Check] reads from it).  A number that is no [long] is
    stored as -1, with an exception pending. *)
Inductive stored : Type := Stored (d : datetime) | Stored_pending (d : datetime) | Refused | Set_crash.
Definition set_field (f : field) (v : option py) (d : datetime) : stored :=
  match v with
  | None => Set_crash
  | Some v =>
      if is_int v then match as_long v with Some z => Stored (put_field f z d) | None => Stored_pending (put_field f (-1) d) end
      else Refused
  end.

(** [DateTimeObject_to_timestamp] (622-632): [tm_isdst] is zero. *)
Definition timestamp (c : M_DateTime.host) (d : datetime) : Z :=
  fst (M_DateTime.mktime c (M_DateTime.mkTm (dt_year d - 1900) (dt_month d - 1) (dt_day d) (dt_hour d) (dt_min d) (dt_sec d) 0 0)) - dt_tz d.

(** The comparisons of Python. *)
Inductive cmp : Type := LT | LE | EQ | NE | GT | GE.
Definition int_cmp (op : cmp) (a b : Z) : bool :=
  match op with LT => a <? b | LE => a <=? b | EQ => a =? b | NE => negb (a =? b) | GT => b <? a | GE => b <=? a end.
Definition unlike (op : cmp) : pyres bool := match op with EQ => PyOk false | NE => PyOk true | _ => PyRaise PE_Type end.

(** [DateTimeObject_richcmp] (635-686). *)
Definition date_cmp (c : M_DateTime.host) (op : cmp) (a b : py) : pyres bool :=
  match a, b with
  | PyDate x, PyDate y => PyOk (int_cmp op (timestamp c x) (timestamp c y))
  | _, _ => unlike op
  end.

(** [mktime] and [localtime] as the parameter [host] of M_Python.v. *)
Definition host_of (c : M_DateTime.host) (d : datetime) : datetime :=
  let '(t, l) := M_DateTime.mktime c (M_DateTime.tm_of_fields (dt_year d) (dt_month d) (dt_day d) (dt_hour d) (dt_min d) (dt_sec d)) in
  mkDT (M_DateTime.tm_year l + 1900) (M_DateTime.tm_mon l + 1) (M_DateTime.tm_mday l) (M_DateTime.tm_hour l) (M_DateTime.tm_min l) (M_DateTime.tm_sec l)
       (M_DateTime.tm_wday (M_DateTime.localtime c t)) t 0.

(** [PyObject_IsTrue] (CPython); [None]: it raises an exception, as objects of other classes may. *)
Definition truth (other : option bool) (v : py) : option bool :=
  match v with
  | PyNone => Some false
  | PyBool b | PyBoolean b => Some b
  | PyInt z => Some (negb (z =? 0))
  | PyFloat d => Some (negb (d mod 2 ^ 63 =? 0))
  | PyBytes s => Some (match s with [] => false | _ => true end)
  | PyStr s => Some (match s with [] => false | _ => true end)
  | PyList l | PyTuple l => Some (match l with [] => false | _ => true end)
  | PyDict m => Some (match m with [] => false | _ => true end)
  | PyDate _ | PyStdDate _ | PyFault _ _ => Some true
  | PyOther => other
  end.

(** [BooleanObject_init] (1052-1075); [R_own]: the exception of the object asked. *)
Inductive reply : Type := R_value (b : bool) | R_own | R_raise (e : pyexn) | R_index.
Definition boolean_init (other : option bool) (args : list py) : reply :=
  match args with
  | [] => R_value false
  | [v] => match truth other v with Some b => R_value b | None => R_own end
  | _ => R_raise PE_Type
  end.

(** [fastrpc_boolean] (2247-2290): [PySequence_Check] holds for strings, lists and tuples; [R_index]: IndexError. *)
Definition sequence_items (v : py) : option (list py) :=
  match v with
  | PyList l | PyTuple l => Some l
  | PyBytes s => Some (map (fun c => PyInt (b2z c)) s)
  | PyStr s => Some (map (fun c => PyStr [c]) s)
  | _ => None
  end.
Definition boolean_of (other : option bool) (value : py) (truefalse : option py) : reply :=
  match truth other value with
  | None => R_own
  | Some i =>
      match truefalse with
      | None => R_value i
      | Some tf =>
          match sequence_items tf with
          | None => R_raise PE_Type
          | Some l =>
              match nth_error l (if i then 1 else 0)%nat with
              | None => R_index
              | Some v => match truth other v with Some b => R_value b | None => R_own end
              end
          end
      end
  end.

(** [BooleanObject_richcmp] (1118-1169). *)
Definition bool_of (v : py) : option bool := match v with PyBoolean b | PyBool b => Some b | _ => None end.
Definition boolean_cmp (op : cmp) (a b : py) : pyres bool :=
  match bool_of a, bool_of b with
  | Some x, Some y => PyOk (int_cmp op (if x then 1 else 0) (if y then 1 else 0))
  | _, _ => unlike op
  end.

(** [BooleanObject_setattr] of [value] (1090-1113), [None] standing for [del]: [PyObject_IsTrue] of a null pointer. *)
Inductive bstored : Type := B_stored (b : bool) | B_own | B_crash.
Definition boolean_set (other : option bool) (v : option py) (b : bool) : bstored :=
  match v with
  | None => B_crash
  | Some v => match truth other v with
              | Some x => B_stored (if (b && negb x) || (negb b && x) then x else b)
              | None => B_own
              end
  end.

(** [BooleanObject_str], [BooleanObject_int], [BooleanObject_nonzero] (1181-1195). *)
Definition boolean_str (b : bool) : py := PyStr [if b then 49 else 48].
Definition boolean_int (b : bool) : py := PyInt (if b then 1 else 0).
