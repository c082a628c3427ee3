(** What the types of the Python module are to do. *)
From Verif Require Import Base Value M_Python M_PyDate S_Calendar S_DateTime.
From Verif Require M_DateTime.

(** Told that it is not summer time, [mktime] takes the fields as standard time. *)
Definition reads_standard (c : M_DateTime.host) : Prop := forall l, M_DateTime.tm_isdst l = 0 ->
  let x := seconds (M_DateTime.tm_year l + 1900) (M_DateTime.tm_mon l + 1) (M_DateTime.tm_mday l) (M_DateTime.tm_hour l) (M_DateTime.tm_min l) (M_DateTime.tm_sec l) in
  valid (M_DateTime.tm_year l + 1900) (M_DateTime.tm_mon l + 1) (M_DateTime.tm_mday l) (M_DateTime.tm_hour l) (M_DateTime.tm_min l) (M_DateTime.tm_sec l) ->
  usual x -> fst (M_DateTime.mktime c l) = x + M_DateTime.timezone c.

(** A date as it is to be: it stands for the moment [t], its clock shows [x]. *)
Record date_of (t x : Z) (d : datetime) : Prop := {
  is_date : valid_date d;
  is_shown : shown d = x;
  is_moment : moment d = t;
  is_unix : dt_unix d = t;
  is_wday : dt_wday d = week_day (x / 86400)
}.

(** The dates agree in everything a text tells. *)
Definition same_text (a b : datetime) : Prop :=
  (dt_year a, dt_month a, dt_day a, dt_hour a, dt_min a, dt_sec a, dt_tz a) = (dt_year b, dt_month b, dt_day b, dt_hour b, dt_min b, dt_sec b, dt_tz b).

(** Comparisons. *)
Definition holds (op : cmp) (a b : Z) : Prop :=
  match op with LT => a < b | LE => a <= b | EQ => a = b | NE => a <> b | GT => b < a | GE => b <= a end.
Definition answers (r : pyres bool) (p : Prop) : Prop := exists b, r = PyOk b /\ (b = true <-> p).
(** Objects that cannot be ordered are unequal. *)
Definition incomparable (compare : cmp -> pyres bool) : Prop :=
  answers (compare EQ) False /\ answers (compare NE) True /\
  forall op, op <> EQ -> op <> NE -> compare op = PyRaise PE_Type.

(** The values Python takes as false; objects of other classes say themselves what they are. *)
Inductive falsy : py -> Prop :=
| falsy_none : falsy PyNone
| falsy_bool : falsy (PyBool false)
| falsy_boolean : falsy (PyBoolean false)
| falsy_int : falsy (PyInt 0)
| falsy_float : falsy (PyFloat 0)
| falsy_minus : falsy (PyFloat (2 ^ 63))
| falsy_bytes : falsy (PyBytes [])
| falsy_str : falsy (PyStr [])
| falsy_list : falsy (PyList [])
| falsy_tuple : falsy (PyTuple [])
| falsy_dict : falsy (PyDict []).

(** The numbers a field holds. *)
Definition room (f : field) (z : Z) : Prop :=
  match f with
  | F_year => in_s16 z
  | F_month | F_day | F_hour | F_min | F_sec | F_weekDay => in_s8 z
  | F_unixTime => - 2 ^ 63 <= z < 2 ^ 63
  | F_timeZone => in_s32 z
  end.
