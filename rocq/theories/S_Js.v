(** Specification: what a value of the C++ library and a value of JavaScript have in common. *)
From Coq Require Import Permutation.
From Verif Require Import Base Value Unicode M_Marshal M_Js.

(** The same text, in UTF-8 and in UTF-16. *)
Definition same_text (s : bytes) (j : jstring) : Prop :=
  exists us, Forall uchar us /\ s = flat_map utf8_char us /\ j = flat_map utf16_char us.
Definition utf8 (s : bytes) : Prop := exists j, same_text s j.
(** Text that begins with a byte order mark. *)
Definition marked (s : bytes) : Prop := exists r, s = utf8_char 65279 ++ r.

(** Patterns of doubles. *)
Definition dbl_exp (d : Z) : Z := d / 2 ^ 52 mod 2048.
Definition dbl_frac (d : Z) : Z := d mod 2 ^ 52.
Definition is_nan (d : Z) : Prop := dbl_exp d = 2047 /\ dbl_frac d <> 0.
Definition subnormal (d : Z) : Prop := dbl_exp d = 0 /\ dbl_frac d <> 0.

Section Same.
  (** Which milliseconds a date-time stands for. *)
  Variable date : datetime -> option Z -> Prop.

  (** The same value: a struct and an object have the same members in any order; string views, binary references and secrets
      are what they refer to. *)
  Inductive same : value -> js -> Prop :=
  | same_int : forall z, same (VInt z) (JNum z)
  | same_bool : forall b, same (VBool b) (JBool b)
  | same_null : same VNull JNull
  | same_double : forall d, same (VDouble d) (JFloat d)
  | same_nan : forall d d', is_nan d -> is_nan d' -> same (VDouble d) (JFloat d')
  | same_string : forall s j, same_text s j -> same (VString s) (JStr j)
  | same_view : forall s j, same_text s j -> same (VStringView s) (JStr j)
  | same_binary : forall s, same (VBinary s) (JBytes s)
  | same_ref : forall n cs, same (VBinaryRef n cs) (JBytes (concat cs))
  | same_date : forall d ms, date d ms -> same (VDateTime d) (JDate ms)
  | same_struct : forall m m' m'',
      Forall2 (fun kv kj => same_text (fst kv) (fst kj) /\ same (snd kv) (snd kj)) m m' -> Permutation m' m'' ->
      same (VStruct m) (JObj m'')
  | same_array : forall l l', Forall2 same l l' -> same (VArray l) (JArr l')
  | same_secret : forall v j, same v j -> same (VSecret v) j.
End Same.

(** The date at a unix time. *)
Definition at_unix (d : datetime) (ms : option Z) : Prop := ms = Some (1000 * dt_unix d).

(** Values whose content JavaScript reads: integers that doubles have, UTF-8 texts without a byte order mark, no member called
    [__proto__], no subnormal doubles, dates from 1970 to the year 275760. *)
Definition text_fits (s : bytes) : Prop := utf8 s /\ ~ marked s.
Definition int_fits (ver : version) (z : Z) : Prop := if v_major ver =? 3 then Z.abs z <= 2 ^ 52 else Z.abs z <= 2 ^ 53.
Fixpoint js_fits (ver : version) (v : value) : Prop :=
  match v with
  | VInt z => int_fits ver z
  | VBool _ | VNull | VBinary _ | VBinaryRef _ _ => True
  | VDouble d => ~ subnormal d
  | VString s | VStringView s => text_fits s
  | VDateTime d => 0 <= dt_unix d <= 8640000000000
  | VStruct m =>
      (fix all (l : list (bytes * value)) : Prop :=
         match l with [] => True | (k, x) :: r => text_fits k /\ k <> str "__proto__" /\ js_fits ver x /\ all r end) m
  | VArray l => (fix all (l : list value) : Prop := match l with [] => True | x :: r => js_fits ver x /\ all r end) l
  | VSecret x => js_fits ver x
  end.

(** ** Sending *)
Section Sends.
  Variable log2_of : Z -> Z.
  Variable clock : Z -> shown_date.
  Variable ver : Z.

  (** The date-time a C++ program gets for a date: the same second, what the sender's clock shows, the sender's zone. *)
  Definition as_shown (d : datetime) (ms : option Z) : Prop :=
    exists m, ms = Some m /\ m = 1000 * dt_unix d /\
    dt_year d = sh_year (clock m) /\ dt_month d = sh_month (clock m) + 1 /\ dt_day d = sh_date (clock m) /\ dt_wday d = sh_day (clock m) /\
    dt_hour d = sh_hours (clock m) /\ dt_min d = sh_minutes (clock m) /\ dt_sec d = sh_seconds (clock m) /\ dt_tz d = 60 * sh_offset (clock m).

  (** Text that UTF-8 has: no lone surrogates.  Its size in UTF-8 is in the range. *)
  Definition text_sends (lo hi : Z) (j : jstring) : Prop := exists s, same_text s j /\ lo <= blen s <= hi.

  (** Doubles: the engine's logarithm is right, and the number is none of the smallest normal ones. *)
  Definition double_sends (d : Z) : Prop :=
    0 <= d < 2 ^ 64 /\ (1 <= dbl_exp d <= 2046 -> 52 <= dbl_exp d /\ log2_of d = dbl_exp d - 1023).

  (** Dates: whole seconds from 1970 on that the format has, a zone in quarters of an hour, a clock that shows a date up to
      the year 2623. *)
  Definition date_sends (ms : Z) : Prop :=
    let c := clock ms in
    ms mod 1000 = 0 /\ 0 <= ms <= 8640000000000000 /\ (ver = 2 -> ms < 1000 * 2 ^ 31) /\
    (exists q, - 128 <= q <= 127 /\ sh_offset c = 15 * q) /\ 1600 <= sh_year c <= 2623 /\ 0 <= sh_month c <= 11 /\ 1 <= sh_date c <= 31 /\
    0 <= sh_day c <= 6 /\ 0 <= sh_hours c <= 23 /\ 0 <= sh_minutes c <= 59 /\ 0 <= sh_seconds c <= 59.

  (** Integers that doubles have; in version 3 no negative ones. *)
  Definition int_sends (z : Z) : Prop := Z.abs z <= 2 ^ 53 /\ (ver = 3 -> 0 <= z).

  Fixpoint js_sends (j : js) : Prop :=
    match j with
    | JNull | JBool _ => True
    | JNum z => int_sends z
    | JFloat d => double_sends d
    | JStr s => text_sends 0 (2 ^ 30 - 1) s
    | JBytes s => blen s < 2 ^ 30
    | JDate (Some ms) => date_sends ms
    | JDate None => False
    | JArr l => zlen l < 2 ^ 30 /\ (fix all (l : list js) : Prop := match l with [] => True | x :: r => js_sends x /\ all r end) l
    | JObj m =>
        zlen m < 2 ^ 30 /\ NoDup (map fst m) /\
        (fix all (l : list (jstring * js)) : Prop := match l with [] => True | (k, x) :: r => text_sends 1 255 k /\ js_sends x /\ all r end) m
    end.
End Sends.

(** ** Cut messages *)
(** The last bytes of the value in a message are those of a text. *)
Fixpoint ends_text (v : value) : Prop :=
  match v with
  | VString s | VStringView s => s <> []
  | VStruct m => (fix at_end (l : list (bytes * value)) : Prop := match l with [] => False | [(_, x)] => ends_text x | _ :: r => at_end r end) m
  | VArray l => (fix at_end (l : list value) : Prop := match l with [] => False | [x] => ends_text x | _ :: r => at_end r end) l
  | VSecret x => ends_text x
  | _ => False
  end.
