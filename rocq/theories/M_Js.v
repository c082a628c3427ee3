(** Model of the JavaScript implementation (javascript/fastrpc.mjs, generated from typescript/fastrpc.ts): [parse],
    [serializeCall].  The buffers given to [parse] are arrays of bytes; the array [serializeCall] returns is turned into bytes
    by whoever sends it (a number modulo 256, as a [Uint8Array] does). *)
From Verif Require Import Base Value Unicode M_Marshal.

(** ** JavaScript *)
(** Strings are sequences of 16-bit units. *)
Definition jstring := list Z.

(** JavaScript values.  A number is written [JNum z] where the code computes with integers and [JFloat bits], the pattern of an
    IEEE double, where it treats it as a double; JavaScript itself does not tell the number 5 from 5.0.  For [serializeCall],
    [JFloat] is a number with the hint "float" and [JBytes] an array with the hint "binary", a wrapped value or an
    ArrayBuffer; how the hints are looked up (fastrpc.mjs 532-540) is not modelled.  [JDate] has the milliseconds, [None] for
    an invalid date; [JObj] has the own members in the order in which they are enumerated. *)
Inductive js : Type :=
| JNull
| JBool (b : bool)
| JNum (z : Z)
| JFloat (bits : Z)
| JStr (s : jstring)
| JBytes (s : bytes)
| JDate (ms : option Z)
| JArr (l : list js)
| JObj (m : list (jstring * js)).

(** The double nearest to an integer, ties to even (ECMAScript: addition of numbers). *)
Definition rnd (n : Z) : Z :=
  let a := Z.abs n in
  if a <=? 2 ^ 53 then n else
  let k := Z.log2 a - 52 in
  let q := a / 2 ^ k in let r := a mod 2 ^ k in
  let q' := if (2 ^ (k - 1) <? r) || ((r =? 2 ^ (k - 1)) && Z.odd q) then q + 1 else q in
  Z.sgn n * (q' * 2 ^ k).

(** The result of a function: a value or an exception. *)
Inductive jres (A : Type) : Type :=
| JOk (a : A)
| JThrow
| JFault (num msg : js).    (* the exception for a fault: its number and message *)
Arguments JOk {A}. Arguments JThrow {A}. Arguments JFault {A}.
Definition jbind {A B} (x : jres A) (f : A -> jres B) : jres B :=
  match x with JOk a => f a | JThrow => JThrow | JFault n m => JFault n m end.

(** [TextEncoder.encode]: UTF-16 to UTF-8, a lone surrogate becoming U+FFFD (WHATWG Encoding; not part of the repository). *)
Definition is_high (u : Z) : bool := (55296 <=? u) && (u <? 56320).
Definition is_low (u : Z) : bool := (56320 <=? u) && (u <? 57344).
Fixpoint te_encode (s : jstring) : bytes :=
  match s with
  | [] => []
  | u :: r =>
      if is_high u then
        match r with
        | v :: r' => if is_low v then utf8_char (65536 + (u - 55296) * 1024 + (v - 56320)) ++ te_encode r' else utf8_char 65533 ++ te_encode r
        | [] => utf8_char 65533
        end
      else if is_low u then utf8_char 65533 ++ te_encode r
      else utf8_char u ++ te_encode r
  end.

(** [TextDecoder.decode] (WHATWG Encoding): a byte order mark is dropped, what is not UTF-8 becomes U+FFFD. *)
(** The decoder between two bytes: nothing pending, or a character so far, how many bytes it still needs and the bounds of
    the next one. *)
Inductive dec_state : Type := Dec_start | Dec_more (cp : Z) (needed : nat) (lo hi : Z).
Definition dec_first (b : Z) : dec_state * jstring :=
  if b <? 128 then (Dec_start, [b])
  else if (194 <=? b) && (b <=? 223) then (Dec_more (b - 192) 1 128 191, [])
  else if (224 <=? b) && (b <=? 239) then (Dec_more (b - 224) 2 (if b =? 224 then 160 else 128) (if b =? 237 then 159 else 191), [])
  else if (240 <=? b) && (b <=? 244) then (Dec_more (b - 240) 3 (if b =? 240 then 144 else 128) (if b =? 244 then 143 else 191), [])
  else (Dec_start, [65533]).
Fixpoint td_run (st : dec_state) (s : bytes) : jstring :=
  match s with
  | [] => match st with Dec_start => [] | _ => [65533] end
  | c :: r =>
      let b := b2z c in
      match st with
      | Dec_start => let '(st', o) := dec_first b in o ++ td_run st' r
      | Dec_more cp needed lo hi =>
          if (lo <=? b) && (b <=? hi) then
            let cp' := cp * 64 + (b - 128) in
            match needed with
            | S (S n) => td_run (Dec_more cp' (S n) 128 191) r
            | _ => utf16_char cp' ++ td_run Dec_start r
            end
          else let '(st', o) := dec_first b in (65533 :: o) ++ td_run st' r
      end
  end.
Definition td_decode (s : bytes) : jstring :=
  match s with
  | a :: b :: c :: r => if (b2z a =? 239) && (b2z b =? 187) && (b2z c =? 191) then td_run Dec_start r else td_run Dec_start s
  | _ => td_run Dec_start s
  end.

(** [object[name] = value]: assigning to [__proto__] makes no member (it sets the prototype, which is not modelled).  A new
    member comes last (simplification: an engine enumerates the names that are numbers first). *)
Definition proto_name : jstring := map b2z (str "__proto__").
Fixpoint jstring_eqb (a b : jstring) : bool :=
  match a, b with [], [] => true | x :: a, y :: b => (x =? y) && jstring_eqb a b | _, _ => false end.
Fixpoint obj_put (k : jstring) (v : js) (m : list (jstring * js)) : list (jstring * js) :=
  match m with
  | [] => [(k, v)]
  | (k', v') :: m => if jstring_eqb k k' then (k', v) :: m else (k', v') :: obj_put k v m
  end.
Definition obj_set (k : jstring) (v : js) (m : list (jstring * js)) : list (jstring * js) :=
  if jstring_eqb k proto_name then m else obj_put k v m.

(** [new Date(ms)]: invalid beyond 8.64e15 (ECMAScript: TimeClip). *)
Definition new_date (ms : Z) : js := JDate (if Z.abs ms <=? 8640000000000000 then Some ms else None).

(** ** Reading *)
Section Parse.
  (** The largest buffer the engine makes ([new Uint8Array(length)] throws beyond). *)
  Variable max_buffer : Z.

  (** [_getByte] (fastrpc.mjs 215-220).  The data from [_pointer] on stands for both. *)
  Definition get_byte (d : bytes) : jres (Z * bytes) := match d with [] => JThrow | c :: r => JOk (b2z c, r) end.

  (** [_getInt] (fastrpc.mjs 206-214): the products are exact, the sums are rounded. *)
  Fixpoint get_int_from (n : nat) (result factor : Z) (d : bytes) : jres (Z * bytes) :=
    match n with
    | O => JOk (result, d)
    | S n => jbind (get_byte d) (fun '(b, d) => get_int_from n (rnd (result + factor * b)) (factor * 256) d)
    end.
  Definition get_int (n : Z) (d : bytes) : jres (Z * bytes) := get_int_from (Z.to_nat n) 0 1 d.

  (** [_getZigzag] (fastrpc.mjs 199-204). *)
  Definition get_zigzag (n : Z) (d : bytes) : jres (Z * bytes) :=
    jbind (get_int n d) (fun '(r, d) => JOk (if r mod 2 =? 1 then - 1 * (r / 2 + 1) else r / 2, d)).

  (** [_decodeUTF8] (fastrpc.mjs 221-227): what lies beyond the end of the data is [undefined], stored as 0. *)
  Definition decode_utf8 (n : Z) (d : bytes) : jres (jstring * bytes) :=
    if max_buffer <? n then JThrow
    else JOk (td_decode (ztake n d ++ repeat x00 (Z.to_nat (n - blen d))), zdrop n d).

  (** [_getDouble] (fastrpc.mjs 228-264).  The sum of the bits of the mantissa and the product with the power of two are
      exact; the number is given as the pattern of the double that it is. *)
  Definition js_nan : Z := 2047 * 2 ^ 52 + 2 ^ 51.
  (** The loop over the bits of bytes 1 .. 7 from bit 3 of the first on (fastrpc.mjs 241-253), the mantissa times 2^52. *)
  Fixpoint mantissa_bits (weight : Z) (b : Z) (bit : nat) : Z :=
    match bit with
    | O => if Z.odd b then weight else 0
    | S k => (if Z.odd (b / 2 ^ Z.of_nat bit) then weight else 0) + mantissa_bits (weight / 2) b k
    end.
  Definition double_of (b : list Z) : js :=    (* b: from the last byte read to the first one *)
    match b with
    | [b0; b1; b2; b3; b4; b5; b6; b7] =>
        let sign := if Z.odd (b0 / 128) then 1 else 0 in
        let exponent := b0 mod 128 * 16 + b1 / 16 in
        if exponent =? 0 then JFloat (sign * 2 ^ 63)
        else
          let mantissa := mantissa_bits (2 ^ 51) b1 3 + mantissa_bits (2 ^ 47) b2 7 + mantissa_bits (2 ^ 39) b3 7 + mantissa_bits (2 ^ 31) b4 7
                          + mantissa_bits (2 ^ 23) b5 7 + mantissa_bits (2 ^ 15) b6 7 + mantissa_bits (2 ^ 7) b7 7 in
          if exponent =? 2047 then JFloat (if mantissa =? 0 then sign * 2 ^ 63 + 2047 * 2 ^ 52 else js_nan)
          else JFloat (sign * 2 ^ 63 + exponent * 2 ^ 52 + mantissa)
    | _ => JNull
    end.
  Definition get_double (d : bytes) : jres (js * bytes) :=
    if blen d <? 8 then JThrow else JOk (double_of (map b2z (rev (ztake 8 d))), zdrop 8 d).

  (** The bytes of binary data (fastrpc.mjs 148-170). *)
  Definition get_bytes (n : Z) (d : bytes) : jres (bytes * bytes) := if blen d <? n then JThrow else JOk (ztake n d, zdrop n d).

  (** The loops over the members of arrays and structs (fastrpc.mjs 83-85, 95-97, 194-198); [k] bounds the turns, as each
      takes a byte. *)
  Section Loops.
    Variable value_at : bytes -> jres (js * bytes).
    Fixpoint items_at (k : nat) (n : Z) (d : bytes) : jres (list js * bytes) :=
      if n =? 0 then JOk ([], d) else
      match k with
      | O => JThrow
      | S k => jbind (value_at d) (fun '(v, d) => jbind (items_at k (n - 1) d) (fun '(l, d) => JOk (v :: l, d)))
      end.
    Fixpoint members_at (k : nat) (n : Z) (m : list (jstring * js)) (d : bytes) : jres (list (jstring * js) * bytes) :=
      if n =? 0 then JOk (m, d) else
      match k with
      | O => JThrow
      | S k =>
          jbind (get_int 1 d) (fun '(len, d) => jbind (decode_utf8 len d) (fun '(name, d) =>
          jbind (value_at d) (fun '(v, d) => members_at k (n - 1) (obj_set name v m) d)))
      end.
    Fixpoint rest_at (k : nat) (d : bytes) : jres (list js) :=
      match d, k with
      | [], _ => JOk []
      | _, O => JThrow
      | _, S k => jbind (value_at d) (fun '(v, d) => jbind (rest_at k d) (fun l => JOk (v :: l)))
      end.
  End Loops.

  (** [_parseValue] (fastrpc.mjs 54-187); [ver] is [_version].  A value takes at least a byte, so that the number of bytes
      bounds the depth. *)
  Fixpoint parse_value (fuel : nat) (ver : Z) (d : bytes) : jres (js * bytes) :=
    match fuel with
    | O => JThrow
    | S fuel =>
        jbind (get_byte d) (fun '(first, d) =>
        let type := first / 8 in let low := first mod 8 in
        let sized := if 1 <? ver then low + 1 else low in
        if type =? T_STRING then
          if sized =? 0 then JThrow
          else jbind (get_int sized d) (fun '(n, d) => jbind (decode_utf8 n d) (fun '(s, d) => JOk (JStr s, d)))
        else if type =? T_STRUCT then
          jbind (get_int sized d) (fun '(n, d) => jbind (members_at (parse_value fuel ver) (S (List.length d)) n [] d) (fun '(m, d) => JOk (JObj m, d)))
        else if type =? T_ARRAY then
          jbind (get_int sized d) (fun '(n, d) => jbind (items_at (parse_value fuel ver) (S (List.length d)) n d) (fun '(l, d) => JOk (JArr l, d)))
        else if type =? T_BOOL then
          if 1 <? low then JThrow else JOk (JBool (low =? 1), d)
        else if type =? T_INT then
          if ver =? 3 then jbind (get_zigzag (low + 1) d) (fun '(z, d) => JOk (JNum z, d))
          else if low =? 0 then JThrow
          else jbind (get_int low d) (fun '(n, d) => JOk (JNum (if 2147483648 <=? n then n - 2147483648 else n), d))
        else if type =? T_DATETIME then
          jbind (get_byte d) (fun '(_, d) => jbind (get_int (if ver =? 3 then 8 else 4) d) (fun '(ts, d) =>
          jbind (get_bytes 5 d) (fun '(_, d) => JOk (new_date (1000 * ts), d))))
        else if type =? T_DOUBLE then get_double d
        else if type =? T_BINARY then
          if sized =? 0 then JThrow
          else jbind (get_int sized d) (fun '(n, d) => jbind (get_bytes n d) (fun '(s, d) => JOk (JBytes s, d)))
        else if type =? T_INTP8 then jbind (get_int (low + 1) d) (fun '(n, d) => JOk (JNum n, d))
        else if type =? T_INTN8 then jbind (get_int (low + 1) d) (fun '(n, d) => JOk (JNum (- n), d))
        else if type =? T_NULL then if 1 <? ver then JOk (JNull, d) else JThrow
        else JThrow)
    end.
  Definition parse_one (ver : Z) (d : bytes) : jres (js * bytes) := parse_value (S (List.length d)) ver d.

  (** What [parse] returns: the value of a response, or the name and parameters of a call. *)
  Inductive jmessage : Type := JResponse (v : js) | JCall (name : jstring) (params : list js).

  (** [parse] (fastrpc.mjs 587-638). *)
  Definition js_parse (d : bytes) : jres jmessage :=
    jbind (get_byte d) (fun '(m1, d) => jbind (get_byte d) (fun '(m2, d) =>
    if negb ((m1 =? 202) && (m2 =? 17)) then JThrow else
    jbind (get_byte d) (fun '(ver, d) => jbind (get_byte d) (fun '(_, d) =>
    jbind (get_byte d) (fun '(first, d) =>
    let type := first / 8 in
    if type =? T_FAULT then
      jbind (parse_one ver d) (fun '(num, d) => jbind (parse_one ver d) (fun '(msg, d) => JFault num msg))
    else if type =? T_METHOD_RESPONSE then
      jbind (parse_one ver d) (fun '(v, d) => match d with [] => JOk (JResponse v) | _ => JThrow end)
    else if type =? T_METHOD_CALL then
      jbind (get_int 1 d) (fun '(n, d) => jbind (decode_utf8 n d) (fun '(name, d) =>
      match name with
      | [] => JThrow
      | _ => jbind (rest_at (parse_one ver) (S (List.length d)) d) (fun l => JOk (JCall name l))
      end))
    else JThrow))))).
End Parse.

(** ** Writing *)
(** What the engine's clock shows at a time: [getTimezoneOffset], [getFullYear], [getMonth], [getDate], [getDay],
    [getHours], [getMinutes], [getSeconds]. *)
Record shown_date : Type := mkShown { sh_offset : Z; sh_year : Z; sh_month : Z; sh_date : Z; sh_day : Z; sh_hours : Z; sh_minutes : Z; sh_seconds : Z }.

(** [_encodeInt] (fastrpc.mjs 455-467) of a non-negative integer. *)
Fixpoint encode_from (k : nat) (n : Z) : bytes :=
  match k with
  | O => []
  | S k => if n =? 0 then [] else z2b n :: encode_from k ((n - n mod 256) / 256)
  end.
Definition encode_int (n : Z) : bytes := if n =? 0 then [x00] else encode_from (S (Z.to_nat (Z.log2 n))) n.

(** The first byte of a value, with the number of bytes of the number that follows. *)
Definition first_byte (type : Z) (data : bytes) : byte := z2b (type * 8 + (blen data - 1)).

(** [_encodeZigzag] (fastrpc.mjs 443-451); doubling is exact. *)
Definition encode_zigzag (z : Z) : bytes := encode_int (if z <? 0 then rnd (2 * (- z) + 1) else 2 * z).

Section Serialize.
  (** [Math.floor(Math.log(x) / Math.LN2)] for the double with the pattern [bits]: engines differ in [Math.log]. *)
  Variable log2_of : Z -> Z.
  (** The engine's clock. *)
  Variable clock : Z -> shown_date.

  (** [_encodeDouble] (fastrpc.mjs 471-527).  [num] is a pattern; [fraction] is [fn / 2 ^ fk].  The arithmetic is exact as
      long as [log2_of] is off by at most one; [Math.pow(2, 1024)] is infinite, and the bits of an infinite fraction are 0. *)
  Fixpoint fraction_bits (k : nat) (fn fk : Z) : list bool :=
    match k with
    | O => []
    | S k => negb (fn mod 2 ^ (fk + 1) =? 0) :: fraction_bits k (fn / 2 ^ (fk + 1)) 0
    end.
  Fixpoint pack_bits (l : list bool) : bytes :=
    match l with
    | a :: b :: c :: d :: e :: f :: g :: h :: r =>
        let v (x : bool) (w : Z) := if x then w else 0 in
        z2b (v a 1 + v b 2 + v c 4 + v d 8 + v e 16 + v f 32 + v g 64 + v h 128) :: pack_bits r
    | _ => []
    end.
  Definition double_bits (exponent fn fk : Z) (sign : bool) : bytes :=
    pack_bits (fraction_bits 52 fn fk ++ fraction_bits 11 exponent 0 ++ [sign]).
  Definition encode_double (num : Z) : bytes :=
    let s := 2 ^ 63 <=? num in
    let e := num / 2 ^ 52 mod 2048 in
    let f := num mod 2 ^ 52 in
    if e =? 2047 then if f =? 0 then double_bits 2047 0 0 s else double_bits 2047 1 0 false
    else if (e =? 0) && (f =? 0) then double_bits 0 0 0 s
    else if e =? 0 then double_bits 0 f 0 s
    else (* the number is (2^52 + f) * 2^(e - 1075) *)
      let ln := Z.min (log2_of num) 1023 in
      let exponent := ln + 1023 in
      if 1024 <=? 52 - ln then double_bits exponent 0 0 s
      else
        let shift := e - 1075 + (52 - ln) in
        if 0 <=? shift then double_bits exponent ((2 ^ 52 + f) * 2 ^ shift - 2 ^ 52) 0 s
        else double_bits exponent (2 ^ 52 + f - 2 ^ (52 - shift)) (- shift) s.

  (** [Math.round(ms / 1000)]: halves upwards. *)
  Definition round_seconds (ms : Z) : Z := (ms + 500) / 1000.

  (** [_serializeDate] (fastrpc.mjs 392-442) of a valid date.  The zone is a whole number of quarters of an hour. *)
  Definition serialize_date (ver ms : Z) : bytes :=
    let c := clock ms in
    let zone := sh_offset c / 15 in
    let zone := if zone <? 0 then zone + 256 else zone in
    let ts := round_seconds ms in
    let pad (k : Z) (l : bytes) := l ++ repeat x00 (Z.to_nat (k - blen l)) in
    let stamp :=
      if ver =? 3 then if ts <? 0 then [xff; xff; xff; xff; xff; xff; xff; xff] else pad 8 (encode_int ts)
      else
        let ts := if (ts <? 0) || (2 ^ 31 <=? ts) then -1 else ts in
        let ts := if ts <? 0 then ts + 2 ^ 32 else ts in
        pad 4 (encode_int ts) in
    let year := Z.min (Z.max (sh_year c - 1600) 0) 2047 in
    let month := sh_month c + 1 in
    z2b (T_DATETIME * 8) :: z2b zone :: stamp ++
    [ z2b (Z.lor (Z.shiftl (Z.land (sh_seconds c) 31) 3) (Z.land (sh_day c) 7));
      z2b (Z.lor (Z.lor (Z.shiftl (Z.land (sh_minutes c) 63) 1) (Z.shiftr (Z.land (sh_seconds c) 32) 5)) (Z.shiftl (Z.land (sh_hours c) 1) 7));
      z2b (Z.lor (Z.shiftr (Z.land (sh_hours c) 30) 1) (Z.shiftl (Z.land (sh_date c) 15) 4));
      z2b (Z.lor (Z.lor (Z.shiftr (Z.land (sh_date c) 31) 4) (Z.shiftl (Z.land month 15) 1)) (Z.shiftl (Z.land year 7) 5));
      z2b (Z.shiftr (Z.land year 2040) 3) ].

  (** [_serializeValue] and what it calls (fastrpc.mjs 265-391).  An invalid date is not modelled (nothing). *)
  Fixpoint serialize_value (ver : Z) (v : js) : bytes :=
    match v with
    | JNull => [z2b (T_NULL * 8)]
    | JStr s => let data := te_encode s in let n := encode_int (blen data) in first_byte T_STRING n :: n ++ data
    | JNum z =>
        if ver =? 3 then let data := encode_zigzag z in first_byte T_INT data :: data
        else let data := encode_int (Z.abs z) in first_byte (if 0 <=? z then T_INTP8 else T_INTN8) data :: data
    | JFloat bits => z2b (T_DOUBLE * 8) :: encode_double bits
    | JBool b => [z2b (T_BOOL * 8 + (if b then 1 else 0))]
    | JBytes s => let n := encode_int (blen s) in first_byte T_BINARY n :: n ++ s
    | JDate (Some ms) => serialize_date ver ms
    | JDate None => []
    | JArr l => let n := encode_int (zlen l) in first_byte T_ARRAY n :: n ++ flat_map (serialize_value ver) l
    | JObj m =>
        let n := encode_int (zlen m) in
        first_byte T_STRUCT n :: n ++
        flat_map (fun kv => let k := te_encode (fst kv) in z2b (blen k) :: k ++ serialize_value ver (snd kv)) m
    end.

  (** [serializeCall] (fastrpc.mjs 564-580) of an array of parameters: the header of the array is taken for two bytes. *)
  Definition serialize_call (ver : Z) (name : jstring) (params : list js) : bytes :=
    let n := te_encode name in
    [xca; x11; z2b ver; z2b (if ver =? 2 then 1 else 0); z2b (T_METHOD_CALL * 8); z2b (blen n)] ++ n ++ zdrop 2 (serialize_value ver (JArr params)).
End Serialize.
