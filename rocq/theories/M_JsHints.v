(** Model of how the JavaScript implementation (javascript/fastrpc.mjs) chooses the types of what it sends: hints, wrapped
    values and the conversion of numbers to integers.  M_Js.v has the encoding of values whose types are chosen. *)
From Verif Require Import Base Value Text Unicode M_Marshal M_Js.

(** Values as JavaScript has them.  A number is a double, given by its pattern; [RBuffer] is an ArrayBuffer or
    SharedArrayBuffer; [RUndef] is undefined, a function, a symbol or a bigint; [RObj] has the members in the order in which
    [for in] enumerates them. *)
Inductive raw : Type :=
| RNull
| RUndef
| RBool (b : bool)
| RNum (bits : Z)
| RStr (s : jstring)
| RBuffer (s : bytes)
| RDate (ms : option Z)
| RArr (l : list raw)
| RObj (m : list (jstring * raw)).

(** The parameter [hints]: nothing, a string, or an object with strings as members (fastrpc.mjs 555-563).  The members an
    object inherits are no strings. *)
Inductive hints : Type :=
| H_none
| H_scalar (s : jstring)
| H_object (m : list (jstring * jstring)).

(** A member of an object. *)
Fixpoint member {A} (k : jstring) (m : list (jstring * A)) : option A :=
  match m with [] => None | (x, v) :: r => if jstring_eqb k x then Some v else member k r end.

(** [_path.join(".")]. *)
Fixpoint path_join (p : list jstring) : jstring :=
  match p with [] => [] | [s] => s | s :: r => s ++ 46 :: path_join r end.

(** [i.toString()] of an index. *)
Definition index_text (i : Z) : jstring := map b2z (dec i).

Definition jtext (s : string) : jstring := map b2z (str s).

(** [_getHint] (fastrpc.mjs 532-540); the empty string is no hint (533). *)
Definition get_hint (h : hints) (path : list jstring) : option jstring :=
  match h with
  | H_none => None
  | H_scalar [] => None
  | H_scalar s => Some s
  | H_object m => member (path_join path) m
  end.
Definition hint_is (s : string) (h : hints) (path : list jstring) : bool :=
  match get_hint h path with Some x => jstring_eqb x (jtext s) | None => false end.

(** A number: not a number, infinite, or finite; a finite double is a whole number of 2^-1074. *)
Inductive number : Type := N_nan | N_infinite (negative : bool) | N_finite (negative : bool) (units : Z).
Definition number_of (bits : Z) : number :=
  let s := 2 ^ 63 <=? bits in
  let e := bits / 2 ^ 52 mod 2048 in
  let f := bits mod 2 ^ 52 in
  if e =? 2047 then if f =? 0 then N_infinite s else N_nan
  else N_finite s (if e =? 0 then f else (2 ^ 52 + f) * 2 ^ (e - 1)).
Definition unit : Z := 2 ^ 1074.

(** [_encodeInt] (fastrpc.mjs 455-467) of a number that is not negative, as bytes: the first remainder may have a fraction,
    which the conversion to bytes drops; the remainder of an infinite number is not a number, which becomes 0. *)
Definition encode_units (u : Z) : bytes := if 2 ^ 1024 * unit <=? u then [x00] else encode_int (u / unit).

(** The case "number" of [_serializeValue] without the hint "float" (fastrpc.mjs 284-298), with [_encodeZigzag] (443-451):
    doubling is exact, the addition of 1 is rounded. *)
Definition serialize_int (ver : Z) (bits : Z) : bytes :=
  let nonneg := match number_of bits with N_nan => false | N_infinite s => negb s | N_finite s u => negb s || (u =? 0) end in
  let neg := match number_of bits with N_nan => false | N_infinite s => s | N_finite s u => s && negb (u =? 0) end in
  let data :=
    match number_of bits with
    | N_nan | N_infinite _ => [x00]
    | N_finite _ u => encode_units (if ver =? 3 then if neg then rnd (2 * u + unit) else 2 * u else u)
    end in
  first_byte (if ver =? 3 then T_INT else if nonneg then T_INTP8 else T_INTN8) data :: data.

(** The byte an element of an array of numbers becomes ([_append], and the conversion to bytes: truncated, modulo 256;
    not a number and the infinite ones become 0).  Simplification: what is no number, boolean or null becomes 0; JavaScript
    would convert strings that look like numbers. *)
Definition raw_byte (v : raw) : byte :=
  match v with
  | RNum bits => match number_of bits with N_finite s u => z2b (if s then - (u / unit) else u / unit) | _ => x00 end
  | RBool true => x01
  | _ => x00
  end.

Section Serialize.
  Variable log2_of : Z -> Z.
  Variable clock : Z -> shown_date.
  Variable h : hints.
  Variable ver : Z.

  (** [_serializeBinary] (fastrpc.mjs 358-365) of an array. *)
  Definition serialize_binary (l : list raw) : bytes :=
    let n := encode_int (zlen l) in first_byte T_BINARY n :: n ++ map raw_byte l.

  (** [isBinary], [isDouble] (fastrpc.mjs 37-42). *)
  Definition wrapped (kind : string) (m : list (jstring * raw)) : bool :=
    match member (jtext "_hint") m with Some (RStr s) => jstring_eqb s (jtext kind) | _ => false end.

  (** [_serializeValue] (fastrpc.mjs 265-336), [_serializeArray] (346-357), [_serializeStruct] (372-391).  Simplification: a
      wrapped value of another type than the one its wrapper is for, and an invalid date, are taken for an exception. *)
  Fixpoint serialize_raw (path : list jstring) (v : raw) : jres bytes :=
    match v with
    | RNull => JOk (serialize_value log2_of clock ver JNull)
    | RUndef => JThrow
    | RBool b => JOk (serialize_value log2_of clock ver (JBool b))
    | RStr s => JOk (serialize_value log2_of clock ver (JStr s))
    | RNum bits => JOk (if hint_is "float" h path then serialize_value log2_of clock ver (JFloat bits) else serialize_int ver bits)
    | RBuffer s => JOk (serialize_value log2_of clock ver (JBytes s))
    | RDate None => JThrow
    | RDate (Some ms) => JOk (serialize_value log2_of clock ver (JDate (Some ms)))
    | RArr l =>
        if hint_is "binary" h path then JOk (serialize_binary l)
        else
          let n := encode_int (zlen l) in
          jbind ((fix items (i : Z) (l : list raw) : jres bytes :=
                    match l with
                    | [] => JOk []
                    | x :: r => jbind (serialize_raw (path ++ [index_text i]) x) (fun a => jbind (items (i + 1) r) (fun b => JOk (a ++ b)))
                    end) 0 l)
            (fun data => JOk (first_byte T_ARRAY n :: n ++ data))
    | RObj m =>
        if wrapped "binary" m then match member (jtext "value") m with Some (RArr l) => JOk (serialize_binary l) | _ => JThrow end
        else if wrapped "float" m then
          match member (jtext "value") m with Some (RNum bits) => JOk (serialize_value log2_of clock ver (JFloat bits)) | _ => JThrow end
        else
          let n := encode_int (zlen m) in
          jbind ((fix members (m : list (jstring * raw)) : jres bytes :=
                    match m with
                    | [] => JOk []
                    | (k, x) :: r =>
                        jbind (serialize_raw (path ++ [k]) x) (fun a =>
                        jbind (members r) (fun b => let t := te_encode k in JOk (z2b (blen t) :: t ++ a ++ b)))
                    end) m)
            (fun data => JOk (first_byte T_STRUCT n :: n ++ data))
    end.

  (** [serialize] and [serializeCall] (fastrpc.mjs 546-580): two bytes are taken off for the header of the array.  For another
      version than 2 and 3 see M_Js.v; [options.version] is 2 if it is missing. *)
  Definition serialize_call_raw (name : jstring) (data : raw) : jres bytes :=
    jbind (serialize_raw [] data) (fun b =>
      let n := te_encode name in
      JOk ([xca; x11; z2b ver; z2b (if ver =? 2 then 1 else 0); z2b (T_METHOD_CALL * 8); z2b (blen n)] ++ n ++ zdrop 2 b)).
End Serialize.
