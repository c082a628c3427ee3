(** Model of the marshaller interface, the tree feeder and the binary marshaller:
    src/frpcmarshaller.h, src/frpctreefeeder.cc, src/frpcbinmarshaller.cc, src/frpcinternals.h. *)
From Verif Require Import Base Value.

(** Calls of the [Marshaller_t] interface (frpcmarshaller.h 48-198).  Sizes are the
    [unsigned int] arguments actually passed; strings are passed with their exact size. *)
Inductive mcall : Type :=
| PInt (z : Z)
| PBool (b : bool)
| PNull
| PDouble (bits : Z)
| PString (s : bytes)
| PBinary (s : bytes)
| PBinaryRef (size : Z) (chunks : list bytes)
| PDateTime (d : datetime)
| PStruct (n : Z)
| PMember (name : bytes)
| PArray (n : Z)
| PMethodCall (name : bytes)
| PMethodResponse
| PFault (code : Z) (msg : bytes).

(** [packDateTime] of the feeder (frpctreefeeder.cc 230-242): the [short] getters are cast to [char]. *)
Definition dt_as_chars (d : datetime) : datetime :=
  mkDT (dt_year d) (s8 (dt_month d)) (s8 (dt_day d)) (s8 (dt_hour d)) (s8 (dt_min d))
       (s8 (dt_sec d)) (s8 (dt_wday d)) (dt_unix d) (dt_tz d).

(** [feedValueImpl], [packStruct], [packArray] (frpctreefeeder.cc 247-357) for the three known
    marshallers, as the sequence of marshaller calls.  Strings and binaries longer than 2^32-1
    bytes (whose size is cut by [static_cast<uint32_t>]) are outside the model; container sizes
    are cast as in the code. *)
Fixpoint feed (v : value) : list mcall :=
  match v with
  | VInt z => [PInt z]
  | VBool b => [PBool b]
  | VNull => [PNull]
  | VDouble d => [PDouble d]
  | VString s => [PString s]
  | VStringView s => [PString s]
  | VBinary s => [PBinary s]
  | VBinaryRef n cs => [PBinaryRef n cs]
  | VDateTime d => [PDateTime (dt_as_chars d)]
  | VStruct m =>
      PStruct (u32 (zlen m)) ::
      (fix go (l : list (bytes * value)) : list mcall :=
         match l with
         | [] => []
         | (k, x) :: r => PMember k :: feed x ++ go r
         end) m
  | VArray l =>
      PArray (u32 (zlen l)) ::
      (fix go (l : list value) : list mcall :=
         match l with
         | [] => []
         | x :: r => feed x ++ go r
         end) l
  | VSecret x => feed x
  end.

(** Protocol version (frpc.h 115-124): two [unsigned char]s. *)
Record version : Type := mkVer { v_major : Z; v_minor : Z }.

(** Type tags on the wire (frpcinternals.h 73-91). *)
Definition T_INT := 1.
Definition T_BOOL := 2.
Definition T_DOUBLE := 3.
Definition T_STRING := 4.
Definition T_DATETIME := 5.
Definition T_BINARY := 6.
Definition T_INTP8 := 7.
Definition T_INTN8 := 8.
Definition T_STRUCT := 10.
Definition T_ARRAY := 11.
Definition T_NULL := 12.
Definition T_METHOD_CALL := 13.
Definition T_METHOD_RESPONSE := 14.
Definition T_FAULT := 15.

(** [INTk_MASK], [OLD_INTk_MASK] (frpcinternals.h 104-120): all ones shifted left by [k]. *)
Definition mask (k : Z) : Z := Z.shiftl (-1) k.

(** [getNumberType] (frpcbinmarshaller.cc 58-99).  In the first branch the mask for 32 bits is
    zero, so the final [throw] is unreachable. *)
Definition get_number_type (v : version) (n : Z) : Z :=
  if v_major v <? 2 then
    let o := s32 n in
    if Z.land o (mask 8) =? 0 then 0 + 1
    else if Z.land o (mask 16) =? 0 then 1 + 1
    else if Z.land o (mask 24) =? 0 then 2 + 1
    else 3 + 1
  else
    if Z.land n (mask 8) =? 0 then 0
    else if Z.land n (mask 16) =? 0 then 1
    else if Z.land n (mask 24) =? 0 then 2
    else if Z.land n (mask 32) =? 0 then 3
    else if Z.land n (mask 40) =? 0 then 4
    else if Z.land n (mask 48) =? 0 then 5
    else if Z.land n (mask 56) =? 0 then 6
    else 7.

(** [getNumberSize] (frpcbinmarshaller.cc 52-56). *)
Definition get_number_size (v : version) (t : Z) : Z :=
  if v_major v <? 2 then t else t + 1.

(** [data_type] (frpcbinmarshaller.cc 103-105). *)
Definition data_type (t info : Z) : byte :=
  z2b (Z.lor (Z.shiftl (Z.land t 31) 3) (Z.land info 7)).

(** [zigzagEncode] (frpcbinmarshaller.cc 118-126). *)
Definition zigzag_encode (n : Z) : Z :=
  Z.lxor (u64 (Z.shiftl (u64 n) 1)) (u64 (Z.shiftr n 63)).

(** [safe_abs] (frpcbinmarshaller.cc 45-50): the result is [uint64_t]. *)
Definition safe_abs (v : Z) : Z :=
  if v <? 0 then u64 (u64 (Z.lnot v) + 1) else u64 v.

(** Tag byte followed by the number in as many bytes as its number type says
    (the common tail of packArray, packBinary, packString, packStruct, packInt).
    [Number_t] stores the number as [int64_t] and the bytes are copied from it. *)
Definition pack_num (v : version) (tag : Z) (typed : Z) (n : Z) : bytes :=
  let t := get_number_type v typed in
  data_type tag t :: le_bytes (Z.to_nat (get_number_size v t)) (u64 n).

(** [packInt] (frpcbinmarshaller.cc 294-342). *)
Definition pack_int (v : version) (n : Z) : bytes :=
  if 2 <? v_major v then
    let zig := zigzag_encode n in pack_num v T_INT (s64 zig) zig
  else if 1 <? v_major v then
    if n <? 0 then pack_num v T_INTN8 (s64 (safe_abs n)) (safe_abs n)
    else pack_num v T_INTP8 n n
  else
    pack_num v T_INT n (u32 n).

(** [DateTimeData_t::pack] / [DateTimeDataV3_t::pack] (frpcinternals.h 206-291): the five bytes
    common to both layouts.  The arguments are the [unsigned char]/[unsigned short] fields. *)
Definition dt_tail (wday sec minute hour day month year : Z) : bytes :=
  [ z2b (Z.lor (Z.shiftl (Z.land sec 31) 3) (Z.land wday 7));
    z2b (Z.lor (Z.lor (Z.shiftl (Z.land minute 63) 1) (Z.shiftr (Z.land sec 32) 5))
               (Z.shiftl (Z.land hour 1) 7));
    z2b (Z.lor (Z.shiftr (Z.land hour 30) 1) (Z.shiftl (Z.land day 15) 4));
    z2b (Z.lor (Z.lor (Z.shiftr (Z.land day 31) 4) (Z.shiftl (Z.land month 15) 1))
               (Z.shiftl (Z.land year 7) 5));
    z2b (Z.shiftr (Z.land year 2040) 3) ].

(** [packDateTime] (frpcbinmarshaller.cc 194-250).  Negating the minimal [time_t] overflows
    (frpcinternals.h 212-214), hence [None] (undefined behaviour). *)
Definition pack_datetime (v : version) (d : datetime) : option bytes :=
  let year := if dt_year d <=? 1600 then 0 else Z.land (dt_year d - 1600) 2047 in
  let tail := dt_tail (Z.land (dt_wday d) 7) (Z.land (dt_sec d) 63) (Z.land (dt_min d) 63)
                      (Z.land (dt_hour d) 31) (Z.land (dt_day d) 31) (Z.land (dt_month d) 15) year in
  let tz := z2b (Z.quot (Z.quot (dt_tz d) 60) 15) in
  if 2 <? v_major v then
    Some (data_type T_DATETIME 0 :: tz :: le_bytes 8 (u64 (dt_unix d)) ++ tail)
  else if dt_unix d =? - 2 ^ 63 then None
  else
    let a := if 0 <? dt_unix d then dt_unix d else - dt_unix d in
    let t := if Z.land a (mask 32) =? 0 then s32 (dt_unix d) else -1 in
    Some (data_type T_DATETIME 0 :: tz :: le_bytes 4 (u32 t) ++ tail).

(** [packMagic] (frpcbinmarshaller.cc 428-434). *)
Definition magic (v : version) : bytes := [xca; x11; z2b (v_major v); z2b (v_minor v)].

(** [packString] (frpcbinmarshaller.cc 367-385); string validation is off by default
    (frpcconfig.cc 51) and modelled in M_Validate.v. *)
Definition pack_string (v : version) (s : bytes) : bytes :=
  pack_num v T_STRING (blen s) (blen s) ++ s.

(** One call of the binary marshaller: the bytes handed to the writer and the exception, if any
    (frpcbinmarshaller.cc 142-463). *)
Definition bin_pack (v : version) (c : mcall) : bytes * option fail :=
  match c with
  | PInt n => (pack_int v n, None)
  | PBool b => ([data_type T_BOOL (if b then 1 else 0)], None)
  | PNull =>
      if (v_major v <? 2) || ((v_major v =? 2) && (v_minor v <? 1))
      then ([], Some (Exn (StreamError "Null is not supported by protocol version lower than 2.1")))
      else ([data_type T_NULL 0], None)
  | PDouble bits => (data_type T_DOUBLE 0 :: le_bytes 8 bits, None)
  | PString s => (pack_string v s, None)
  | PBinary s => (pack_num v T_BINARY (blen s) (blen s) ++ s, None)
  | PBinaryRef n cs => (pack_num v T_BINARY n n ++ concat cs, None)
  | PDateTime d =>
      match pack_datetime v d with
      | Some s => (s, None)
      | None => ([], Some Undef)
      end
  | PStruct n => (pack_num v T_STRUCT n n, None)
  | PMember k =>
      if (255 <? blen k) || (blen k =? 0) then ([], Some (Exn LenError))
      else (z2b (blen k) :: k, None)
  | PArray n => (pack_num v T_ARRAY n n, None)
  | PMethodCall k =>
      if (255 <? blen k) || (blen k =? 0) then ([], Some (Exn LenError))
      else (magic v ++ [data_type T_METHOD_CALL 0; z2b (blen k)] ++ k, None)
  | PMethodResponse => (magic v ++ [data_type T_METHOD_RESPONSE 0], None)
  | PFault code msg =>
      (magic v ++ [data_type T_FAULT 0] ++ pack_int v code ++ pack_string v msg, None)
  end.

(** A sequence of marshaller calls: stops at the first exception; what was written stays written. *)
Fixpoint bin_run (v : version) (cs : list mcall) : bytes * option fail :=
  match cs with
  | [] => ([], None)
  | c :: r =>
      match bin_pack v c with
      | (o, Some f) => (o, Some f)
      | (o, None) => let '(o', f) := bin_run v r in (o ++ o', f)
      end
  end.

(** Constructor check (frpcbinmarshaller.cc 130-136): versions above 3 are refused. *)
Definition bin_create (v : version) : res unit :=
  if 3 <? v_major v then Err (FrpcError "Not supported protocol version") else Ok tt.

(** What a client does to send a call (frpcserverproxy.cc 483-513): packMethodCall, then every
    parameter.  And what a server does to answer (frpcmethodregistry.cc 148-215). *)
Definition call_calls (name : bytes) (params : list value) : list mcall :=
  PMethodCall name :: flat_map feed params.
Definition response_calls (v : value) : list mcall := PMethodResponse :: feed v.
