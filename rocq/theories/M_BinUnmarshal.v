(** Model of the binary unmarshaller: src/frpcbinunmarshaller.cc, src/frpcbinunmarshaller.h. *)
From Verif Require Import Base Value M_Marshal.

(** Calls of the [DataBuilder_t] interface (frpcdatabuilder.h 44-112). *)
Inductive event : Type :=
| EInt (z : Z)
| EBool (b : bool)
| ENull
| EDouble (bits : Z)
| EString (s : bytes)
| EBinary (s : bytes)
| EDateTime (d : datetime)
| EOpenStruct (n : Z)
| EMember (name : bytes)
| ECloseStruct
| EOpenArray (n : Z)
| ECloseArray
| EMethodCall (name : bytes)
| EMethodResponse
| EFault (code : Z) (msg : bytes).

(** States of the state machine (frpcbinunmarshaller.cc 67-92; only those used). *)
Inductive dstate : Type :=
| S_MAGIC | S_BODY | S_METHOD_NAME_LEN | S_METHOD_NAME | S_MEMBER_NAME
| S_VALUE_TYPE | S_REAL_VALUE_TYPE | S_STRING_LEN | S_STRING | S_BINARY_LEN | S_BINARY
| S_INT | S_INTN8 | S_INTP8 | S_DOUBLE | S_DATETIME | S_STRUCT | S_ARRAY.

(** Equality of states, as [switch (d.state)] (frpcbinunmarshaller.cc 440) compares them. *)
Definition dstate_eqb (a b : dstate) : bool :=
  match a, b with
  | S_MAGIC, S_MAGIC | S_BODY, S_BODY | S_METHOD_NAME_LEN, S_METHOD_NAME_LEN
  | S_METHOD_NAME, S_METHOD_NAME | S_MEMBER_NAME, S_MEMBER_NAME
  | S_VALUE_TYPE, S_VALUE_TYPE | S_REAL_VALUE_TYPE, S_REAL_VALUE_TYPE
  | S_STRING_LEN, S_STRING_LEN | S_STRING, S_STRING | S_BINARY_LEN, S_BINARY_LEN
  | S_BINARY, S_BINARY | S_INT, S_INT | S_INTN8, S_INTN8 | S_INTP8, S_INTP8
  | S_DOUBLE, S_DOUBLE | S_DATETIME, S_DATETIME | S_STRUCT, S_STRUCT | S_ARRAY, S_ARRAY => true
  | _, _ => false
  end.

(** Container kinds on the recursion stack. *)
Inductive kind : Type := KStruct | KArray.

(** Persistent members of [BinUnMarshaller_t] other than [buffer] and [dataWanted]
    (frpcbinunmarshaller.h 75-90).  Top of the recursion stack first. *)
Record core : Type := mkCore {
  c_state : dstate;
  c_stack : list (Z * kind);
  c_errno : Z;
  c_fault : Z;
  c_ver : version
}.

(** Assignments to single members (frpcbinunmarshaller.h 80-90). *)
Definition set_state (s : dstate) (c : core) : core :=
  mkCore s (c_stack c) (c_errno c) (c_fault c) (c_ver c).
Definition set_stack (s : list (Z * kind)) (c : core) : core :=
  mkCore (c_state c) s (c_errno c) (c_fault c) (c_ver c).
Definition set_errno (n : Z) (c : core) : core :=
  mkCore (c_state c) (c_stack c) n (c_fault c) (c_ver c).
Definition set_fault (n : Z) (c : core) : core :=
  mkCore (c_state c) (c_stack c) (c_errno c) n (c_ver c).
Definition set_ver (v : version) (c : core) : core :=
  mkCore (c_state c) (c_stack c) (c_errno c) (c_fault c) v.

(** The whole object: [core], [buffer], [dataWanted] (frpcbinunmarshaller.h 80-90). *)
Record unm : Type := mkUnm {
  u_core : core;
  u_buffer : bytes;
  u_wanted : Z
}.

(** Constructor (frpcbinunmarshaller.h 52-57).  [errNo] is uninitialised in the code and is read only after
    it was written; the model starts with 0.  [protocolVersion] defaults to 2.1 (frpcinternals.h 63-64). *)
Definition unm_init : unm := mkUnm (mkCore S_MAGIC [] 0 0 (mkVer 2 1)) [] 4.

(** ELEMENT_SIZE_LIMIT (frpcbinunmarshaller.cc 64-65). *)
Definition element_size_limit : Z := 1073741824.

(** Requested message types (frpcunmarshaller.h 49-54). *)
Definition TYPE_ANY : Z := 16.

(** [getInt64] (frpcbinunmarshaller.cc 115-132): copies [size] bytes into 8 zeroed bytes. *)
Definition get_int64 (d : bytes) : Z := s64 (le_val d).
(** [getInt32] (frpcbinunmarshaller.cc 134-149). *)
Definition get_int32 (d : bytes) : Z := s32 (le_val d).

(** [zigzagDecode] (frpcbinunmarshaller.cc 96-99). *)
Definition zigzag_decode (s : Z) : Z :=
  s64 (Z.lxor (Z.shiftr (u64 s) 1) (u64 (- (Z.land s 1)))).

(** [safe_negate] (frpcbinunmarshaller.cc 54-62) at [int64_t]. *)
Definition safe_negate (v : Z) : Z := if v =? - 2 ^ 63 then v else - v.

(** [getVersionedLengthSize] (frpcbinunmarshaller.cc 106-113); [None] is the StreamError. *)
Definition versioned_length_size (longer : bool) (b : Z) : option Z :=
  if longer then Some (Z.land b 7 + 1)
  else let v := Z.land b 7 in
       if (v =? 0) || (4 <? v) then None else Some v.

(** The broken-down fields of [getDateTime] / [getDateTimeV3] (frpcbinunmarshaller.cc 168-205) from
    the last five bytes.  [data[9] << 3] shifts a signed [char] (sign extended; the
    shift of a negative value is modelled as gcc performs it). *)
Definition dt_fields (tz unix : Z) (d5 d6 d7 d8 d9 : byte) : datetime :=
  let c5 := s8 (b2z d5) in let c6 := s8 (b2z d6) in let c7 := s8 (b2z d7) in
  let c8 := s8 (b2z d8) in let c9 := s8 (b2z d9) in
  mkDT (u16 (Z.lor (Z.shiftl c9 3) (Z.shiftr (Z.land c8 224) 5)))
       (u8 (Z.shiftr (Z.land c8 30) 1))
       (u8 (Z.lor (Z.shiftl (Z.land c8 1) 4) (Z.shiftr (Z.land c7 240) 4)))
       (u8 (Z.lor (Z.shiftl (Z.land c7 15) 1) (Z.shiftr (Z.land c6 128) 7)))
       (u8 (Z.shiftr (Z.land c6 126) 1))
       (u8 (Z.lor (Z.shiftl (Z.land c6 1) 5) (Z.shiftr (Z.land c5 248) 3)))
       (u8 (Z.land c5 7))
       unix tz.

(** The S_DATETIME arm (frpcbinunmarshaller.cc 706-727): adds the epoch year unless all fields are
    zero, converts to the types of [buildDateTime].  [None]: not enough bytes. *)
Definition decode_datetime (v : version) (d : bytes) : option datetime :=
  let mk (tz unix : Z) (d5 d6 d7 d8 d9 : byte) :=
    let f := dt_fields tz unix d5 d6 d7 d8 d9 in
    let zero := (dt_year f =? 0) && (dt_month f =? 0) && (dt_day f =? 0) && (dt_hour f =? 0)
                && (dt_min f =? 0) && (dt_sec f =? 0) in
    let y := if zero then dt_year f else u16 (dt_year f + 1600) in
    mkDT (s16 y) (s8 (dt_month f)) (s8 (dt_day f)) (s8 (dt_hour f)) (s8 (dt_min f)) (s8 (dt_sec f))
         (s8 (dt_wday f)) (dt_unix f) (dt_tz f * 15 * 60) in
  if 2 <? v_major v then
    match d with
    | z :: t0 :: t1 :: t2 :: t3 :: t4 :: t5 :: t6 :: t7 :: d5 :: d6 :: d7 :: d8 :: d9 :: _ =>
        Some (mk (s8 (b2z z)) (get_int64 [t0; t1; t2; t3; t4; t5; t6; t7]) d5 d6 d7 d8 d9)
    | _ => None
    end
  else
    match d with
    | z :: t0 :: t1 :: t2 :: t3 :: d5 :: d6 :: d7 :: d8 :: d9 :: _ =>
        Some (mk (s8 (b2z z)) (get_int32 [t0; t1; t2; t3]) d5 d6 d7 d8 d9)
    | _ => None
    end.

Section Decoder.
  (** The builder the unmarshaller reports to: its state and its reaction to a call. *)
  Variable B : Type.
  Variable bstep : B -> event -> B * option fail.

  (** Result of one loop body: go on with a new core, builder, [newDataWanted] and
      [finalizeValue]; return from the loop; or fail. *)
  Inductive bres : Type :=
  | Next (c : core) (b : B) (want : Z) (fin : bool)
  | Stop
  | Bad (c : core) (b : B) (f : fail).

  (** [throw StreamError_t(m)]. *)
  Definition throw (c : core) (b : B) (m : string) : bres := Bad c b (Exn (StreamError m)).

  (** [FaultBuilder_t] (frpcbinunmarshaller.cc 327-430). *)
  Definition fault_step (c : core) (b : B) (e : event) : core * B * option fail :=
    let bad m := (c, b, Some (Exn (StreamError m))) in
    match e with
    | EMethodResponse => bad "Invalid state: method response"%string
    | EBinary _ => bad "Fault cannot contain binary value"%string
    | EBool _ => bad "Fault cannot contain boolean"%string
    | EDateTime _ => bad "Fault cannot contain datatime"%string
    | EDouble _ => bad "Fault cannot contain double"%string
    | EFault _ _ => bad "Fault cannot contain another fault"%string
    | EInt z => if c_fault c =? 1 then (set_fault 2 (set_errno z c), b, None)
                else bad "Only first value of fault can be int"%string
    | EMethodCall _ => bad "Invalid state: method call"%string
    | EString s =>
        if c_fault c =? 2 then
          match bstep b (EFault (s32 (c_errno c)) s) with
          | (b', None) => (set_fault 3 c, b', None)
          | (b', Some f) => (c, b', Some f)
          end
        else bad "Only second value of fault can be string"%string
    | EMember _ => bad "Fault cannot contain struct"%string
    | ECloseArray | EOpenArray _ => bad "Fault cannot contain array"%string
    | ECloseStruct | EOpenStruct _ => bad "Fault cannot contain struct"%string
    | ENull => bad "Fault cannot contain null"%string
    end.

  (** Reporting through the local pointer [dataBuilder] of [unMarshallInternal]
      (frpcbinunmarshaller.cc 435-436 and 472-475): the fault builder exactly when [faultState != 0]. *)
  Definition emit (c : core) (b : B) (e : event) : core * B * option fail :=
    if c_fault c =? 0 then
      let '(b', f) := bstep b e in (c, b', f)
    else fault_step c b e.

  (** Report a complete scalar: then [finalizeValue = true; newDataWanted = 1; state = S_VALUE_TYPE] (frpcbinunmarshaller.cc 639-645 and the other scalars). *)
  Definition scalar (c : core) (b : B) (e : event) : bres :=
    match emit c b e with
    | (c', b', None) => Next (set_state S_VALUE_TYPE c') b' 1 true
    | (c', b', Some f) => Bad c' b' f
    end.

  (** S_VALUE_TYPE outside a struct, and S_REAL_VALUE_TYPE (frpcbinunmarshaller.cc 512-627). *)
  Definition value_type_arm (known : bool) (c : core) (b : B) (t : byte) : bres :=
    let z := b2z t in
    let ty := Z.shiftr z 3 in
    let len longer st :=
      match versioned_length_size longer z with
      | Some n => Next (set_state st c) b n false
      | None => throw c b "Illegal element length"
      end in
    let maj := v_major (c_ver c) in
    if ty =? T_BOOL then
      if negb (Z.land z 6 =? 0) then throw c b "Invalid bool value"
      else scalar c b (EBool (negb (Z.land z 1 =? 0)))
    else if ty =? T_NULL then
      if maj =? 1 then throw c b "Unknown value type" else scalar c b ENull
    else if ty =? T_INT then len (2 <? maj) S_INT
    else if ty =? T_INTN8 then Next (set_state S_INTN8 c) b (Z.land z 7 + 1) false
    else if ty =? T_INTP8 then Next (set_state S_INTP8 c) b (Z.land z 7 + 1) false
    else if ty =? T_DOUBLE then Next (set_state S_DOUBLE c) b 8 false
    else if ty =? T_DATETIME then
      Next (set_state S_DATETIME c) b (if 2 <? maj then 14 else 10) false
    else if ty =? T_STRING then len (2 <=? maj) S_STRING_LEN
    else if ty =? T_BINARY then len (2 <=? maj) S_BINARY_LEN
    else if ty =? T_ARRAY then len (2 <=? maj) S_ARRAY
    else if ty =? T_STRUCT then len (2 <=? maj) S_STRUCT
    else if known then Stop
    else throw c b "Unknown value type".

  (** S_STRUCT and S_ARRAY (frpcbinunmarshaller.cc 729-784). *)
  Definition container_arm (k : kind) (c : core) (b : B) (d : bytes) : bres :=
    let acc := get_int64 d in
    if acc <? 0 then
      throw c b (match k with KStruct => "Struct entity invalid size" | KArray => "Array entity invalid size" end)
    else if negb (Z.shiftr acc 32 =? 0) then
      throw c b (match k with KStruct => "Struct too large !!!" | KArray => "Array too long !!!" end)
    else if element_size_limit <=? acc then
      throw c b (match k with KStruct => "Struct entity too large" | KArray => "Array entity too large" end)
    else
      match emit c b (match k with KStruct => EOpenStruct acc | KArray => EOpenArray acc end) with
      | (c1, b1, Some f) => Bad c1 b1 f
      | (c1, b1, None) =>
          if negb (acc =? 0) then
            Next (set_state S_VALUE_TYPE (set_stack ((acc, k) :: c_stack c1) c1)) b1 1 false
          else
            match emit c1 b1 (match k with KStruct => ECloseStruct | KArray => ECloseArray end) with
            | (c2, b2, Some f) => Bad c2 b2 f
            | (c2, b2, None) => Next (set_state S_VALUE_TYPE c2) b2 1 true
            end
      end.

  (** S_STRING_LEN and S_BINARY_LEN (frpcbinunmarshaller.cc 628-657): the [int64_t] is stored in
      an unsigned variable. *)
  Definition length_arm (st : dstate) (msg : string) (c : core) (b : B) (d : bytes) : bres :=
    let n := u64 (get_int64 d) in
    if element_size_limit <=? n then throw c b msg
    else Next (set_state st c) b n false.

  (** Test of the innermost container in S_VALUE_TYPE (frpcbinunmarshaller.cc 512-523). *)
  Definition in_struct (c : core) : bool :=
    match c_stack c with (_, KStruct) :: _ => true | _ => false end.

  (** One execution of the loop body of [unMarshallInternal] (frpcbinunmarshaller.cc 440-785).
      [d] is what [d.data()] points to, [wanted] is [d.wanted()].  Reading past the end of
      [d] is undefined behaviour, as is copying more than 8 bytes into an integer. *)
  Definition body (req : Z) (known : bool) (c : core) (b : B) (wanted : Z) (d : bytes) : bres :=
    let undef := Bad c b Undef in
    let with_data (k : bytes -> bres) : bres :=
      if zlen d <? wanted then undef else k (ztake wanted d) in
    let with_num (k : bytes -> bres) : bres :=
      if (zlen d <? wanted) || (8 <? wanted) then undef else k (ztake wanted d) in
    match c_state c with
    | S_MAGIC =>
        match d with
        | m0 :: m1 :: vmaj :: vmin :: _ =>
            if negb (byte_eqb m0 xca && byte_eqb m1 x11) then throw c b "Bad magic !!!"
            else
              let c' := set_ver (mkVer (b2z vmaj) (b2z vmin)) c in
              if (3 <? b2z vmaj) || (b2z vmaj <? 1) then
                throw c' b "Unsupported protocol version !!!"
              else Next (set_state S_BODY c') b 1 false
        | _ => undef
        end
    | S_BODY =>
        match d with
        | t :: _ =>
            let ty := Z.shiftr (b2z t) 3 in
            if negb ((req =? TYPE_ANY) || (ty =? req)
                     || ((ty =? T_FAULT) && (req =? T_METHOD_RESPONSE)))
            then throw c b "Encountered unexpected stream message type"
            else if ty =? T_FAULT then Next (set_state S_VALUE_TYPE (set_fault 1 c)) b 1 false
            else if ty =? T_METHOD_RESPONSE then
              match emit c b EMethodResponse with
              | (c', b', None) => Next (set_state S_VALUE_TYPE c') b' 1 false
              | (c', b', Some f) => Bad c' b' f
              end
            else if ty =? T_METHOD_CALL then Next (set_state S_METHOD_NAME_LEN c) b 1 false
            else throw c b "Invalid stream message type"
        | [] => undef
        end
    | S_METHOD_NAME_LEN =>
        match d with
        | t :: _ =>
            if b2z t =? 0 then throw c b "Bad call name"
            else Next (set_state S_METHOD_NAME c) b (b2z t) false
        | [] => undef
        end
    | S_METHOD_NAME =>
        with_data (fun s =>
          match emit c b (EMethodCall s) with
          | (c', b', None) => Next (set_state S_VALUE_TYPE c') b' 1 false
          | (c', b', Some f) => Bad c' b' f
          end)
    | S_MEMBER_NAME =>
        with_data (fun s =>
          match emit c b (EMember s) with
          | (c', b', None) => Next (set_state S_REAL_VALUE_TYPE c') b' 1 false
          | (c', b', Some f) => Bad c' b' f
          end)
    | S_VALUE_TYPE =>
        match d with
        | t :: _ =>
            if in_struct c then
              if b2z t =? 0 then throw c b "Struct member name length is zero"
              else Next (set_state S_MEMBER_NAME c) b (b2z t) false
            else value_type_arm known c b t
        | [] => undef
        end
    | S_REAL_VALUE_TYPE =>
        match d with
        | t :: _ => value_type_arm known c b t
        | [] => undef
        end
    | S_STRING_LEN => with_num (length_arm S_STRING "String entity too large" c b)
    | S_STRING => with_data (fun s => scalar c b (EString s))
    | S_BINARY_LEN => with_num (length_arm S_BINARY "Binary entity too large" c b)
    | S_BINARY => with_data (fun s => scalar c b (EBinary s))
    | S_INT =>
        with_num (fun s =>
          let n := get_int64 s in
          scalar c b (EInt (if 2 <? v_major (c_ver c) then zigzag_decode n else n)))
    | S_INTN8 => with_num (fun s => scalar c b (EInt (safe_negate (get_int64 s))))
    | S_INTP8 => with_num (fun s => scalar c b (EInt (get_int64 s)))
    | S_DOUBLE =>
        if zlen d <? 8 then undef else scalar c b (EDouble (le_val (ztake 8 d)))
    | S_DATETIME =>
        match decode_datetime (c_ver c) d with
        | Some dt => scalar c b (EDateTime dt)
        | None => undef
        end
    | S_STRUCT => with_num (container_arm KStruct c b)
    | S_ARRAY => with_num (container_arm KArray c b)
    end.

  (** [decrementMember] (frpcbinunmarshaller.cc 282-307); reports to [self.dataBuilder]. *)
  Fixpoint dec_members (stk : list (Z * kind)) (b : B) : list (Z * kind) * B * option fail :=
    match stk with
    | [] => ([], b, None)
    | (n, k) :: r =>
        let n' := u32 (n - 1) in
        if negb (n' =? 0) then ((n', k) :: r, b, None)
        else
          match bstep b (match k with KStruct => ECloseStruct | KArray => ECloseArray end) with
          | (b', None) => dec_members r b'
          | (b', Some f) => ((n', k) :: r, b', Some f)
          end
    end.

  (** [decrementMember] does something only after a complete value (frpcbinunmarshaller.cc 282-307). *)
  Definition decrement (fin : bool) (c : core) (b : B) : core * B * option fail :=
    if fin then
      let '(s, b', f) := dec_members (c_stack c) b in (set_stack s c, b', f)
    else (c, b, None).

  (** Result of running the loop: the object, the builder, the unconsumed input and how it ended. *)
  Inductive ending : Type := Finished | Stopped | Failed (f : fail) | OutOfFuel.

  (** The loop of [unMarshallInternal] with [Driver_t] (frpcbinunmarshaller.cc 208-325, 439).
      [inp] is the not yet consumed part of the caller's data.  [update] empties a non-empty
      buffer, otherwise advances the input. *)
  Fixpoint run (fuel : nat) (req : Z) (known : bool) (u : unm) (b : B) (inp : bytes)
    : unm * B * bytes * ending :=
    if u_wanted u <=? zlen (u_buffer u) + zlen inp then
      match fuel with
      | O => (u, b, inp, OutOfFuel)
      | S fuel' =>
          let d := match u_buffer u with [] => inp | _ => u_buffer u end in
          match body req known (u_core u) b (u_wanted u) d with
          | Stop => (u, b, inp, Stopped)
          | Bad c' b' f => (mkUnm c' (u_buffer u) (u_wanted u), b', inp, Failed f)
          | Next c' b' want fin =>
              match decrement fin c' b' with
              | (c2, b2, Some f) => (mkUnm c2 (u_buffer u) (u_wanted u), b2, inp, Failed f)
              | (c2, b2, None) =>
                  let inp' := match u_buffer u with [] => zdrop (u_wanted u) inp | _ => inp end in
                  run fuel' req known (mkUnm c2 [] want) b2 inp'
              end
          end
      end
    else (u, b, inp, Finished).

  (** The [Driver_t] constructor (frpcbinunmarshaller.cc 211-230): tops the buffer up to
      [dataWanted].  [remains] is computed in [size_t] and wraps when the buffer is
      already longer. *)
  Definition driver_init (u : unm) (data : bytes) : unm * bytes :=
    match u_buffer u with
    | [] => (u, data)
    | _ =>
        let remains := u64 (u_wanted u - zlen (u_buffer u)) in
        let n := Z.min remains (zlen data) in
        (mkUnm (u_core u) (u_buffer u ++ ztake n data) (u_wanted u), zdrop n data)
    end.

  (** [Driver_t::finish] (frpcbinunmarshaller.cc 249-254). *)
  Definition driver_finish (u : unm) (inp : bytes) : unm :=
    mkUnm (u_core u) (u_buffer u ++ inp) (u_wanted u).

  (** Enough fuel for any run (proved in L_BinUnmarshal.v). *)
  Definition enough_fuel (u : unm) (inp : bytes) : nat :=
    (2 * (length (u_buffer u) + length inp) + 2)%nat.

  (** [BinUnMarshaller_t::unMarshall] (frpcbinunmarshaller.cc 797-809). *)
  Definition unmarshall (req : Z) (u : unm) (b : B) (data : bytes) : unm * B * option fail :=
    let '(u0, inp) := driver_init u data in
    let '(u1, b1, rest, e) := run (enough_fuel u0 inp) req false u0 b inp in
    (driver_finish u1 rest, b1,
     match e with
     | Failed f => Some f
     | OutOfFuel => Some Undef
     | Finished | Stopped => None
     end).

  (** [BinUnMarshaller_t::unMarshallKnown] (frpcbinunmarshaller.cc 811-827): number of consumed bytes. *)
  Definition unmarshall_known (req : Z) (u : unm) (b : B) (data : bytes)
    : unm * B * (Z + fail) :=
    let '(u0, inp) := driver_init u data in
    let '(u1, b1, rest, e) := run (enough_fuel u0 inp) req true u0 b inp in
    match e with
    | Failed f => (driver_finish u1 rest, b1, inr f)
    | OutOfFuel => (u1, b1, inr Undef)
    | Finished | Stopped =>
        if dstate_eqb (c_state (u_core u1)) S_VALUE_TYPE
        then (u1, b1, inl (zlen data - zlen rest))
        else (driver_finish u1 rest, b1, inl (zlen data))
    end.

  (** A sequence of [unMarshall] calls, stopping at the first exception. *)
  Fixpoint unmarshall_all (req : Z) (u : unm) (b : B) (pieces : list bytes)
    : unm * B * option fail :=
    match pieces with
    | [] => (u, b, None)
    | p :: r =>
        match unmarshall req u b p with
        | (u', b', None) => unmarshall_all req u' b' r
        | (u', b', Some f) => (u', b', Some f)
        end
    end.
End Decoder.

(** [BinUnMarshaller_t::finish] (frpcbinunmarshaller.cc 791-795). *)
Definition unm_finish (u : unm) : res unit :=
  if negb (dstate_eqb (c_state (u_core u)) S_VALUE_TYPE)
     || negb (match c_stack (u_core u) with [] => true | _ => false end)
  then Err (StreamError "Stream not complete")
  else Ok tt.

(** [resetToFaultState] (frpcbinunmarshaller.cc 829-835). *)
Definition reset_to_fault_state (u : unm) : unm :=
  mkUnm (mkCore S_VALUE_TYPE [] (c_errno (u_core u)) 1 (c_ver (u_core u))) [] 1.

(** The builder that only records the calls it receives, newest last: used to talk about
    "the calls the builder receives". *)
Definition record_step (b : list event) (e : event) : list event * option fail := (b ++ [e], None).
