(** Model of the Python binding, for Python 3: python/pythonfeeder.cc ([Feeder_t]), python/pythonbuilder.{h,cc} ([Builder_t]),
    and [dumps] and [loads] of python/fastrpcmodule.cc for the binary format.  Not modelled: running out of memory, reference
    counts, objects that contain themselves (the feeder does not terminate on them), classes derived from the built-in ones. *)
From Verif Require Import Base Value Unicode M_Marshal M_BinUnmarshal.

(** ** Python *)
(** A [str]: code points, surrogates among them possible. *)
Definition pystr := list Z.

(** Python objects.  [PyBoolean] is a [fastrpc.Boolean], [PyDate] a [fastrpc.DateTime] (also [LocalTime], [UTCTime]: fastrpcmodule.h
    93-104, 113-115), [PyStdDate] a [datetime.datetime] ([dt_tz] its offset
    if it has one; weekday and unix time are not used), [PyFault] a [fastrpc.Fault]
    with its code and message, [PyOther] any object of another class.  A [dict] has its items in the order of insertion. *)
Inductive py : Type :=
| PyNone
| PyBool (b : bool)
| PyBoolean (b : bool)
| PyInt (z : Z)
| PyFloat (bits : Z)
| PyBytes (s : bytes)
| PyStr (s : pystr)
| PyDate (d : datetime)
| PyStdDate (d : datetime)
| PyList (l : list py)
| PyTuple (l : list py)
| PyDict (m : list (py * py))
| PyFault (code msg : py)
| PyOther.

(** Exceptions: TypeError, OverflowError, UnicodeEncodeError, UnicodeDecodeError, ValueError, RuntimeError, SystemError and
    [fastrpc.Fault]. *)
Inductive pyexn : Type :=
| PE_Type | PE_Overflow | PE_Encode | PE_Decode | PE_Value | PE_Runtime | PE_System | PE_Fault (code msg : py).

(** The outcome of a function of the module: a result, a Python exception, a C++ exception that leaves the module (which
    terminates the interpreter), undefined behaviour. *)
Inductive pyres (A : Type) : Type :=
| PyOk (a : A)
| PyRaise (e : pyexn)
| PyAbort
| PyUndef.
Arguments PyOk {A}. Arguments PyRaise {A}. Arguments PyAbort {A}. Arguments PyUndef {A}.

(** The handlers of [dumps] and [loads] (fastrpcmodule.cc 2426-2444, 2544-2562): [TypeError_t] and [LenError_t] become TypeError,
    other [Error_t] RuntimeError; what is no [Error_t] is not caught. *)
Definition of_fail {A} (f : fail) : pyres A :=
  match f with
  | Undef => PyUndef
  | Exn (TypeError | LenError) => PyRaise PE_Type
  | Exn (RuntimeError | OutOfRange | OtherExn _) => PyAbort
  | Exn _ => PyRaise PE_Runtime
  end.

(** [PyUnicode_AsUTF8AndSize] (CPython): surrogates are refused. *)
Definition is_surrogate (c : Z) : bool := (55296 <=? c) && (c <? 57344).
Definition py_encode (s : pystr) : option bytes :=
  if existsb is_surrogate s then None else Some (flat_map utf8_char s).

(** [PyUnicode_DecodeUTF8] with "strict" or with "surrogatepass" (CPython; the Unicode standard, table 3-7). *)
Definition cont (b : byte) (lo hi : Z) : bool := (lo <=? b2z b) && (b2z b <=? hi).
Fixpoint py_decode (pass : bool) (s : bytes) : option pystr :=
  match s with
  | [] => Some []
  | a :: r =>
      let x := b2z a in
      if x <? 128 then option_map (cons x) (py_decode pass r)
      else if (194 <=? x) && (x <=? 223) then
        match r with
        | b :: r => if cont b 128 191 then option_map (cons ((x - 192) * 64 + (b2z b - 128))) (py_decode pass r) else None
        | _ => None
        end
      else if (224 <=? x) && (x <=? 239) then
        match r with
        | b :: c :: r =>
            if cont b (if x =? 224 then 160 else 128) (if (x =? 237) && negb pass then 159 else 191) && cont c 128 191
            then option_map (cons (((x - 224) * 64 + (b2z b - 128)) * 64 + (b2z c - 128))) (py_decode pass r) else None
        | _ => None
        end
      else if (240 <=? x) && (x <=? 244) then
        match r with
        | b :: c :: d :: r =>
            if cont b (if x =? 240 then 144 else 128) (if x =? 244 then 143 else 191) && cont c 128 191 && cont d 128 191
            then option_map (cons ((((x - 240) * 64 + (b2z b - 128)) * 64 + (b2z c - 128)) * 64 + (b2z d - 128))) (py_decode pass r) else None
        | _ => None
        end
      else None
  end.

(** Equality of [str]s; assigning an item of a [dict] (a new key comes last). *)
Fixpoint pystr_eqb (a b : pystr) : bool :=
  match a, b with [], [] => true | x :: a, y :: b => (x =? y) && pystr_eqb a b | _, _ => false end.
Fixpoint dict_set (k : pystr) (v : py) (m : list (pystr * py)) : list (pystr * py) :=
  match m with
  | [] => [(k, v)]
  | (k', v') :: m => if pystr_eqb k k' then (k', v) :: m else (k', v') :: dict_set k v m
  end.
Definition of_dict (m : list (pystr * py)) : py := PyDict (map (fun kv => (PyStr (fst kv), snd kv)) m).

Section Python.
  (** [mktime] of the host, with the day of the week [localtime] gives for its result: from the fields down to the second to
      the normalised fields, the day of the week and the time ([dt_unix], -1 if there is none). *)
  Variable host : datetime -> datetime.

  (** ** Feeding: pythonfeeder.cc *)
  (** Conversion of an [int] (pythonfeeder.cc 138-149): numbers of 64 bits and a positive sign are taken as unsigned and stored in
      an [int64_t]. *)
  Definition num_bits (z : Z) : Z := if z =? 0 then 0 else Z.log2 (Z.abs z) + 1.
  Definition as_int (z : Z) : option Z :=
    if (num_bits z =? 64) && (0 <? z) then Some (s64 z)
    else if (- 2 ^ 63 <=? z) && (z <? 2 ^ 63) then Some z else None.

  (** The fields given to [mktime], the others zero. *)
  Definition fields (d : datetime) : datetime := mkDT (dt_year d) (dt_month d) (dt_day d) (dt_hour d) (dt_min d) (dt_sec d) 0 0 0.

  (** [datetimeToTm] and the call of [packDateTime] (pythonfeeder.cc 83-102, 290-305): the time zone is -1. *)
  Definition std_date (d : datetime) : datetime :=
    let t := host (fields d) in
    mkDT (s16 (dt_year t)) (s8 (dt_month t)) (s8 (dt_day t)) (s8 (dt_hour t)) (s8 (dt_min t)) (s8 (dt_sec t)) (s8 (dt_wday t)) (dt_unix t) (-1).

  (** Feeding a sequence, up to the first exception. *)
  Definition feed_seq (f : py -> list mcall * option pyexn) : list py -> list mcall * option pyexn :=
    fix go l :=
      match l with
      | [] => ([], None)
      | x :: r =>
          match f x with
          | (c, Some e) => (c, Some e)
          | (c, None) => let '(c', e) := go r in (c ++ c', e)
          end
      end.
  (** Feeding the items of a [dict] (pythonfeeder.cc 251-289). *)
  Definition feed_items (f : py -> list mcall * option pyexn) : list (py * py) -> list mcall * option pyexn :=
    fix go l :=
      match l with
      | [] => ([], None)
      | (PyStr k, x) :: r =>
          match py_encode k with
          | None => ([], Some PE_Encode)
          | Some k =>
              match f x with
              | (c, Some e) => (PMember k :: c, Some e)
              | (c, None) => let '(c', e) := go r in (PMember k :: c ++ c', e)
              end
          end
      | _ :: _ => ([], Some PE_Type)
      end.

  (** [feedValue] (pythonfeeder.cc 126-333): the calls of the marshaller and the exception.  Sizes of containers above 2^31
      (the [int] of 238, 245) are outside the model. *)
  Fixpoint feed_py (p : py) : list mcall * option pyexn :=
    match p with
    | PyBool b | PyBoolean b => ([PBool b], None)
    | PyInt z => match as_int z with Some i => ([PInt i], None) | None => ([], Some PE_Overflow) end
    | PyFloat d => ([PDouble d], None)
    | PyDate d => ([PDateTime d], None)
    | PyBytes s => ([PBinary s], None)
    | PyStr s => match py_encode s with Some s => ([PString s], None) | None => ([], Some PE_Encode) end
    | PyList l | PyTuple l => let '(c, e) := feed_seq feed_py l in (PArray (u32 (zlen l)) :: c, e)
    | PyDict m => let '(c, e) := feed_items feed_py m in (PStruct (u32 (zlen m)) :: c, e)
    | PyStdDate d => ([PDateTime (std_date d)], None)
    | PyNone => ([PNull], None)
    | PyFault _ _ | PyOther => ([], Some PE_Type)
    end.
  (** [feed] (pythonfeeder.cc 107-123). *)
  Definition feed_args (l : list py) : list mcall * option pyexn := feed_seq feed_py l.

  (** The name of the method given to [dumps] (fastrpcmodule.cc 2349, format "z"): no surrogates, no NUL. *)
  Definition method_arg (m : pystr) : pyres bytes :=
    match py_encode m with
    | None => PyRaise PE_Encode
    | Some s => if existsb (fun c => c =? 0) m then PyRaise PE_Value else PyOk s
    end.

  (** The calls a message is made of, run on the binary marshaller; a Python exception of the feeder comes after what the
      marshaller was given before it (fastrpcmodule.cc 2371-2444). *)
  Definition written (ver : version) (cs : list mcall * option pyexn) : pyres bytes :=
    match bin_run ver (fst cs) with
    | (_, Some f) => of_fail f
    | (o, None) => match snd cs with Some e => PyRaise e | None => PyOk o end
    end.

  (** [dumps] (fastrpcmodule.cc 2333-2448) with [useBinary=True]; [major], [minor] are the protocol version given.  The
      marshaller is made outside of the [try]. *)
  Definition dumps (major minor : Z) (method : option pystr) (params : py) : pyres bytes :=
    match (match method with None => PyOk None | Some m => match method_arg m with PyOk s => PyOk (Some s) | PyRaise e => PyRaise e | PyAbort => PyAbort | PyUndef => PyUndef end end) with
    | PyRaise e => PyRaise e | PyAbort => PyAbort | PyUndef => PyUndef
    | PyOk name =>
        if (major <? 0) || (minor <? 0) then PyRaise PE_Runtime else
        let ver := mkVer (u8 major) (u8 minor) in
        match bin_create ver with
        | Err _ => PyAbort
        | UB => PyUndef
        | Ok _ =>
            match params with
            | PyTuple l | PyList l =>
                match name with
                | Some s => written ver (PMethodCall s :: fst (feed_args l), snd (feed_args l))
                | None =>
                    match l with
                    | [] => written ver ([PMethodResponse], None)
                    | x :: _ => written ver (PMethodResponse :: fst (feed_py x), snd (feed_py x))
                    end
                end
            | PyFault code msg =>
                match (match code with PyInt z => Some z | PyBool b => Some (if b then 1 else 0) | _ => None end) with
                | None => PyRaise PE_Type
                | Some z =>
                    match msg with
                    | PyStr m =>
                        match py_encode m with
                        | None => PyRaise PE_Encode
                        | Some m =>
                            (* [PyLong_AsLong] gives -1 and sets OverflowError, which is not looked at: the interpreter
                               refuses a result with an exception set *)
                            if (- 2 ^ 63 <=? z) && (z <? 2 ^ 63) then written ver ([PFault (s32 z) m], None)
                            else match written ver ([PFault (-1) m], None) with PyOk _ => PyRaise PE_System | r => r end
                        end
                    | _ => PyRaise PE_Type
                    end
                end
            | _ => PyRaise PE_Type
            end
        end
    end.

  (** ** Building: pythonbuilder.h, pythonbuilder.cc *)
  Variable pass : bool.     (* allowSurrogates *)
  Variable native : bool.   (* nativeBoolean *)

  (** An open container, and how it is linked: it is [retValue], a member of the container below, or in nothing.  It is linked when
      it is opened and filled afterwards; the container below is not touched until it is closed, so the model links it when it
      is closed (and in [root_of]). *)
  Inductive pbody : Type := PB_list (l : list py) | PB_dict (m : list (pystr * py)).
  Inductive plink : Type := L_root | L_item | L_member (k : pystr) | L_none.
  Definition pb_value_of (b : pbody) : py := match b with PB_list l => PyList l | PB_dict m => of_dict m end.

  (** [retValue]: null, an object that is complete, the container that is open as [L_root]. *)
  Inductive proot : Type := P_null | P_done (v : py) | P_open.

  (** The object (pythonbuilder.h 250-261); [methodObject] and [stringMode] have no effect in Python 3. *)
  Record pb : Type := mkPB {
    pb_stack : list (plink * pbody);   (* entityStorage, top first *)
    pb_root : proot;
    pb_first : bool;
    pb_error : bool;                   (* error; the Python exception set is UnicodeDecodeError *)
    pb_member : bytes;
    pb_method : option bytes
  }.
  (** Constructor (pythonbuilder.h 79-85). *)
  Definition pb_init : pb := mkPB [] (P_done PyNone) true false [] None.

  (** [setError] (pythonbuilder.h 116-122). *)
  Definition pb_fail (b : pb) : pb := mkPB (pb_stack b) P_null false true (pb_member b) (pb_method b).
  Definition pb_with (s : list (plink * pbody)) (b : pb) : pb := mkPB s (pb_root b) (pb_first b) (pb_error b) (pb_member b) (pb_method b).

  (** The key of a member (pythonbuilder.h 167-210): a name with 8-bit characters is decoded, of another one the part before a
      NUL is taken. *)
  Fixpoint c_string (s : bytes) : bytes := match s with [] => [] | a :: r => if b2z a =? 0 then [] else a :: c_string r end.
  Definition key_of (name : bytes) : option pystr :=
    if existsb (fun c => 128 <=? b2z c) name then py_decode false name else Some (map b2z (c_string name)).

  (** An object added to the container on top. *)
  Definition add_item (v : py) (b : pbody) : pbody := match b with PB_list l => PB_list (l ++ [v]) | PB_dict m => PB_dict m end.
  Definition add_member (k : pystr) (v : py) (b : pbody) : pbody := match b with PB_list l => PB_list l | PB_dict m => PB_dict (dict_set k v m) end.
  (** How a new object is linked: [isMember], then [isFirst] (pythonbuilder.h 127-222). [None]: the key of the member cannot be
      decoded. *)
  Definition link_of (b : pb) : option plink :=
    match pb_stack b with
    | (_, PB_list _) :: _ => Some L_item
    | (_, PB_dict _) :: _ => option_map L_member (key_of (pb_member b))
    | [] => Some (if pb_first b then L_root else L_none)
    end.
  Definition place (k : plink) (v : py) (b : pb) : pb :=
    match k, pb_stack b with
    | L_root, _ => mkPB (pb_stack b) (P_done v) false (pb_error b) (pb_member b) (pb_method b)
    | L_item, (l, c) :: r => pb_with ((l, add_item v c) :: r) b
    | L_member key, (l, c) :: r => pb_with ((l, add_member key v c) :: r) b
    | _, _ => b
    end.

  (** build* of an object (pythonbuilder.cc 66-279). *)
  Definition pb_value (v : py) (b : pb) : pb :=
    if pb_error b then b else
    match link_of b with
    | None => pb_fail b
    | Some k => place k v b
    end.
  (** [openArray], [openStruct] (pythonbuilder.cc 303-330).  After an error nothing looks at what is pushed. *)
  Definition pb_open (c : pbody) (b : pb) : pb :=
    if pb_error b then b else
    match link_of b with
    | None => pb_fail b
    | Some k => mkPB ((k, c) :: pb_stack b) (match k with L_root => P_open | _ => pb_root b end)
                     (match k with L_root => false | _ => pb_first b end) (pb_error b) (pb_member b) (pb_method b)
    end.
  (** [closeArray], [closeStruct] (pythonbuilder.cc 293-302): [pop_back], undefined on an empty vector. *)
  Definition pb_close (b : pb) : pb * option fail :=
    if pb_error b then (b, None) else
    match pb_stack b with
    | [] => (b, Some Undef)
    | (k, c) :: r => (place k (pb_value_of c) (pb_with r b), None)
    end.

  (** [newDateTime] (fastrpcmodule.cc 690-727): without a time the time and the day of the week are computed. *)
  Definition new_date (d : datetime) : datetime :=
    if dt_unix d =? -1 then
      let t := host (fields d) in
      mkDT (dt_year d) (dt_month d) (dt_day d) (dt_hour d) (dt_min d) (dt_sec d)
           (if dt_unix t =? -1 then -1 else s8 (dt_wday t)) (dt_unix t) (dt_tz d)
    else d.

  (** All builder calls (pythonbuilder.cc 64-330).  [buildMethodCall] opens a list that is in no other container.  [buildFault]
      calls [Fault] with null arguments if the message cannot be decoded; the open containers are not [retValue] any more. *)
  Definition pb_step (b : pb) (e : event) : pb * option fail :=
    match e with
    | EInt z => (pb_value (PyInt z) b, None)
    | EBool v => (pb_value (if native then PyBool v else PyBoolean v) b, None)
    | ENull => (pb_value PyNone b, None)
    | EDouble d => (pb_value (PyFloat d) b, None)
    | EString s =>
        match py_decode pass s with
        | Some u => (pb_value (PyStr u) b, None)
        | None => (if pb_error b then b else pb_fail b, None)
        end
    | EBinary s => (pb_value (PyBytes s) b, None)
    | EDateTime d => (pb_value (PyDate (new_date d)) b, None)
    | EOpenStruct _ => (pb_open (PB_dict []) b, None)
    | EOpenArray _ => (pb_open (PB_list []) b, None)
    | ECloseStruct | ECloseArray => pb_close b
    | EMember k => (if pb_error b then b else mkPB (pb_stack b) (pb_root b) (pb_first b) (pb_error b) k (pb_method b), None)
    | EMethodCall k =>
        let first := pb_first b && negb (pb_error b) in
        (mkPB ((if first then L_root else L_none, PB_list []) :: pb_stack b) (if first then P_open else pb_root b)
              (if first then false else pb_first b) (pb_error b) (pb_member b) (Some k), None)
    | EMethodResponse => (b, None)
    | EFault n msg =>
        if pb_error b then (b, None) else
        match py_decode false msg with
        | None => (b, Some Undef)
        | Some m =>
            (mkPB (map (fun f => (match fst f with L_root => L_none | k => k end, snd f)) (pb_stack b))
                  (P_done (PyFault (PyInt n) (PyStr m))) true false (pb_member b) (pb_method b), None)
        end
    end.

  (** The object [retValue] points to, as far as it is built. *)
  Fixpoint root_of (v : option (plink * py)) (s : list (plink * pbody)) : option py :=
    match s with
    | [] => match v with Some (L_root, x) => Some x | _ => None end
    | (k, c) :: r =>
        match v with
        | Some (L_root, x) => Some x
        | Some (L_item, x) => root_of (Some (k, pb_value_of (add_item x c))) r
        | Some (L_member key, x) => root_of (Some (k, pb_value_of (add_member key x c))) r
        | Some (L_none, _) | None => root_of (Some (k, pb_value_of c)) r
        end
    end.
  Definition pb_object (b : pb) : option py :=
    match pb_root b with P_null => None | P_done v => Some v | P_open => root_of None (pb_stack b) end.

  (** [PySequence_Tuple] (CPython) of an object: the items of a list, the keys of a [dict], the characters of a [str], the numbers of
      [bytes]; of other objects it raises. *)
  Definition py_tuple (v : py) : option (list py) :=
    match v with
    | PyList l | PyTuple l => Some l
    | PyDict m => Some (map fst m)
    | PyStr s => Some (map (fun c => PyStr [c]) s)
    | PyBytes s => Some (map (fun c => PyInt (b2z c)) s)
    | _ => None
    end.
  (** [getUnMarshaledData] (pythonbuilder.h 224-229): the parameters of a call as a [tuple]. *)
  Definition pb_data (b : pb) : pyres py :=
    match pb_object b with
    | None => PyRaise PE_Decode
    | Some v =>
        match pb_method b with
        | None => PyOk v
        | Some _ => match py_tuple v with Some l => PyOk (PyTuple l) | None => PyRaise PE_Type end
        end
    end.
  (** [getMethodName] (pythonbuilder.h 235-244). *)
  Definition pb_name (b : pb) : pyres (option pystr) :=
    match pb_method b with
    | None => PyOk None
    | Some s => match py_decode false s with Some m => PyOk (Some m) | None => PyRaise PE_Decode end
    end.

  (** [loads] (fastrpcmodule.cc 2459-2563) with [useBinary=True], or without it for data that begin with CA 11: the data are given to
      the unmarshaller, [finish] is not called.  A fault is raised. *)
  Definition loads (data : bytes) : pyres (py * option pystr) :=
    match unmarshall pb pb_step TYPE_ANY unm_init pb_init data with
    | (_, _, Some f) => of_fail f
    | (_, b, None) =>
        match pb_data b with
        | PyRaise e => PyRaise e | PyAbort => PyAbort | PyUndef => PyUndef
        | PyOk (PyFault code msg) => PyRaise (PE_Fault code msg)
        | PyOk v => match pb_name b with PyOk n => PyOk (v, n) | PyRaise e => PyRaise e | PyAbort => PyAbort | PyUndef => PyUndef end
        end
    end.
End Python.
