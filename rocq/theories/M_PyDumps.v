(** Model of [dumps] and [loads] of the Python binding (python/fastrpcmodule.cc 2333-2563) for both formats; the binary format alone is in M_Python.v.
    Not modelled: running out of memory, [stringMode] and [datetimeBuilder] of [loads], [encoding] of [dumps] (not used in Python 3). *)
From Verif Require Import Base Value Text M_Marshal M_BinUnmarshal M_Xml M_XmlUm M_Python.

Section Dumps.
  Variable host : datetime -> datetime.
  Variable fin : Z -> bytes.      (* how finite doubles are printed *)

  (** The calls run on the marshaller (fastrpcmodule.cc 2365-2444), as [written] of M_Python.v. *)
  Definition run_calls (binary : bool) (ver : version) (cs : list mcall * option pyexn) : pyres bytes :=
    match (if binary then let '(o, f) := bin_run ver (fst cs) in (o, [], f) else let '(o, s, f) := xml_calls fin ver xms_init (fst cs) in (o, xml_flush s, f)) with
    | (_, _, Some f) => of_fail f
    | (o, flushed, None) => match snd cs with Some e => PyRaise e | None => PyOk (o ++ flushed) end
    end.
  (** [StringWriter_t::getData] (fastrpcmodule.cc 2311-2321): [bytes], or the text decoded strictly. *)
  Definition get_data (binary : bool) (o : bytes) : pyres py :=
    if binary then PyOk (PyBytes o) else match py_decode false o with Some u => PyOk (PyStr u) | None => PyRaise PE_Decode end.
  Definition then_data (binary : bool) (r : pyres bytes) : pyres py :=
    match r with PyOk o => get_data binary o | PyRaise e => PyRaise e | PyAbort => PyAbort | PyUndef => PyUndef end.

  (** [dumps] (fastrpcmodule.cc 2333-2447); [use_binary] is a number (format "i"), true if it is not zero.  [methodresponse] has no effect: without a
      name it is a response. *)
  Definition dumps_any (use_binary major minor : Z) (method : option pystr) (params : py) : pyres py :=
    let binary := negb (use_binary =? 0) in
    match (match method with None => PyOk None | Some m => match method_arg m with PyOk s => PyOk (Some s) | PyRaise e => PyRaise e | PyAbort => PyAbort | PyUndef => PyUndef end end) with
    | PyRaise e => PyRaise e | PyAbort => PyAbort | PyUndef => PyUndef
    | PyOk name =>
        if (major <? 0) || (minor <? 0) then PyRaise PE_Runtime else
        let ver := mkVer (u8 major) (u8 minor) in
        if 3 <? v_major ver then PyAbort else
        match params with
        | PyTuple l | PyList l =>
            match name with
            | Some s => then_data binary (run_calls binary ver (PMethodCall s :: fst (feed_args host l), snd (feed_args host l)))
            | None =>
                match l with
                | [] => then_data binary (run_calls binary ver ([PMethodResponse], None))
                | x :: _ => then_data binary (run_calls binary ver (PMethodResponse :: fst (feed_py host x), snd (feed_py host x)))
                end
            end
        | PyFault code msg =>
            match (match code with PyInt z => Some z | PyBool b => Some (if b then 1 else 0) | _ => None end) with
            | None => PyRaise PE_Type
            | Some z =>
                match msg with
                | PyStr m =>
                    match py_encode m with
                    | None => PyRaise PE_Encode
                    | Some m =>
                        if (- 2 ^ 63 <=? z) && (z <? 2 ^ 63) then then_data binary (run_calls binary ver ([PFault (s32 z) m], None))
                        else match then_data binary (run_calls binary ver ([PFault (-1) m], None)) with PyOk _ => PyRaise PE_System | r => r end
                    end
                | _ => PyRaise PE_Type
                end
            end
        | _ => PyRaise PE_Type
        end
    end.

  Variable pass native : bool.
  Variable P : parser.
  Variable strtod : bytes -> option Z.
  Variable erange : bool.
  Notation step := (pb_step host pass native).

  (** A new unmarshaller of XML or of the binary format given the data (frpcunmarshaller.cc 96-114). *)
  Definition take_xml (b : pb) (data : bytes) : pb * option fail :=
    let '(_, batch, code) := ps_take P (ps_init P) data in
    let '(_, b', f) := x_unmarshall step strtod erange TYPE_ANY xun_init b data batch code in (b', f).
  Definition take_binary (b : pb) (data : bytes) : pb * option fail :=
    let '(_, b', f) := unmarshall pb step TYPE_ANY unm_init b data in (b', f).
  (** [UnMarshaller_t::create] (frpcunmarshaller.cc 88-117).  Data of less than four bytes are given to an unmarshaller of XML first, which writes to the
      same builder.  The bytes of a Python object are followed by a NUL, so the comparison of two bytes ends there. *)
  Definition is_magic (data : bytes) : bool := match data with a :: c :: _ => (b2z a =? 202) && (b2z c =? 17) | _ => false end.
  Definition take_detected (data : bytes) : pb * option fail :=
    match (if blen data <? 4 then take_xml pb_init data else (pb_init, None)) with
    | (b, Some f) => (b, Some f)
    | (b, None) => if is_magic data then take_binary b data else take_xml b data
    end.
  (** [loads] (fastrpcmodule.cc 2459-2562); [use_binary] is None, or an object taken for true or false. *)
  Definition loads_any (use_binary : option bool) (data : bytes) : pyres (py * option pystr) :=
    match (match use_binary with None => take_detected data | Some true => take_binary pb_init data | Some false => take_xml pb_init data end) with
    | (_, Some f) => of_fail f
    | (b, None) =>
        match pb_data b with
        | PyRaise e => PyRaise e | PyAbort => PyAbort | PyUndef => PyUndef
        | PyOk (PyFault code msg) => PyRaise (PE_Fault code msg)
        | PyOk v => match pb_name b with PyOk n => PyOk (v, n) | PyRaise e => PyRaise e | PyAbort => PyAbort | PyUndef => PyUndef end
        end
    end.
  (** The data of [loads] (fastrpcmodule.cc 2483-2500): [bytes], or a [str] in UTF-8. *)
  Definition loads_data (use_binary : option bool) (data : py) : pyres (py * option pystr) :=
    match data with
    | PyBytes s => loads_any use_binary s
    | PyStr u => match py_encode u with Some s => loads_any use_binary s | None => PyRaise PE_Encode end
    | _ => PyRaise PE_Type
    end.
End Dumps.
