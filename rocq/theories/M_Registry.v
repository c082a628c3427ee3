(** Model of src/frpcmethodregistry.cc: the dispatching of calls and the system methods. *)
From Verif Require Import Base Value Text M_Marshal M_BinUnmarshal M_TreeBuilder M_Values M_Base64 M_Json M_Iso M_Url M_Xml.

(** Error codes (frpcmethodregistry.h 57-68). *)
Definition FRPC_INTERNAL_ERROR := -500.
Definition FRPC_TYPE_ERROR := -501.
Definition FRPC_INDEX_ERROR := -502.
Definition FRPC_PARSE_ERROR := -503.
Definition FRPC_NO_SUCH_METHOD_ERROR := -506.

(** [Fault_t::format] (frpcfault.cc 38-53): at most 1023 characters, arguments being C strings. *)
Definition printf1 (a s b : bytes) : bytes := ztake 1023 (a ++ c_str s ++ b).
Definition not_found (name : bytes) : exn :=
  FaultExn FRPC_NO_SUCH_METHOD_ERROR (printf1 (str "Method ") name (str " not found")).
Definition args_error (wanted : bytes) (params : list value) : exn :=
  FaultExn FRPC_TYPE_ERROR (str "Method required " ++ wanted ++ str " but " ++ dec (zlen params) ++ str " argumet(s) given").

(** [String(v)] (frpcstring.h 169-178), [Array(v)] (frpcarray.h 234-241). *)
Definition as_string (v : value) : res bytes := match v with VString s => Ok s | _ => Err TypeError end.
Definition as_array (v : value) : res (list value) := match v with VArray l => Ok l | _ => Err TypeError end.

(** * Marshallers behind the interface [Marshaller_t] *)
Record marshaller : Type := mkMar {
  ma_state : Type;
  ma_init : ma_state;
  ma_call : ma_state -> mcall -> bytes * ma_state * option fail;
  ma_flush : ma_state -> bytes
}.
(** Calls up to an exception; what was written stays written. *)
Fixpoint ma_run (m : marshaller) (s : ma_state m) (cs : list mcall) : bytes * ma_state m * option fail :=
  match cs with
  | [] => ([], s, None)
  | c :: r =>
      match ma_call m s c with
      | (o, s', None) => let '(o', s'', f) := ma_run m s' r in (o ++ o', s'', f)
      | x => x
      end
  end.
(** frpcbinmarshaller.cc, frpcxmlmarshaller.cc, frpcjsonmarshaller.cc (M_Marshal.v, M_Xml.v, M_Json.v), and the binary
    one behind a [Base64Writer_t] (frpcb64marshaller.h, M_Base64.v). *)
Definition bin_ma (ver : version) : marshaller :=
  mkMar unit tt (fun _ c => let '(o, f) := bin_pack ver c in (o, tt, f)) (fun _ => []).
Definition xml_ma (fin : Z -> bytes) (ver : version) : marshaller := mkMar xms xms_init (xml_call fin ver) xml_flush.
Definition json_ma (fin : Z -> bytes) : marshaller :=
  mkMar jctx [] (fun s c => match json_call fin s c with
                            | Ok (o, s') => (o, s', None)
                            | Err e => ([], s, Some (Exn e))
                            | UB => ([], s, Some Undef)
                            end) (fun s => json_flush (flush_rounds s) s).
Definition b64_ma (ver : version) : marshaller :=
  mkMar (b64_pos * Z) (B64_first, 0)
    (fun s c => let '(o, f) := bin_pack ver c in let '(t, s') := b64w_write s o in (t, s', f)) b64w_flush.

(** * Unmarshallers with their tree builder, behind [UnMarshaller_t] and [TreeBuilder_t] *)
Record unmarshaller : Type := mkUm {
  um_state : Type;
  um_init : um_state;
  um_take : um_state -> bytes -> um_state * option fail;    (* unMarshall(.., TYPE_METHOD_CALL) *)
  um_finish : um_state -> um_state * res unit;
  um_version : um_state -> version;
  um_builder : um_state -> tb
}.
Fixpoint um_all (u : unmarshaller) (s : um_state u) (pieces : list bytes) : um_state u * option fail :=
  match pieces with
  | [] => (s, None)
  | d :: r => match um_take u s d with
              | (s', None) => um_all u s' r
              | x => x
              end
  end.
(** frpcbinunmarshaller.cc (M_BinUnmarshal.v). *)
Definition bin_um (val : option mktime_t) (req : Z) : unmarshaller :=
  mkUm (unm * tb) (unm_init, tb_init)
    (fun s d => let '(u, t, f) := unmarshall_all tb (tb_step val) req (fst s) (snd s) [d] in ((u, t), f))
    (fun s => (s, unm_finish (fst s))) (fun s => c_ver (u_core (fst s))) snd.

Section Registry.
  (** The state of the application the methods work on. *)
  Context {W : Type}.
  (** [message()] / [what()] of the exceptions other than faults. *)
  Variable message : exn -> bytes.

  (** [Method_t] (frpcmethod.h), [DefaultMethod_t], [HeadMethod_t].  Methods do not change their parameters. *)
  Definition umethod := W -> list value -> W * res value.
  Inductive handler : Type :=
  | User (f : umethod)
  | List_methods
  | Method_help
  | Method_signature
  | Multicall.
  Record entry : Type := mkEntry { e_handler : handler; e_signature : bytes; e_help : bytes }.
  Record registry : Type := mkReg {
    g_methods : list (bytes * entry);
    g_default : option (W -> bytes -> list value -> W * res value);
    g_head : option (W -> W * bool)
  }.

  (** [registerMethod] (frpcmethodregistry.cc 116-131), [registerDefaultMethod], [registerHeadMethod] (133-141), the constructor (95-114). *)
  Definition register (name : bytes) (e : entry) (g : registry) : registry :=
    mkReg (map_set name e (g_methods g)) (g_default g) (g_head g).
  Definition register_default d (g : registry) : registry := mkReg (g_methods g) (Some d) (g_head g).
  Definition register_head h (g : registry) : registry := mkReg (g_methods g) (g_default g) (Some h).
  Definition new_registry (introspection : bool) : registry :=
    let g := mkReg [] None None in
    if introspection then
      register (str "system.multicall") (mkEntry Multicall (str "A:A") (str "Call given methods"))
      (register (str "system.methodSignature") (mkEntry Method_signature (str "A:s") (str "Return given method signature"))
      (register (str "system.methodHelp") (mkEntry Method_help (str "s:s") (str "Return given method help"))
      (register (str "system.listMethods") (mkEntry List_methods (str "A:") (str "List all registered methods")) g)))
    else g.

  (** [listMethods] (frpcmethodregistry.cc 387-404). *)
  Definition list_methods (g : registry) (params : list value) : res value :=
    match params with
    | [] => Ok (VArray (map (fun e => VString (fst e)) (g_methods g)))
    | _ => Err (args_error (str "0 arguments") params)
    end.

  (** The method a system method is asked about: [checkItems("s")] and the search (frpcmethodregistry.cc 408-424, 431-444). *)
  Definition asked (g : registry) (params : list value) : res entry :=
    if negb (zlen params =? 1) then Err (args_error (str "1 argument") params)
    else
      bind (check_items (str "s") params) (fun _ =>
      bind (array_at 0 params) (fun p =>
      bind (as_string p) (fun name =>
        match map_get name (g_methods g) with Some e => Ok e | None => Err (not_found name) end))).

  (** [methodHelp] (frpcmethodregistry.cc 406-427). *)
  Definition method_help (g : registry) (params : list value) : res value :=
    bind (asked g params) (fun e => Ok (VString (e_help e))).

  (** [methodSignature] (frpcmethodregistry.cc 429-493): [cur] is [actual]. *)
  Definition type_word (c : byte) : option bytes :=
    let z := b2z c in
    if z =? 65 then Some (str "array")
    else if z =? 83 then Some (str "struct")
    else if z =? 66 then Some (str "binary")
    else if z =? 68 then Some (str "dateTime")
    else if z =? 98 then Some (str "bool")
    else if z =? 100 then Some (str "double")
    else if z =? 105 then Some (str "int")
    else if z =? 115 then Some (str "string")
    else None.
  Fixpoint signature_arrays (cur : list value) (s : bytes) : list value :=
    match s with
    | [] => [VArray cur]
    | c :: r =>
        if b2z c =? 44 then VArray cur :: signature_arrays [] r
        else match type_word c with
             | Some w => signature_arrays (cur ++ [VString w]) r
             | None => signature_arrays cur r
             end
    end.
  Definition method_signature (g : registry) (params : list value) : res value :=
    bind (asked g params) (fun e => Ok (VArray (signature_arrays [] (e_signature e)))).

  (** A fault as a result of [multicall] (frpcmethodregistry.cc 510-512, 546-577). *)
  Definition fault_struct (code : Z) (msg : bytes) : value :=
    VStruct [(str "faultCode", VInt code); (str "faultString", VString msg)].

  (** What an entry of [multicall] appends for an outcome (frpcmethodregistry.cc 544-577); [None]: the exception is not caught there. *)
  Definition entry_result (x : res value) : option value :=
    match x with
    | Ok v => Some v
    | Err (FaultExn c m) => Some (fault_struct c m)
    | Err (TypeError as e) | Err (LenError as e) => Some (fault_struct FRPC_TYPE_ERROR (message e))
    | Err (KeyError as e) | Err (IndexError as e) => Some (fault_struct FRPC_INDEX_ERROR (message e))
    | _ => None
    end.

  Section Multicall.
    (** [pos->second.method->call(pool, params)]. *)
    Variable call : W -> handler -> list value -> W * res value.
    Variable g : registry.

    (** One struct (frpcmethodregistry.cc 518-542). *)
    Definition multi_entry (w : W) (m : list (bytes * value)) : W * res value :=
      match bind (struct_at (str "methodName") m) as_string with
      | Ok name =>
          let params := bind (struct_at (str "params") m) as_array in
          let go f := match params with Ok ps => f ps | Err e => (w, Err e) | UB => (w, UB) end in
          match map_get name (g_methods g) with
          | Some e => go (call w (e_handler e))
          | None => match g_default g with
                    | Some d => go (d w name)
                    | None => (w, Err (not_found name))
                    end
          end
      | Err e => (w, Err e)
      | UB => (w, UB)
      end.

    (** The loop (frpcmethodregistry.cc 505-578): [acc] is the array so far. *)
    Fixpoint multi_loop (w : W) (acc : list value) (l : list value) : W * res value :=
      match l with
      | [] => (w, Ok (VArray acc))
      | VStruct m :: r =>
          let '(w', x) := multi_entry w m in
          match entry_result x with
          | Some v => multi_loop w' (acc ++ [v]) r
          | None => (w', match x with Err e => Err e | _ => UB end)
          end
      | _ :: r => multi_loop w (acc ++ [fault_struct FRPC_TYPE_ERROR (str "Parameter must be struct")]) r
      end.

    (** [multicall] (frpcmethodregistry.cc 494-581). *)
    Definition multicall (w : W) (params : list value) : W * res value :=
      if negb (zlen params =? 1) then (w, Err (args_error (str "1 argument") params))
      else
        match bind (check_items (str "A") params) (fun _ => bind (array_at 0 params) as_array) with
        | Ok l => multi_loop w [] l
        | Err e => (w, Err e)
        | UB => (w, UB)
        end.
  End Multicall.

  (** Calling a registered method.  A multicall within a multicall has parameters nested more deeply, so [fuel] above
      the nesting suffices (L_Registry.v). *)
  Fixpoint call_method (fuel : nat) (g : registry) (w : W) (h : handler) (params : list value) : W * res value :=
    match h with
    | User f => f w params
    | List_methods => (w, list_methods g params)
    | Method_help => (w, method_help g params)
    | Method_signature => (w, method_signature g params)
    | Multicall =>
        match fuel with
        | O => (w, UB)
        | S k => multicall (call_method k g) g w params
        end
    end.
  Fixpoint nesting (v : value) : nat :=
    match v with
    | VStruct m => S (fold_right (fun kv n => Nat.max (nesting (snd kv)) n) O m)
    | VArray l => S (fold_right (fun x n => Nat.max (nesting x) n) O l)
    | VSecret x => S (nesting x)
    | _ => O
    end.
  Definition call_registered (g : registry) (w : W) (h : handler) (params : list value) : W * res value :=
    call_method (S (nesting (VArray params))) g w h params.

  (** * processCall *)
  (** Invocations of [Callbacks_t] (frpcmethodregistry.h 102-132): the given parameters and times are left out. *)
  Inductive callback : Type :=
  | Pre_process (name : bytes)
  | Post_value (name : bytes) (v : value)
  | Post_fault (name : bytes) (code : Z) (msg : bytes).

  (** The conversions of [processCall] (frpcmethodregistry.cc 250-277). *)
  Definition as_fault (e : exn) : exn :=
    match e with
    | TypeError | LenError => FaultExn FRPC_TYPE_ERROR (message e)
    | KeyError | IndexError => FaultExn FRPC_INDEX_ERROR (message e)
    | StreamError _ => FaultExn FRPC_PARSE_ERROR (message e)
    | _ => e
    end.

  (** [processCall] returning a value (frpcmethodregistry.cc 217-278). *)
  Definition process (g : registry) (w : W) (name : bytes) (params : list value) : W * list callback * res value :=
    let '(w', x) := match map_get name (g_methods g) with
                    | Some e => call_registered g w (e_handler e) params
                    | None => match g_default g with
                              | Some d => d w name params
                              | None => (w, Err (not_found name))
                              end
                    end in
    match x with
    | Ok v => (w', [Pre_process name; Post_value name v], Ok v)
    | Err e => (w', [Pre_process name], Err (as_fault e))
    | UB => (w', [Pre_process name], UB)
    end.

  (** What a call of a [processCall] with a writer does: state, callbacks, bytes written, whether the writer was flushed,
      and how it returned. *)
  Record outcome : Type := mkOut {
    o_world : W; o_log : list callback; o_bytes : bytes; o_flushed : bool; o_end : res unit
  }.

  (** [packFault] and [flush] of the marshaller in state [s], after [o] was written. *)
  Definition answer_fault (m : marshaller) (s : ma_state m) (w : W) (log : list callback) (o : bytes) (code : Z) (msg : bytes) : outcome :=
    match ma_run m s [PFault code (c_str msg)] with
    | (o', s', None) => mkOut w log (o ++ o' ++ ma_flush m s') true (Ok tt)
    | (o', _, Some (Exn e)) => mkOut w log (o ++ o') false (Err e)
    | (o', _, Some Undef) => mkOut w log (o ++ o') false UB
    end.

  (** The [catch] clauses (frpcmethodregistry.cc 170-212): [RuntimeError] stands for every other [std::exception], [OtherExn] for exceptions of
      other types. *)
  Definition answer_error (m : marshaller) (s : ma_state m) (w : W) (log : list callback) (o : bytes) (name : bytes) (e : exn) : outcome :=
    let fault code msg := answer_fault m s w (log ++ [Post_fault name code msg]) o code msg in
    match e with
    | StreamError _ => fault FRPC_PARSE_ERROR (message e)
    | FaultExn c msg => fault c msg
    | ProtocolError _ | HTTPError _ => mkOut w log o false (Err e)
    | OtherExn _ => fault FRPC_INTERNAL_ERROR (str "Caught unknown exception while dispatching method call.")
    | _ => fault FRPC_INTERNAL_ERROR (printf1 (str "Caught std::exception<") (message e) (str "> while dispatching method call."))
    end.

  (** [processCall] with a writer (frpcmethodregistry.cc 148-215). *)
  Definition answer (m : marshaller) (g : registry) (w : W) (name : bytes) (params : list value) : outcome :=
    match process g w name params with
    | (w', log, Ok v) =>
        match ma_run m (ma_init m) (response_calls v) with
        | (o, s, None) => mkOut w' log (o ++ ma_flush m s) true (Ok tt)
        | (o, s, Some (Exn e)) => answer_error m s w' log o name e
        | (o, _, Some Undef) => mkOut w' log o false UB
        end
    | (w', log, Err e) => answer_error m (ma_init m) w' log [] name e
    | (w', log, UB) => mkOut w' log [] false UB
    end.

  (** [processCall] with a reader (frpcmethodregistry.cc 280-308): [pieces] is what the reader returns before 0. *)
  Definition process_read (u : unmarshaller) (g : registry) (w : W) (pieces : list bytes) : W * list callback * res value :=
    let stream x := match x with
                    | Err (StreamError _ as e) => Err (FaultExn FRPC_PARSE_ERROR (message e))
                    | _ => x
                    end in
    match um_all u (um_init u) pieces with
    | (s, None) =>
        match bind (tb_data (um_builder u s)) as_array with
        | Ok params => let '(w', log, x) := process g w (tb_method (um_builder u s)) params in (w', log, stream x)
        | Err e => (w, [], stream (Err e))
        | UB => (w, [], UB)
        end
    | (_, Some (Exn e)) => (w, [], stream (Err e))
    | (_, Some Undef) => (w, [], UB)
    end.

  (** [processCall] with a reader and a writer (frpcmethodregistry.cc 310-365); [m v] is the marshaller for protocol version [v]. *)
  Definition answer_read (u : unmarshaller) (m : version -> marshaller) (g : registry) (w : W) (pieces : list bytes) : outcome :=
    let '(s, f) := um_all u (um_init u) pieces in
    let ma := m (um_version u s) in
    let caught w log o e :=
      match e with
      | StreamError _ => answer_fault ma (ma_init ma) w log o FRPC_PARSE_ERROR (message e)
      | FaultExn c msg => answer_fault ma (ma_init ma) w log o c msg
      | _ => mkOut w log o false (Err e)
      end in
    match f with
    | None =>
        match bind (tb_data (um_builder u s)) as_array with
        | Ok params =>
            match process g w (tb_method (um_builder u s)) params with
            | (w', log, Ok v) =>
                match ma_run ma (ma_init ma) (response_calls v) with
                | (o, s', None) => mkOut w' log (o ++ ma_flush ma s') true (Ok tt)
                | (o, _, Some (Exn e)) => caught w' log o e
                | (o, _, Some Undef) => mkOut w' log o false UB
                end
            | (w', log, Err e) => caught w' log [] e
            | (w', log, UB) => mkOut w' log [] false UB
            end
        | Err e => caught w [] [] e
        | UB => mkOut w [] [] false UB
        end
    | Some (Exn e) => caught w [] [] e
    | Some Undef => mkOut w [] [] false UB
    end.
End Registry.
