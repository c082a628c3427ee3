(** Model of the method registry of the Python binding (python/pythonserver.cc), for Python 3: registering, [dispatch], callbacks, the
    system methods.  Not modelled: running out of memory, reference counts, the times given to the postprocessor, changes of
    the list a default [listMethods] returns (the names are appended to that list itself, pythonserver.cc 1691-1711). *)
From Verif Require Import Base Value M_Marshal M_Registry M_Python.

(** Error codes (frpcmethodregistry.h 57-68) besides those of M_Registry.v. *)
Definition FRPC_INTROSPECTION_DISABLED_ERROR := -508.

(** A text of ASCII characters as a [str]. *)
Definition ustr (s : string) : pystr := map b2z (str s).

(** An exception as [PyErr_Fetch] gives it: whether its class is [fastrpc.Fault] (or derived), its value, and the text
    "class: value" [makeFault] needs, [None] if making this text raises.  The value is an instance of the class if the exception
    was raised by Python code; of one raised by C code it may be the arguments instead. *)
Record thrown : Type := mkThrown { t_fault : bool; t_value : py; t_text : option pystr }.
(** How a call of a Python callable ends; [Crashed]: undefined behaviour of the module. *)
Inductive called : Type := Returned (v : py) | Threw (t : thrown) | Crashed.

(** [stringToSignature] (pythonserver.cc 123-219): [None] is a ValueError; [idx] is [currentIndex]. *)
Fixpoint signature_loop (idx : Z) (done cur : list py) (s : bytes) : option (list py) :=
  match s with
  | [] => Some (done ++ [PyList cur])
  | c :: r =>
      if b2z c =? 58 then if idx =? 1 then signature_loop (idx + 1) done cur r else None
      else if b2z c =? 44 then if idx <? 2 then None else signature_loop 0 (done ++ [PyList cur]) [] r
      else match type_word c with
           | None => None
           | Some w => if idx =? 1 then None else signature_loop (idx + 1) done (cur ++ [PyStr (map b2z w)]) r
           end
  end.
Definition to_signature (s : bytes) : option py := option_map PyList (signature_loop 0 [] [] s).
(** The signature given to [register] (pythonserver.cc 2196-2216): a [str] is converted, another object kept. *)
Definition signature_arg (p : py) : pyres py :=
  match p with
  | PyStr s => match py_encode s with
               | None => PyRaise PE_Encode
               | Some b => match to_signature b with Some x => PyOk x | None => PyRaise PE_Value end
               end
  | _ => PyOk p
  end.

Section PyRegistry.
  Context {W : Type}.
  (** "class: value" of the exceptions of the interpreter and the module. *)
  Variable own : pyexn -> pystr.

  Definition threw (e : pyexn) : thrown :=
    match e with
    | PE_Fault c m => mkThrown true (PyFault c m) (Some (own e))
    | _ => mkThrown false PyOther (Some (own e))
    end.

  (** What is called for a method ([Method_t::operator()], pythonserver.cc 2232-2250): a callable given the parameters; a callable
      given its context and the [tuple] of the parameters ([None]: without them); the registry itself. *)
  Inductive pkind : Type :=
  | Plain (f : W -> list py -> W * called)
  | With_context (f : W -> option (list py) -> W * called)
  | Sys_list | Sys_signature | Sys_help | Sys_multicall.
  Record pmethod : Type := mkMethod { m_kind : pkind; m_signature : py; m_help : py; m_names : option (py * Z) }.

  (** [MethodRegistryObject] (pythonserver.cc 251-268); the map by name is sorted. *)
  Record pregistry : Type := mkPReg {
    r_pre : option (W -> pystr -> py -> list py -> option (py * Z) -> W * called);
    r_post : option (W -> pystr -> py -> list py -> option py -> option py -> option thrown -> W * called);
    r_methods : list (bytes * pmethod);
    r_default : option (W -> pystr -> list py -> W * called);
    r_list : option (W -> W * called);
    r_help : option (W -> pystr -> W * called);
    r_signature : option (W -> pystr -> W * called);
    r_introspection : bool
  }.
  Definition with_method (name : bytes) (m : pmethod) (g : pregistry) : pregistry :=
    mkPReg (r_pre g) (r_post g) (map_set name m (r_methods g)) (r_default g) (r_list g) (r_help g) (r_signature g) (r_introspection g).

  (** The constructor (pythonserver.cc 1332-1408). *)
  Definition new_pregistry pre post (introspection : bool) : pregistry :=
    let sys k name sig help := with_method (str name) (mkMethod k (match to_signature (str sig) with Some x => x | None => PyNone end) (PyStr (ustr help)) None) in
    sys Sys_multicall "system.multicall"%string "A:A"%string
      "Process an array of calls, and return an array of results. Calls should be structs of the form {'methodName': string, 'params': array}. Each result will either be a single-item array containg the result value, or a struct of the form {'faultCode': int, 'faultString': string}. This is useful when you need to make lots of small calls without lots of round trips."%string
    (sys Sys_help "system.methodHelp"%string "s:s"%string "Given the name of a method, return a help string."%string
    (sys Sys_signature "system.methodSignature"%string "s:s"%string
      "Given the name of a method, return an array of legal signatures. Each signature is an array of strings. The first item of each signature is the return type, and any others items are parameter types."%string
    (sys Sys_list "system.listMethods"%string "A:"%string "Return an array of all available RPC methods on this server."%string
      (mkPReg pre post [] None None None None introspection)))).

  (** [register] (pythonserver.cc 1410-1450), with a callable; the name is a C string (format "s"), the help text [bytes] (format "S"),
      by default "", the signature by default (). *)
  Definition help_arg (help : option py) : pyres py :=
    match help with None => PyOk (PyStr []) | Some (PyBytes b) => PyOk (PyBytes b) | Some _ => PyRaise PE_Type end.
  Definition pregister (name : pystr) (k : pkind) (signature : option py) (help : option py) (names : option (py * Z)) (g : pregistry) : pyres pregistry :=
    match method_arg name, help_arg help, signature_arg (match signature with Some x => x | None => PyTuple [] end) with
    | PyOk n, PyOk h, PyOk s => PyOk (with_method n (mkMethod k s h names) g)
    | PyRaise e, _, _ | PyOk _, PyRaise e, _ | PyOk _, PyOk _, PyRaise e => PyRaise e
    | PyAbort, _, _ | PyOk _, PyAbort, _ | PyOk _, PyOk _, PyAbort => PyAbort
    | PyUndef, _, _ | PyOk _, PyUndef, _ | PyOk _, PyOk _, PyUndef => PyUndef
    end.

  (** [makeFault] with a format "Method '%s' not found." (pythonserver.cc 306-317): a buffer of 512 bytes, decoded strictly ("s" in
      [Py_BuildValue]). *)
  Definition fault_not_found (code : Z) (name : bytes) : option py :=
    option_map (fun m => PyFault (PyInt code) (PyStr m)) (py_decode false (ztake 511 (str "Method '" ++ c_string name ++ str "' not found."))).
  (** [makeFault] for an exception (pythonserver.cc 319-352): a fault is taken as it is. *)
  Definition fault_of (msg : string) (t : thrown) : option py :=
    if t_fault t then Some (t_value t)
    else option_map (fun x => PyFault (PyInt FRPC_INTERNAL_ERROR) (PyStr (ustr msg ++ x))) (t_text t).
  (** [makeFaultStruct] (pythonserver.cc 364-375), [faultToStruct] (377-391). *)
  Definition fault_dict (code msg : py) : py := PyDict [(PyStr (ustr "faultCode"), code); (PyStr (ustr "faultString"), msg)].
  Definition plain_fault (code : Z) (msg : string) : py := PyFault (PyInt code) (PyStr (ustr msg)).

  (** A [str] argument (format "s"). *)
  Definition one_string (params : list py) : option (pystr * bytes) :=
    match params with
    | [PyStr s] => match method_arg s with PyOk b => Some (s, b) | _ => None end
    | _ => None
    end.

  (** Sorting a list of [str]s ([PyList_Sort]): by code points.  Of other objects the comparison raises. *)
  Fixpoint str_leb (a b : pystr) : bool :=
    match a, b with
    | [], _ => true
    | _ :: _, [] => false
    | x :: a, y :: b => if x <? y then true else if y <? x then false else str_leb a b
    end.
  Fixpoint insert_str (x : pystr) (l : list pystr) : list pystr :=
    match l with [] => [x] | y :: r => if str_leb x y then x :: l else y :: insert_str x r end.
  Definition sort_strs (l : list pystr) : list pystr := fold_right insert_str [] l.
  Fixpoint all_strs (l : list py) : option (list pystr) :=
    match l with
    | [] => Some []
    | PyStr s :: r => option_map (cons s) (all_strs r)
    | _ => None
    end.
  Fixpoint decoded_names (l : list bytes) : option (list py) :=
    match l with
    | [] => Some []
    | b :: r => match py_decode false b, decoded_names r with Some s, Some t => Some (PyStr s :: t) | _, _ => None end
    end.

  (** [system_listMethods] (pythonserver.cc 1668-1718): the parameters are not looked at. *)
  Definition list_of (g : pregistry) (w : W) : W * called :=
    if negb (r_introspection g) then (w, Returned (plain_fault FRPC_INTROSPECTION_DISABLED_ERROR "Introspection API disabled for security reasons.")) else
    let '(w1, first) := match r_list g with None => (w, Returned (PyList [])) | Some f => f w end in
    match first with
    | Returned (PyList l) =>
        match decoded_names (map fst (r_methods g)) with
        | None => (w1, Threw (threw PE_Decode))
        | Some names =>
            match l with
            | [] => (w1, Returned (PyList names))
            | _ => match all_strs (l ++ names) with
                   | Some strs => (w1, Returned (PyList (map PyStr (sort_strs strs))))
                   | None => (w1, Threw (threw PE_Type))
                   end
            end
        end
    | Returned _ => (w1, Threw (threw PE_System))
    | x => (w1, x)
    end.

  (** [system_methodSignature] (pythonserver.cc 1720-1773), [system_methodHelp] (1775-1809). *)
  Definition about (fallback : option (W -> pystr -> W * called)) (convert : py -> called) (field : pmethod -> py) (g : pregistry) (w : W) (params : list py) : W * called :=
    match one_string params with
    | None => (w, Returned (plain_fault FRPC_TYPE_ERROR "Method expects only one string."))
    | Some (s, name) =>
        if negb (r_introspection g) then (w, Returned (plain_fault FRPC_INTROSPECTION_DISABLED_ERROR "Introspection API disabled for security reasons.")) else
        match map_get name (r_methods g) with
        | Some m => (w, Returned (field m))
        | None =>
            match fallback with
            | Some f => let '(w1, x) := f w s in (w1, match x with Returned v => convert v | x => x end)
            | None => (w, match fault_not_found FRPC_INDEX_ERROR name with Some f => Returned f | None => Threw (threw PE_Decode) end)
            end
        end
    end.
  Definition signature_of (g : pregistry) : W -> list py -> W * called :=
    about (r_signature g) (fun v => match signature_arg v with PyOk x => Returned x | PyRaise e => Threw (threw e) | _ => Crashed end) m_signature g.
  Definition help_of (g : pregistry) : W -> list py -> W * called := about (r_help g) Returned m_help g.

  (** Outcome of [dispatchCall]: an object, or null. *)
  Inductive dispatched : Type := D_value (v : py) | D_null | D_crash.
  Definition of_option (x : option py) : dispatched := match x with Some v => D_value v | None => D_null end.

  (** [PyDict_GetItemString]. *)
  Fixpoint dict_get (k : pystr) (m : list (py * py)) : option py :=
    match m with
    | [] => None
    | (PyStr k', v) :: r => if pystr_eqb k k' then Some v else dict_get k r
    | _ :: r => dict_get k r
    end.

  Section Multicall.
    Variable again : W -> bytes -> list py -> W * dispatched.   (* dispatchCall for this client *)
    (** One element (pythonserver.cc 1828-1920). *)
    Definition multi_one (w : W) (e : py) : W * called :=
      let type_fault msg := (w, Returned (fault_dict (PyInt FRPC_TYPE_ERROR) (PyStr (ustr msg)))) in
      match e with
      | PyDict m =>
          match dict_get (ustr "params") m with
          | None => type_fault "Cannot get params."%string
          | Some (PyList ps) | Some (PyTuple ps) =>
              match dict_get (ustr "methodName") m with
              | None => type_fault "Cannot get methodName."%string
              | Some n =>
                  let no_name x := (w, Returned (fault_dict (PyInt FRPC_INTERNAL_ERROR) (PyStr (ustr "Cannot convert methodName to string." ++ own x)))) in
                  match n with
                  | PyStr s =>
                      match py_encode s with
                      | None => no_name PE_Encode
                      | Some b =>
                          match again w (c_string b) ps with
                          | (w1, D_value (PyFault c m)) => (w1, Returned (fault_dict c m))
                          | (w1, D_value v) => (w1, Returned v)
                          | (w1, _) => (w1, Crashed)      (* PyObject_IsInstance of a null object *)
                          end
                      end
                  | _ => no_name PE_Type
                  end
              end
          | Some _ => type_fault "Params must be an array."%string
          end
      | _ => type_fault "Expected structure with method call."%string
      end.
    Fixpoint multi_all (w : W) (acc : list py) (l : list py) : W * called :=
      match l with
      | [] => (w, Returned (PyList acc))
      | e :: r => match multi_one w e with
                  | (w1, Returned v) => multi_all w1 (acc ++ [v]) r
                  | x => x
                  end
      end.
    (** [system_multicall] (pythonserver.cc 1811-1924). *)
    Definition multicall_of (w : W) (params : list py) : W * called :=
      match params with
      | [PyList l] => multi_all w [] l
      | _ => (w, Threw (threw PE_Type))
      end.
  End Multicall.

  (** The parameters given to [dispatchCall]: a [tuple], or null with an exception set (the strings of the call could not be
      decoded). *)
  Inductive given : Type := Params (l : list py) | No_params (t : thrown).

  (** The result of a call made while an exception is set: CPython runs the callable and refuses its result.  Simplification: that
      the callable is not disturbed by it. *)
  Definition run_with (pending : option thrown) (x : called) : called :=
    match pending, x with Some _, Returned _ => Threw (threw PE_System) | _, _ => x end.

  Section Dispatch.
    Variable again : W -> bytes -> list py -> W * dispatched.
    Variable g : pregistry.
    (** [Method_t::operator()] (pythonserver.cc 2232-2250): without parameters a callable is called with no arguments (a null argument
        tuple), or with the context only. *)
    Definition call_kind (w : W) (k : pkind) (params : given) : W * called :=
      let sys f := match params with Params l => f l | No_params t => (w, Threw t) end in
      match k with
      | Plain f => f w (match params with Params l => l | No_params _ => [] end)
      | With_context f => f w (match params with Params l => Some l | No_params _ => None end)
      | Sys_list => sys (fun _ => list_of g w)
      | Sys_signature => sys (signature_of g w)
      | Sys_help => sys (help_of g w)
      | Sys_multicall => sys (multicall_of again w)
      end.

    (** What is raised when a call is made with this name and these parameters, and one of them is no object. *)
    Definition refused (name : bytes) (params : given) : thrown :=
      match py_decode false name, params with None, _ => threw PE_Decode | _, No_params t => t | _, _ => threw PE_System end.

    (** The preprocessor (pythonserver.cc 1568-1586): the result if it refuses the call, the exception left pending. *)
    Definition pre_stage (w : W) (name : bytes) (client : py) (params : given) : W * option called * option thrown :=
      let unset := match params with Params _ => None | No_params t => Some t end in
      match r_pre g with
      | None => (w, None, unset)
      | Some f =>
          let '(w1, x) := match py_decode false name, params with
                          | Some n, Params l => f w n client l (match map_get name (r_methods g) with Some m => m_names m | None => None end)
                          | _, _ => (w, Threw (refused name params))
                          end in
          match x with
          | Returned _ => (w1, None, unset)
          | Threw t => match fault_of "Unhandled exception in preprocessor " t with
                       | Some r => (w1, Some (Returned r), None)
                       | None => (w1, None, Some t)
                       end
          | Crashed => (w1, Some Crashed, None)
          end
      end.

    (** The call (pythonserver.cc 1588-1615).  The fault for an unknown method is made by a call, too. *)
    Definition call_stage (w : W) (name : bytes) (params : given) (pending : option thrown) : W * called :=
      match map_get name (r_methods g), r_default g with
      | Some m, _ => let '(w2, x) := call_kind w (m_kind m) params in (w2, run_with pending x)
      | None, Some d => match py_decode false name, params with
                        | Some n, Params l => let '(w2, x) := d w n l in (w2, run_with pending x)
                        | _, _ => (w, Threw (refused name params))
                        end
      | None, None => (w, match pending, fault_not_found FRPC_NO_SUCH_METHOD_ERROR name with
                          | Some _, _ => Threw (threw PE_System)
                          | None, Some r => Returned r
                          | None, None => Threw (threw PE_Decode)
                          end)
      end.

    (** The postprocessor (pythonserver.cc 1617-1666).  A null argument to [PyObject_Call] is undefined. *)
    Definition post_stage (w : W) (name : bytes) (client : py) (params : given) (outcome : called) : W * dispatched :=
      let final := match outcome with Threw t => of_option (fault_of "Unhandled exception " t) | Returned v => D_value v | Crashed => D_crash end in
      match outcome, r_post g with
      | Crashed, _ | _, None => (w, final)
      | _, Some f =>
          let fault := match outcome with
                       | Returned (PyFault c m) => Some (PyFault c m)
                       | Threw t => if t_fault t then Some (t_value t) else None
                       | _ => None
                       end in
          match py_decode false name, params with
          | Some n, Params l =>
              let result := match fault, outcome with None, Returned v => Some v | _, _ => None end in
              let exc := match fault, outcome with None, Threw t => Some t | _, _ => None end in
              let '(w3, x) := f w n client l result fault exc in
              match x with
              | Returned PyNone => (w3, final)
              | Returned v => (w3, D_value v)
              | Threw t => (w3, of_option (fault_of "Unhandled exception in postprocessor " t))
              | Crashed => (w3, D_crash)
              end
          | _, _ => (w, D_crash)
          end
      end.

    (** [dispatchCall] (pythonserver.cc 1546-1666): [client] is the address. *)
    Definition dispatch_body (w : W) (name : bytes) (client : py) (params : given) : W * dispatched :=
      let '(w1, result, pending) := pre_stage w name client params in
      let '(w2, outcome) := match result with Some x => (w1, x) | None => call_stage w1 name params pending end in
      post_stage w2 name client params outcome.
  End Dispatch.

  (** A multicall within a multicall has parameters nested more deeply: [fuel] above the nesting suffices (L_PyRegistry.v). *)
  Fixpoint dispatch_fuel (fuel : nat) (g : pregistry) (client : py) (w : W) (name : bytes) (params : given) : W * dispatched :=
    dispatch_body (match fuel with
                   | O => fun w _ _ => (w, D_crash)
                   | S k => fun w n ps => dispatch_fuel k g client w n (Params ps)
                   end) g w name client params.
  Fixpoint py_nesting (p : py) : nat :=
    match p with
    | PyList l | PyTuple l => S (fold_right (fun x n => Nat.max (py_nesting x) n) O l)
    | PyDict m => S (fold_right (fun kv n => Nat.max (py_nesting (snd kv)) n) O m)
    | _ => O
    end.
  (** The name is a C string, which holds no NUL. *)
  Definition dispatch_call (g : pregistry) (client : py) (w : W) (name : bytes) (params : given) : W * dispatched :=
    dispatch_fuel (match params with Params l => S (py_nesting (PyTuple l)) | No_params _ => O end) g client w name params.
End PyRegistry.
