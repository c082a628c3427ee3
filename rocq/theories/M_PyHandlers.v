(** Model of the handlers that serve calls within Python web frameworks (python/fastrpc/handler/flask.py, aiohttp.py, tornado.py), with the fastrpc
    module present.  Not modelled: the frameworks, logging, the fields Server and Date of tornado.py, requests to the same handler that overlap while a
    coroutine waits (aiohttp.py), the wrapping of functions by [typechecked] (flask.py 80-81: the function registered is the wrapped one), a [dict] a
    method returns and keeps (flask.py 192-198 changes it). *)
From Verif Require Import Base Value Text M_Marshal M_Xml M_XmlUm M_Python M_PyRegistry M_PyDumps.

(** A request as the framework gives it: the values of its fields Content-Type and Accept if it has them, and the body in the chunks it was sent in. *)
Record hrequest : Type := mkHReq { hq_type : option pystr; hq_accept : option pystr; hq_chunks : list bytes }.

(** An exception of a method: whether it is an [Exception], the name of its class, [str] of it ([None]: that raises). *)
Record hexc : Type := mkHExc { x_exception : bool; x_class : pystr; x_text : option pystr }.
Inductive hresult : Type := HReturn (v : py) | HRaise (x : hexc).

(** What the framework gets: a plain response, a response to a call (the value of Content-Type, of Content-Length and those of Accept, the body), an exception. *)
Inductive hfail : Type := F_key | F_not_implemented | F_py (e : pyexn) | F_exc (x : hexc).
Inductive hanswer : Type :=
| A_plain (status : Z)
| A_rpc (ctype : pystr) (length : Z) (accept : list pystr) (body : py)
| A_raise (e : hfail)
| A_abort
| A_undef.

Definition FRPC_TYPE : pystr := ustr "application/x-frpc".
Definition XML_TYPE : pystr := ustr "text/xml".
Definition str_eqb (a b : pystr) : bool := if list_eq_dec Z.eq_dec a b then true else false.
Definition str_in (s : pystr) (l : list pystr) : bool := existsb (str_eqb s) l.

(** [str.isspace] (CPython, _PyUnicode_IsWhitespace). *)
Definition py_space (c : Z) : bool :=
  (9 <=? c) && (c <=? 13) || (28 <=? c) && (c <=? 32) || (c =? 133) || (c =? 160) || (c =? 5760) || (8192 <=? c) && (c <=? 8202) || (c =? 8232) || (c =? 8233) || (c =? 8239) || (c =? 8287) || (c =? 12288).
Fixpoint drop_space (s : pystr) : pystr := match s with c :: r => if py_space c then drop_space r else s | [] => [] end.
(** [str.strip] and [str.split] at commas (CPython). *)
Definition py_strip (s : pystr) : pystr := rev (drop_space (rev (drop_space s))).
Fixpoint py_split (s : pystr) : list pystr :=
  match s with
  | [] => [[]]
  | c :: r => if c =? 44 then [] :: py_split r else match py_split r with x :: l => (c :: x) :: l | [] => [[c]] end
  end.

Section Handlers.
  Context {W : Type}.
  Variable host : datetime -> datetime.
  Variable fin : Z -> bytes.
  Variable pass native : bool.
  Variable P : parser.
  Variable strtod : bytes -> option Z.
  Variable erange : bool.
  (** The text of the exception of a system method given other parameters than it has, and of awaiting an object that cannot be awaited. *)
  Variable bad_args : list py -> pystr.
  Variable bad_await : py -> pystr.
  Notation loads' := (loads_any host pass native P strtod erange None).

  (** A method: what it does, its documentation ([inspect.getdoc]), its attribute [signature] if it has one (tornado.py), whether it is a coroutine (aiohttp.py). *)
  Inductive hkind : Type := H_list | H_help | H_signature | H_stat | H_user (f : W -> list py -> W * hresult).
  Record hmethod : Type := mkHM { h_kind : hkind; h_doc : option pystr; h_signature : option py; h_coroutine : bool }.
  Definition hmethods : Type := list (pystr * hmethod).
  Fixpoint find_method (n : pystr) (l : hmethods) : option hmethod :=
    match l with [] => None | (k, m) :: r => if str_eqb n k then Some m else find_method n r end.
  (** [register_method] (flask.py 73-83, aiohttp.py 42-46): a [dict] keeps the place of a name it has. *)
  Fixpoint set_method (n : pystr) (m : hmethod) (l : hmethods) : hmethods :=
    match l with [] => [(n, m)] | (k, x) :: r => if str_eqb n k then (k, m) :: r else (k, x) :: set_method n m r end.
  Definition registered (own regs : hmethods) : hmethods := fold_left (fun l kv => set_method (fst kv) (snd kv) l) regs own.
  Definition user (f : W -> list py -> W * hresult) (doc : option pystr) : hmethod := mkHM (H_user f) doc None true.

  (** The methods a handler has of its own (flask.py 65-69; aiohttp.py 38-40; tornado.py 105-109). *)
  Definition own_flask (introspection : bool) : hmethods :=
    (if introspection then [(ustr "system.listMethods", mkHM H_list (Some (ustr "Return list of all available FastRPC methods.")) None true);
                            (ustr "system.methodHelp", mkHM H_help (Some (ustr "Return help for method.")) None true)] else [])
    ++ [(ustr "server.stat", mkHM H_stat (Some (ustr "Basic method returning status 200")) None true)].
  Definition own_aiohttp (introspection : bool) : hmethods :=
    if introspection then [(ustr "system.listMethods", mkHM H_list (Some (ustr "Return list of all available FastRPC methods.")) None true);
                           (ustr "system.methodHelp", mkHM H_help (Some (ustr "Return help for method.")) None true)] else [].

  Definition plain_exc (t : pystr) : hresult := HRaise (mkHExc true (ustr "Exception") (Some t)).
  Definition no_method (n : pystr) : hresult := plain_exc (ustr "Method '" ++ n ++ ustr "' doesn't exist").
  (** A method called (flask.py 138, 170-189; aiohttp.py 85, 112-127; tornado.py 41-42, 69-102). *)
  Definition run_method (all : hmethods) (empty_help : bool) (m : hmethod) (w : W) (args : list py) : W * hresult :=
    match h_kind m with
    | H_user f => f w args
    | H_list => (w, match args with [] => HReturn (PyList (map (fun kv => PyStr (fst kv)) all)) | _ => plain_exc (bad_args args) end)
    | H_stat => (w, match args with [] => HReturn (PyDict []) | _ => plain_exc (bad_args args) end)
    | H_help => (w, match args with
                    | [PyStr n] => match find_method n all with
                                   | None => no_method n
                                   | Some x => HReturn (match h_doc x with Some (c :: d) => PyStr (c :: d) | Some [] => PyStr [] | None => if empty_help then PyStr [] else PyNone end)
                                   end
                    | _ => plain_exc (bad_args args)
                    end)
    | H_signature => (w, match args with
                         | [PyStr n] => match find_method n all with None => no_method n | Some x => HReturn (match h_signature x with Some s => s | None => PyStr [] end) end
                         | _ => plain_exc (bad_args args)
                         end)
    end.

  (** The [dict]s for a method there is not and for an exception (flask.py 131-134, 143-146; aiohttp.py 78-81, 88-91). *)
  Definition status_dict (n : Z) (t : pystr) : py := PyDict [(PyStr (ustr "status"), PyInt n); (PyStr (ustr "statusMessage"), PyStr t)].
  Definition not_found (n : option pystr) : py :=
    status_dict 501 (ustr "Method '" ++ (match n with Some s => s | None => ustr "None" end) ++ ustr "' not found.").

  (** [_response_autostatus] (flask.py 192-198). *)
  Definition has_key (k : string) (m : list (py * py)) : bool := existsb (fun kv => match fst kv with PyStr s => str_eqb s (ustr k) | _ => false end) m.
  Definition is_200 (p : py) : bool := match p with PyInt z => z =? 200 | PyFloat d => d =? 4641240890982006784 | _ => false end.
  Definition autostatus (p : py) : py :=
    match p with
    | PyDict m =>
        let m := if has_key "status" m then m else m ++ [(PyStr (ustr "status"), PyInt 200)] in
        let ok := match find (fun kv => match fst kv with PyStr s => str_eqb s (ustr "status") | _ => false end) m with Some kv => is_200 (snd kv) | None => false end in
        PyDict (if negb (has_key "statusMessage" m) && ok then m ++ [(PyStr (ustr "statusMessage"), PyStr (ustr "OK"))] else m)
    | p => p
    end.

  (** [len] of the body. *)
  Definition body_len (p : py) : Z := match p with PyBytes s => blen s | PyStr u => zlen u | _ => 0 end.
  (** [dumps] of a response and the answer made of it (flask.py 152-168; aiohttp.py 95-110; tornado.py 48-66). *)
  Definition rpc_answer (ctype : pystr) (use_binary : Z) (accept : list pystr) (params : py) : hanswer :=
    match dumps_any host fin use_binary 2 1 None params with
    | PyOk body => A_rpc ctype (body_len body) accept body
    | PyRaise e => A_raise (F_py e)
    | PyAbort => A_abort
    | PyUndef => A_undef
    end.

  (** [_create_response] up to the response (flask.py 127-146; aiohttp.py 74-91).  In aiohttp.py the result of a method that is no coroutine is awaited. *)
  Definition answer_of (all : hmethods) (awaits : bool) (w : W) (name : option pystr) (args : list py) : W * (py + hexc) :=
    match name with
    | None => (w, inl (not_found None))
    | Some n =>
        match find_method n all with
        | None => (w, inl (not_found (Some n)))
        | Some m =>
            let '(w', r) := run_method all true m w args in
            let r := match r with HReturn v => if awaits && negb (h_coroutine m) then HRaise (mkHExc true (ustr "TypeError") (Some (bad_await v))) else HReturn v | r => r end in
            (w', match r with
                 | HReturn v => inl v
                 | HRaise x => if x_exception x then match x_text x with Some t => inl (status_dict 500 t) | None => inr x end else inr x
                 end)
        end
    end.
  Definition args_in (p : py) : list py := match p with PyTuple l => l | _ => [] end.

  (** [handle] of flask.py (85-168); [uwsgi]: the server is uWSGI, whose [chunked_read] gives one chunk (uWSGI documentation). *)
  Definition flask_types (r : hrequest) : list pystr := map py_strip (py_split (match hq_accept r with Some a => a | None => [] end)).
  Definition flask_handle (uwsgi : bool) (allowed : list pystr) (all : hmethods) (w : W) (r : hrequest) : W * hanswer :=
    let types := flask_types r in
    if negb (existsb (fun t => str_in t allowed) types) then (w, A_plain 400) else
    match hq_type r with
    | None => (w, A_raise F_key)
    | Some ct =>
        if negb (str_in ct allowed) then (w, A_plain 400) else
        match (if str_eqb FRPC_TYPE ct then if uwsgi then Some (hd [] (hq_chunks r)) else None else Some (concat (hq_chunks r))) with
        | None => (w, A_raise F_not_implemented)
        | Some data =>
            match loads' data with
            | PyRaise e => (w, A_raise (F_py e)) | PyAbort => (w, A_abort) | PyUndef => (w, A_undef)
            | PyOk (args, name) =>
                match answer_of all false w name (args_in args) with
                | (w', inr x) => (w', A_raise (F_exc x))
                | (w', inl v) =>
                    (w', if str_in FRPC_TYPE types then rpc_answer FRPC_TYPE 1 allowed (PyTuple [autostatus v]) else rpc_answer XML_TYPE 0 allowed (PyTuple [autostatus v]))
                end
            end
        end
    end.

  (** [fastrpc.ALWAYS] and [fastrpc.NEVER] (fastrpcmodule.cc 1300-1303, 2994-2998). *)
  Definition frpc_ALWAYS := 2.
  Definition frpc_NEVER := 3.
  (** [handle] of aiohttp.py (48-110). *)
  Definition aiohttp_handle (allowed : list pystr) (all : hmethods) (w : W) (r : hrequest) : W * hanswer :=
    let listed := map py_strip (filter (fun s => negb (str_eqb s [])) (py_split (match hq_accept r with Some a => a | None => [] end))) in
    match (match listed with [] => option_map (fun t => [t]) (hq_type r) | _ => Some listed end) with
    | None => (w, A_raise F_key)
    | Some types =>
        if negb (existsb (fun t => str_in t allowed) types) then (w, A_plain 400) else
        match hq_type r with
        | None => (w, A_raise F_key)
        | Some ct =>
            if negb (str_in ct allowed) then (w, A_plain 400) else
            match loads' (concat (hq_chunks r)) with
            | PyRaise e => (w, A_raise (F_py e)) | PyAbort => (w, A_abort) | PyUndef => (w, A_undef)
            | PyOk (args, name) =>
                match answer_of all true w name (args_in args) with
                | (w', inr x) => (w', A_raise (F_exc x))
                | (w', inl v) =>
                    (w', if str_in FRPC_TYPE types then rpc_answer FRPC_TYPE frpc_ALWAYS allowed (PyTuple [v]) else rpc_answer XML_TYPE frpc_NEVER allowed (PyTuple [v]))
                end
            end
        end
    end.

  (** [post] of tornado.py (18-66). *)
  Definition supported : list pystr := [XML_TYPE; FRPC_TYPE].
  Definition tornado_post (all : hmethods) (w : W) (r : hrequest) : W * hanswer :=
    match hq_type r with
    | None => (w, A_raise F_key)
    | Some ct =>
        if negb (str_in ct supported) then (w, A_plain 400) else
        let types := match hq_accept r with Some (c :: a) => map py_strip (py_split (c :: a)) | _ => [ct] end in
        let possible := filter (fun t => str_in t types) supported in
        match possible with
        | [] => (w, A_plain 406)
        | _ =>
            match loads' (concat (hq_chunks r)) with
            | PyRaise e => (w, A_raise (F_py e)) | PyAbort => (w, A_abort) | PyUndef => (w, A_undef)
            | PyOk (args, name) =>
                match (match name with Some n => find_method n all | None => None end) with
                | None => (w, A_raise F_key)
                | Some m =>
                    let '(w', res) := run_method all false m w (args_in args) in
                    let give params := (w', if str_in FRPC_TYPE possible then rpc_answer FRPC_TYPE 1 supported params else rpc_answer XML_TYPE 0 supported params) in
                    match res with
                    | HReturn v => give (PyTuple [v])
                    | HRaise x =>
                        if x_exception x then
                          match x_text x with Some t => give (PyFault (PyInt (-500)) (PyStr (x_class x ++ ustr ": " ++ t))) | None => (w', A_raise (F_exc x)) end
                        else (w', A_raise (F_exc x))
                    end
                end
            end
        end
    end.
End Handlers.
