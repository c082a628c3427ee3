(** Model of the client of the Python binding, for Python 3: [fastrpc.ServerProxy] and its methods (python/fastrpcmodule.cc).  Not modelled: running
    out of memory, reference counts, threads, the configuration from a ConfigParser object, [stringMode], [encoding] (without effect in Python 3),
    [datetimeBuilder], hooks that use the proxy themselves, classes derived from the built-in ones. *)
From Verif Require Import Base Value Text Unicode M_Marshal M_BinUnmarshal M_TreeBuilder M_Base64 M_Iso M_Url M_Http M_HttpIO M_HttpWriter M_Registry M_Server M_Client
  M_Python M_PyRegistry M_PyServer.

(** * The names of methods *)
(** The name of an attribute as C code gets it ([PyObject_GetAttr] of CPython with [tp_getattr]): in UTF-8, up to a NUL. *)
Definition attr_name (a : pystr) : option bytes := option_map c_string (py_encode a).
Definition dunder (a : bytes) : bool := match a with x :: y :: _ => (b2z x =? 95) && (b2z y =? 95) | _ => false end.
(** What an attribute of a proxy is (fastrpcmodule.cc 1947-2011): the dictionary of attributes, another attribute, a method, or an exception
    (AttributeError or UnicodeEncodeError). *)
Inductive attribute : Type := At_dict | At_own | At_method (name : bytes) | At_missing | At_encode.
Definition own_attributes : list bytes := map str ["host"; "path"; "port"; "url"; "last_call"]%string.
Definition proxy_attr (hide : bool) (a : pystr) : attribute :=
  match attr_name a with
  | None => At_encode
  | Some n =>
      if dunder n then if bytes_eqb n (str "__dict__") then At_dict else At_missing
      else if negb hide && existsb (bytes_eqb n) own_attributes then At_own
      else At_method n
  end.
(** An attribute of a method ([Method_getattr], fastrpcmodule.cc 1508-1540). *)
Definition method_attr (name : bytes) (a : pystr) : attribute :=
  match attr_name a with
  | None => At_encode
  | Some n => if dunder n then if bytes_eqb n (str "__dict__") then At_dict else At_missing else At_method (name ++ [x2e] ++ n)
  end.
(** [proxy.a.b.c]. *)
Fixpoint attrs_of (x : attribute) (l : list pystr) : attribute :=
  match l with
  | [] => x
  | a :: r => match x with At_method n => attrs_of (method_attr n a) r | _ => x end
  end.

(** * Header fields *)
(** [get_string] (fastrpcmodule.cc 1552-1571): the null pointer [PyUnicode_AsUTF8AndSize] gives for surrogates is not looked at. *)
Definition get_string (v : py) : pyres bytes :=
  match v with
  | PyStr s => match py_encode s with Some b => PyOk b | None => PyUndef end
  | _ => PyRaise PE_Type
  end.
(** The items of a sequence in the sense of [PySequence_Check], [PySequence_GetItem] (CPython): [dict]s are none. *)
Definition sequence_items (v : py) : option (list py) :=
  match v with
  | PyList l | PyTuple l => Some l
  | PyStr s => Some (map (fun c => PyStr [c]) s)
  | PyBytes s => Some (map (fun c => PyInt (b2z c)) s)
  | _ => None
  end.
(** [unpack_string_pair] (fastrpcmodule.cc 1574-1606). *)
Definition unpack_pair (v : py) : pyres (bytes * bytes) :=
  match sequence_items v with
  | Some [a; b] =>
      match get_string a with
      | PyOk x => match get_string b with PyOk y => PyOk (x, y) | PyRaise e => PyRaise e | PyAbort => PyAbort | PyUndef => PyUndef end
      | PyRaise e => PyRaise e | PyAbort => PyAbort | PyUndef => PyUndef
      end
  | _ => PyRaise PE_Type
  end.
(** [feed_headers] (fastrpcmodule.cc 1611-1640): the fields added before an exception stay. *)
Fixpoint feed_fields (l : list py) : list (bytes * bytes) * pyres unit :=
  match l with
  | [] => ([], PyOk tt)
  | v :: r =>
      match unpack_pair v with
      | PyOk p => let '(ps, x) := feed_fields r in (p :: ps, x)
      | PyRaise e => ([], PyRaise e) | PyAbort => ([], PyAbort) | PyUndef => ([], PyUndef)
      end
  end.
Definition feed_headers (v : py) : list (bytes * bytes) * pyres unit :=
  match sequence_items v with Some l => feed_fields l | None => ([], PyRaise PE_Type) end.

(** * The proxy *)
(** Proxy_t (fastrpcmodule.cc 1271-1365): what it has in common with ServerProxyImpl_t (M_Client.v), [useChunks], [lastCall]. *)
Record pyproxy : Type := mkPyProxy { y_proxy : proxy; y_chunks : bool; y_last : bytes }.
Definition with_proxy (p : proxy) (y : pyproxy) : pyproxy := mkPyProxy p (y_chunks y) (y_last y).

(** How a call (or the making of a proxy) ends: a result, [fastrpc.Fault], [fastrpc.ProtocolError] with its number and text, [fastrpc.ResponseError]
    with its text, another exception, a C++ exception that terminates the interpreter, undefined behaviour; [Ret_waiting]: not yet. *)
Inductive pyret : Type :=
| Ret (v : py) | Ret_fault (code msg : py) | Ret_protocol (n : Z) (text : pystr) | Ret_response (text : pystr) | Ret_raise (e : pyexn)
| Ret_abort | Ret_undef | Ret_waiting.

(** The exception to raise ([errEx], [errArgs]); the texts are those of C++, up to a NUL, [None] if it is not UTF-8 (and [errArgs] null). *)
Inductive pyerr : Type :=
| E_fault (code msg : py) | E_protocol (n : Z) (text : option pystr) | E_response (text : option pystr) | E_type (text : option pystr) | E_runtime (text : option pystr).

(** [ServerProxy(...)] (fastrpcmodule.cc 1668-1893): the exception of [feed_headers] is not looked at, so that the interpreter finds a result with an
    exception set.  Of [conf] the version is not used. *)
Definition py_new (message : exn -> bytes) (server via : bytes) (conf : pconf) (chunks : bool) (major minor : Z) (headers : option py) : pyproxy + pyret :=
  match url_make server via with
  | Err (HTTPError n) => inr (match py_decode false (c_string (message (HTTPError n))) with Some t => Ret_protocol n t | None => Ret_raise PE_Decode end)
  | Err TypeError => inr (Ret_raise PE_Type)
  | Err _ => inr Ret_abort
  | UB => inr Ret_undef
  | Ok u =>
      let p := new_proxy u (with_version (mkVer (u8 (Z.max 1 major)) (u8 (Z.max 0 minor))) conf) in
      match headers with
      | None => inl (mkPyProxy p chunks [])
      | Some h =>
          match feed_headers h with
          | (hs, PyOk _) => inl (mkPyProxy (add_header hs p) chunks [])
          | (_, PyRaise _) => inr (Ret_raise PE_System)
          | (_, PyAbort) => inr Ret_abort
          | (_, PyUndef) => inr Ret_undef
          end
      end
  end.

(** * Sending *)
(** While a request is written: the writer (in it [w_wire] is what was given to [sendData]), the socket, what was seen of it, what the network will do with the next [sendData]s. *)
Record sending : Type := mkSending { n_wr : wr; n_fd : option bytes; n_events : list sock_event; n_rest : list (list send_try) }.
(** How writing goes on: further; with the response, as something can be read already ([ResponseError_t], the connection is closed after it);
    not at all. *)
Inductive going : Type := Go | Go_read | Go_threw (e : exn) | Go_undef | Go_wait.

Section Sending.
  Variable keep : bool.
  Variable net_ : net.
  Variable head : Z -> bytes.

  (** [sendRequest] (frpchttpclient.cc 279-396): the socket is connected before the first part of the request.  If it is not [Go], the socket was
      closed, or is needed for the response. *)
  Definition send_request (last : bool) (n : sending) : sending * going :=
    let w := n_wr n in
    let '(fd, es, x) := if w_sent w then (n_fd n, [], Ok tt) else connect_socket keep net_ (n_fd n) in
    match x with
    | Err e => (mkSending w fd (n_events n ++ es) (n_rest n), Go_threw e)
    | UB => (mkSending w fd (n_events n ++ es) (n_rest n), Go_undef)
    | Ok tt =>
        let h := if w_sent w then [] else head (w_total w) in
        let w' := wr_send head last w in
        let pieces :=
          if w_chunks w then
            [(true, h ++ hex_text (blen (w_back w)) ++ crlf ++ w_back w ++ (if last then crlf ++ str "0" ++ crlf ++ crlf else crlf))]
          else to_send h (w_front w) (w_back w) in
        let '(b, e) := send_pieces pieces (n_rest n) in
        let es1 := n_events n ++ es ++ [Ev_send b] in
        let rest := skipn (List.length pieces) (n_rest n) in
        match e with
        | Sent_all => (mkSending w' fd es1 rest, Go)
        | Send_threw ResponseError => (mkSending w' fd es1 rest, Go_read)
        | Send_threw e => (mkSending w' None (es1 ++ [Ev_close]) rest, Go_threw e)
        | Sending => (mkSending w' fd es1 rest, Go_wait)
        end
    end.

  (** [write] (frpchttpclient.cc 144-161): [wr_write] of M_HttpWriter.v, where the buffer may be sent first. *)
  Definition send_write (d : bytes) (n : sending) : sending * going :=
    let w := n_wr n in
    let w1 := mkWr (w_front w) (w_back w) (w_chunks w) (w_sent w) (u32 (w_total w + blen d)) (w_wire w) in
    let w' := wr_write head d w in
    if (u64 (BUFFER_SIZE - blen (w_back w)) <? blen d) && w_chunks w then
      match send_request false (mkSending w1 (n_fd n) (n_events n) (n_rest n)) with
      | (n', Go) => (mkSending w' (n_fd n') (n_events n') (n_rest n'), Go)
      | x => x
      end
    else (mkSending w' (n_fd n) (n_events n) (n_rest n), Go).
  Fixpoint send_writes (l : list bytes) (n : sending) : sending * going :=
    match l with
    | [] => (n, Go)
    | d :: r => match send_write d n with (n', Go) => send_writes r n' | x => x end
    end.
  (** [flush] (frpchttpclient.cc 135-142). *)
  Definition send_flush (n : sending) : sending * going := send_request (w_chunks (n_wr n)) n.
End Sending.

(** * Reading the response *)
(** The text of the [HTTPError_t] of the status line (frpchttpclient.cc 189-212). *)
Fixpoint status_error (fuel : nat) (s : sock) : bytes :=
  match fuel with
  | O => []
  | S k =>
      match read_line_opt true (-1) false s with
      | (s, Ok line) =>
          match line with
          | [] => status_error k s
          | _ =>
              match split_by_space line 3 with
              | [protocol; code; text] =>
                  if negb (bytes_eqb protocol (str "HTTP/1.0") || bytes_eqb protocol (str "HTTP/1.1"))
                  then str "Bad HTTP protocol version or type: '" ++ c_string protocol ++ str "'."
                  else text
              | _ => str "Bad HTTP request: '" ++ c_string (ztake 30 line) ++ str "'."
              end
          end
      | _ => []
      end
  end.

Section Response.
  Variable ums : bool -> pyum.

  (** [readResponse] (frpchttpclient.cc 168-276) of a new client: [read_response] of M_Client.v with the builder of Python.  The protocols and the
      version, the socket, the builder; with an exception, whether it is the one of the status line. *)
  Definition py_read_response (keep must_close : bool) (s : sock) : (Z * version) * option sock * res pb * bool :=
    let c := (P_XML, mkVer 2 1) in
    match read_status (S (List.length (pending s))) s with
    | (_, Err e) => (c, None, Err e, match e with HTTPError _ => true | _ => false end)
    | (_, UB) => (c, None, UB, false)
    | (s1, Ok protocol) =>
        match read_header false [] s1 with
        | (_, Err e) => (c, None, Err e, false)
        | (_, UB) => (c, None, UB, false)
        | (s2, Ok h) =>
            let protocols := protocols_of P_XML (header_get (str "Accept") 0 h) in
            match response_um (get_or_empty (str "Content-Type") h) with
            | None => (c, None, Err (StreamError "Unknown ContentType"), false)
            | Some binary =>
                let u := ums binary in
                match read_content (pu_take u) (-1) h false (mkRd s2 (pu_init u) 0) with
                | (_, Err e) => (c, None, Err e, false)
                | (_, UB) => (c, None, UB, false)
                | (r, Ok h2) =>
                    match pu_finish u (r_sink r) with
                    | (_, Err e) => (c, None, Err e, false)
                    | (_, UB) => (c, None, UB, false)
                    | (k, Ok tt) =>
                        let close := choose_close (bytes_eqb protocol (str "HTTP/1.1")) (get_or_empty (str "Connection") h2) in
                        ((protocols, pu_version u k), (if negb keep || close || must_close then None else Some (r_sock r)), Ok (pu_builder u k), false)
                    end
                end
            end
        end
    end.
End Response.

(** * Calls *)
Section PyCall.
  Context {W : Type}.
  (** The texts of the C++ exceptions, apart from those of the status line. *)
  Variable message : exn -> bytes.
  Variable host : datetime -> datetime.
  Variable ums : bool -> pyum.
  Variable mars : bool -> version -> marshaller.
  Variable cut : bytes -> list bytes.
  Variable callback : list (bytes * bytes).
  (** The hooks [preCall] and [postCall]; the latter is given what the former returned and the exception, if any. *)
  Variable pre : option (W -> bytes -> list py -> W * called).
  Variable post : option (W -> bytes -> list py -> py -> option pyerr -> W * called).

  (** The text of an exception for [Py_BuildValue]. *)
  Definition text_of (b : bytes) : option pystr := py_decode false (c_string b).
  (** The handlers (fastrpcmodule.cc 2098-2154). *)
  Inductive caught : Type := Caught (e : pyerr) | Uncaught.
  Definition handler (e : exn) (text : bytes) : caught :=
    match e with
    | LenError | TypeError => Caught (E_type (text_of text))
    | HTTPError n | ProtocolError n => Caught (E_protocol n (text_of text))
    | StreamError _ => Caught (E_response (text_of text))
    | RuntimeError | OutOfRange | OtherExn _ | FaultExn _ _ => Uncaught
    | _ => Caught (E_runtime (text_of text))
    end.
  Definition frpc_runtime : pyerr := E_runtime (Some (ustr "FRPC Runtime Error")).

  (** What the call has come to before the hook [postCall] (fastrpcmodule.cc 2066-2185). *)
  Inductive outcome : Type := Out_value (v : py) | Out_error (e : pyerr) | Out_abort | Out_undef | Out_wait.
  Definition of_exn (e : exn) (text : bytes) : outcome := match handler e text with Caught x => Out_error x | Uncaught => Out_abort end.

  (** The socket when the response is to be read, and what is left of it (frpchttpclient.cc 168-276, fastrpcmodule.cc 2094-2096, 2160-2185). *)
  Definition py_answer (y : pyproxy) (n : net) (must_close : bool) (fd : option bytes) (es : list sock_event) : pyproxy * list sock_event * outcome :=
    let p := y_proxy y in
    let s := mkSock ((match fd with Some l => l | None => [] end) ++ pending (n_arrives n)) (sees (n_arrives n)) (fin (n_arrives n)) in
    match py_read_response ums (a_keep (x_conf p)) must_close s with
    | (c, fd2, x, of_status) =>
        let es2 := es ++ match fd2 with None => [Ev_close] | Some _ => [] end in
        let rest := option_map pending fd2 in
        match x with
        | Err e => (with_proxy (with_fd rest p) y, es2, of_exn e (if of_status : bool then status_error (S (List.length (pending s))) s else message e))
        | UB => (with_proxy (with_fd rest p) y, es2, Out_undef)
        | Ok b => (with_proxy (mkProxy (x_url p) (with_version (snd c) (x_conf p)) (fst c) (x_headers p) (x_once p) rest) y, es2,
                   match pb_data b with
                   | PyOk (PyFault code msg) => Out_error (E_fault code msg)
                   | PyOk v => Out_value v
                   | PyRaise _ => Out_error frpc_runtime
                   | PyAbort => Out_abort
                   | PyUndef => Out_undef
                   end)
        end
    end.

  (** Writing the request and reading the response (fastrpcmodule.cc 2016-2185).  [w_sent] is reset as the client is new. *)
  Definition py_exchange (y0 : pyproxy) (n : net) (name : bytes) (args : list py) : pyproxy * list sock_event * outcome :=
    let p0 := y_proxy y0 in
    let p := mkProxy (x_url p0) (x_conf p0) (x_protocols p0) (x_headers p0) [] (x_fd p0) in
    let y := mkPyProxy p (y_chunks y0) (y_last y0) in
    let binary := use_binary p in
    let conf := x_conf p in
    let k := client_prepare binary (mkClient (x_url p) (a_http10 conf) binary (y_chunks y) (a_keep conf) (x_headers p ++ x_once p0 ++ callback)) in
    let m := mars binary (a_version conf) in
    let calls := (PMethodCall (c_str name) :: fst (feed_args host args), snd (feed_args host args)) in
    let start := mkSending (mkWr [] [] (k_chunks k) false 0 []) (x_fd p) [] (n_tries n) in
    let '(o, s, f) := ma_run m (ma_init m) (fst calls) in
    let whole := match f, snd calls with None, None => true | _, _ => false end in
    let '(n1, g1) := send_writes (a_keep conf) n (client_head k) (cut (if whole then o ++ ma_flush m s else o)) start in
    let ends n1 out := (with_proxy (with_fd (n_fd n1) p) y, n_events n1, out) in
    let go n1 g := match g with
                   | Go => py_answer y n false (n_fd n1) (n_events n1)
                   | Go_read => py_answer y n true (n_fd n1) (n_events n1)
                   | Go_threw e => ends n1 (of_exn e (message e))
                   | Go_undef => ends n1 Out_undef
                   | Go_wait => ends n1 Out_wait
                   end in
    match g1 with
    | Go =>
        match f, snd calls with
        | Some (Exn e), _ => ends n1 (of_exn e (message e))
        | Some Undef, _ => ends n1 Out_undef
        | None, Some _ => ends n1 (Out_error frpc_runtime)
        | None, None => let '(n2, g2) := send_flush (a_keep conf) n (client_head k) n1 in go n2 g2
        end
    | g => go n1 g
    end.

  (** The exception that is raised (fastrpcmodule.cc 2208-2220): without [errArgs] the one set by [Py_BuildValue], which is gone after the hook. *)
  Definition raised (e : pyerr) : pyret :=
    let no_args := Ret_raise (if post then PE_System else PE_Decode) in
    match e with
    | E_fault c m => Ret_fault c m
    | E_protocol n (Some t) => Ret_protocol n t
    | E_response (Some t) => Ret_response t
    | E_type (Some _) => Ret_raise PE_Type
    | E_runtime (Some _) => Ret_raise PE_Runtime
    | _ => no_args
    end.

  (** [operator()] (fastrpcmodule.cc 2013-2225), with the hooks.  The marshaller is made outside of the [try]. *)
  Definition py_operator (y : pyproxy) (w : W) (n : net) (name : bytes) (args : list py) : pyproxy * W * list sock_event * pyret :=
    let y := mkPyProxy (y_proxy y) (y_chunks y) name in
    if 3 <? v_major (a_version (x_conf (y_proxy y))) then (y, w, [], Ret_abort)
    else
      let '(w1, data) := match pre with
                         | None => (w, Some PyNone)
                         | Some f => match f w name args with
                                     | (w1, Returned v) => (w1, Some v)
                                     | (w1, Threw _) => (w1, Some PyNone)
                                     | (w1, Crashed) => (w1, None)
                                     end
                         end in
      match data with
      | None => (y, w1, [], Ret_undef)
      | Some d =>
          let '(y', es, out) := py_exchange y n name args in
          let finish told r :=
            match post with
            | None => (y', w1, es, r)
            | Some f => match f w1 name args d told with
                        | (w2, Crashed) => (y', w2, es, Ret_undef)
                        | (w2, _) => (y', w2, es, r)
                        end
            end in
          match out with
          | Out_value v => finish None (Ret v)
          | Out_error e => finish (Some e) (raised e)
          | Out_abort => (y', w1, es, Ret_abort)
          | Out_undef => (y', w1, es, Ret_undef)
          | Out_wait => (y', w1, es, Ret_waiting)
          end
      end.

  (** [proxy.method(args, headers=...)] ([Method_call], fastrpcmodule.cc 1643-1665); other keyword arguments are ignored. *)
  Definition py_call (y : pyproxy) (w : W) (n : net) (name : bytes) (args : list py) (headers : option py) : pyproxy * W * list sock_event * pyret :=
    match headers with
    | None => py_operator y w n name args
    | Some h =>
        let '(hs, x) := feed_headers h in
        let y1 := with_proxy (add_header_once hs (y_proxy y)) y in
        match x with
        | PyOk _ => py_operator y1 w n name args
        | PyRaise e => (y1, w, [], Ret_raise e)
        | PyAbort => (y1, w, [], Ret_abort)
        | PyUndef => (y1, w, [], Ret_undef)
        end
    end.
End PyCall.

(** [proxy(action)] (fastrpcmodule.cc 1905-1945): "close_connection", the other actions give what is known; an unknown action raises TypeError. *)
Definition py_close (y : pyproxy) : pyproxy * list sock_event :=
  (with_proxy (with_fd None (y_proxy y)) y, match x_fd (y_proxy y) with Some _ => [Ev_close] | None => [] end).
