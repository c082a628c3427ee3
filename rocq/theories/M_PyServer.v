(** Model of the server of the Python binding (python/pythonserver.cc, [Server_t] and [fastrpc.Server]), for Python 3.  Not modelled: running
    out of memory, reference counts, a failing [sendData], the functions that show the header fields. *)
From Verif Require Import Base Value Text M_Marshal M_BinUnmarshal M_TreeBuilder M_Base64 M_Iso M_Url M_Http M_HttpIO M_HttpWriter M_Registry M_Server M_Xml M_XmlUm
  M_Python M_PyRegistry.

(** * Unmarshallers of requests with the builder of the Python binding; see [unmarshaller] in M_Registry.v. *)
Record pyum : Type := mkPyUm {
  pu_state : Type;
  pu_init : pu_state;
  pu_take : pu_state -> bytes -> pu_state * option fail;    (* unMarshall(.., TYPE_METHOD_CALL) *)
  pu_finish : pu_state -> pu_state * res unit;
  pu_version : pu_state -> version;
  pu_builder : pu_state -> pb
}.
Section Unmarshallers.
  Variable step : pb -> event -> pb * option fail.     (* [pb_step] with the settings of the server *)
  (** frpcbinunmarshaller.cc (M_BinUnmarshal.v). *)
  Definition pbin_um (req : Z) : pyum :=
    mkPyUm (unm * pb) (unm_init, pb_init)
      (fun s d => let '(u, t, f) := unmarshall_all pb step req (fst s) (snd s) [d] in ((u, t), f))
      (fun s => (s, unm_finish (fst s))) (fun s => c_ver (u_core (fst s))) snd.
  (** frpcb64unmarshaller.cc 44-55, as [b64_um] in M_Server.v. *)
  Definition pb64_um (req : Z) : pyum :=
    let u := pbin_um req in
    mkPyUm (bytes * pu_state u) ([], pu_init u)
      (fun s d => let '(o, q) := b64_process (fst s) d in
                  match o with
                  | [] => ((q, snd s), None)
                  | _ => let '(s', f) := pu_take u (snd s) o in ((q, s'), f)
                  end)
      (fun s => let '(s', x) := pu_finish u (snd s) in ((fst s, s'), x))
      (fun s => pu_version u (snd s)) (fun s => pu_builder u (snd s)).
  (** frpcurlunmarshaller.cc 352-377, as [url_um] in M_Server.v. *)
  Fixpoint pb_events (t : pb) (es : list event) : pb * option fail :=
    match es with
    | [] => (t, None)
    | e :: r => match step t e with
                | (t', None) => pb_events t' r
                | x => x
                end
    end.
  Definition purl_um (strtod : bytes -> option Z * bool) (erange : bool) (path : bytes) : pyum :=
    mkPyUm (bytes * pb) ([], pb_init)
      (fun s d => ((fst s ++ d, snd s), None))
      (fun s => let '(es, f) := url_finish strtod erange (url_method path) (fst s) in
                match pb_events (snd s) es with
                | (t, Some (Exn e)) => ((fst s, t), Err e)
                | (t, Some Undef) => ((fst s, t), UB)
                | (t, None) => ((fst s, t), match f with None => Ok tt | Some (Exn e) => Err e | Some Undef => UB end)
                end)
      (fun _ => mkVer 2 1) snd.
  (** frpcxmlunmarshaller.cc 262-321, as [xml_um] in M_XmlUm.v. *)
  Definition pxml_um (P : parser) (strtod : bytes -> option Z) (erange : bool) (want : Z) : pyum :=
    mkPyUm (ps_state P * xun * pb) (ps_init P, xun_init, pb_init)
      (fun s d => let '(p, u, t) := s in
                  let '(p', batch, code) := ps_take P p d in
                  let '(u', t', f) := x_unmarshall step strtod erange want u t d batch code in ((p', u', t'), f))
      (fun s => let '(p, u, t) := s in
                let '(p', batch, code) := ps_take P p [] in
                let '(u', t', f) := x_finish step strtod erange u t batch code in
                ((p', u', t'), match f with None => Ok tt | Some (Exn e) => Err e | Some Undef => UB end))
      (fun s => x_ver (snd (fst s))) snd.
End Unmarshallers.

(** * Writing *)
(** pythonserver.cc 712. *)
Definition PY_BUFFER_SIZE : Z := 65536.
(** [write] (pythonserver.cc 1098-1117); [contentLength] is an [unsigned long].  What [sendResponse] does with the buffers (1166-1191), and with
    [flush] (1089-1096), is [wr_send] of M_HttpWriter.v. *)
Definition pw_write (head : Z -> bytes) (d : bytes) (w : wr) : wr :=
  let w1 := mkWr (w_front w) (w_back w) (w_chunks w) (w_sent w) (u64 (w_total w + blen d)) (w_wire w) in
  let append w := mkWr (w_front w) (w_back w ++ d) (w_chunks w) (w_sent w) (w_total w) (w_wire w) in
  if u64 (PY_BUFFER_SIZE - blen (w_back w)) <? blen d then
    if w_chunks w then append (wr_send head false w1)
    else if PY_BUFFER_SIZE <? blen d then
      mkWr (w_front w1 ++ [w_back w1]) d (w_chunks w1) (w_sent w1) (w_total w1) (w_wire w1)
    else append w1
  else append w1.
(** The header fields (pythonserver.cc 1123-1155): after those the application added. *)
Definition py_fields (o : out_type) (use_binary keep chunks : bool) (extra : header) (total : Z) : list (bytes * bytes) :=
  extra ++
  [(str "Content-Type", content_type o);
   (str "Accept", str "text/xml, application/x-www-form-urlencoded, application/x-base64-frpc" ++ (if use_binary then str ", application/x-frpc" else []));
   (str "Connection", if keep then str "keep-alive" else str "close");
   if chunks then (str "Transfer-Encoding", str "chunked") else (str "Content-Length", dec total);
   (str "Server", str "Fast-RPC Server Linux")].
Definition py_head (o : out_type) (use_binary keep chunks : bool) (extra : header) (total : Z) : bytes :=
  str "HTTP/1.1 200 OK" ++ crlf ++ header_text (py_fields o use_binary keep chunks extra total) ++ crlf.

(** * Settings and state *)
(** What [fastrpc.Server] was made with (pythonserver.cc 2041-2127), the callback [preRead] and the method for HEAD requests. *)
Record pconfig {W : Type} : Type := mkPConf {
  pf_keep : bool; pf_binary : bool; pf_max : Z;
  pf_read : option (W -> W * called); pf_head : option (W -> W * called)
}.
Arguments pconfig : clear implicits.
(** The state carried from request to request and from connection to connection; [ps_own] is [headersOut]. *)
Record psrv : Type := mkPSrv { ps_out : out_type; ps_chunks : bool; ps_ver : version; ps_close : bool; ps_is_head : bool; ps_own : header }.
(** The constructor (pythonserver.cc 456-465). *)
Definition psrv_init : psrv := mkPSrv Out_xml false (mkVer 2 1) true false [].

(** How [serve] ends: it returns None; it raises [fastrpc.ProtocolError] with a number, another exception, or one that is not known
    here; a C++ exception terminates the interpreter; undefined behaviour. *)
Inductive served : Type := Sv_none | Sv_protocol (n : Z) | Sv_raise (e : pyexn) | Sv_other | Sv_abort | Sv_undef.

Definition HTTP_INTERNAL_SERVER_ERROR := 500.

Section PyServer.
  Context {W : Type}.
  Variable message : exn -> bytes.
  Variable own : pyexn -> pystr.
  Variable host : datetime -> datetime.
  Variable cfg : pconfig W.
  Variable ums : in_type -> pyum.
  Variable mars : out_type -> version -> marshaller.
  (** The reason texts of HTTP errors (with the text of the exception, for the errors 500), how a marshaller cuts what it writes. *)
  Variable reason : Z -> bytes.
  Variable cut : bytes -> list bytes.
  (** The header fields added ([addOutHeader]) by the call or the HEAD method run last; simplification: [preRead] adds none. *)
  Variable added : W -> header.
  Variable g : pregistry (W:=W).
  Variable client : py.

  (** Accept (pythonserver.cc 1000-1027): as the C++ server. *)
  Definition py_choose_out (accept : option bytes) : out_type * bool :=
    match accept with
    | None => (Out_xml, false)
    | Some a =>
        if contains (str "application/x-frpc") a then if pf_binary cfg then (Out_binary, true) else (Out_xml, false)
        else if contains (str "application/json") a then (Out_json, false)
        else if contains (str "application/x-base64-frpc") a then (Out_base64, false)
        else (Out_xml, false)
    end.

  (** The lines up to the first that is not empty (pythonserver.cc 946-952). *)
  Fixpoint first_line (fuel : nat) (s : sock) : sock * res bytes :=
    match fuel with
    | O => (s, UB)
    | S k => match read_line_opt true (-1) false s with
             | (s1, Ok []) => first_line k s1
             | x => x
             end
    end.

  (** [readRequest] (pythonserver.cc 924-1087): the path is not given to the unmarshaller of forms. *)
  Definition py_read_request (st : psrv) (s : sock) : psrv * sock * res pb :=
    let st0 := mkPSrv (ps_out st) (ps_chunks st) (ps_ver st) false false (ps_own st) in
    match first_line (S (List.length (pending s))) s with
    | (s1, Err e) => (st0, s1, Err e)
    | (s1, UB) => (st0, s1, UB)
    | (s1, Ok line) =>
        match split_by_space line 3 with
        | [method; path; protocol] =>
            if negb (bytes_eqb protocol (str "HTTP/1.1") || bytes_eqb protocol (str "HTTP/1.0"))
            then (st0, s1, Err (HTTPError HTTP_HTTP_VERSION_NOT_SUPPORTED))
            else
              match read_header false [] s1 with
              | (s2, Err e) => (st0, s2, Err e)
              | (s2, UB) => (st0, s2, UB)
              | (s2, Ok h) =>
                  if negb (bytes_eqb method (str "POST")) then
                    if bytes_eqb method (str "HEAD")
                    then (mkPSrv (ps_out st) (ps_chunks st) (ps_ver st) true true (ps_own st), s2, Ok pb_init)
                    else (st0, s2, Err (HTTPError HTTP_METHOD_NOT_ALLOWED))
                  else
                    let '(out, chunks) := py_choose_out (header_get (str "Accept") 0 h) in
                    let st1 := mkPSrv out chunks (ps_ver st) false false (ps_own st) in
                    match choose_in (get_or_empty (str "Content-Type") h) [] with
                    | None => (st1, s2, Err (StreamError "Unknown ContentType"))
                    | Some kind =>
                        let u := ums kind in
                        match read_content (pu_take u) (-1) h true (mkRd s2 (pu_init u) 0) with
                        | (r, Err e) => (st1, r_sock r, Err e)
                        | (r, UB) => (st1, r_sock r, UB)
                        | (r, Ok h2) =>
                            match pu_finish u (r_sink r) with
                            | (_, Err e) => (st1, r_sock r, Err e)
                            | (_, UB) => (st1, r_sock r, UB)
                            | (k, Ok tt) =>
                                let http11 := bytes_eqb protocol (str "HTTP/1.1") in
                                let ver := match kind with In_url _ | In_base64 => mkVer 2 1 | _ => pu_version u k end in
                                (mkPSrv out (if http11 then chunks else false) ver
                                   (choose_close http11 (get_or_empty (str "Connection") h2)) false (ps_own st),
                                 r_sock r, Ok (pu_builder u k))
                            end
                        end
                    end
              end
        | _ => (st0, s1, Err (HTTPError HTTP_BAD_REQUEST))
        end
    end.

  (** [sendHttpError] (pythonserver.cc 1194-1209). *)
  Definition py_error_text (code : Z) : bytes :=
    str "HTTP/1.1 " ++ dec code ++ [x20] ++ reason code ++ crlf ++
    str "Accept: text/xml, application/x-www-form-urlencoded, application/x-base64-frpc, application/x-frpc" ++ crlf ++
    str "Server: Fast-RPC  Server Linux" ++ crlf ++ crlf.

  (** What is sent when [data] is written and, if [flushed], [flush] called (pythonserver.cc 1089-1191): the header fields are forgotten once they
      were sent. *)
  Definition py_send (st : psrv) (data : bytes) (flushed : bool) : psrv * bytes :=
    let hd := py_head (ps_out st) (pf_binary cfg) (pf_keep cfg) (ps_chunks st) (ps_own st) in
    let wr0 := fold_left (fun x d => pw_write hd d x) (cut data) (mkWr [] [] (ps_chunks st) false 0 []) in
    let wr1 := if flushed then wr_flush hd wr0 else wr0 in
    (mkPSrv (ps_out st) (ps_chunks st) (ps_ver st) (ps_close st) (ps_is_head st) (if w_sent wr1 then [] else ps_own st), w_wire wr1).

  Record pconn : Type := mkPConn { pc_srv : psrv; pc_sock : sock; pc_world : W; pc_wire : bytes }.
  Inductive pstep : Type :=
  | Pnext (counted : bool)       (* to the condition of the loop; with or without requestCount++ *)
  | Pstop                        (* break *)
  | Pend (x : served).           (* serve ends otherwise *)

  (** The calls of a marshaller, then an exception of Python or [flush]. *)
  Inductive marshalled : Type := Mar_done | Mar_raised | Mar_failed (f : fail).
  Definition py_marshal (m : marshaller) (calls : list mcall * option pyexn) : bytes * marshalled :=
    match ma_run m (ma_init m) (fst calls) with
    | (o, _, Some f) => (o, Mar_failed f)
    | (o, s, None) => match snd calls with
                      | Some _ => (o, Mar_raised)
                      | None => (o ++ ma_flush m s, Mar_done)
                      end
    end.
  Definition done (x : marshalled) : bool := match x with Mar_done => true | _ => false end.

  (** [PyLong_AsLong] (CPython) of an object: [None] if it raises. *)
  Definition as_long (v : py) : option Z :=
    match v with
    | PyInt z => if (- 2 ^ 63 <=? z) && (z <? 2 ^ 63) then Some z else None
    | PyBool b => Some (if b then 1 else 0)
    | _ => None
    end.

  (** The calls for the result of [dispatchCall] (pythonserver.cc 858-886). *)
  Definition result_calls (v : py) : list mcall * option pyexn :=
    match v with
    | PyFault c m =>
        match as_long c with
        | None => ([], Some PE_Type)
        | Some z =>
            match m with
            | PyStr s => match py_encode s with Some t => ([PFault (s32 z) t], None) | None => ([], Some PE_Encode) end
            | _ => ([], Some PE_Type)
            end
        end
    | v => let '(c, e) := feed_py host v in (PMethodResponse :: c, e)
    end.

  (** The parameters given to [dispatchCall] (pythonserver.cc 851-854, pythonbuilder.h 224-229). *)
  Definition py_params (b : pb) : given :=
    match pb_data b with
    | PyOk (PyTuple l) => Params l
    | PyRaise e => No_params (threw own e)
    | _ => No_params (threw own PE_System)       (* cannot happen: there is a method name *)
    end.

  (** What follows a request that was read (pythonserver.cc 816-915). *)
  Definition py_handle (st : psrv) (s : sock) (w : W) (wire : bytes) (b : pb) : pconn * pstep :=
    let after w := mkPSrv (ps_out st) (ps_chunks st) (ps_ver st) (ps_close st) (ps_is_head st) (ps_own st ++ added w) in
    let fails w code := (mkPConn (after w) s w (wire ++ py_error_text code), Pstop) in
    if ps_is_head st then
      match pf_head cfg with
      | None => (mkPConn st s w (wire ++ py_error_text HTTP_METHOD_NOT_ALLOWED), Pstop)
      | Some f =>
          match f w with
          | (w1, Threw _) => fails w1 HTTP_INTERNAL_SERVER_ERROR
          | (w1, Crashed) => (mkPConn (after w1) s w1 wire, Pend Sv_undef)
          | (w1, Returned v) =>
              match as_long v with
              | None => fails w1 HTTP_INTERNAL_SERVER_ERROR
              | Some z =>
                  if z =? 0 then
                    (mkPConn (mkPSrv (ps_out st) (ps_chunks st) (ps_ver st) (ps_close st) true []) s w1
                       (wire ++ py_head (ps_out st) (pf_binary cfg) (pf_keep cfg) (ps_chunks st) (ps_own (after w1)) 0 ++
                        (if ps_chunks st then str "0" ++ crlf ++ crlf else [])), Pnext true)
                  else fails w1 HTTP_SERVICE_UNAVAILABLE
              end
          end
      end
    else if 3 <? v_major (ps_ver st) then (mkPConn st s w wire, Pend Sv_abort)
    else
      match pb_object b, pb_method b with
      | Some PyNone, _ => (mkPConn st s w (wire ++ py_error_text HTTP_BAD_REQUEST), Pstop)
      | _, None => (mkPConn st s w wire, Pend Sv_undef)         (* getStringMethodName() is null *)
      | _, Some name =>
          match dispatch_call own g client w (c_string name) (py_params b) with
          | (w1, D_value v) =>
              let '(o, x) := py_marshal (mars (ps_out st) (ps_ver st)) (result_calls v) in
              let '(st2, sent) := py_send (after w1) o (done x) in
              match x with
              | Mar_done => (mkPConn st2 s w1 (wire ++ sent), Pnext true)
              | Mar_raised => (mkPConn st2 s w1 (wire ++ sent ++ py_error_text HTTP_INTERNAL_SERVER_ERROR), Pstop)
              | Mar_failed Undef => (mkPConn st2 s w1 (wire ++ sent), Pend Sv_undef)
              | Mar_failed (Exn (StreamError _)) => (mkPConn st2 s w1 (wire ++ sent), Pend (Sv_raise PE_Runtime))
              | Mar_failed (Exn (HTTPError code)) => (mkPConn st2 s w1 (wire ++ sent ++ py_error_text code), Pstop)
              | Mar_failed (Exn (ProtocolError n)) => (mkPConn st2 s w1 (wire ++ sent), Pend (Sv_protocol n))
              | Mar_failed (Exn _) => (mkPConn st2 s w1 (wire ++ sent), Pend Sv_abort)
              end
          | (w1, _) => (mkPConn (after w1) s w1 wire, Pend Sv_undef)      (* PyObject_IsInstance of a null object *)
          end
      end.

  (** [preRead] (pythonserver.cc 780-791).  [makeFault] returns a fault instead of setting it, so that [serve] returns null without an exception. *)
  Definition py_before (w : W) : W * option served :=
    match pf_read cfg with
    | None => (w, None)
    | Some f =>
        match f w with
        | (w1, Returned _) => (w1, None)
        | (w1, Crashed) => (w1, Some Sv_undef)
        | (w1, Threw t) =>
            (w1, Some (if t_fault t then Sv_raise PE_System
                       else match t_text t with
                            | Some x => Sv_raise (PE_Fault (PyInt FRPC_INTERNAL_ERROR) (PyStr (ustr "Unhandled exception in preread " ++ x)))
                            | None => Sv_other
                            end))
        end
    end.

  (** One round of [serve] (pythonserver.cc 771-915). *)
  Definition py_serve_one (c : pconn) : pconn * pstep :=
    match py_before (pc_world c) with
    | (w, Some x) => (mkPConn (pc_srv c) (pc_sock c) w (pc_wire c), Pend x)
    | (w, None) =>
        match py_read_request (pc_srv c) (pc_sock c) with
        | (st, s, Err (StreamError _ as e)) =>
            (* outside of any [try] *)
            if 3 <? v_major (ps_ver st) then (mkPConn st s w (pc_wire c), Pend Sv_abort) else
            let '(o, x) := py_marshal (mars (ps_out st) (ps_ver st)) ([PFault FRPC_PARSE_ERROR (c_str (message e))], None) in
            let '(st2, sent) := py_send st o (done x) in
            (mkPConn st2 s w (pc_wire c ++ sent),
             match x with Mar_done => Pnext false | Mar_failed Undef => Pend Sv_undef | _ => Pend Sv_abort end)
        | (st, s, Err (HTTPError code)) => (mkPConn st s w (pc_wire c ++ py_error_text code), Pstop)
        | (st, s, Err (ProtocolError n)) => (mkPConn st s w (pc_wire c), Pend (Sv_protocol n))
        | (st, s, Err _) => (mkPConn st s w (pc_wire c), Pend Sv_abort)
        | (st, s, UB) => (mkPConn st s w (pc_wire c), Pend Sv_undef)
        | (st, s, Ok b) => py_handle st s w (pc_wire c) b
        end
    end.

  (** [serve] (pythonserver.cc 742-922): [count] is [requestCount], a [long].  Every round that goes on has taken a line from the socket. *)
  Fixpoint py_serve_loop (fuel : nat) (count : Z) (c : pconn) : pconn * served :=
    match fuel with
    | O => (c, Sv_undef)
    | S k =>
        match py_serve_one c with
        | (c', Pstop) => (c', Sv_none)
        | (c', Pend x) => (c', x)
        | (c', Pnext counted) =>
            let n := if counted : bool then count + 1 else count in
            if ps_close (pc_srv c') || negb (pf_keep cfg) || (pf_max cfg <=? n) then (c', Sv_none) else py_serve_loop k n c'
        end
    end.
  Definition py_serve (st : psrv) (s : sock) (w : W) : pconn * served :=
    py_serve_loop (S (List.length (pending s))) 0 (mkPConn (mkPSrv (ps_out st) (ps_chunks st) (ps_ver st) false false (ps_own st)) s w []).
End PyServer.
