(** Model of src/frpchttpclient.cc (reading responses, sending requests over a socket that may fail), of
    src/frpcconnector.cc (connectSocket) and of the calls of src/frpcserverproxy.cc. *)
From Verif Require Import Base Value Text M_Marshal M_BinUnmarshal M_TreeBuilder M_Base64 M_Iso M_Url M_Http M_HttpIO M_HttpWriter M_Registry M_Server.

(** * Reading a response *)
(** HTTPClient_t::XML_RPC, BINARY_RPC (frpchttpclient.h 91). *)
Definition P_XML : Z := 1.
Definition P_BINARY : Z := 2.

(** The member [unmarshaller]: null, an object, or an object that was deleted already. *)
Inductive held : Type := Held_none | Held_live | Held_freed.

(** What an [HTTPClient_t] keeps from one response to the next: [supportedProtocols], [protocolVersion] (2.1 at the
    start), [connectionMustClose], [unmarshaller]. *)
Record cl : Type := mkCl { l_protocols : Z; l_version : version; l_must_close : bool; l_held : held }.
Definition cl_init : cl := mkCl P_XML (mkVer 2 1) false Held_none.

(** The status line (frpchttpclient.cc 179-215), empty lines before it being skipped; the protocol. *)
Fixpoint read_status (fuel : nat) (s : sock) : sock * res bytes :=
  match fuel with
  | O => (s, UB)
  | S k =>
      sbind (read_line_opt true (-1) false s) (fun s line =>
        match line with
        | [] => read_status k s
        | _ =>
            match split_by_space line 3 with
            | [protocol; code; text] =>
                if negb (bytes_eqb protocol (str "HTTP/1.0") || bytes_eqb protocol (str "HTTP/1.1"))
                then (s, Err (HTTPError HTTP_VALUE))
                else if negb (read_dec_int code =? 200) then (s, Err (HTTPError (read_dec_int code)))
                else (s, Ok protocol)
            | _ => (s, Err (HTTPError HTTP_VALUE))
            end
        end)
  end.

Section Response.
  (** The unmarshallers, with their tree builder: binary or XML. *)
  Variable ums : bool -> unmarshaller.

  (** [supportedProtocols] after a response (frpchttpclient.cc 224-236). *)
  Definition protocols_of (old : Z) (accept : option bytes) : Z :=
    match accept with
    | None => old
    | Some a => (if contains (str "text/xml") a then P_XML else 0) + (if contains (str "application/x-frpc") a then P_BINARY else 0)
    end.
  (** The unmarshaller for the content type (frpchttpclient.cc 238-246). *)
  Definition response_um (content : bytes) : option bool :=
    if contains (str "text/xml") content then Some false
    else if contains (str "application/x-frpc") content then Some true
    else None.

  (** [readResponse] (frpchttpclient.cc 168-276): the client, the socket ([None]: closed) and the header and the builder or the
      exception.  [delete] of a deleted object is undefined. *)
  Definition read_response (keep : bool) (c : cl) (s : sock) : cl * option sock * res (header * tb) :=
    match read_status (S (List.length (pending s))) s with
    | (_, Err e) => (c, None, Err e)
    | (_, UB) => (c, None, UB)
    | (s1, Ok protocol) =>
        match read_header false [] s1 with
        | (_, Err e) => (c, None, Err e)
        | (_, UB) => (c, None, UB)
        | (s2, Ok h) =>
            let protocols := protocols_of (l_protocols c) (header_get (str "Accept") 0 h) in
            match l_held c with
            | Held_freed => (c, None, UB)
            | had =>
                match response_um (get_or_empty (str "Content-Type") h) with
                | None =>
                    (mkCl protocols (l_version c) (l_must_close c) (match had with Held_none => Held_none | _ => Held_freed end),
                     None, Err (StreamError "Unknown ContentType"))
                | Some binary =>
                    let c1 := mkCl protocols (l_version c) (l_must_close c) Held_live in
                    let u := ums binary in
                    match read_content (um_take u) (-1) h false (mkRd s2 (um_init u) 0) with
                    | (_, Err e) => (c1, None, Err e)
                    | (_, UB) => (c1, None, UB)
                    | (r, Ok h2) =>
                        match um_finish u (r_sink r) with
                        | (_, Err e) => (c1, None, Err e)
                        | (_, UB) => (c1, None, UB)
                        | (k, Ok tt) =>
                            let close := choose_close (bytes_eqb protocol (str "HTTP/1.1")) (get_or_empty (str "Connection") h2) in
                            (mkCl protocols (um_version u k) (l_must_close c) Held_live,
                             (if negb keep || close || l_must_close c then None else Some (r_sock r)),
                             Ok (h2, um_builder u k))
                        end
                    end
                end
            end
        end
    end.

  (** [~HTTPClient_t] (frpchttpclient.cc 130-132). *)
  Definition destroy (c : cl) : res unit := match l_held c with Held_freed => UB | _ => Ok tt end.
End Response.

(** * Sending a request *)
(** What the network does during one call: what is seen on the open socket before the request is sent
    ([closeSocketIfPeerClosed], frpcconnector.cc 184-219), whether a new connection can be made, the rounds of the
    successive [sendData]s, and what arrives on the connection from then on. *)
Inductive peeked : Type := Peek_nothing | Peek_data | Peek_closed.
Record net : Type := mkNet { n_peek : peeked; n_connect : bool; n_tries : list (list send_try); n_arrives : sock }.

(** What can be observed of the socket. *)
Inductive sock_event : Type := Ev_close | Ev_connect | Ev_send (b : bytes).

(** [connectSocket] (frpcconnector.cc 252-323, the same in the other connectors).  The socket is given by the bytes on
    it that were not read.  A socket that cannot be connected is closed again, which is not shown. *)
Definition connect_socket (keep : bool) (n : net) (fd : option bytes) : option bytes * list sock_event * res unit :=
  let '(fd1, e1) := match fd with
                    | Some rest => if negb keep then (None, [Ev_close])
                                   else match n_peek n with Peek_closed => (None, [Ev_close]) | _ => (Some rest, []) end
                    | None => (None, [])
                    end in
  match fd1 with
  | Some rest => (Some rest, e1, Ok tt)
  | None => if n_connect n then (Some [], e1 ++ [Ev_connect], Ok tt) else (None, e1, Err (HTTPError HTTP_SYSCALL))
  end.

(** The [sendData]s of one [sendRequest] (frpchttpclient.cc 348-393): all but the last are given up when something
    can be read.  [Sending] (no end within the given rounds) does not occur, as every [poll] has a time-out; it is left
    as a separate end. *)
Fixpoint send_pieces (pieces : list (bool * bytes)) (tries : list (list send_try)) : bytes * send_end :=
  match pieces with
  | [] => ([], Sent_all)
  | (watch, d) :: r =>
      match send_data watch d (hd [] tries) with
      | (o, Sent_all) => let '(o2, e) := send_pieces r (tl tries) in (o ++ o2, e)
      | x => x
      end
  end.
(** What is sent when the message is in the buffers [front] and [back] (not chunked). *)
Definition to_send (head : bytes) (front : list bytes) (back : bytes) : list (bool * bytes) :=
  match front with
  | [] => [(false, head ++ back)]
  | f :: r => (true, head ++ f) :: map (pair true) r ++ [(false, back)]
  end.

(** * ServerProxy_t *)
(** Config_t (frpcserverproxy.h 74-163), without [proxyUrl], which is part of the URL, and [useChunks], which is not used. *)
Record pconf : Type := mkPc { a_connect : Z; a_read : Z; a_write : Z; a_keep : bool; a_mode : Z; a_http10 : bool; a_version : version }.
(** ON_SUPPORT_ON_KEEP_ALIVE (and all other values), ON_SUPPORT, ALWAYS, NEVER (frpcserverproxy.h 76). *)
Definition ON_SUPPORT : Z := 1.
Definition ALWAYS : Z := 2.
Definition NEVER : Z := 3.

(** ServerProxyImpl_t (frpcserverproxy.cc 116-199): the configuration, [serverSupportedProtocols], the two header
    vectors and the socket.  [protocolVersion] is [a_version]. *)
Record proxy : Type := mkProxy {
  x_url : url; x_conf : pconf; x_protocols : Z; x_headers : list (bytes * bytes); x_once : list (bytes * bytes); x_fd : option bytes
}.
(** The constructor (frpcserverproxy.cc 120-130). *)
Definition new_proxy (u : url) (c : pconf) : proxy := mkProxy u c P_XML [] [] None.

(** The format [createMarshaller] chooses (frpcserverproxy.cc 201-260): binary or XML. *)
Definition use_binary (p : proxy) : bool :=
  let m := a_mode (x_conf p) in
  if m =? ON_SUPPORT then Z.land (x_protocols p) P_BINARY =? P_BINARY
  else if m =? NEVER then false
  else if m =? ALWAYS then true
  else negb ((Z.land (x_protocols p) P_XML =? P_XML) || negb (a_keep (x_conf p)) || match x_fd p with Some _ => true | None => false end).

(** Assignments to members of ServerProxyImpl_t and Config_t (frpcserverproxy.cc 116-199, frpcserverproxy.h 74-163). *)
Definition with_fd (fd : option bytes) (p : proxy) : proxy := mkProxy (x_url p) (x_conf p) (x_protocols p) (x_headers p) (x_once p) fd.
Definition with_version (v : version) (c : pconf) : pconf := mkPc (a_connect c) (a_read c) (a_write c) (a_keep c) (a_mode c) (a_http10 c) v.

Section Call.
  Variable ums : bool -> unmarshaller.
  (** Marshallers, how they cut what they write, the headers the callback adds (frpchttpclient.cc 84-95). *)
  Variable mars : bool -> version -> marshaller.
  Variable cut : bytes -> list bytes.
  Variable callback : list (bytes * bytes).

  (** The head for one call (frpchttpclient.cc 284-332, frpcserverproxy.cc 483-513). *)
  Definition call_client (p : proxy) (binary : bool) : client :=
    mkClient (x_url p) (a_http10 (x_conf p)) binary false (a_keep (x_conf p)) (x_headers p ++ x_once p ++ callback).

  (** How [call] ends.  [Waiting]: a [sendData] has not returned. *)
  Inductive call_end : Type := Returned (x : res (header * tb)) | Waiting.

  (** [call] (frpcserverproxy.cc 483-546).  [client] is new, chunks are off; nothing is written to the socket before [flush]. *)
  Definition call (p : proxy) (n : net) (name : bytes) (params : list value) : proxy * list sock_event * call_end :=
    let binary := use_binary p in
    let p1 := mkProxy (x_url p) (x_conf p) (x_protocols p) (x_headers p) [] (x_fd p) in
    if 3 <? v_major (a_version (x_conf p)) then (p1, [], Returned (Err (FrpcError "Not supported protocol version")))
    else
      let m := mars binary (a_version (x_conf p)) in
      match ma_run m (ma_init m) (call_calls (c_str name) params) with
      | (_, _, Some (Exn e)) => (p1, [], Returned (Err e))
      | (_, _, Some Undef) => (p1, [], Returned UB)
      | (o, s, None) =>
          let k := call_client p binary in
          let w := fold_left (fun x d => wr_write (client_head k) d x) (cut (o ++ ma_flush m s)) (mkWr [] [] false false 0 []) in
          match connect_socket (a_keep (x_conf p)) n (x_fd p) with
          | (fd, es, Err e) => (with_fd fd p1, es, Returned (Err e))
          | (fd, es, UB) => (with_fd fd p1, es, Returned UB)
          | (fd, es, Ok tt) =>
              let '(b, e) := send_pieces (to_send (client_head k (w_total w)) (w_front w) (w_back w)) (n_tries n) in
              let es1 := es ++ [Ev_send b] in
              let answer must_close :=
                let s := mkSock ((match fd with Some l => l | None => [] end) ++ pending (n_arrives n)) (sees (n_arrives n)) (fin (n_arrives n)) in
                match read_response ums (a_keep (x_conf p)) (mkCl P_XML (mkVer 2 1) must_close Held_none) s with
                | (c, fd2, x) =>
                    let es2 := es1 ++ match fd2 with None => [Ev_close] | Some _ => [] end in
                    let rest := option_map pending fd2 in
                    match x with
                    | Ok v => (mkProxy (x_url p) (with_version (l_version c) (x_conf p)) (l_protocols c) (x_headers p) [] rest, es2, Returned (Ok v))
                    | x => (with_fd rest p1, es2, Returned x)
                    end
                end in
              match e with
              | Sending => (with_fd fd p1, es1, Waiting)
              | Sent_all => answer false
              | Send_threw ResponseError => answer true
              | Send_threw x => (with_fd None p1, es1 ++ [Ev_close], Returned (Err x))
              end
          end
      end.
End Call.

(** The other operations of a proxy (frpcserverproxy.cc 548-575). *)
Definition add_header (hs : list (bytes * bytes)) (p : proxy) : proxy :=
  mkProxy (x_url p) (x_conf p) (x_protocols p) (x_headers p ++ hs) (x_once p) (x_fd p).
Definition add_header_once (hs : list (bytes * bytes)) (p : proxy) : proxy :=
  mkProxy (x_url p) (x_conf p) (x_protocols p) (x_headers p) (x_once p ++ hs) (x_fd p).
Definition delete_headers (p : proxy) : proxy := mkProxy (x_url p) (x_conf p) (x_protocols p) [] [] (x_fd p).
