(** Model of src/frpcconnector.cc down to the system calls, and of the choice of a connector
    (src/frpcserverproxy.cc 104-114). *)
From Verif Require Import Base Value M_BinUnmarshal Text M_Iso M_Url M_Http M_HttpIO M_Marshal M_TreeBuilder M_Base64 M_HttpWriter M_Registry M_Server M_Client.

(** HTTP_DNS (frpchttp.h 206). *)
Definition HTTP_DNS := 4.

(** * System calls *)
(** What the kernel answers during one [connectSocket], one answer for every system call that may be made.  Calls
    interrupted by signals are repeated ([TEMP_FAILURE_RETRY]), which is not modelled; [close] has no answer: its result
    is not looked at. *)
Inductive poll_answer : Type := Poll_none | Poll_ready | Poll_error.
Inductive recv_answer : Type := Recv_data | Recv_end | Recv_error.
(** [connect]: done; EINPROGRESS, EALREADY or EWOULDBLOCK; another error. *)
Inductive connect_answer : Type := Connect_done | Connect_pending | Connect_error.
Record os : Type := mkOs {
  o_poll : poll_answer; o_peek : recv_answer;      (* closeSocketIfPeerClosed, on the old socket *)
  o_socket : option Z;                             (* socket: the new descriptor *)
  o_nonblock : bool; o_nodelay : bool;             (* fcntl, setsockopt succeed *)
  o_connect : connect_answer; o_wait : poll_answer;
  o_getsockopt : bool; o_status : bool             (* getsockopt succeeds, and tells no error *)
}.

(** An address given to [connect]: one that [getaddrinfo] returned, or the path in [sockaddr_un]. *)
Inductive address : Type := Inet (a : Z) | Unix (path : bytes).

(** The system calls on descriptors, as they are made. *)
Inductive sys : Type := Sys_socket (fd : Z) | Sys_close (fd : Z) | Sys_connect (fd : Z) (a : address).

(** [closeSocketIfPeerClosed] (frpcconnector.cc 184-219). *)
Definition close_if_peer_closed (o : os) (fd : Z) : Z * list sys :=
  match o_poll o with
  | Poll_none => (fd, [])
  | Poll_error => (-1, [Sys_close fd])
  | Poll_ready => match o_peek o with Recv_data => (fd, []) | Recv_end | Recv_error => (-1, [Sys_close fd]) end
  end.

(** The end of [connectSocket] when it throws: the destructor of [closer] (frpcconnector.cc 66-71). *)
Definition throws (armed : bool) (fd : Z) (es : list sys) : Z * list sys * res unit :=
  if armed && (-1 <? fd) then (-1, es ++ [Sys_close fd], Err (HTTPError HTTP_SYSCALL)) else (fd, es, Err (HTTPError HTTP_SYSCALL)).

(** [connectSocket] (frpcconnector.cc: SimpleConnector_t 252-323, SimpleConnectorIPv6_t 364-426, SimpleConnectorUnix_t 438-500).
    The three differ in the address and in [setNonDelayedSocket], which the last one does not call ([tcp] false).
    [closer] closes in its destructor while [armed]; it is released as soon as there was an open socket (261, 370, 445),
    even if that socket is then closed and a new one is made. *)
Definition connect_sys (tcp : bool) (a : address) (keep : bool) (o : os) (fd : Z) : Z * list sys * res unit :=
  let '(fd1, e1) := if negb keep && (-1 <? fd) then (-1, [Sys_close fd]) else (fd, []) in
  let armed := negb (-1 <? fd1) in
  let '(fd2, e2) := if -1 <? fd1 then close_if_peer_closed o fd1 else (fd1, []) in
  if 0 <=? fd2 then (fd2, e1 ++ e2, Ok tt)
  else
    match o_socket o with
    | None => throws armed (-1) (e1 ++ e2)
    | Some s =>
        let e3 := e1 ++ e2 ++ [Sys_socket s] in
        if negb (o_nonblock o) then throws armed s e3
        else if tcp && negb (o_nodelay o) then throws armed s e3
        else
          let e4 := e3 ++ [Sys_connect s a] in
          match o_connect o with
          | Connect_done => (s, e4, Ok tt)
          | Connect_error => throws armed s e4
          | Connect_pending =>
              match o_wait o with
              | Poll_ready => if o_getsockopt o && o_status o then (s, e4, Ok tt) else throws armed s e4
              | Poll_none | Poll_error => throws armed s e4
              end
          end
    end.

(** [connectSocket] as [HTTPClient_t::sendRequest] calls it (frpchttpclient.cc 280, 343): with a [SocketCloser_t] that
    closes the socket if an exception passes. *)
Definition request_connect (tcp : bool) (a : address) (keep : bool) (o : os) (fd : Z) : Z * list sys * res unit :=
  match connect_sys tcp a keep o fd with
  | (fd', es, Ok tt) => (fd', es, Ok tt)
  | (fd', es, r) => if -1 <? fd' then (-1, es ++ [Sys_close fd'], r) else (fd', es, r)
  end.

(** * Addresses *)
Section Address.
  (** [getaddrinfo]: IPv6 or IPv4, the host, the port as text; the first address of the list, if there is one. *)
  Variable lookup_host : bool -> bytes -> bytes -> option Z.

  (** The constructor of SimpleConnectorIPv6_t (frpcconnector.cc 327-357).  [*host.begin()] of an empty host is undefined. *)
  Definition inet_address (u : url) : res address :=
    match u_host u with
    | [] => UB
    | c :: _ =>
        let v6 := is_char 91 c && is_char 93 (last (u_host u) x00) in
        let name := if v6 then ztake (blen (u_host u) - 2) (zdrop 1 (u_host u)) else u_host u in
        match lookup_host v6 (c_str name) (dec (u_port u)) with
        | Some a => Ok (Inet a)
        | None => Err (HTTPError HTTP_DNS)
        end
    end.

  (** [sun_path] (frpcconnector.cc 470-472): at most 107 characters, up to the first zero. *)
  Definition UNIX_PATH_MAX := 108.
  Definition unix_address (u : url) : address := Unix (ztake (UNIX_PATH_MAX - 1) (c_str (u_path u))).

  (** [makeConnector] (frpcserverproxy.cc 104-114) and the address of the connector made: an exception of the constructor
      leaves the constructor of the proxy. *)
  Definition connector_address (u : url) : res (bool * address) :=
    if url_is_unix u then Ok (false, unix_address u)
    else bind (inet_address u) (fun a => Ok (true, a)).
End Address.
