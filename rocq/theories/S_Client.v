(** What a user of the client may expect, independently of the client's code: responses (RFC 7230), connections that
    can be used again, calls. *)
From Verif Require Import Base Value Text M_Marshal M_TreeBuilder M_Base64 M_Url M_Http M_HttpIO M_HttpWriter M_Registry M_Server M_Client S_Http S_Registry S_Server.

(** A successful response; the unmarshallers appear only through [replies]. *)
Record response : Type := mkResp { p_http11 : bool; p_reason : bytes; p_fields : list (bytes * bytes); p_body : bytes }.
Definition response_head (p : response) : bytes :=
  (if p_http11 p then str "HTTP/1.1" else str "HTTP/1.0") ++ str " 200 " ++ p_reason p ++ crlf ++ flat_map field_text (p_fields p) ++ crlf.
Definition response_ok (p : response) : Prop :=
  one_line (p_reason p) /\ p_reason p <> [] /\ last (p_reason p) x20 <> x0d /\ Forall field_ok (p_fields p) /\ zlen (p_body p) < 2 ^ 63.

(** All the bytes that arrive: a response, whose body is of the length told, chunked, or ends with the connection, and
    what follows it. *)
Inductive complete (p : response) : ending -> bytes -> bytes -> Prop :=
| complete_framed : forall e rest wire, framed (p_fields p) (p_body p) wire -> complete p e rest (response_head p ++ wire ++ rest)
| complete_close : no_value (str "Content-Length") (p_fields p) -> no_value (str "Transfer-Encoding") (p_fields p) ->
    complete p Closed [] (response_head p ++ p_body p).
(** What arrives of a response when the connection ends too early. *)
Inductive cut_response (p : response) : bytes -> Prop :=
| cut_rhead : forall got lost, response_head p = got ++ lost -> lost <> [] -> cut_response p got
| cut_rlength : forall v part lost, first_value (str "Content-Length") (p_fields p) v -> dec_number v (zlen (p_body p)) ->
    p_body p = part ++ lost -> lost <> [] -> cut_response p (response_head p ++ part)
| cut_rchunked : forall v wire part lost, no_value (str "Content-Length") (p_fields p) -> first_value (str "Transfer-Encoding") (p_fields p) v ->
    same_name v (str "chunked") -> chunked (p_body p) [] wire ->
    wire = part ++ lost -> 2 < zlen lost -> cut_response p (response_head p ++ part).   (* more than the last line end is missing *)

(** The format of the body by the content type: binary or XML. *)
Definition response_type (p : response) (binary : bool) : Prop :=
  exists content, first_value (str "Content-Type") (p_fields p) content /\
    if binary then occurs (str "application/x-frpc") content /\ ~ occurs (str "text/xml") content else occurs (str "text/xml") content.

(** The formats the server is known to take after this response: [xml], [binary]; those known before stay if it tells
    nothing. *)
Definition advertises (p : response) (before : bool * bool) (after : bool * bool) : Prop :=
  (no_value (str "Accept") (p_fields p) /\ after = before) \/
  exists a, first_value (str "Accept") (p_fields p) a /\
    (fst after = true <-> occurs (str "text/xml") a) /\ (snd after = true <-> occurs (str "application/x-frpc") a).
Definition formats_of (protocols : Z) : bool * bool := (Z.testbit protocols 0, Z.testbit protocols 1).

(** The server keeps the connection open after this response (the rule for requests applies). *)
Definition stays_open (p : response) : Prop := keeps_open (mkReq [] (p_http11 p) (p_fields p) []).

(** The unmarshaller makes this of the body, however it arrives: [x] is what [getUnMarshaledData] gives. *)
Definition replies (u : unmarshaller) (body : bytes) (ver : version) (x : res value) : Prop :=
  forall pieces, arrives body pieces ->
  exists s s', um_all u (um_init u) pieces = (s, None) /\ um_finish u s = (s', Ok tt) /\
    um_version u s' = ver /\ tb_data (um_builder u s') = x.

(** * Calls *)
(** What is observed of the sockets of a proxy: the bytes sent, connections made and closed. *)
Definition sends (es : list sock_event) : list bytes := flat_map (fun e => match e with Ev_send b => [b] | _ => [] end) es.
Definition opened (es : list sock_event) : Z := zlen (filter (fun e => match e with Ev_connect => true | _ => false end) es).
Definition closed (es : list sock_event) : Z := zlen (filter (fun e => match e with Ev_close => true | _ => false end) es).
Definition held_sockets (fd : option bytes) : Z := match fd with Some _ => 1 | None => 0 end.

(** The request for a call with this body: where it goes, what it says about itself, the headers added. *)
Record asks (u : url) (c : pconf) (binary : bool) (extra : list (bytes * bytes)) (body : bytes) (q : request) : Prop := mkAsks {
  asks_path : q_path q = (if url_is_unix u then str "/" else u_path u);
  asks_version : q_http11 q = negb (a_http10 c);
  asks_body : q_body q = body;
  asks_type : first_value (str "Content-Type") (q_fields q) (if binary then str "application/x-frpc" else str "text/xml");
  asks_accept : first_value (str "Accept") (q_fields q) (str "text/xml, application/x-frpc");
  asks_connection : first_value (str "Connection") (q_fields q) (if a_keep c then str "keep-alive" else str "close");
  asks_extra : exists own, q_fields q = own ++ extra /\
    Forall (fun f => In (fst f) [str "Host"; str "Content-Type"; str "Accept"; str "Connection"; str "Content-Length"]) own
}.
(** URLs whose host and path can stand in a header. *)
Definition url_fine (u : url) : Prop :=
  (url_is_unix u = false -> word (u_path u) /\ word (u_host u)) /\ 0 <= u_port u.

(** What a user does with a proxy. *)
Inductive deed : Type :=
| Do_call (n : net) (name : bytes) (params : list value)
| Do_add (hs : list (bytes * bytes))
| Do_add_once (hs : list (bytes * bytes))
| Do_delete.
Section Deeds.
  Variable ums : bool -> unmarshaller.
  Variable mars : bool -> version -> marshaller.
  Variable cut : bytes -> list bytes.
  Variable callback : list (bytes * bytes).

  (** The proxy after these deeds, and what came of every call. *)
  Fixpoint after (p : proxy) (ds : list deed) : proxy * list (list sock_event * call_end) :=
    match ds with
    | [] => (p, [])
    | Do_call n name params :: r =>
        let '(p1, es, e) := call ums mars cut callback p n name params in
        let '(p2, l) := after p1 r in (p2, (es, e) :: l)
    | Do_add hs :: r => after (add_header hs p) r
    | Do_add_once hs :: r => after (add_header_once hs p) r
    | Do_delete :: r => after (delete_headers p) r
    end.
End Deeds.
(** The headers for every call and those for the next call only, after these deeds (latest first). *)
Inductive added_headers : list deed -> list (bytes * bytes) -> list (bytes * bytes) -> Prop :=
| added_none : added_headers [] [] []
| added_call : forall ds n name params hs once, added_headers ds hs once -> added_headers (Do_call n name params :: ds) hs []
| added_more : forall ds hs once new, added_headers ds hs once -> added_headers (Do_add new :: ds) (hs ++ new) once
| added_once : forall ds hs once new, added_headers ds hs once -> added_headers (Do_add_once new :: ds) hs (once ++ new)
| added_delete : forall ds hs once, added_headers ds hs once -> added_headers (Do_delete :: ds) [] [].

(** What the server sends for a call: exactly one response, from which the caller should get [e_value]. *)
Record exchange : Type := mkEx { e_response : response; e_binary : bool; e_version : version; e_value : res value }.
Definition answered_by (ums : bool -> unmarshaller) (n : net) (ex : exchange) : Prop :=
  response_ok (e_response ex) /\ response_type (e_response ex) (e_binary ex) /\
  replies (ums (e_binary ex)) (p_body (e_response ex)) (e_version ex) (e_value ex) /\
  complete (e_response ex) (fin (n_arrives n)) [] (pending (n_arrives n)).
(** Every call that returned was answered so; calls that ended with an exception may have got anything. *)
Inductive answered (ums : bool -> unmarshaller) : list deed -> list (list sock_event * call_end) -> list exchange -> Prop :=
| answered_nil : answered ums [] [] []
| answered_call : forall n name params ds es e outs ex exs, ((exists y, e = Returned (Ok y)) -> answered_by ums n ex) ->
    answered ums ds outs exs -> answered ums (Do_call n name params :: ds) ((es, e) :: outs) (ex :: exs)
| answered_add : forall hs ds outs exs, answered ums ds outs exs -> answered ums (Do_add hs :: ds) outs exs
| answered_once : forall hs ds outs exs, answered ums ds outs exs -> answered ums (Do_add_once hs :: ds) outs exs
| answered_delete : forall ds outs exs, answered ums ds outs exs -> answered ums (Do_delete :: ds) outs exs.

(** The server was found to take binary requests: the last successful response said so.  Latest last. *)
Inductive found_binary : list ((list sock_event * call_end) * exchange) -> bool -> Prop :=
| found_nothing : found_binary [] false
| found_by : forall l es y ex b, (b = true <-> exists a, first_value (str "Accept") (p_fields (e_response ex)) a /\ occurs (str "application/x-frpc") a) ->
    found_binary (l ++ [((es, Returned (Ok y)), ex)]) b
| found_before : forall l es e ex b, (forall y, e <> Returned (Ok y)) -> found_binary l b -> found_binary (l ++ [((es, e), ex)]) b.

(** What a call sends: nothing, or a beginning of one request carrying the call, in this format and with these added
    fields. *)
Definition at_most_one (mars : bool -> version -> marshaller) (u : url) (c : pconf) (binary : bool) (extra : list (bytes * bytes))
    (name : bytes) (params : list value) (es : list sock_event) : Prop :=
  sends es = [] \/
  exists ver body q text out lost, sends es = [out] /\ text = out ++ lost /\
    written (mars binary ver) (call_calls name params) body /\ asks u c binary extra body q /\ (zlen body < 2 ^ 32 -> request_text q text).

(** Several responses read by one client object, whatever came of those before. *)
Fixpoint reads (ums : bool -> unmarshaller) (keep : bool) (c : cl) (ss : list sock) : cl * list (res (header * tb)) :=
  match ss with
  | [] => (c, [])
  | s :: r => let '(c1, _, x) := read_response ums keep c s in let '(c2, xs) := reads ums keep c1 r in (c2, x :: xs)
  end.
