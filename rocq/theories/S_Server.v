(** What a client of the server may expect (HTTP/1.1, RFC 7230, and the server's configuration), independently of the
    server's code.  The unmarshallers, marshallers and the registry appear only through [decodes], [written] and
    [call_yields]. *)
From Verif Require Import Base Value Text M_Marshal M_TreeBuilder M_Base64 M_Url M_Http M_HttpWriter M_Registry M_Server S_Http S_Registry.

(** A body on the wire: of the length told, or chunked (without trailer). *)
Inductive framed (fields : list (bytes * bytes)) (body : bytes) : bytes -> Prop :=
| framed_length : forall v, first_value (str "Content-Length") fields v -> dec_number v (zlen body) -> framed fields body body
| framed_chunked : forall v wire, no_value (str "Content-Length") fields -> first_value (str "Transfer-Encoding") fields v ->
    same_name v (str "chunked") -> chunked body [] wire -> framed fields body wire.

(** A call in a request and the body of that request. *)
Record request : Type := mkReq { q_path : bytes; q_http11 : bool; q_fields : list (bytes * bytes); q_body : bytes }.
Definition http_version (q : request) : bytes := if q_http11 q then str "HTTP/1.1" else str "HTTP/1.0".
Definition request_head (q : request) : bytes :=
  str "POST " ++ q_path q ++ [x20] ++ http_version q ++ crlf ++ flat_map field_text (q_fields q) ++ crlf.
Definition word (s : bytes) : Prop := s <> [] /\ forall c, In c s -> ~ ascii_space c.
Definition well_formed (q : request) : Prop :=
  word (q_path q) /\ Forall field_ok (q_fields q) /\ zlen (q_body q) < 2 ^ 63.
(** The bytes of a request. *)
Definition request_text (q : request) (text : bytes) : Prop :=
  exists wire, framed (q_fields q) (q_body q) wire /\ text = request_head q ++ wire.

(** What has arrived of a request when the connection ends in the middle of it: the head or the body is not complete. *)
Inductive cut_request (q : request) : bytes -> Prop :=
| cut_head : forall got lost, request_head q = got ++ lost -> lost <> [] -> cut_request q got
| cut_length : forall v part lost, first_value (str "Content-Length") (q_fields q) v -> dec_number v (zlen (q_body q)) ->
    q_body q = part ++ lost -> lost <> [] -> cut_request q (request_head q ++ part)
| cut_chunked : forall v wire part lost, no_value (str "Content-Length") (q_fields q) -> first_value (str "Transfer-Encoding") (q_fields q) v ->
    same_name v (str "chunked") -> chunked (q_body q) [] wire ->
    wire = part ++ lost -> 2 < zlen lost -> cut_request q (request_head q ++ part).   (* more than the last line end is missing *)

(** A text occurs in another. *)
Definition occurs (p s : bytes) : Prop := exists a b, s = a ++ p ++ b.

(** Which unmarshaller reads a request, by its content type. *)
Definition types : list bytes :=
  [str "application/x-frpc"; str "text/xml"; str "application/x-www-form-urlencoded"; str "application/x-base64-frpc"].
Definition request_type (q : request) (k : in_type) : Prop :=
  exists content, first_value (str "Content-Type") (q_fields q) content /\
  exists before type after, types = before ++ type :: after /\ occurs type content /\ Forall (fun t => ~ occurs t content) before /\
    type = match k with
           | In_binary => str "application/x-frpc"
           | In_xml => str "text/xml"
           | In_url path => str "application/x-www-form-urlencoded"
           | In_base64 => str "application/x-base64-frpc"
           end /\ (forall path, k = In_url path -> path = q_path q).

(** The format of the answer the client asked for and may get. *)
Inductive answer_type (binary : bool) (q : request) : out_type -> Prop :=
| type_default : no_value (str "Accept") (q_fields q) -> answer_type binary q Out_xml
| type_binary : forall a, first_value (str "Accept") (q_fields q) a -> occurs (str "application/x-frpc") a ->
    answer_type binary q (if binary then Out_binary else Out_xml)
| type_json : forall a, first_value (str "Accept") (q_fields q) a -> ~ occurs (str "application/x-frpc") a ->
    occurs (str "application/json") a -> answer_type binary q Out_json
| type_base64 : forall a, first_value (str "Accept") (q_fields q) a -> ~ occurs (str "application/x-frpc") a ->
    ~ occurs (str "application/json") a -> occurs (str "application/x-base64-frpc") a -> answer_type binary q Out_base64
| type_xml : forall a, first_value (str "Accept") (q_fields q) a -> ~ occurs (str "application/x-frpc") a ->
    ~ occurs (str "application/json") a -> ~ occurs (str "application/x-base64-frpc") a -> answer_type binary q Out_xml.

(** The client wants the connection to stay open (RFC 7230, 6.3, for a single connection option). *)
Definition keeps_open (q : request) : Prop :=
  if q_http11 q then forall v, first_value (str "Connection") (q_fields q) v -> ~ same_name v (str "close")
  else exists v, first_value (str "Connection") (q_fields q) v /\ same_name v (str "keep-alive").
(** The server goes on after this request, the [n]th of the connection. *)
Definition goes_on (cfg : config) (n : Z) (q : request) : Prop :=
  f_keep cfg = true /\ keeps_open q /\ n < f_max cfg.

(** The unmarshaller makes this call of the body, however the body arrives. *)
Definition decodes (u : unmarshaller) (body : bytes) (ver : version) (name : bytes) (params : list value) : Prop :=
  forall pieces, arrives body pieces ->
  exists s s', um_all u (um_init u) pieces = (s, None) /\ um_finish u s = (s', Ok tt) /\
    um_version u s' = ver /\ tb_method (um_builder u s') = name /\ tb_data (um_builder u s') = Ok (VArray params).

(** A response: the body, and the fields the client relies on; [binary]: the server tells that it takes binary requests;
    [http11]: the client knows HTTP/1.1, others are not sent chunks (RFC 7230, 3.3.1). *)
Definition response_text (binary http11 : bool) (o : out_type) (keep : bool) (extra : list (bytes * bytes)) (body text : bytes) : Prop :=
  exists fields wire, text = str "HTTP/1.1 200 OK" ++ crlf ++ flat_map field_text fields ++ crlf ++ wire /\
    Forall field_ok fields /\ framed fields body wire /\
    first_value (str "Content-Type") fields (content_type o) /\
    first_value (str "Connection") fields (if keep then str "keep-alive" else str "close") /\
    (exists accept, first_value (str "Accept") fields accept /\ occurs (str "text/xml") accept /\
       (occurs (str "application/x-frpc") accept <-> binary = true)) /\
    (http11 = false -> exists n, first_value (str "Content-Length") fields n) /\
    exists own, fields = own ++ extra.

(** How marshallers write: everything, beginning with a piece that fits into a chunk. *)
Definition writes_well (cut : bytes -> list bytes) : Prop :=
  forall b, concat (cut b) = b /\
    (b <> [] -> exists empties first rest, cut b = repeat [] empties ++ first :: rest /\ first <> [] /\ zlen first <= 64512).

Section Served.
  Context {W : Type}.
  Variable message : exn -> bytes.
  Variable cfg : config.
  Variable ums : in_type -> unmarshaller.
  Variable mars : out_type -> version -> marshaller.
  Variable added : W -> list (bytes * bytes).
  Variable g : registry (W:=W).

  (** One request and the body of its answer: the call it carries is run once and its value, or the fault for its
      exception, is written in the format asked for. *)
  Inductive answers (w : W) (q : request) (w' : W) (o : out_type) (body : bytes) : Prop :=
  | answers_value : forall k ver name params v,
      request_type q k -> answer_type (f_binary cfg) q o -> decodes (ums k) (q_body q) ver name params -> v_major ver <= 3 ->
      call_yields message g w name params w' (Ok v) -> written (mars o ver) (response_calls v) body -> answers w q w' o body
  | answers_fault : forall k ver name params e code msg,
      request_type q k -> answer_type (f_binary cfg) q o -> decodes (ums k) (q_body q) ver name params -> v_major ver <= 3 ->
      call_yields message g w name params w' (Err e) -> documented message e code msg -> no_nul msg ->
      written (mars o ver) [PFault code msg] body -> answers w q w' o body.

  (** The requests of a connection, [n] having been answered already: what the application becomes, the answers with
      their formats and added header fields, and the requests left unread. *)
  Inductive connection : Z -> W -> list request -> W -> list (bool * out_type * list (bytes * bytes) * bytes) -> list request -> Prop :=
  | connection_idle : forall n w, connection n w [] w [] []
  | connection_last : forall n w q rest w' o body, answers w q w' o body -> ~ goes_on cfg (n + 1) q ->
      connection n w (q :: rest) w' [(q_http11 q, o, added w', body)] rest
  | connection_more : forall n w q rest w' o body w2 outs left, answers w q w' o body -> goes_on cfg (n + 1) q ->
      connection (n + 1) w' rest w2 outs left -> connection n w (q :: rest) w2 ((q_http11 q, o, added w', body) :: outs) left.
End Served.

(** Bodies that can be sent, header fields that can be. *)
Definition sendable (a : bool * out_type * list (bytes * bytes) * bytes) : Prop :=
  let '(_, _, extra, body) := a in body <> [] /\ zlen body < 2 ^ 32 /\ Forall field_ok extra /\ no_value (str "Content-Length") extra.

(** Parts of the application and the library that do nothing undefined: an unmarshaller given any pieces, a marshaller
    given any calls, methods. *)
Definition um_safe (u : unmarshaller) : Prop :=
  forall pieces s f, um_all u (um_init u) pieces = (s, f) ->
    f <> Some Undef /\ (f = None -> snd (um_finish u s) <> UB /\
                        (snd (um_finish u s) = Ok tt -> tb_data (um_builder u (fst (um_finish u s))) <> UB)).
(** Calls and values whose integers and times the marshallers can negate (the smallest 64-bit number has no opposite),
    and faults with the [int] codes of [Fault_t]. *)
Definition calm (c : mcall) : Prop :=
  match c with
  | PInt z => z <> - 2 ^ 63
  | PDateTime d => dt_unix d <> - 2 ^ 63
  | PFault code _ => in_s32 code
  | _ => True
  end.
Fixpoint tame (v : value) : Prop :=
  match v with
  | VInt z => z <> - 2 ^ 63
  | VDateTime d => dt_unix d <> - 2 ^ 63
  | VStruct m => fold_right (fun kv p => tame (snd kv) /\ p) True m
  | VArray l => fold_right (fun x p => tame x /\ p) True l
  | VSecret x => tame x
  | _ => True
  end.
(** Nor does it throw faults. *)
Definition ma_safe (m : marshaller) : Prop :=
  forall s c f, calm c -> snd (ma_call m s c) = Some f -> exists e, f = Exn e /\ forall code msg, e <> FaultExn code msg.
Definition ends_well (x : res value) : Prop :=
  match x with Ok v => tame v | Err (FaultExn code _) => in_s32 code | Err _ => True | UB => False end.
Definition methods_safe {W} (g : registry (W:=W)) : Prop := forall w name params w' x, runs g w name params w' x -> ends_well x.

(** [part_of a l]: the elements of [a] are in [l], in this order. *)
Inductive part_of {A : Type} : list A -> list A -> Prop :=
| part_nil : forall l, part_of [] l
| part_take : forall x a l, part_of a l -> part_of (x :: a) (x :: l)
| part_skip : forall x a l, part_of a l -> part_of a (x :: l).
