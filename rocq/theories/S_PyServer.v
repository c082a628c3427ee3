(** What a client of the Python server may expect, independently of the server's code; the HTTP part is that of S_Server.v. *)
From Verif Require Import Base Value Text Unicode M_Marshal M_TreeBuilder M_Base64 M_Url M_Http M_HttpIO M_HttpWriter M_Registry M_Server M_Xml M_XmlUm M_Python M_PyRegistry M_PyServer
  S_Http S_Xml S_XmlUm S_Registry S_Server S_Python S_PyRegistry.

(** ** Results *)
(** The calls of a marshaller that describe an object, the items of a [dict] in their order. *)
Inductive describes (host : datetime -> datetime) : py -> list mcall -> Prop :=
| describes_none : describes host PyNone [PNull]
| describes_bool : forall b, describes host (PyBool b) [PBool b]
| describes_boolean : forall b, describes host (PyBoolean b) [PBool b]
| describes_int : forall z, in_s64 z -> describes host (PyInt z) [PInt z]
| describes_float : forall d, describes host (PyFloat d) [PDouble d]
| describes_bytes : forall s, describes host (PyBytes s) [PBinary s]
| describes_str : forall s u, same_str s u -> describes host (PyStr u) [PString s]
| describes_date : forall d, describes host (PyDate d) [PDateTime d]
| describes_list : forall l cs, zlen l < 2 ^ 32 -> describes_all host l cs -> describes host (PyList l) (PArray (zlen l) :: cs)
| describes_tuple : forall l cs, zlen l < 2 ^ 32 -> describes_all host l cs -> describes host (PyTuple l) (PArray (zlen l) :: cs)
| describes_dict : forall m cs, zlen m < 2 ^ 32 -> describes_items host m cs -> describes host (PyDict m) (PStruct (zlen m) :: cs)
with describes_all (host : datetime -> datetime) : list py -> list mcall -> Prop :=
| all_nil : describes_all host [] []
| all_cons : forall p cs l cs', describes host p cs -> describes_all host l cs' -> describes_all host (p :: l) (cs ++ cs')
with describes_items (host : datetime -> datetime) : list (py * py) -> list mcall -> Prop :=
| items_nil : describes_items host [] []
| items_cons : forall s u p cs m cs', same_str s u -> describes host p cs -> describes_items host m cs' ->
    describes_items host ((PyStr u, p) :: m) (PMember s :: cs ++ cs').

(** The message for the result of a call: a response, or a fault. *)
Inductive result_message (host : datetime -> datetime) : py -> list mcall -> Prop :=
| message_value : forall v cs, (forall c m, v <> PyFault c m) -> describes host v cs -> result_message host v (PMethodResponse :: cs)
| message_fault : forall code msg u, in_s32 code -> same_str msg u -> result_message host (PyFault (PyInt code) (PyStr u)) [PFault code msg].

(** ** Requests *)
(** The unmarshaller makes this call of the body, however the body arrives. *)
Definition py_decodes (u : pyum) (body : bytes) (ver : version) (name : bytes) (params : list py) : Prop :=
  forall pieces, arrives body pieces ->
  exists s s', hand_over (pu_take u) (pu_init u) pieces = (s, None) /\ pu_finish u s = (s', Ok tt) /\
    pu_version u s' = ver /\ pb_method (pu_builder u s') = Some name /\ pb_data (pu_builder u s') = PyOk (PyTuple params).
(** Forms are read without the path of the request; they and base64 say no version. *)
Definition py_type (k : in_type) : in_type := match k with In_url _ => In_url [] | k => k end.
Definition version_of (k : in_type) (ver : version) : version := match k with In_url _ | In_base64 => mkVer 2 1 | _ => ver end.

(** A request may follow empty lines (RFC 7230, 3.5). *)
Definition py_request_text (q : request) (text : bytes) : Prop :=
  exists blank t, Forall (fun x => x = crlf \/ x = [x0a]) blank /\ request_text q t /\ text = concat blank ++ t.

(** ** Responses *)
Definition own_names : list bytes := [str "Content-Type"; str "Accept"; str "Connection"; str "Content-Length"; str "Transfer-Encoding"].
(** As [response_text] of S_Server.v; the fields the application added come first. *)
Definition py_response_text (binary http11 : bool) (o : out_type) (keep : bool) (extra : list (bytes * bytes)) (body text : bytes) : Prop :=
  exists fields wire, text = str "HTTP/1.1 200 OK" ++ crlf ++ flat_map field_text fields ++ crlf ++ wire /\
    Forall field_ok fields /\ framed fields body wire /\
    first_value (str "Content-Type") fields (content_type o) /\
    first_value (str "Connection") fields (if keep then str "keep-alive" else str "close") /\
    (exists accept, first_value (str "Accept") fields accept /\ occurs (str "text/xml") accept /\
       (occurs (str "application/x-frpc") accept <-> binary = true)) /\
    (http11 = false -> exists n, first_value (str "Content-Length") fields n) /\
    exists own, fields = extra ++ own.
(** Bodies and header fields that can be sent. *)
Definition py_sendable (a : bool * out_type * list (bytes * bytes) * bytes) : Prop :=
  let '(_, _, extra, body) := a in body <> [] /\ zlen body < 2 ^ 64 /\ Forall field_ok extra /\ Forall (fun n => no_value n extra) own_names.

(** ** Connections *)
Section Served.
  Context {W : Type}.
  Variable own : pyexn -> pystr.
  Variable host : datetime -> datetime.
  Variable cfg : pconfig W.
  Variable ums : in_type -> pyum.
  Variable mars : out_type -> version -> marshaller.
  Variable added : W -> list (bytes * bytes).
  Variable g : pregistry (W:=W).
  Variable client : py.

  (** One request and the body of its answer: the call it carries is handled once (S_PyRegistry.v), its result written in the format asked for. *)
  Inductive py_answers (w : W) (q : request) (w' : W) (o : out_type) (body : bytes) : Prop :=
  | py_answered : forall k ver name u params v cs,
      request_type q k -> answer_type (pf_binary cfg) q o -> py_decodes (ums (py_type k)) (q_body q) ver name params -> v_major (version_of k ver) <= 3 ->
      callable g name u -> handled g client (system own g client) w name u params w' v ->
      result_message host v cs -> written (mars o (version_of k ver)) cs body -> py_answers w q w' o body.

  (** The callback [preRead] passes. *)
  Inductive reads_next (w : W) : W -> Prop :=
  | next_plain : pf_read cfg = None -> reads_next w w
  | next_called : forall f w1 v, pf_read cfg = Some f -> f w = (w1, Returned v) -> reads_next w w1.
  Definition py_goes_on (n : Z) (q : request) : Prop := pf_keep cfg = true /\ keeps_open q /\ n < pf_max cfg.

  (** The requests of a connection, [n] having been answered already: what the application becomes, the answers, and whether the server
      ends the connection or waits for more. *)
  Inductive py_connection : Z -> W -> list request -> W -> list (bool * out_type * list (bytes * bytes) * bytes) -> bool -> Prop :=
  | py_connection_idle : forall n w w1, reads_next w w1 -> py_connection n w [] w1 [] false
  | py_connection_last : forall n w w1 q rest w' o body, reads_next w w1 -> py_answers w1 q w' o body -> ~ py_goes_on (n + 1) q ->
      py_connection n w (q :: rest) w' [(q_http11 q, o, added w', body)] true
  | py_connection_more : forall n w w1 q rest w' o body w2 outs ends, reads_next w w1 -> py_answers w1 q w' o body -> py_goes_on (n + 1) q ->
      py_connection (n + 1) w' rest w2 outs ends -> py_connection n w (q :: rest) w2 ((q_http11 q, o, added w', body) :: outs) ends.
End Served.

(** ** Requests of any kind *)
(** Failures [serve] has no answer for. *)
Definition unanswered (f : fail) : Prop :=
  match f with Exn (StreamError _) | Exn (HTTPError _) | Exn (ProtocolError _) => False | _ => True end.
(** Given these pieces, the unmarshaller for requests of type [k] fails otherwise than with an exception the server has an answer for, or makes of them a
    call without a name or of an unknown version. *)
Inductive troubles (u : pyum) (k : in_type) (pieces : list bytes) : Prop :=
| trouble_pieces : forall s f, hand_over (pu_take u) (pu_init u) pieces = (s, Some f) -> unanswered f -> troubles u k pieces
| trouble_end : forall s s' x f, hand_over (pu_take u) (pu_init u) pieces = (s, None) -> pu_finish u s = (s', x) ->
    (x = UB /\ f = Undef \/ exists e, x = Err e /\ f = Exn e) -> unanswered f -> troubles u k pieces
| trouble_call : forall s s', hand_over (pu_take u) (pu_init u) pieces = (s, None) -> pu_finish u s = (s', Ok tt) ->
    3 < v_major (version_of k (pu_version u s')) \/
    pb_method (pu_builder u s') = None /\ pb_object (pu_builder u s') <> Some PyNone -> troubles u k pieces.

(** What the server reads from a part of this data is a call of the method [name] with these parameters. *)
Definition received_call (own : pyexn -> pystr) (ums : in_type -> pyum) (data name : bytes) (params : given) : Prop :=
  exists k pieces s s' n, part_of (concat pieces) data /\ hand_over (pu_take (ums k)) (pu_init (ums k)) pieces = (s, None) /\ pu_finish (ums k) s = (s', Ok tt) /\
    pb_method (pu_builder (ums k) s') = Some n /\ name = c_string n /\ params = py_params own (pu_builder (ums k) s').

(** Results all the marshallers can write: no integer and no time without an opposite, no name of a member that is empty or too long. *)
Fixpoint writable (host : datetime -> datetime) (p : py) : Prop :=
  match p with
  | PyInt z => z <> - 2 ^ 63 /\ z <> 2 ^ 63        (* 2^63 is taken for -2^63 *)
  | PyDate d => dt_unix d <> - 2 ^ 63
  | PyStdDate d => dt_unix (std_date host d) <> - 2 ^ 63
  | PyList l | PyTuple l => fold_right (fun x p => writable host x /\ p) True l
  | PyDict m =>
      fold_right (fun kv p => (forall u s, fst kv = PyStr u -> py_encode u = Some s -> 1 <= zlen s <= 255) /\ writable host (snd kv) /\ p) True m
  | _ => True
  end.

(** The first piece of an XML document that is not empty. *)
Fixpoint first_text (pieces : list bytes) : bytes :=
  match pieces with [] => [] | [] :: r => first_text r | d :: _ => d end.
(** A version is declared in the first 80 bytes, and its number is none of 0 to 3, or is behind these bytes. *)
Definition bad_declaration (d : bytes) : Prop :=
  exists before major dot minor after, d = before ++ str "protocolVersion=""" ++ major :: dot :: minor :: after /\
    blen before + 17 <= 80 /\ (b2z major < 48 \/ 51 < b2z major \/ 80 <= blen before + 17 + 2).
(** An element methodName with nothing but text in it. *)
Definition named (l : list sax) : Prop :=
  exists a texts n b, l = a ++ SStart (str "methodName") :: map SChars texts ++ SEnd n :: b.
(** The parser finds no such element in these pieces. *)
Definition nameless (P : parser) (pieces : list bytes) : Prop :=
  exists batches s s' last, reports P (ps_init P) pieces batches s /\ ps_take P s [] = (s', last, 0) /\ ~ named (concat batches ++ last).
