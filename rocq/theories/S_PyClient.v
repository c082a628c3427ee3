(** What a user of the Python client may expect, independently of the client's code; the HTTP part is that of S_Client.v. *)
From Verif Require Import Base Value Text Unicode M_Marshal M_TreeBuilder M_Base64 M_Url M_Http M_HttpIO M_HttpWriter M_Registry M_Server M_Xml M_XmlUm M_Client M_Python M_PyRegistry M_PyServer M_PyClient
  S_Http S_Registry S_Server S_Client S_Xml S_XmlUm S_Python S_PyServer.

(** ** Requests *)
(** As [asks] of S_Client.v; the body may be chunked. *)
Record py_asks (u : url) (c : pconf) (binary : bool) (extra : list (bytes * bytes)) (body : bytes) (q : request) : Prop := mkPyAsks {
  py_asks_path : q_path q = (if url_is_unix u then str "/" else u_path u);
  py_asks_version : q_http11 q = negb (a_http10 c);
  py_asks_body : q_body q = body;
  py_asks_type : first_value (str "Content-Type") (q_fields q) (if binary then str "application/x-frpc" else str "text/xml");
  py_asks_accept : first_value (str "Accept") (q_fields q) (str "text/xml, application/x-frpc");
  py_asks_connection : first_value (str "Connection") (q_fields q) (if a_keep c then str "keep-alive" else str "close");
  py_asks_extra : exists own, q_fields q = own ++ extra /\
    Forall (fun f => In (fst f) [str "Host"; str "Content-Type"; str "Accept"; str "Connection"; str "Content-Length"; str "Transfer-Encoding"]) own
}.
(** What is sent is nothing, or all but [lost] of one request that carries the call with these arguments. *)
Inductive py_sent (host : datetime -> datetime) (mars : bool -> version -> marshaller) (u : url) (c : pconf) (binary : bool) (extra : list (bytes * bytes))
    (name : bytes) (args : list py) (es : list sock_event) : bytes -> Prop :=
| sent_nothing : sends es = [] -> py_sent host mars u c binary extra name args es []
| sent_part : forall cs body q text lost, describes_all host args cs -> written (mars binary (a_version c)) (PMethodCall name :: cs) body ->
    py_asks u c binary extra body q -> (body <> [] -> zlen body < 2 ^ 32 -> request_text q text) ->
    text = concat (sends es) ++ lost -> py_sent host mars u c binary extra name args es lost.

(** The header fields given with a call: pairs of strings. *)
Definition pair_of (p : py) (f : bytes * bytes) : Prop :=
  exists a b, (p = PyTuple [PyStr a; PyStr b] \/ p = PyList [PyStr a; PyStr b]) /\ same_str (fst f) a /\ same_str (snd f) b.
Inductive given_fields : option py -> list (bytes * bytes) -> Prop :=
| given_none : given_fields None []
| given_list : forall l fs, Forall2 pair_of l fs -> given_fields (Some (PyList l)) fs
| given_tuple : forall l fs, Forall2 pair_of l fs -> given_fields (Some (PyTuple l)) fs.

(** What is no pair of strings. *)
Definition a_str (v : py) : Prop := exists u, v = PyStr u.
Inductive no_pair : py -> Prop :=
| no_pair_other : forall v, match v with PyList _ | PyTuple _ | PyStr _ | PyBytes _ => False | _ => True end -> no_pair v
| no_pair_list : forall l, List.length l <> 2%nat -> no_pair (PyList l)
| no_pair_tuple : forall l, List.length l <> 2%nat -> no_pair (PyTuple l)
| no_pair_first : forall v a b, v = PyList [a; b] \/ v = PyTuple [a; b] -> ~ a_str a -> no_pair v
| no_pair_second : forall v u b, v = PyList [PyStr u; b] \/ v = PyTuple [PyStr u; b] -> Forall uchar u -> ~ a_str b -> no_pair v.

(** ** Responses *)
(** The unmarshaller makes this of the body, however it arrives. *)
Definition py_replies (u : pyum) (body : bytes) (ver : version) (x : pyres py) : Prop :=
  forall pieces, arrives body pieces ->
  exists s s', hand_over (pu_take u) (pu_init u) pieces = (s, None) /\ pu_finish u s = (s', Ok tt) /\
    pu_version u s' = ver /\ pb_data (pu_builder u s') = x.
(** What the caller gets of it: the object, or the fault raised. *)
Inductive caller_gets : pyres py -> pyret -> Prop :=
| gets_value : forall v, (forall c m, v <> PyFault c m) -> caller_gets (PyOk v) (Ret v)
| gets_fault : forall c m, caller_gets (PyOk (PyFault c m)) (Ret_fault c m)
| gets_error : forall e, caller_gets (PyRaise e) (Ret_raise PE_Runtime).
(** The caller gets something from a response. *)
Definition from_response (r : pyret) : Prop := match r with Ret _ | Ret_fault _ _ => True | _ => False end.

(** ** Histories *)
Inductive pydeed : Type :=
| Py_call (n : net) (name : bytes) (args : list py) (headers : option py)
| Py_close.
Section Deeds.
  Context {W : Type}.
  Variable call : pyproxy -> W -> net -> bytes -> list py -> option py -> pyproxy * W * list sock_event * pyret.
  (** The proxy and the world of the hooks after these deeds, and what came of every call. *)
  Fixpoint py_after (y : pyproxy) (w : W) (ds : list pydeed) : pyproxy * W * list (list sock_event * pyret) :=
    match ds with
    | [] => (y, w, [])
    | Py_call n name args headers :: r =>
        let '(y1, w1, es, x) := call y w n name args headers in
        let '(y2, w2, l) := py_after y1 w1 r in (y2, w2, (es, x) :: l)
    | Py_close :: r => py_after (fst (py_close y)) w r
    end.
End Deeds.
(** What the server sends for a call: exactly one response. *)
Record pyexchange : Type := mkPyEx { pe_response : response; pe_binary : bool; pe_version : version; pe_value : pyres py }.
Definition py_answered_by (ums : bool -> pyum) (n : net) (ex : pyexchange) : Prop :=
  response_ok (pe_response ex) /\ response_type (pe_response ex) (pe_binary ex) /\
  py_replies (ums (pe_binary ex)) (p_body (pe_response ex)) (pe_version ex) (pe_value ex) /\
  complete (pe_response ex) (fin (n_arrives n)) [] (pending (n_arrives n)).
(** The connection was not closed at the end of the call. *)
Definition kept_open (es : list sock_event) : Prop := forall es0, es <> es0 ++ [Ev_close].
(** Every call that got something from a response was answered so, and so was every call with arguments that can be sent after which RuntimeError was raised and the
    connection stayed open; the other calls may have got anything.  The interpreter lives on after each call. *)
Inductive py_answered (host : datetime -> datetime) (ums : bool -> pyum) : list pydeed -> list (list sock_event * pyret) -> list pyexchange -> Prop :=
| py_answered_nil : py_answered host ums [] [] []
| py_answered_call : forall n name args headers ds es r outs ex exs,
    r <> Ret_abort -> r <> Ret_undef ->
    (from_response r \/ r = Ret_raise PE_Runtime /\ kept_open es /\ (exists cs, feed_args host args = (cs, None)) -> py_answered_by ums n ex) ->
    py_answered host ums ds outs exs -> py_answered host ums (Py_call n name args headers :: ds) ((es, r) :: outs) (ex :: exs)
| py_answered_close : forall ds outs exs, py_answered host ums ds outs exs -> py_answered host ums (Py_close :: ds) outs exs.

(** ** Any response *)
(** Undefined behaviour, or a C++ exception the module does not catch. *)
Definition kills (f : fail) : Prop :=
  match f with
  | Undef | Exn RuntimeError | Exn OutOfRange | Exn (OtherExn _) | Exn (FaultExn _ _) => True
  | _ => False
  end.
(** Given these pieces of a response the unmarshaller ends in such a way, or takes it for one of an unknown protocol version, so that the next call does. *)
Inductive py_troubles (u : pyum) (pieces : list bytes) : Prop :=
| py_trouble_pieces : forall s f, hand_over (pu_take u) (pu_init u) pieces = (s, Some f) -> kills f -> py_troubles u pieces
| py_trouble_end : forall s s' x f, hand_over (pu_take u) (pu_init u) pieces = (s, None) -> pu_finish u s = (s', x) ->
    (x = UB /\ f = Undef \/ exists e, x = Err e /\ f = Exn e) -> kills f -> py_troubles u pieces
| py_trouble_version : forall s s', hand_over (pu_take u) (pu_init u) pieces = (s, None) -> pu_finish u s = (s', Ok tt) ->
    3 < v_major (pu_version u s') -> py_troubles u pieces.
(** What the parser tells of a document in these pieces, up to the first error. *)
Definition told_of (P : parser) (pieces : list bytes) (l : list sax) : Prop :=
  exists prior d rest batches s s' batch code, pieces ++ [[]] = prior ++ d :: rest /\ reports P (ps_init P) prior batches s /\
    ps_take P s d = (s', batch, code) /\ l = concat batches ++ batch.
(** The texts in it are UTF-8. *)
Definition utf8_texts (l : list sax) : Prop := forall t, In (SChars t) l -> is_text t.
