(** Requests that cannot be served, and how they should be refused. *)
From Verif Require Import Base Value Text M_Marshal M_TreeBuilder M_Base64 M_Url M_Http M_HttpWriter M_Registry M_Server S_Http S_Registry S_Server.

(** The body decodes, but to nothing: it carries no call. *)
Definition decodes_nothing (u : unmarshaller) (body : bytes) : Prop :=
  forall pieces, arrives body pieces ->
  exists s s', um_all u (um_init u) pieces = (s, None) /\ um_finish u s = (s', Ok tt) /\ tb_root (um_builder u s') = RNone.

(** The text of a request up to where it is read, and the status it is refused with.  [head_works]: the application has a
    HEAD method ([None] if not) and this is what it says. *)
Inductive refused (ums : in_type -> unmarshaller) (head_works : option bool) : bytes -> Z -> Prop :=
| refused_one_word : forall w, word w -> refused ums head_works (w ++ crlf) 400
| refused_two_words : forall a b, word a -> word b -> refused ums head_works (a ++ [x20] ++ b ++ crlf) 400
| refused_version : forall a b v, word a -> word b -> one_line v -> v <> [] -> last v x20 <> x0d -> v <> str "HTTP/1.1" -> v <> str "HTTP/1.0" ->
    refused ums head_works (a ++ [x20] ++ b ++ [x20] ++ v ++ crlf) 505
| refused_method : forall a b http11 fields, word a -> word b -> a <> str "POST" -> a <> str "HEAD" -> Forall field_ok fields ->
    refused ums head_works (a ++ [x20] ++ b ++ [x20] ++ (if http11 : bool then str "HTTP/1.1" else str "HTTP/1.0") ++ crlf ++ flat_map field_text fields ++ crlf) 405
| refused_head : forall b http11 fields, word b -> Forall field_ok fields -> head_works <> Some true ->
    refused ums head_works (str "HEAD " ++ b ++ [x20] ++ (if http11 : bool then str "HTTP/1.1" else str "HTTP/1.0") ++ crlf ++ flat_map field_text fields ++ crlf)
      (if head_works then 503 else 405)
| refused_body : forall q k wire, well_formed q -> framed (q_fields q) (q_body q) wire -> request_type q k -> decodes_nothing (ums k) (q_body q) ->
    refused ums head_works (request_head q ++ wire) 400.

(** A response without body that tells this status. *)
Definition refusal_text (code : Z) (text : bytes) : Prop :=
  exists number reason fields, dec_number number code /\ Forall field_ok fields /\
    text = str "HTTP/1.1 " ++ number ++ [x20] ++ reason ++ crlf ++ flat_map field_text fields ++ crlf.

(** Requests that were all answered and after which the connection stays open. *)
Section Far.
  Context {W : Type}.
  Variable message : exn -> bytes.
  Variable cfg : config.
  Variable ums : in_type -> unmarshaller.
  Variable mars : out_type -> version -> marshaller.
  Variable added : W -> list (bytes * bytes).
  Variable g : registry (W:=W).
  Inductive so_far : Z -> W -> list request -> W -> list (bool * out_type * list (bytes * bytes) * bytes) -> Z -> Prop :=
  | far_none : forall n w, so_far n w [] w [] n
  | far_more : forall n w q rest w' o body w2 outs m, answers message cfg ums mars g w q w' o body -> goes_on cfg (n + 1) q ->
      so_far (n + 1) w' rest w2 outs m -> so_far n w (q :: rest) w2 ((q_http11 q, o, added w', body) :: outs) m.
End Far.
