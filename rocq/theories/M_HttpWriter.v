(** Model of the buffering writers: HTTPClient_t and Server_t as Writer_t (src/frpchttpclient.cc, src/frpcserver.cc). *)
From Verif Require Import Base Text M_Base64 M_Iso M_Url M_Http.

(** frpcinternals.h 293-294. *)
Definition BUFFER_SIZE : Z := 64512.

(** [std::hex << n] of a [size_t]: lower-case digits, no prefix.  [hex_aux]: the fuel is the number of bits. *)
Definition hex_char (d : Z) : byte := if d <? 10 then z2b (48 + d) else z2b (87 + d).
Fixpoint hex_aux (fuel : nat) (n : Z) (acc : bytes) : bytes :=
  match fuel with
  | O => acc
  | S k => let acc' := hex_char (n mod 16) :: acc in if n <? 16 then acc' else hex_aux k (n / 16) acc'
  end.
Definition hex_text (n : Z) : bytes := hex_aux (S (Z.to_nat (Z.log2 n))) n [].

(** [queryStorage] without its last string and that string, [useChunks], [headersSent], [contentLenght]
    ([unsigned int]) and what was given to [sendData] so far.  A failing [sendData] (C36) ends the use of the writer
    and is not modelled here. *)
Record wr : Type := mkWr {
  w_front : list bytes;
  w_back : bytes;
  w_chunks : bool;
  w_sent : bool;
  w_total : Z;
  w_wire : bytes
}.

Section Writer.
  (** The head of the message for a content length. *)
  Variable head : Z -> bytes.

  (** [HTTPClient_t::sendRequest] (frpchttpclient.cc 279-396) and [Server_t::sendResponse] (frpcserver.cc 398-530),
      which do the same with the buffers; the HEAD case of the latter is in M_Server.v. *)
  Definition wr_send (last : bool) (w : wr) : wr :=
    let h := if w_sent w then [] else head (w_total w) in
    if w_chunks w then
      mkWr (w_front w) [] true true (w_total w)
           (w_wire w ++ h ++ hex_text (blen (w_back w)) ++ crlf ++ w_back w ++
            (if last then crlf ++ str "0" ++ crlf ++ crlf else crlf))
    else mkWr [] [] false true (w_total w) (w_wire w ++ h ++ concat (w_front w) ++ w_back w).

  (** [write] (frpchttpclient.cc 144-161, frpcserver.cc 352-368): [BUFFER_SIZE - back.size()] is a [size_t]. *)
  Definition wr_write (d : bytes) (w : wr) : wr :=
    let w1 := mkWr (w_front w) (w_back w) (w_chunks w) (w_sent w) (u32 (w_total w + blen d)) (w_wire w) in
    let append w := mkWr (w_front w) (w_back w ++ d) (w_chunks w) (w_sent w) (w_total w) (w_wire w) in
    if u64 (BUFFER_SIZE - blen (w_back w)) <? blen d then
      if w_chunks w then append (wr_send false w1)
      else if BUFFER_SIZE <? blen d then
        mkWr (w_front w1 ++ [w_back w1]) d (w_chunks w1) (w_sent w1) (w_total w1) (w_wire w1)
      else append w1
    else append w1.

  (** [flush] (frpchttpclient.cc 135-142, frpcserver.cc 370-376). *)
  Definition wr_flush (w : wr) : wr := wr_send (w_chunks w) w.

  (** A message written in pieces. *)
  Definition wr_message (chunks : bool) (pieces : list bytes) : wr :=
    wr_flush (fold_left (fun w d => wr_write d w) pieces (mkWr [] [] chunks false 0 [])).
End Writer.

(** The head [sendRequest] writes (frpchttpclient.cc 284-332) for a client that is not behind UNIX sockets
    ([unix]: path "/" and an empty host); [custom] are the added headers in order. *)
Record client : Type := mkClient {
  k_url : url; k_http10 : bool; k_binary : bool; k_chunks : bool; k_keep : bool; k_custom : list (bytes * bytes)
}.
Definition client_fields (k : client) (total : Z) : list (bytes * bytes) :=
  (if k_http10 k then []
   else [(str "Host", if url_is_unix (k_url k) then [] else u_host (k_url k) ++ [x3a] ++ dec (u_port (k_url k)))]) ++
  [(str "Content-Type", if k_binary k then str "application/x-frpc" else str "text/xml");
   (str "Accept", str "text/xml, application/x-frpc");
   (str "Connection", if k_keep k then str "keep-alive" else str "close");
   if k_chunks k then (str "Transfer-Encoding", str "chunked") else (str "Content-Length", dec total)] ++
  k_custom k.
Definition client_head (k : client) (total : Z) : bytes :=
  str "POST " ++ (if url_is_unix (k_url k) then str "/" else u_path (k_url k)) ++ [x20] ++
  (if k_http10 k then str "HTTP/1.0" else str "HTTP/1.1") ++ crlf ++
  header_text (client_fields k total) ++ crlf.

(** [prepare] (frpchttpclient.h 100-116), then the writes and [flush] (frpcserverproxy.cc 483-513). *)
Definition client_prepare (binary : bool) (k : client) : client :=
  mkClient (k_url k) (k_http10 k) binary (if binary then k_chunks k && negb (k_http10 k) else false) (k_keep k) (k_custom k).
Definition client_request (k : client) (pieces : list bytes) : bytes :=
  w_wire (wr_message (client_head k) (k_chunks k) pieces).

(** The head [sendResponse] writes (frpcserver.cc 400-490); [out] is the content type of [outType], [extra] the text of
    [headerOut]. *)
Inductive out_type : Type := Out_xml | Out_binary | Out_json | Out_base64.
Definition content_type (o : out_type) : bytes :=
  match o with
  | Out_xml => str "text/xml"
  | Out_binary => str "application/x-frpc"
  | Out_json => str "application/json"
  | Out_base64 => str "application/x-base64-frpc"
  end.
Definition server_fields (o : out_type) (use_binary keep chunks : bool) (extra : header) (total : Z) : list (bytes * bytes) :=
  [(str "Content-Type", content_type o);
   (str "Accept", str "text/xml" ++ (if use_binary then str ", application/x-frpc" else []) ++
                  str ", application/x-www-form-urlencoded, application/x-base64-frpc");
   (str "Connection", if keep then str "keep-alive" else str "close");
   if chunks then (str "Transfer-Encoding", str "chunked") else (str "Content-Length", dec total);
   (str "Server", str "Fast-RPC  Server Linux")] ++ extra.
Definition server_head (o : out_type) (use_binary keep chunks : bool) (extra : header) (total : Z) : bytes :=
  str "HTTP/1.1 200 OK" ++ crlf ++ header_text (server_fields o use_binary keep chunks extra total) ++ crlf.
