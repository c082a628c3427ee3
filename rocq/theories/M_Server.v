(** Model of src/frpcserver.cc: reading requests and the loop over the requests of a connection. *)
From Verif Require Import Base Value Text M_Marshal M_BinUnmarshal M_TreeBuilder M_Base64 M_Iso M_Url M_Http M_HttpIO M_HttpWriter M_Registry.

(** HTTP status codes (frpcinternals.h, frpchttpio.h). *)
Definition HTTP_BAD_REQUEST := 400.
Definition HTTP_METHOD_NOT_ALLOWED := 405.
Definition HTTP_SERVICE_UNAVAILABLE := 503.
Definition HTTP_HTTP_VERSION_NOT_SUPPORTED := 505.

(** [std::string::find(p) != npos]. *)
Fixpoint starts (p s : bytes) : bool :=
  match p, s with
  | [], _ => true
  | a :: p', c :: s' => byte_eqb a c && starts p' s'
  | _ :: _, [] => false
  end.
Fixpoint contains (p s : bytes) : bool :=
  starts p s || match s with [] => false | _ :: r => contains p r end.

(** * Unmarshallers of requests *)
(** frpcb64unmarshaller.cc 44-55: the decoder in front of the binary unmarshaller. *)
Definition b64_um (val : option mktime_t) (req : Z) : unmarshaller :=
  let u := bin_um val req in
  mkUm (bytes * um_state u) ([], um_init u)
    (fun s d => let '(o, q) := b64_process (fst s) d in
                match o with
                | [] => ((q, snd s), None)
                | _ => let '(s', f) := um_take u (snd s) o in ((q, s'), f)
                end)
    (fun s => let '(s', x) := um_finish u (snd s) in ((fst s, s'), x))
    (fun s => um_version u (snd s)) (fun s => um_builder u (snd s)).
(** frpcurlunmarshaller.cc 352-377: the text is collected, [finish] calls the builder. *)
Fixpoint tb_events (val : option mktime_t) (t : tb) (es : list event) : tb * option fail :=
  match es with
  | [] => (t, None)
  | e :: r => match tb_step val t e with
              | (t', None) => tb_events val t' r
              | x => x
              end
  end.
Definition url_um (strtod : bytes -> option Z * bool) (erange : bool) (val : option mktime_t) (path : bytes) : unmarshaller :=
  mkUm (bytes * tb) ([], tb_init)
    (fun s d => ((fst s ++ d, snd s), None))
    (fun s => let '(es, f) := url_finish strtod erange (url_method path) (fst s) in
              match tb_events val (snd s) es with
              | (t, Some (Exn e)) => ((fst s, t), Err e)
              | (t, Some Undef) => ((fst s, t), UB)
              | (t, None) => ((fst s, t), match f with None => Ok tt | Some (Exn e) => Err e | Some Undef => UB end)
              end)
    (fun _ => mkVer 2 1) snd.

(** Types of requests. *)
Inductive in_type : Type := In_binary | In_xml | In_url (path : bytes) | In_base64.

(** The configuration (frpcserver.h 60-147); reading has no limits there (frpcserver.h 151). *)
Record config : Type := mkConf { f_keep : bool; f_binary : bool; f_max : Z }.

(** [headerOut]: null, the object given to the current [serve], or the one of an earlier [serve]. *)
Inductive extra : Type := No_header | This_header | Old_header.

(** The state a [Server_t] carries from request to request; [queryStorage], [contentLength] and [headersSent] are reset
    by [readRequest] before anything is written. *)
Record srv : Type := mkSrv {
  s_out : out_type; s_chunks : bool; s_ver : version; s_close : bool; s_head : bool; s_extra : extra
}.
Definition srv_init : srv := mkSrv Out_xml false (mkVer 2 1) true false No_header.

Section Server.
  Context {W : Type}.
  Variable message : exn -> bytes.
  Variable cfg : config.
  (** Unmarshallers and marshallers by type; the reason texts of HTTP errors. *)
  Variable ums : in_type -> unmarshaller.
  Variable mars : out_type -> version -> marshaller.
  Variable reason : Z -> bytes.
  (** How a marshaller cuts what it writes into calls of [write]. *)
  Variable cut : bytes -> list bytes.
  (** What the application put into the header given to [serve]. *)
  Variable added : W -> header.
  Variable g : registry (W:=W).

  (** The formats chosen by the header (frpcserver.cc 271-324). *)
  Definition choose_out (accept : option bytes) : out_type * bool :=
    match accept with
    | None => (Out_xml, false)
    | Some a =>
        if contains (str "application/x-frpc") a then if f_binary cfg then (Out_binary, true) else (Out_xml, false)
        else if contains (str "application/json") a then (Out_json, false)
        else if contains (str "application/x-base64-frpc") a then (Out_base64, false)
        else (Out_xml, false)
    end.
  Definition choose_in (content path : bytes) : option in_type :=
    if contains (str "application/x-frpc") content then Some In_binary
    else if contains (str "text/xml") content then Some In_xml
    else if contains (str "application/x-www-form-urlencoded") content then Some (In_url path)
    else if contains (str "application/x-base64-frpc") content then Some In_base64
    else None.
  (** frpcserver.cc 334-345. *)
  Definition choose_close (http11 : bool) (connection : bytes) : bool :=
    if http11 then bytes_eqb (map to_upper connection) (str "CLOSE")
    else negb (bytes_eqb (map to_upper connection) (str "KEEP-ALIVE")).
  Definition get_or_empty (name : bytes) (h : header) : bytes :=
    match header_get name 0 h with Some v => v | None => [] end.

  (** [readRequest] (frpcserver.cc 187-350): the state, the socket, and the builder or the exception. *)
  Definition read_request (st : srv) (s : sock) : srv * sock * res tb :=
    let st0 := mkSrv (s_out st) (s_chunks st) (s_ver st) false false (s_extra st) in
    match read_line_opt true (-1) true s with
    | (s1, Err e) => (st0, s1, Err e)
    | (s1, UB) => (st0, s1, UB)
    | (s1, Ok line) =>
        match line with
        | [] => (st0, s1, Err (ProtocolError HTTP_NO_REQUEST_RECEIVED))
        | _ =>
            match split_by_space line 3 with
            | [method; path; protocol] =>
                if negb (bytes_eqb protocol (str "HTTP/1.1") || bytes_eqb protocol (str "HTTP/1.0"))
                then (st0, s1, Err (HTTPError HTTP_HTTP_VERSION_NOT_SUPPORTED))
                else
                  match read_header false [] s1 with
                  | (s2, Err e) => (st0, s2, Err e)
                  | (s2, UB) => (st0, s2, UB)
                  | (s2, Ok h) =>
                      if negb (bytes_eqb method (str "POST")) then
                        if bytes_eqb method (str "HEAD")
                        then (mkSrv (s_out st) (s_chunks st) (s_ver st) true true (s_extra st), s2, Ok tb_init)
                        else (st0, s2, Err (HTTPError HTTP_METHOD_NOT_ALLOWED))
                      else
                        let '(out, chunks) := choose_out (header_get (str "Accept") 0 h) in
                        let st1 := mkSrv out chunks (s_ver st) false false (s_extra st) in
                        match choose_in (get_or_empty (str "Content-Type") h) path with
                        | None => (st1, s2, Err (StreamError "Unknown ContentType"))
                        | Some kind =>
                            let u := ums kind in
                            match read_content (um_take u) (-1) h true (mkRd s2 (um_init u) 0) with
                            | (r, Err e) => (st1, r_sock r, Err e)
                            | (r, UB) => (st1, r_sock r, UB)
                            | (r, Ok h2) =>
                                match um_finish u (r_sink r) with
                                | (_, Err e) => (st1, r_sock r, Err e)
                                | (_, UB) => (st1, r_sock r, UB)
                                | (k, Ok tt) =>
                                    let http11 := bytes_eqb protocol (str "HTTP/1.1") in
                                    (mkSrv out (if http11 then chunks else false) (um_version u k)
                                       (choose_close http11 (get_or_empty (str "Connection") h2)) false (s_extra st),
                                     r_sock r, Ok (um_builder u k))
                                end
                            end
                        end
                  end
            | _ => (st0, s1, Err (HTTPError HTTP_BAD_REQUEST))
            end
        end
    end.

  (** [sendHttpError] (frpcserver.cc 378-396). *)
  Definition error_text (code : Z) : bytes :=
    str "HTTP/1.1 " ++ dec code ++ [x20] ++ reason code ++ crlf ++
    header_text [(str "Accept", str "text/xml" ++ (if f_binary cfg then str ", application/x-frpc" else []) ++ str ", application/x-www-form-urlencoded")] ++
    str "Server: Fast-RPC  Server Linux" ++ crlf ++ crlf.

  (** What is sent when [data] is written and, if [flushed], [flush] called after it (frpcserver.cc 352-376, 398-530): [UB] if a header
      object is used that belongs to an earlier [serve]. *)
  Definition send_answer (st : srv) (w : W) (data : bytes) (flushed : bool) : srv * bytes * res unit :=
    let ex := match s_extra st with This_header => added w | _ => [] end in
    let hd := server_head (s_out st) (f_binary cfg) (f_keep cfg) (s_chunks st) ex in
    let wr0 := fold_left (fun x d => wr_write hd d x) (cut data) (mkWr [] [] (s_chunks st) false 0 []) in
    let wr1 := if flushed then wr_flush hd wr0 else wr0 in
    if w_sent wr1 then
      match s_extra st with
      | Old_header => (st, [], UB)
      | _ => (mkSrv (s_out st) (s_chunks st) (s_ver st) (s_close st) (s_head st) No_header, w_wire wr1, Ok tt)
      end
    else (st, w_wire wr1, Ok tt).

  (** What remains of a connection and of the application. *)
  Record conn : Type := mkConn { c_srv : srv; c_sock : sock; c_world : W; c_log : list callback; c_wire : bytes }.
  Inductive step_end : Type :=
  | Next (counted : bool)       (* to the condition of the loop; with or without requestCount++ *)
  | Stop                        (* break *)
  | Raised (x : res unit).      (* an exception leaves [serve] *)

  (** After an answer was sent (frpcserver.cc 175-180): goes on or not. *)
  Definition after_answer (st : srv) (s : sock) (w : W) (log : list callback) (wire : bytes) (a : outcome) (k : step_end) : conn * step_end :=
    match send_answer st (o_world a) (o_bytes a) (o_flushed a) with
    | (st2, o, Ok tt) =>
        let c := mkConn st2 s (o_world a) (log ++ o_log a) (wire ++ o) in
        match o_end a with
        | Ok tt => (c, k)
        | Err (HTTPError code) => (mkConn st2 s (o_world a) (log ++ o_log a) (wire ++ o ++ error_text code), Stop)
        | x => (c, Raised x)
        end
    | (st2, o, x) => (mkConn st2 s (o_world a) (log ++ o_log a) (wire ++ o), Raised x)
    end.

  (** One round of [serve] (frpcserver.cc 117-173). *)
  Definition serve_one (c : conn) : conn * step_end :=
    match read_request (c_srv c) (c_sock c) with
    | (st, s, Err (StreamError _ as e)) =>
        let m := mars (s_out st) (mkVer 2 1) in
        match after_answer st s (c_world c) (c_log c) (c_wire c)
                (answer_fault m (ma_init m) (c_world c) [] [] FRPC_PARSE_ERROR (message e)) (Next false) with
        | (c', Stop) => (c', Raised (Err e))     (* no handler there: cannot happen, [packFault] throws no HTTP error *)
        | x => x
        end
    | (st, s, Err (HTTPError code)) => (mkConn st s (c_world c) (c_log c) (c_wire c ++ error_text code), Stop)
    | (st, s, Err e) =>
        (mkConn st s (c_world c) (c_log c) (c_wire c),
         match e with
         | ProtocolError n => if n =? HTTP_NO_REQUEST_RECEIVED then Stop else Raised (Err e)
         | _ => Raised (Err e)
         end)
    | (st, s, UB) => (mkConn st s (c_world c) (c_log c) (c_wire c), Raised UB)
    | (st0, s, Ok t) =>
        let st := mkSrv (s_out st0) (s_chunks st0) (s_ver st0) (s_close st0) (s_head st0) This_header in
        let here w o := mkConn st s w (c_log c) (c_wire c ++ o) in
        if s_head st then
          match g_head g with
          | None => (here (c_world c) (error_text HTTP_METHOD_NOT_ALLOWED), Stop)
          | Some f =>
              let '(w, ok) := f (c_world c) in
              if ok : bool then
                (mkConn (mkSrv (s_out st) (s_chunks st) (s_ver st) (s_close st) true No_header) s w (c_log c)
                   (c_wire c ++ server_head (s_out st) (f_binary cfg) (f_keep cfg) (s_chunks st) (added w) 0), Next true)
              else (here w (error_text HTTP_SERVICE_UNAVAILABLE), Stop)
          end
        else
          match tb_root t with
          | RNone => (here (c_world c) (error_text HTTP_BAD_REQUEST), Stop)
          | _ =>
              match bind (tb_data t) as_array with
              | Ok params =>
                  (* Marshaller_t::create, outside any [try] (frpcmethodregistry.cc 154-155) *)
                  if 3 <? v_major (s_ver st) then (here (c_world c) [], Raised (Err (FrpcError "Not supported protocol version")))
                  else
                  after_answer st s (c_world c) (c_log c) (c_wire c)
                    (answer message (mars (s_out st) (s_ver st)) g (c_world c) (tb_method t) params) (Next true)
              | Err e => (here (c_world c) [], Raised (Err e))
              | UB => (here (c_world c) [], Raised UB)
              end
          end
    end.

  (** [serve] (frpcserver.cc 100-180): [count] is [requestCount].  Every round that goes on has taken a line from the socket, so [fuel]
      rounds suffice (L_Server.v). *)
  Fixpoint serve_loop (fuel : nat) (count : Z) (c : conn) : conn * res unit :=
    match fuel with
    | O => (c, UB)
    | S k =>
        match serve_one c with
        | (c', Stop) => (c', Ok tt)
        | (c', Raised x) => (c', x)
        | (c', Next counted) =>
            let n := if counted : bool then u32 (count + 1) else count in
            if s_close (c_srv c') || negb (f_keep cfg) || (f_max cfg <=? n) then (c', Ok tt) else serve_loop k n c'
        end
    end.
  (** At the start [closeConnection] and [head] are cleared; a header set by an earlier [serve] is no longer there. *)
  Definition serve (st : srv) (s : sock) (w : W) : conn * res unit :=
    let old := match s_extra st with No_header => No_header | _ => Old_header end in
    serve_loop (S (List.length (pending s))) 0 (mkConn (mkSrv (s_out st) (s_chunks st) (s_ver st) false false old) s w [] []).
End Server.
