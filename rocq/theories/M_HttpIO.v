(** Model of src/frpchttpio.cc: reading from and writing to a socket. *)
From Verif Require Import Base Text M_Base64 M_Iso M_Url M_Http.

(** How the incoming side of a connection ends: the peer closes it, nothing more comes within the time-out, or
    [poll]/[recv] fails. *)
Inductive ending : Type := Closed | TimedOut | Broken.

(** The incoming side of a socket: all the bytes still to be read, how many of them the successive [poll]/[recv] calls
    see (at least one; all of them when the list is used up) and what happens after the last byte.  Bytes seen by
    [MSG_PEEK] are still there in the following [recv], as the kernel guarantees.  [EINTR] is retried by the code and
    not modelled. *)
Record sock : Type := mkSock { pending : bytes; sees : list Z; fin : ending }.
Definition HTTP_BUFF_LENGTH : Z := 65536.

(** What a [recv] of at most [want] bytes returns. *)
Definition seen (want : Z) (s : sock) : bytes :=
  ztake (Z.min want (match sees s with [] => blen (pending s) | n :: _ => Z.max 1 n end)) (pending s).
Definition consume (n : Z) (s : sock) : sock := mkSock (zdrop n (pending s)) (tl (sees s)) (fin s).

(** [throw ProtocolError_t(c, ...)] (frpchttpio.cc); the message is left out. *)
Definition err {A} (c : Z) : res A := Err (ProtocolError c).

(** Position of the first LF ([memchr]). *)
Definition is_cr (c : byte) : bool := is_char 13 c.

(** [readLineOpt] (frpchttpio.cc 166-314).  [acc] is [lineBuff], [first] is [noBytes], [check] and [limit] are [checkLimit] and
    [lineSizeLimit].  The fuel is the number of bytes left, each round reads at least one. *)
Fixpoint read_line_loop (fuel : nat) (check : bool) (limit : Z) (optional first : bool) (acc : bytes) (s : sock)
  : sock * res bytes :=
  match fuel with
  | O => (s, UB)
  | S fuel' =>
      match pending s with
      | [] =>
          (s, match fin s with
              | TimedOut => if optional then Ok [] else err HTTP_TIMEOUT
              | Broken => err HTTP_SYSCALL
              | Closed => if first && optional then Ok [] else err HTTP_CLOSED
              end)
      | _ =>
          let d := seen HTTP_BUFF_LENGTH s in
          let too_long n := check && (0 <=? limit) && (limit <? blen acc + n) in
          match find_char 10 d with
          | Some i =>
              if too_long (i + 1) then (s, err HTTP_LINE_TOO_LONG)
              else (consume (i + 1) s, Ok (strip_end is_cr (acc ++ ztake i d)))
          | None =>
              if too_long (blen d) then (s, err HTTP_LINE_TOO_LONG)
              else read_line_loop fuel' check limit optional false (acc ++ d) (consume (blen d) s)
          end
      end
  end.
Definition read_line_opt (check : bool) (limit : Z) (optional : bool) (s : sock) : sock * res bytes :=
  read_line_loop (S (List.length (pending s))) check limit optional true [] s.

(** Sequencing of socket operations. *)
Definition sbind {S A B} (x : S * res A) (f : S -> A -> S * res B) : S * res B :=
  match x with
  | (s, Ok a) => f s a
  | (s, Err e) => (s, Err e)
  | (s, UB) => (s, UB)
  end.

(** [readHeader] (frpchttpio.cc 474-510).  Every line takes at least its LF from the socket, so [fuel] rounds suffice. *)
Fixpoint read_header_loop (fuel : nat) (optional : bool) (h : header) (s : sock) : sock * res header :=
  match fuel with
  | O => (s, UB)
  | S fuel' =>
      sbind (read_line_opt false (-1) optional s) (fun s line =>
        match line with
        | [] => (s, Ok h)
        | _ =>
            match get_header_value line with
            | None => (s, err HTTP_VALUE)
            | Some ([], v) =>
                match h with
                | [] => (s, err HTTP_VALUE)
                | _ => read_header_loop fuel' false (append_last v h) s
                end
            | Some (name, v) => read_header_loop fuel' false (header_add name v h) s
            end
        end)
  end.
Definition read_header (optional : bool) (h : header) (s : sock) : sock * res header :=
  read_header_loop (S (List.length (pending s))) optional h s.

(** [readChunkSize] (frpchttpio.cc 512-523). *)
Definition read_chunk_size (s : sock) : sock * res Z :=
  sbind (read_line_opt false (-1) false s) (fun s line =>
    match read_hex_long line with
    | Some z => if z <? 0 then (s, err HTTP_VALUE) else (s, Ok z)
    | None => (s, err HTTP_VALUE)
    end).

Section Sink.
  (** [DataSink_t] (frpchttpclient.h 58-80): an unmarshaller taking pieces of data. *)
  Context {K : Type}.
  Variable sink : K -> bytes -> K * option fail.
  (** [bodySizeLimit], -1 for none. *)
  Variable limit : Z.

  (** Socket, unmarshaller, [dataWritten] ([unsigned int]). *)
  Record rd : Type := mkRd { r_sock : sock; r_sink : K; r_written : Z }.
  Definition with_sock {A} (r : rd) (x : sock * res A) : rd * res A :=
    (mkRd (fst x) (r_sink r) (r_written r), snd x).

  (** [DataSink_t::write] (frpchttpclient.h 58-80). *)
  Definition sink_write (d : bytes) (r : rd) : rd * res unit :=
    match sink (r_sink r) d with
    | (k, None) => (mkRd (r_sock r) k (u32 (r_written r + blen d)), Ok tt)
    | (k, Some (Exn e)) => (mkRd (r_sock r) k (r_written r), Err e)
    | (k, Some Undef) => (mkRd (r_sock r) k (r_written r), UB)
    end.

  (** The loop of [readBlock] (frpchttpio.cc 410-466); [n] is [contentLength], [n < 0] reads until the end of the connection. *)
  Fixpoint read_block_loop (fuel : nat) (n : Z) (r : rd) : rd * res unit :=
    match fuel with
    | O => (r, UB)
    | S fuel' =>
        match pending (r_sock r) with
        | [] =>
            (r, match fin (r_sock r) with
                | TimedOut => err HTTP_TIMEOUT
                | Broken => err HTTP_SYSCALL
                | Closed => if n <? 0 then Ok tt else err HTTP_CLOSED
                end)
        | _ =>
            let d := seen (if (n <? 0) || (HTTP_BUFF_LENGTH <? n) then HTTP_BUFF_LENGTH else n) (r_sock r) in
            let r1 := mkRd (consume (blen d) (r_sock r)) (r_sink r) (r_written r) in
            if (0 <=? limit) && (limit <? r_written r) then (r1, err HTTP_BODY_TOO_LONG)
            else
              sbind (sink_write d r1) (fun r2 _ =>
                if n <? 0 then read_block_loop fuel' n r2
                else if n - blen d =? 0 then (r2, Ok tt)
                else read_block_loop fuel' (n - blen d) r2)
        end
    end.
  Definition read_block (n : Z) (r : rd) : rd * res unit :=
    if n =? 0 then (r, Ok tt)
    else if (0 <=? limit) && (limit <? n) then (r, err HTTP_BODY_TOO_LONG)
    else read_block_loop (S (List.length (pending (r_sock r)))) n r.

  (** [readChunkedContent] (frpchttpio.cc 525-554): the sum of two [long]s may overflow.  Every chunk takes at least the LF of its size
      from the socket. *)
  Fixpoint read_chunks (fuel : nat) (h : header) (r : rd) : rd * res header :=
    match fuel with
    | O => (r, UB)
    | S fuel' =>
        sbind (with_sock r (read_chunk_size (r_sock r))) (fun r size =>
          if size =? 0 then with_sock r (read_header true h (r_sock r))
          else if (0 <=? limit) && (2 ^ 63 <=? r_written r + size) then (r, UB)
          else if (0 <=? limit) && (limit <? r_written r + size) then (r, err HTTP_BODY_TOO_LONG)
          else
            sbind (read_block size r) (fun r _ =>
            sbind (with_sock r (read_line_opt false (-1) false (r_sock r))) (fun r line =>
              match line with
              | [] => read_chunks fuel' h r
              | _ => (r, err HTTP_VALUE)
              end)))
    end.
  Definition read_chunked (h : header) (r : rd) : rd * res header :=
    read_chunks (S (List.length (pending (r_sock r)))) h r.

  (** [readContent] (frpchttpio.cc 556-609): what is read, decided by the header, and the header with the trailer. *)
  Definition read_content (h : header) (request : bool) (r : rd) : rd * res header :=
    match header_get (str "Content-Length") 0 h with
    | Some v =>
        match read_dec_long v with
        | None => (r, err HTTP_VALUE)
        | Some n =>
            if n <? 0 then (r, err HTTP_VALUE)
            else if (0 <=? limit) && (limit <? n) then (r, err HTTP_BODY_TOO_LONG)
            else sbind (read_block n r) (fun r _ => (r, Ok h))
        end
    | None =>
        match header_get (str "Transfer-Encoding") 0 h with
        | Some v =>
            if bytes_eqb (map to_upper v) (str "CHUNKED") then read_chunked h r
            else (r, err HTTP_VALUE)
        | None => if request then (r, Ok h) else sbind (read_block (-1) r) (fun r _ => (r, Ok h))
        end
    end.
End Sink.

(** * Sending *)
(** What happens in one round of [sendData]: [poll] times out or fails, or the socket is ready ([readable]: with
    data to read as well) and [send] takes [n] bytes or fails (with [EPIPE] or otherwise). *)
Inductive send_try : Type :=
| Try_timeout
| Try_poll_error
| Try_ready (readable : bool) (sent : option Z) (epipe : bool).

(** How a call of [sendData] ends; [Sending]: it has not returned yet. *)
Inductive send_end : Type := Sent_all | Send_threw (e : exn) | Sending.

(** The loop of [sendData] (frpchttpio.cc 316-382): bytes given to the kernel and the end. *)
Fixpoint send_loop (watch : bool) (data : bytes) (tries : list send_try) : bytes * send_end :=
  match tries with
  | [] => ([], Sending)
  | t :: r =>
      match t with
      | Try_timeout => ([], Send_threw (ProtocolError HTTP_TIMEOUT))
      | Try_poll_error => ([], Send_threw (ProtocolError HTTP_SYSCALL))
      | Try_ready readable sent epipe =>
          if watch && readable then ([], Send_threw ResponseError)
          else
            match sent with
            | None => ([], Send_threw (if watch && epipe then ResponseError else ProtocolError HTTP_SYSCALL))
            | Some n0 =>
                let n := Z.max 0 (Z.min n0 (Z.min HTTP_BUFF_LENGTH (blen data))) in
                if n =? 0 then send_loop watch data r
                else if blen data - n =? 0 then (data, Sent_all)
                else let '(o, e) := send_loop watch (zdrop n data) r in (ztake n data ++ o, e)
            end
      end
  end.
Definition send_data (watch : bool) (data : bytes) (tries : list send_try) : bytes * send_end :=
  match data with [] => ([], Sent_all) | _ => send_loop watch data tries end.
