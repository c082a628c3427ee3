(** Properties of the messages written by client and server: C33, C34. *)
From Coq Require Import Lia.
From Verif Require Import Base Text M_Base64 M_Iso M_Url M_Http M_HttpWriter S_Http L_Base L_HttpIO L_Http L_HttpWriter.

(** The message a server writes: see [server_head] for its arguments. *)
Definition server_message (o : out_type) (use_binary keep chunks : bool) (extra : header) (pieces : list bytes) : bytes :=
  w_wire (wr_message (server_head o use_binary keep chunks extra) chunks pieces).

(** ** C33 *)
(** In chunked mode the head is followed by chunks that carry what was written, in the sense of RFC 7230, if the first
    non-empty write is not larger than the buffer. *)
Theorem C33_client_partial : forall k empties first rest,
  k_chunks k = true -> first <> [] -> zlen first <= 64512 ->
  let pieces := repeat [] empties ++ first :: rest in
  exists body, client_request k pieces = client_head k 0 ++ body /\ chunked (concat pieces) [] body.
Proof.
  intros k e first rest HC HN HS pieces. unfold client_request. rewrite HC.
  destruct (wr_message_chunked (client_head k) pieces) as (t & w & E & HW).
  - apply (pieces_start e first rest HN HS).
  - apply (pieces_start e first rest HN HS).
  - exists w. split; [|assumption]. rewrite E. f_equal. unfold client_head, client_fields. rewrite HC. reflexivity.
Qed.
Print Assumptions C33_client_partial.

Theorem C33_server_partial : forall o use_binary keep extra empties first rest,
  first <> [] -> zlen first <= 64512 ->
  let pieces := repeat [] empties ++ first :: rest in
  exists body, server_message o use_binary keep true extra pieces = server_head o use_binary keep true extra 0 ++ body /\
    chunked (concat pieces) [] body.
Proof.
  intros o u kp ex e first rest HN HS pieces. unfold server_message.
  destruct (wr_message_chunked (server_head o u kp true ex) pieces) as (t & w & E & HW).
  - apply (pieces_start e first rest HN HS).
  - apply (pieces_start e first rest HN HS).
  - exists w. split; [|assumption]. rewrite E. reflexivity.
Qed.
Print Assumptions C33_server_partial.

(** The full claim is false: a first write larger than the buffer sends an empty chunk first, which ends the body. *)
Theorem C33_refuted : forall k big rest, k_chunks k = true -> 64512 < zlen big ->
  exists after, client_request k (big :: rest) = client_head k 0 ++ (str "0" ++ crlf ++ crlf) ++ after /\
    chunked [] [] (str "0" ++ crlf ++ crlf) /\ after <> [] /\
    ~ chunked (concat (big :: rest)) [] ((str "0" ++ crlf ++ crlf) ++ after).
Proof.
  intros k big rest HC HB. rewrite <- blen_zlen in HB.
  destruct (big_start (client_head k) big rest) as (t & after & E & HA); [unfold BUFFER_SIZE; lia|].
  exists after. split; [|split; [apply chunked_end|split; [assumption|]]].
  - unfold client_request. rewrite HC. etransitivity; [exact E|]. unfold client_head, client_fields. rewrite HC. reflexivity.
  - apply zero_not_chunked. cbn. destruct big; [cbn in HB; lia|discriminate].
Qed.
Print Assumptions C33_refuted.
Example C33_refuted_witness : exists big : bytes, 64512 < zlen big.
Proof. exists (repeat x61 (Z.to_nat 64513)). unfold zlen. rewrite repeat_length, Z2Nat.id; lia. Qed.

(** Nor does it hold for a message without any bytes: it has two terminating chunks. *)
Theorem C33_empty_refuted : forall k, k_chunks k = true ->
  client_request k [] = client_head k 0 ++ (str "0" ++ crlf ++ crlf) ++ (str "0" ++ crlf ++ crlf) /\
  ~ chunked [] [] ((str "0" ++ crlf ++ crlf) ++ (str "0" ++ crlf ++ crlf)).
Proof.
  intros k HC. split; [unfold client_request; rewrite HC; reflexivity|]. intro H. inversion H as [size ext tr HN HX HF E1 E2 E3|size ext data body tr wire HN HD HX HW E1 E2 E3].
  - change ((str "0" ++ crlf ++ crlf) ++ str "0" ++ crlf ++ crlf) with ((str "0" ++ crlf) ++ (crlf ++ str "0" ++ crlf ++ crlf)) in E3.
    subst tr. eapply zero_size in E3 as [_ E3]; [|eassumption|assumption]. destruct HX as [_ [->|(x & ->)]]; inversion E3.
  - destruct data; [congruence|discriminate].
Qed.
Print Assumptions C33_empty_refuted.

Example C33_sample : exists url, url_parse (str "http://h/RPC2") = Ok url /\
  client_request (mkClient url false true true false []) [str "ab"; []; str "cdefghijklmnop"] =
  str "POST /RPC2 HTTP/1.1" ++ crlf ++ str "Host: h:80" ++ crlf ++ str "Content-Type: application/x-frpc" ++ crlf ++
  str "Accept: text/xml, application/x-frpc" ++ crlf ++ str "Connection: close" ++ crlf ++ str "Transfer-Encoding: chunked" ++ crlf ++ crlf ++
  str "10" ++ crlf ++ str "abcdefghijklmnop" ++ crlf ++ str "0" ++ crlf ++ crlf.
Proof. exists (mkUrl (str "h") 80 (str "/RPC2") false false). split; vm_compute; reflexivity. Qed.

(** ** C34 *)
(** Without chunks: the head names the length of what was written, which follows it. *)
Theorem C34_client : forall k pieces, k_chunks k = false -> one_line (u_path (k_url k)) -> zlen (concat pieces) < 2 ^ 32 ->
  exists line fields v,
    client_request k pieces = (line ++ crlf ++ flat_map field_text fields ++ crlf) ++ concat pieces /\
    one_line line /\ first_value (str "Content-Length") fields v /\ dec_number v (zlen (concat pieces)).
Proof.
  intros k pieces HC HP HS. unfold client_request. rewrite HC, wr_message_plain.
  pose proof (blen_nonneg (concat pieces)). rewrite <- blen_zlen in *. rewrite u32_id by (unfold in_u32; lia).
  destruct (client_head_parts k (blen (concat pieces)) HC HP) as (line & fields & E & HL & HV).
  exists line, fields, (dec (blen (concat pieces))). rewrite E. repeat split; try assumption. apply dec_is_number. apply blen_nonneg.
Qed.
Print Assumptions C34_client.

Theorem C34_server : forall o use_binary keep extra pieces, zlen (concat pieces) < 2 ^ 32 ->
  exists fields v,
    server_message o use_binary keep false extra pieces = (str "HTTP/1.1 200 OK" ++ crlf ++ flat_map field_text fields ++ crlf) ++ concat pieces /\
    first_value (str "Content-Length") fields v /\ dec_number v (zlen (concat pieces)).
Proof.
  intros o u kp ex pieces HS. unfold server_message. rewrite wr_message_plain.
  pose proof (blen_nonneg (concat pieces)). rewrite <- blen_zlen in *. rewrite u32_id by (unfold in_u32; lia).
  exists (server_fields o u kp false ex (blen (concat pieces))), (dec (blen (concat pieces))). split; [reflexivity|]. split; [apply server_length|].
  apply dec_is_number. apply blen_nonneg.
Qed.
Print Assumptions C34_server.

(** The length is counted in 32 bits: a body of 4 GiB or more is announced with a smaller length. *)
Theorem C34_refuted : forall k pieces, k_chunks k = false -> one_line (u_path (k_url k)) -> 2 ^ 32 <= zlen (concat pieces) ->
  exists line fields v n,
    client_request k pieces = (line ++ crlf ++ flat_map field_text fields ++ crlf) ++ concat pieces /\
    one_line line /\ first_value (str "Content-Length") fields v /\ dec_number v n /\ n < zlen (concat pieces).
Proof.
  intros k pieces HC HP HS. unfold client_request. rewrite HC, wr_message_plain. rewrite <- blen_zlen in *.
  pose proof (Z.mod_pos_bound (blen (concat pieces)) (2 ^ 32) ltac:(lia)) as HM. fold (unsigned 32 (blen (concat pieces))) in HM. fold u32 in HM.
  destruct (client_head_parts k (u32 (blen (concat pieces))) HC HP) as (line & fields & E & HL & HV).
  exists line, fields, (dec (u32 (blen (concat pieces)))), (u32 (blen (concat pieces))). rewrite E. repeat split; try assumption; [apply dec_is_number; apply HM|]; eapply Z.lt_le_trans; [apply HM|assumption].
Qed.
Print Assumptions C34_refuted.
(** Such bodies can be written: no piece needs to have 4 GiB. *)
Example C34_refuted_witness : exists pieces : list bytes, 2 ^ 32 <= zlen (concat pieces) /\ Forall (fun d => zlen d < 2 ^ 32) pieces.
Proof.
  exists (repeat (repeat x61 (Z.to_nat 65536)) (Z.to_nat 65536)). split.
  - unfold zlen. assert (H : forall n, List.length (concat (repeat (repeat x61 (Z.to_nat 65536)) n)) = (n * Z.to_nat 65536)%nat).
    { induction n as [|n IH]; [reflexivity|]. cbn [repeat concat]. rewrite app_length, IH, repeat_length. reflexivity. }
    rewrite H, Nat2Z.inj_mul, Z2Nat.id; lia.
  - apply Forall_forall. intros d HD. apply repeat_spec in HD. subst d. unfold zlen. rewrite repeat_length, Z2Nat.id; lia.
Qed.

Example C34_sample : exists url, url_parse (str "http://h:8080/") = Ok url /\
  client_request (mkClient url true false false true [(str "X-A", str "1")]) [str "ab"; str "cdefghijklmnop"] =
  str "POST / HTTP/1.0" ++ crlf ++ str "Content-Type: text/xml" ++ crlf ++
  str "Accept: text/xml, application/x-frpc" ++ crlf ++ str "Connection: keep-alive" ++ crlf ++ str "Content-Length: 16" ++ crlf ++
  str "X-A: 1" ++ crlf ++ crlf ++ str "abcdefghijklmnop".
Proof. exists (mkUrl (str "h") 8080 (str "/") false false). split; vm_compute; reflexivity. Qed.
