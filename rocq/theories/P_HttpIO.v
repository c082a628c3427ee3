(** Properties of reading from and writing to a connection: C35, C36, C37. *)
From Coq Require Import Lia.
From Verif Require Import Base Text M_Base64 M_Iso M_Url M_Http M_HttpIO S_Http L_Base L_HttpIO L_HttpIO2 L_HttpIO3 L_HttpIO4 L_HttpIO5 L_Http L_UrlText.

(** ** C35 *)
(** The result, and what is left to be read, do not depend on how the data come ([sees]). *)
Theorem C35_segmentation : forall check limit optional data ending sees1 sees2,
  let '(s1, x1) := read_line_opt check limit optional (mkSock data sees1 ending) in
  let '(s2, x2) := read_line_opt check limit optional (mkSock data sees2 ending) in
  x1 = x2 /\ fin s1 = fin s2 /\ (forall line, x1 = Ok line -> pending s1 = pending s2).
Proof.
  intros. unfold read_line_opt.
  destruct (read_line_loop_spec (S (List.length data)) check limit optional true [] (mkSock data sees1 ending)) as (p1 & v1 & E1 & A1 & _); [cbn; lia|].
  destruct (read_line_loop_spec (S (List.length data)) check limit optional true [] (mkSock data sees2 ending)) as (p2 & v2 & E2 & A2 & _); [cbn; lia|].
  cbn [pending fin] in *. rewrite E1, E2. split; [reflexivity|]. split; [reflexivity|]. intros line H. cbn [pending]. rewrite (A1 line H), (A2 line H). reflexivity.
Qed.
Print Assumptions C35_segmentation.

(** A line ends at the first LF; carriage returns before it are dropped; what follows stays. *)
Theorem C35_line : forall check limit optional l t rest sees ending, one_line l -> without_cr l t ->
  (check = false \/ limit < 0 \/ zlen l + 1 <= limit) ->
  exists sees', read_line_opt check limit optional (mkSock (l ++ x0a :: rest) sees ending) = (mkSock rest sees' ending, Ok t).
Proof.
  intros check limit optional l t rest sees ending HL (n & -> & HT) HLIM.
  destruct (read_line_at check limit optional (t ++ repeat x0d n) rest sees ending HL) as (v & E).
  - unfold too_long. rewrite blen_zlen. destruct HLIM as [->|[HLIM|HLIM]]; [reflexivity| |].
    + replace (0 <=? limit) with false by (symmetry; apply Z.leb_gt; lia). rewrite andb_false_r. reflexivity.
    + replace (limit <? zlen (t ++ repeat x0d n) + 1) with false by (symmetry; apply Z.ltb_ge; lia). apply andb_false_r.
  - exists v. rewrite E. f_equal. f_equal. apply strip_end_app.
    + apply forallb_forall. intros x HX. apply repeat_spec in HX. subst x. reflexivity.
    + intros c r Er. subst t. rewrite last_last in HT. unfold is_cr, is_char. apply Z.eqb_neq. intro EC. apply HT. apply b2z_inj. exact EC.
Qed.
Print Assumptions C35_line.

(** Nothing else is ever returned as a line (of a reader that does not accept the end of the connection instead). *)
Theorem C35_only_lines : forall check limit s s' t, read_line_opt check limit false s = (s', Ok t) ->
  exists l rest, pending s = l ++ x0a :: rest /\ one_line l /\ without_cr l t /\ pending s' = rest
    /\ (check = true -> 0 <= limit -> zlen l + 1 <= limit).
Proof.
  intros check limit s s' t H. unfold read_line_opt in H.
  destruct (read_line_loop_spec (S (List.length (pending s))) check limit false true [] s ltac:(lia)) as (p & v & E & EA & _). rewrite E in H.
  inversion H as [[HS HT]]. clear H E. specialize (EA t HT). unfold line_result in HT. unfold after_line in EA.
  destruct (find_char 10 (pending s)) as [i|] eqn:EF.
  - apply find_char_some in EF as (a & x & b & EP & EX & EL & EN).
    assert (x = x0a) by (apply b2z_inj; unfold is_char in EX; apply Z.eqb_eq in EX; rewrite EX; reflexivity). subst x.
    destruct (too_long check limit (blen [] + i + 1)) eqn:ETL; [discriminate|]. inversion HT as [HT1]. clear HT.
    exists a, b. split; [exact EP|]. split; [|split; [|split]].
    + intro HI. rewrite find_char_none_in in EN. apply (EN _ HI). reflexivity.
    + rewrite EP. change ([] ++ ztake i (a ++ x0a :: b)) with (ztake i (a ++ x0a :: b)). subst i. rewrite L_UrlText.ztake_app.
      destruct (strip_end_prefix is_cr a) as (c & EC & HC). exists (List.length c). split.
      * rewrite EC at 1. f_equal. clear EC. induction c as [|y c IH]; [reflexivity|]. cbn [forallb] in HC. apply andb_prop in HC as [HC1 HC2].
        cbn [List.length repeat]. rewrite <- (IH HC2). f_equal. unfold is_cr, is_char in HC1. apply Z.eqb_eq in HC1. apply b2z_inj. rewrite HC1. reflexivity.
      * unfold strip_end. destruct (skip is_cr (rev a)) as [|y r] eqn:ES; [discriminate|]. cbn [rev]. rewrite last_last. intros ->.
        assert (HSK : forall l y r, skip is_cr l = y :: r -> is_cr y = false).
        { induction l as [|z l IH]; intros y0 r0 HH; [discriminate|]. cbn in HH. destruct (is_cr z) eqn:EZ; [eapply IH; eauto|]. inversion HH; subst. assumption. }
        specialize (HSK _ _ _ ES). discriminate.
    + cbn [pending]. rewrite EA, EP. change (x0a :: b) with ([x0a] ++ b). rewrite app_assoc.
      replace (i + 1) with (blen (a ++ [x0a])) by (rewrite blen_app; cbn; lia). apply L_UrlText.zdrop_app.
    + intros -> HLIM. unfold too_long in ETL. cbn [andb] in ETL. replace (0 <=? limit) with true in ETL by (symmetry; apply Z.leb_le; lia).
      cbn [andb] in ETL. apply Z.ltb_ge in ETL. change (blen []) with 0 in ETL. rewrite <- blen_zlen. lia.
  - destruct ((0 <? blen (pending s)) && too_long check limit (blen [] + blen (pending s))); [discriminate|].
    destruct (fin s); try discriminate. rewrite andb_false_r in HT. discriminate.
Qed.
Print Assumptions C35_only_lines.

Example C35_sample : forall sees, exists s,
  read_line_opt true 20 false (mkSock (str "GET / HTTP/1.1" ++ crlf ++ str "Host: a") sees Closed) = (s, Ok (str "GET / HTTP/1.1")) /\
  pending s = str "Host: a".
Proof.
  intro sees. replace (str "GET / HTTP/1.1" ++ crlf ++ str "Host: a") with ((str "GET / HTTP/1.1" ++ [x0d]) ++ x0a :: str "Host: a") by reflexivity.
  destruct (C35_line true 20 false (str "GET / HTTP/1.1" ++ [x0d]) (str "GET / HTTP/1.1") (str "Host: a") sees Closed) as (v & E).
  - intro H. vm_compute in H. repeat (destruct H as [H|H]; [discriminate|]). contradiction.
  - exists 1%nat. split; [reflexivity|discriminate].
  - right. right. vm_compute. discriminate.
  - eexists. split; [exact E|reflexivity].
Qed.

(** The reader used for the line that may be missing drops what came of a line when the time is up. *)
Theorem C35_optional_refuted : exists s, read_line_opt true 20 true s = (mkSock [] [] TimedOut, Ok []) /\ pending s <> [].
Proof. exists (mkSock (str "GE") [] TimedOut). split; [vm_compute; reflexivity|discriminate]. Qed.
Print Assumptions C35_optional_refuted.

(** ** C36 *)
(** Whatever happens in the rounds: the kernel got a beginning of the data, all of it when the call returns normally. *)
Theorem C36_send : forall watch data tries sent ending, send_data watch data tries = (sent, ending) ->
  (exists rest, data = sent ++ rest) /\ (ending = Sent_all -> sent = data).
Proof.
  intros watch data tries sent ending H. unfold send_data in H. destruct data as [|c data].
  - inversion H; subst. split; [exists []; reflexivity|reflexivity].
  - eapply send_loop_spec; eauto. discriminate.
Qed.
Print Assumptions C36_send.

(** It does return normally when the socket takes at least one byte in every round. *)
Theorem C36_progress : forall data tries,
  Forall (fun t => exists readable n, t = Try_ready readable (Some n) false /\ 1 <= n) tries -> (List.length data <= List.length tries)%nat ->
  send_data false data tries = (data, Sent_all).
Proof.
  intros data tries HT HL.
  assert (H : exists o, send_data false data tries = (o, Sent_all)).
  { unfold send_data. destruct data as [|c data]; [eauto|].
    assert (HG : forall tries data, Forall (fun t => exists readable n, t = Try_ready readable (Some n) false /\ 1 <= n) tries ->
               (List.length data <= List.length tries)%nat -> data <> [] -> exists o, send_loop false data tries = (o, Sent_all)).
    { clear. induction tries as [|t tries IH]; intros data HT HL HD; [destruct data; [congruence|cbn in HL; lia]|].
      inversion HT as [|? ? (b & n & -> & HN) HT2]; subst. cbn [send_loop andb]. pose proof (blen_pos _ HD).
      set (m := Z.max 0 (Z.min n (Z.min HTTP_BUFF_LENGTH (blen data)))).
      assert (HM : 1 <= m <= blen data) by (unfold m, HTTP_BUFF_LENGTH; lia).
      replace (m =? 0) with false by (symmetry; apply Z.eqb_neq; lia). destruct (Z.eqb_spec (blen data - m) 0); [eauto|].
      destruct (IH (zdrop m data) HT2) as (o & E).
      - unfold zdrop, blen, bytes in *. rewrite skipn_length. cbn [List.length] in HL. lia.
      - intro E. apply (f_equal blen) in E. unfold zdrop, blen, bytes in *. rewrite skipn_length in E. cbn in E. lia.
      - rewrite E. eauto. }
    apply HG; [assumption|assumption|discriminate]. }
  destruct H as (o & H). destruct (C36_send _ _ _ _ _ H) as [_ HE]. rewrite (HE eq_refl) in H. exact H.
Qed.
Print Assumptions C36_progress.

Example C36_sample : send_data true (str "hello") [Try_ready false (Some 2) false; Try_ready false (Some 0) false; Try_ready false (Some 9) false]
  = (str "hello", Sent_all) /\ send_data true (str "hello") [Try_ready false (Some 2) false; Try_timeout] = (str "he", Send_threw (ProtocolError 0)).
Proof. split; vm_compute; reflexivity. Qed.

(** ** C37 *)
(** A message whose header gives the length: exactly the body goes to the consumer, in order, whatever the pieces the
    network made, and the rest stays unread; if the consumer fails, that failure is what the caller sees. *)
Theorem C37_content_length : forall K (consumer : K -> bytes -> K * option fail) k limit request fields body rest sees ending v,
  Forall field_ok fields -> first_value (str "Content-Length") fields v -> dec_number v (zlen body) -> zlen body < 2 ^ 63 ->
  (limit < 0 \/ zlen body <= limit < 2 ^ 31) ->
  exists s1 h, read_header false [] (mkSock (flat_map field_text fields ++ crlf ++ body ++ rest) sees ending) = (s1, Ok h) /\
  exists pieces, arrives body pieces /\
    let '(r, x) := read_content consumer limit h request (mkRd s1 k 0) in
    match hand_over consumer k pieces with
    | (k', None) => r_sink r = k' /\ x = Ok h /\ pending (r_sock r) = rest
    | (k', Some f) => r_sink r = k' /\ x = match f with Exn e => Err e | Undef => UB end
    end.
Proof.
  intros K consumer k limit request fields body rest sees ending v HF HV HD HB HL.
  destruct (read_head fields (body ++ rest) sees ending HF) as (v1 & E1). exists (mkSock (body ++ rest) v1 ending), (map as_read fields).
  split; [exact E1|]. rewrite <- blen_zlen in *. unfold read_content. rewrite (get_read _ _ _ HV), (read_dec_long_number v _ HD HB).
  pose proof (blen_nonneg body).
  destruct (read_block_spec consumer limit (blen body) (mkRd (mkSock (body ++ rest) v1 ending) k 0) body rest eq_refl eq_refl) as (ps & EC & NE & HM).
  { unfold room. cbn [r_written]. destruct HL as [HL|HL]; [left; assumption|right; lia]. }
  exists ps. split; [split; assumption|]. cbn [r_sink r_sock fin] in HM.
  replace (blen body <? 0) with false by (symmetry; apply Z.ltb_ge; lia).
  replace ((0 <=? limit) && (limit <? blen body)) with false.
  2:{ symmetry. destruct HL as [HL|HL]; [replace (0 <=? limit) with false by (symmetry; apply Z.leb_gt; lia); reflexivity|].
      replace (limit <? blen body) with false by (symmetry; apply Z.ltb_ge; lia). apply andb_false_r. }
  destruct (hand_over consumer k ps) as [k1 [f|]].
  - destruct HM as (s & w & ->). destruct f; cbn; auto.
  - destruct HM as (v2 & w & -> & _). cbn. auto.
Qed.
Print Assumptions C37_content_length.

(** The same for a chunked body; the trailer's fields are added to the header. *)
Theorem C37_chunked : forall K (consumer : K -> bytes -> K * option fail) k limit request fields body trailer wire rest sees ending v,
  Forall field_ok fields -> no_value (str "Content-Length") fields ->
  first_value (str "Transfer-Encoding") fields v -> same_name v (str "chunked") -> chunked body trailer wire -> zlen body < 2 ^ 63 ->
  (limit < 0 \/ zlen body <= limit < 2 ^ 31) ->
  exists s1 h, read_header false [] (mkSock (flat_map field_text fields ++ crlf ++ wire ++ rest) sees ending) = (s1, Ok h) /\
  exists pieces, arrives body pieces /\
    let '(r, x) := read_content consumer limit h request (mkRd s1 k 0) in
    match hand_over consumer k pieces with
    | (k', None) => r_sink r = k' /\ pending (r_sock r) = rest /\
                    x = Ok (fold_left (fun h f => header_add (fst f) (snd f) h) trailer h)
    | (k', Some f) => r_sink r = k' /\ x = match f with Exn e => Err e | Undef => UB end
    end.
Proof.
  intros K consumer k limit request fields body trailer wire rest sees ending v HF HNO HV HC HCH HB HL.
  destruct (read_head fields (wire ++ rest) sees ending HF) as (v1 & E1). exists (mkSock (wire ++ rest) v1 ending), (map as_read fields).
  split; [exact E1|]. rewrite <- blen_zlen in *. unfold read_content. rewrite (get_read_none _ _ HNO), (get_read _ _ _ HV).
  replace (bytes_eqb (map to_upper v) (str "CHUNKED")) with true.
  2:{ symmetry. apply bytes_eqb_spec. rewrite (upper_name _ _ HC). reflexivity. }
  pose proof (blen_nonneg body). unfold read_chunked. cbn [r_sock pending].
  destruct (chunks_spec consumer limit body trailer wire HCH HB (S (List.length (wire ++ rest))) (mkRd (mkSock (wire ++ rest) v1 ending) k 0)
              (map as_read fields) rest eq_refl) as (ps & EC & NE & HM).
  { rewrite app_length. lia. }
  { unfold room. cbn [r_written]. destruct HL as [HL|HL]; [left; assumption|right; lia]. }
  exists ps. split; [split; assumption|]. cbn [r_sink r_sock fin] in HM.
  destruct (hand_over consumer k ps) as [k1 [f|]].
  - destruct HM as (s & w & ->). destruct f; cbn; auto.
  - destruct HM as (v2 & w & ->). cbn [r_sink r_sock pending]. split; [reflexivity|]. split; [reflexivity|]. f_equal.
    generalize (map as_read fields) as h. induction trailer as [|t trailer IH]; intro h; [apply app_nil_r|].
    cbn [fold_left map]. unfold header_add at 2. change (polish_name (fst t), snd t) with (as_read t).
    assert (HG : forall l h0, fold_left (fun h f => header_add (fst f) (snd f) h) l h0 = h0 ++ map as_read l).
    { clear. induction l as [|t l IH]; intro h0; [symmetry; apply app_nil_r|]. cbn [fold_left map]. rewrite IH. unfold header_add. rewrite <- app_assoc. reflexivity. }
    rewrite HG, <- app_assoc. reflexivity.
Qed.
Print Assumptions C37_chunked.

(** A response which gives neither: everything up to the end of the connection. *)
Theorem C37_until_close : forall K (consumer : K -> bytes -> K * option fail) k limit fields body sees,
  Forall field_ok fields -> no_value (str "Content-Length") fields -> no_value (str "Transfer-Encoding") fields -> limit < 0 ->
  exists s1 h, read_header false [] (mkSock (flat_map field_text fields ++ crlf ++ body) sees Closed) = (s1, Ok h) /\
  exists pieces, arrives body pieces /\
    let '(r, x) := read_content consumer limit h false (mkRd s1 k 0) in
    match hand_over consumer k pieces with
    | (k', None) => r_sink r = k' /\ x = Ok h
    | (k', Some f) => r_sink r = k' /\ x = match f with Exn e => Err e | Undef => UB end
    end.
Proof.
  intros K consumer k limit fields body sees HF HN1 HN2 HL.
  destruct (read_head fields body sees Closed HF) as (v1 & E1). exists (mkSock body v1 Closed), (map as_read fields).
  split; [exact E1|]. unfold read_content. rewrite (get_read_none _ _ HN1), (get_read_none _ _ HN2).
  destruct (until_close consumer limit (S (List.length body)) (mkRd (mkSock body v1 Closed) k 0) HL eq_refl) as (ps & EC & HM); [cbn; lia|].
  exists ps. split; [exact EC|]. cbn [r_sink] in HM. unfold read_block. cbn [Z.eqb r_sock pending].
  replace (0 <=? limit) with false by (symmetry; apply Z.leb_gt; lia). cbn [andb].
  destruct (hand_over consumer k ps) as [k1 [f|]].
  - destruct HM as (s & w & ->). destruct f; cbn; auto.
  - destruct HM as (v2 & w & ->). cbn. auto.
Qed.
Print Assumptions C37_until_close.

(** A request which gives neither has no body. *)
Theorem C37_no_body : forall K (consumer : K -> bytes -> K * option fail) limit h r,
  header_get (str "Content-Length") 0 h = None -> header_get (str "Transfer-Encoding") 0 h = None ->
  read_content consumer limit h true r = (r, Ok h).
Proof. intros K consumer limit h r H1 H2. unfold read_content. rewrite H1, H2. reflexivity. Qed.
Print Assumptions C37_no_body.

(** A body that ends early is not taken for a complete one. *)
Theorem C37_short : forall K (consumer : K -> bytes -> K * option fail) limit request h (r : rd (K:=K)) v n,
  header_get (str "Content-Length") 0 h = Some v -> dec_number v n -> zlen (pending (r_sock r)) < n ->
  forall h', snd (read_content consumer limit h request r) <> Ok h'.
Proof.
  intros K consumer limit request h r v n HH HD HL h'. rewrite <- blen_zlen in HL. unfold read_content. rewrite HH.
  destruct (read_dec_long v) as [m|] eqn:EM; [|discriminate].
  assert (m = n).
  { destruct (dec_prefix v n HD) as (H1 & H2 & H3 & H4). unfold read_dec_long in EM. rewrite H1, H2 in EM.
    replace (blen v =? 0) with false in EM by (symmetry; apply Z.eqb_neq; lia). destruct (2 ^ 63 - 1 <? n); [discriminate|]. inversion EM. reflexivity. }
  subst m. pose proof (blen_nonneg (pending (r_sock r))). destruct (n <? 0); [discriminate|]. destruct ((0 <=? limit) && (limit <? n)); [discriminate|].
  pose proof (read_block_short consumer limit n r ltac:(lia) HL) as HB. destruct (read_block consumer limit n r) as [r2 [[]|e|]]; cbn [snd sbind] in *; try discriminate.
  congruence.
Qed.
Print Assumptions C37_short.

(** A chunked body cut anywhere before the end of the line of its last chunk is not taken for a complete one
    (only the empty line after it may be missing). *)
Theorem C37_short_chunked : forall K (consumer : K -> bytes -> K * option fail) limit request h (r : rd (K:=K)) v body wire cut,
  header_get (str "Content-Length") 0 h = None -> header_get (str "Transfer-Encoding") 0 h = Some v -> same_name v (str "chunked") ->
  chunked body [] wire -> zlen body < 2 ^ 63 -> wire = pending (r_sock r) ++ cut -> 2 < zlen cut ->
  forall h', snd (read_content consumer limit h request r) <> Ok h'.
Proof.
  intros K consumer limit request h r v body wire cut H1 H2 HC HCH HB HW HQ h'. rewrite <- blen_zlen in *. unfold read_content. rewrite H1, H2.
  replace (bytes_eqb (map to_upper v) (str "CHUNKED")) with true.
  2:{ symmetry. apply bytes_eqb_spec. rewrite (upper_name _ _ HC). reflexivity. }
  unfold read_chunked. eapply (chunks_cut consumer limit body [] wire HCH eq_refl HB); eauto.
Qed.
Print Assumptions C37_short_chunked.

(** A length that does not fit into 64 bits is refused, and nothing of the body is delivered. *)
Theorem C37_huge_length : forall K (consumer : K -> bytes -> K * option fail) limit request h (r : rd (K:=K)) v n,
  header_get (str "Content-Length") 0 h = Some v -> dec_number v n -> 2 ^ 63 <= n ->
  read_content consumer limit h request r = (r, Err (ProtocolError HTTP_VALUE)).
Proof.
  intros K consumer limit request h r v n HH HD HN. unfold read_content. rewrite HH.
  destruct (dec_prefix v n HD) as (H1 & H2 & H3 & H4). unfold read_dec_long. rewrite H1, H2.
  replace (blen v =? 0) with false by (symmetry; apply Z.eqb_neq; lia). replace (2 ^ 63 - 1 <? n) with true by (symmetry; apply Z.ltb_lt; lia). reflexivity.
Qed.
Print Assumptions C37_huge_length.
(** The same for the size of the first chunk. *)
Theorem C37_huge_chunk : forall K (consumer : K -> bytes -> K * option fail) limit request h k v size n ext rest sees ending,
  header_get (str "Content-Length") 0 h = None -> header_get (str "Transfer-Encoding") 0 h = Some v -> same_name v (str "chunked") ->
  hex_number size n -> 2 ^ 63 <= n -> chunk_ext ext ->
  let '(r, x) := read_content consumer limit h request (mkRd (mkSock (size ++ ext ++ crlf ++ rest) sees ending) k 0) in
  x = Err (ProtocolError HTTP_VALUE) /\ r_sink r = k.
Proof.
  intros K consumer limit request h k v size n ext rest sees ending H1 H2 HC HS HN HE. unfold read_content. rewrite H1, H2.
  replace (bytes_eqb (map to_upper v) (str "CHUNKED")) with true.
  2:{ symmetry. apply bytes_eqb_spec. rewrite (upper_name _ _ HC). reflexivity. }
  unfold read_chunked. cbn [read_chunks r_sock]. destruct (read_chunk_size_any size n ext rest sees ending HS ltac:(lia) HE) as (v' & E). rewrite E.
  replace (2 ^ 63 - 1 <? n) with true by (symmetry; apply Z.ltb_lt; lia). cbn. split; reflexivity.
Qed.
Print Assumptions C37_huge_chunk.
Example C37_huge_sample : hex_number (str "10000000000000000") (2 ^ 64) /\ dec_number (str "9223372036854775808") (2 ^ 63).
Proof.
  split.
  - assert (D0 : hex_digit x30 0) by (left; cbn; lia). change (str "10000000000000000") with ([x31] ++ repeat x30 16).
    assert (H : forall k, hex_number ([x31] ++ repeat x30 k) (16 ^ Z.of_nat k)).
    { induction k as [|k IH]; [apply hex_one; left; cbn; lia|]. replace ([x31] ++ repeat x30 (S k)) with (([x31] ++ repeat x30 k) ++ [x30]) by (rewrite <- app_assoc, <- (repeat_cons k x30); reflexivity). replace (16 ^ Z.of_nat (S k)) with (16 * 16 ^ Z.of_nat k + 0) by (rewrite Nat2Z.inj_succ, Z.pow_succ_r; lia).
      first [apply hex_more; [exact IH|exact D0] | econstructor; eassumption]. }
    exact (H 16%nat).
  - change (str "9223372036854775808") with (dec (2 ^ 63)). apply dec_is_number. lia.
Qed.

(** The limit, for a consumer keeping everything: no more than the limit is delivered when the message tells its length
    or is chunked; at most one buffer more otherwise. *)
Theorem C37_limit_partial : forall limit h request s r x, 0 <= limit < 2 ^ 31 ->
  read_content keep limit h request (mkRd s [] 0) = (r, x) ->
  zlen (r_sink r) <= limit + HTTP_BUFF_LENGTH /\
  (header_get (str "Content-Length") 0 h <> None \/ header_get (str "Transfer-Encoding") 0 h <> None -> zlen (r_sink r) <= limit).
Proof.
  intros limit h request s r x HL H. rewrite <- blen_zlen.
  destruct (content_any limit h request (mkRd s [] 0) r x eq_refl eq_refl ltac:(lia) H) as (_ & H1 & H2). split; [apply H2; lia|intro; apply H1; [lia|assumption]].
Qed.
Print Assumptions C37_limit_partial.

(** The excess is real: this body of a response is longer than the limit and accepted. *)
Theorem C37_limit_refuted : exists s r, read_content keep 2 [] false (mkRd s [] 0) = (r, Ok []) /\ 2 < zlen (r_sink r).
Proof. exists (mkSock (str "hello") [] Closed), (mkRd (mkSock [] [] Closed) (str "hello") 5). split; vm_compute; reflexivity. Qed.
Print Assumptions C37_limit_refuted.

(** Without a limit no read of any input has undefined behaviour; with one, a peer can overflow a sum. *)
Theorem C37_defined : forall h request s r x, read_content keep (-1) h request (mkRd s [] 0) = (r, x) -> x <> UB.
Proof.
  intros h request s r x H E. destruct (content_any (-1) h request (mkRd s [] 0) r x eq_refl eq_refl ltac:(lia) H) as (H1 & _). specialize (H1 E). lia.
Qed.
Print Assumptions C37_defined.
Theorem C37_defined_refuted : exists s, snd (read_content keep 10 [(str "Transfer-Encoding", str "chunked")] true (mkRd s [] 0)) = UB.
Proof.
  exists (mkSock (str "1" ++ crlf ++ str "a" ++ crlf ++ str "7fffffffffffffff" ++ crlf) [] Closed). vm_compute. reflexivity.
Qed.
Print Assumptions C37_defined_refuted.

(** The premises of the theorems can be met, and the readers then work. *)
Example C37_sample_fields : Forall field_ok [(str "Host", str "a:80"); (str "content-LENGTH", str "5")] /\
  first_value (str "Content-Length") [(str "Host", str "a:80"); (str "content-LENGTH", str "5")] (str "5") /\ dec_number (str "5") 5.
Proof.
  assert (OK : forall n v, n <> [] -> forallb (fun c => negb (is_char 58 c) && negb (is_space c)) n = true -> forallb (fun c => negb (is_char 10 c) && negb (is_space c)) v = true ->
            field_ok (n, v)).
  { intros n v HN H1 H2. unfold field_ok. cbn [fst snd]. rewrite forallb_forall in H1, H2.
    assert (HS : forall c, In c v -> ~ ascii_space c) by (intros c HC HX; apply space_spec in HX; specialize (H2 c HC); rewrite HX, andb_false_r in H2; discriminate).
    split; [assumption|]. split.
    { intros c HC. specialize (H1 c HC). split; [intros ->; discriminate|]. intro HX. apply space_spec in HX. rewrite HX, andb_false_r in H1. discriminate. }
    split; [intro HI; specialize (H2 _ HI); discriminate|]. split; intros c r E; apply HS; rewrite E; [left; reflexivity|apply in_or_app; right; left; reflexivity]. }
  split; [|split].
  - constructor; [|constructor; [|constructor]]; apply OK; try discriminate; vm_compute; reflexivity.
  - exists [(str "Host", str "a:80")], (str "content-LENGTH"), []. split; [reflexivity|]. split; [vm_compute; reflexivity|].
    constructor; [vm_compute; discriminate|constructor].
  - apply dec_one; [reflexivity|lia].
Qed.
Example C37_sample_chunked :
  chunked (str "hello world") [] (str "5" ++ str ";x=1" ++ crlf ++ str "hello" ++ crlf ++ str "06" ++ crlf ++ str " world" ++ crlf ++ str "000" ++ crlf ++ crlf) /\
  forall sees, exists r, read_content keep (-1) [(str "Transfer-Encoding", str "Chunked")] false
    (mkRd (mkSock ((str "5" ++ str ";x=1" ++ crlf ++ str "hello" ++ crlf ++ str "06" ++ crlf ++ str " world" ++ crlf ++ str "000" ++ crlf ++ crlf) ++ str "NEXT") sees Closed) [] 0)
      = (r, Ok [(str "Transfer-Encoding", str "Chunked")]) /\ r_sink r = str "hello world" /\ pending (r_sock r) = str "NEXT".
Proof.
  assert (HC : chunked (str "hello world") [] (str "5" ++ str ";x=1" ++ crlf ++ str "hello" ++ crlf ++ str "06" ++ crlf ++ str " world" ++ crlf ++ str "000" ++ crlf ++ crlf)).
  { change (str "hello world") with (str "hello" ++ str " world" ++ []).
    apply (chunked_more (str "5") (str ";x=1")).
    - apply hex_one. left. split; [reflexivity|vm_compute; split; discriminate].
    - discriminate.
    - split; [|right; eexists; reflexivity]. intro H. vm_compute in H. repeat (destruct H as [H|H]; [discriminate|]). contradiction.
    - apply (chunked_more (str "06") []).
      + apply (hex_more (str "0") 0 x36 6); [apply hex_one|]; left; split; try reflexivity; lia.
      + discriminate.
      + split; [intros []|left; reflexivity].
      + apply (chunked_last (str "000") [] []); [|split; [intros []|left; reflexivity]|constructor].
        apply (hex_more (str "00") 0 x30 0); [apply (hex_more (str "0") 0 x30 0); [apply hex_one|]|]; left; split; try reflexivity; lia. }
  split; [exact HC|]. intro sees. revert HC. generalize (str "5" ++ str ";x=1" ++ crlf ++ str "hello" ++ crlf ++ str "06" ++ crlf ++ str " world" ++ crlf ++ str "000" ++ crlf ++ crlf) as wire. intros wire HC.
  destruct (chunks_spec keep (-1) (str "hello world") [] wire HC ltac:(vm_compute; reflexivity) (S (List.length (wire ++ str "NEXT")))
             (mkRd (mkSock (wire ++ str "NEXT") sees Closed) [] 0) [(str "Transfer-Encoding", str "Chunked")] (str "NEXT") eq_refl) as (ps & EC & NE & HM).
  { rewrite app_length. apply Nat.lt_succ_r, Nat.le_add_r. }
  { left. reflexivity. }
  assert (HK : forall ps k, hand_over keep k ps = (k ++ concat ps, None)).
  { clear. induction ps as [|d ps IH]; intro k; cbn [hand_over concat]; [rewrite app_nil_r; reflexivity|]. unfold keep at 1. rewrite IH, app_assoc. reflexivity. }
  rewrite HK, EC in HM. destruct HM as (v & w & HM).
  exists (mkRd (mkSock (str "NEXT") v Closed) (str "hello world") w). split; [|split; reflexivity].
  unfold read_content. change (header_get (str "Content-Length") 0 [(str "Transfer-Encoding", str "Chunked")]) with (@None bytes).
  change (header_get (str "Transfer-Encoding") 0 [(str "Transfer-Encoding", str "Chunked")]) with (Some (str "Chunked")). cbv iota beta.
  change (bytes_eqb (map to_upper (str "Chunked")) (str "CHUNKED")) with true. cbv iota. exact HM.
Qed.
