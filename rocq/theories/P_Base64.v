(** Properties of Base64: C25, C26, C27. *)
From Coq Require Import Lia.
From Verif Require Import Base Value M_Marshal M_BinUnmarshal M_TreeBuilder M_Base64 S_Events S_Value S_Wire S_Base64
  L_Base L_Base64 P_RoundTrip.

(** ** C25 *)
(** The text written is the RFC 4648 encoding, whatever the pieces, and decodes to the bytes. *)
Theorem C25_round_trip : forall pieces,
  b64_text pieces = rfc4648 (concat pieces) /\ b64_decode (b64_text pieces) = concat pieces.
Proof.
  intro pieces. rewrite b64_text_rfc. split; auto. unfold b64_decode. rewrite process_rfc. reflexivity.
Qed.
Print Assumptions C25_round_trip.

Example C25_sample : b64_text [str "f"; []; str "oo"; str "ba"] = str "Zm9vYmE="
  /\ b64_decode (str "Zm9vYmE=") = str "fooba".
Proof. split; vm_compute; reflexivity. Qed.

(** ** C26 *)
(** Text which has at most four characters (white space aside) from its first '=' on is decoded
    alike whatever the pieces.  Missing: text with more after the padding. *)
Theorem C26_cutting_partial : forall pieces u v,
  concat pieces = u ++ v -> (forall c, In c u -> c <> x3d) -> zlen (squeeze v) <= 4 ->
  b64_process_all [] pieces = b64_decode (u ++ v).
Proof.
  intros pieces u v E U V.
  assert (T : tail_ok [] (u ++ v)).
  { apply tail_ok_eq; [rewrite zlen_nil; lia|intros c []| |exact V]. intros c H. specialize (U c H).
    intro C. apply U. apply b2z_inj. exact C. }
  rewrite cut_ideal by (rewrite E; auto). rewrite E.
  pose proof (cut_ideal [u ++ v] []) as H. cbn [concat] in H. rewrite app_nil_r in H. rewrite <- H by auto.
  cbn [b64_process_all]. unfold b64_decode. destruct (b64_process [] (u ++ v)). cbn. rewrite app_nil_r. reflexivity.
Qed.
Print Assumptions C26_cutting_partial.

(** Every encoding, with white space inserted anywhere, in any pieces. *)
Theorem C26_encodings : forall s pieces, squeeze (concat pieces) = rfc4648 s -> b64_process_all [] pieces = s.
Proof.
  intros s pieces E.
  assert (SQ : b64_decode (concat pieces) = s).
  { unfold b64_decode. rewrite process_blank, E, process_rfc. reflexivity. }
  destruct (rfc_shape s) as (u & v & R & U & V). rewrite R in E.
  assert (SPLIT : forall t u v, squeeze t = u ++ v -> exists t1 t2, t = t1 ++ t2 /\ squeeze t1 = u /\ squeeze t2 = v).
  { clear. induction t as [|c t IH]; intros u v H.
    - destruct u; [|discriminate]. exists [], []. auto.
    - destruct u as [|x u]; [exists [], (c :: t); auto|]. cbn [squeeze filter] in H. fold (squeeze t) in H.
      destruct (blank c) eqn:B; cbn [negb] in H.
      + destruct (IH (x :: u) v H) as (t1 & t2 & -> & H1 & H2). exists (c :: t1), t2. repeat split; auto.
        cbn [squeeze filter]. rewrite B. exact H1.
      + inversion H; subst. destruct (IH u v H2) as (t1 & t2 & -> & H3 & H4). exists (x :: t1), t2. repeat split; auto.
        cbn [squeeze filter]. rewrite B. cbn [negb]. fold (squeeze t1). congruence. }
  destruct (SPLIT _ _ _ E) as (t1 & t2 & ET & E1 & E2).
  rewrite (C26_cutting_partial pieces t1 t2); auto.
  - rewrite <- ET. exact SQ.
  - intros c H ->. assert (IN : In x3d (squeeze t1)) by (apply filter_In; split; auto). rewrite E1 in IN.
    apply (U _ IN). reflexivity.
  - rewrite E2. unfold dense in V. assert (NB : squeeze v = v).
    { rewrite <- E2. unfold squeeze. clear. induction t2 as [|c t IH]; [reflexivity|]. cbn [filter].
      destruct (negb (blank c)) eqn:B; auto. cbn [filter]. rewrite B, IH. reflexivity. }
    rewrite NB in V. lia.
Qed.
Print Assumptions C26_encodings.

Example C26_sample : squeeze (concat [str "Zm 9"; str "v"; [x0d; x0a]; str "Yg=";  str "= "]) = rfc4648 (str "foob")
  /\ b64_process_all [] [str "Zm 9"; str "v"; [x0d; x0a]; str "Yg=";  str "= "] = str "foob".
Proof. split; vm_compute; reflexivity. Qed.

(** Two padded texts in a row: what follows the padding is dropped or not, depending on the cut. *)
Theorem C26_after_padding_refuted : exists p q,
  b64_process_all [] [p; q] = str "ab" /\ b64_process_all [] [p ++ q] = str "a".
Proof. exists (str "YQ=="), (str "Yg=="). split; vm_compute; reflexivity. Qed.
Print Assumptions C26_after_padding_refuted.

(** ** C25, messages: a response sent through the Base64 writer and received through the Base64 unmarshaller,
    the text cut at will. *)
Theorem C25_message_round_trip : forall val req ver v,
  modern ver -> wf ver v -> accepts req T_METHOD_RESPONSE ->
  exists wire, sent ver (response_calls v) = Ok wire /\
  forall writes pieces, concat writes = wire -> squeeze (concat pieces) = b64_text writes ->
    received_value val req (b64_outputs [] pieces) = Ok (plain (make_datetime val) v).
Proof.
  intros val req ver v M W A. destruct (C01_response_round_trip val req ver v M W A) as (wire & S & R).
  exists wire. split; auto. intros writes pieces EW EP. apply R. rewrite b64_outputs_concat.
  apply C26_encodings. rewrite EP, b64_text_rfc, EW. reflexivity.
Qed.
Print Assumptions C25_message_round_trip.

(** ** C27 *)
(** The text the XML marshaller writes for a binary, given as any chunks. *)
Theorem C27_xml_base64 : forall chunks,
  let text := write_encode_base64 true chunks in
  b64_decode text = concat chunks
  /\ squeeze text = rfc4648 (concat chunks)
  /\ Forall (fun n => n <= 76) (line_lengths 0 text).
Proof.
  intro chunks. cbn zeta. unfold write_encode_base64.
  pose proof (xb64_rfc true (concat chunks) 0) as R. pose proof (xb64_lines (concat chunks) 0 ltac:(lia)) as L.
  destruct (xb64_loop true [] 0 (concat chunks)) as [o st]. split; [|auto].
  unfold b64_decode. rewrite process_blank, R, process_rfc. reflexivity.
Qed.
Print Assumptions C27_xml_base64.

(** Without line breaks ([rn] false) the text is the plain encoding. *)
Theorem C27_no_breaks : forall chunks, write_encode_base64 false chunks = rfc4648 (concat chunks).
Proof.
  intro chunks. unfold write_encode_base64. generalize (concat chunks). intro s.
  rewrite <- (xb64_rfc false s 0).
  assert (G : forall s, squeeze (let '(o, st) := xb64_loop false [] 0 s in o ++ xb64_tail false st)
                        = let '(o, st) := xb64_loop false [] 0 s in o ++ xb64_tail false st).
  { clear. intro s. induction s as [|a|a b|a b c r IH] using group3_ind.
    - reflexivity.
    - cbn [xb64_loop xb64_tail fst snd app andb]. pose proof (sextets a a a) as (S1 & S2 & S3 & S4 & S5 & S6).
      rewrite S1, S5. unfold step1, step2. pose proof (step_ranges a a) as (R1 & _ & _ & _ & R5 & _).
      rewrite !squeeze_char by auto. reflexivity.
    - cbn [xb64_loop xb64_tail fst snd app andb]. pose proof (sextets a b a) as (S1 & S2 & _).
      pose proof (sextets b b b) as (_ & _ & _ & _ & _ & S6).
      rewrite S1, S2, S6. unfold step1, step2, step3. pose proof (step_ranges a b) as (R1 & R2 & _).
      pose proof (step_ranges b b) as (_ & _ & _ & _ & _ & R6).
      rewrite !squeeze_char by auto. reflexivity.
    - cbn [xb64_loop app]. pose proof (sextets a b c) as (S1 & S2 & S3 & S4 & _). rewrite S1, S2, S3, S4.
      cbv iota beta. destruct (xb64_loop false [] 0 r) as [o st].
      match goal with |- squeeze ?x = ?x =>
        change x with ([step1 a; step2 (b2z a) (b2z b); step3 (b2z b) (b2z c); step4 c] ++ (o ++ xb64_tail false st)) end.
      rewrite squeeze_quad, IH. reflexivity. }
  rewrite G. destruct (xb64_loop false [] 0 s) as [o st]. reflexivity.
Qed.
Print Assumptions C27_no_breaks.

Example C27_sample : line_lengths 0 (write_encode_base64 true [repeat x41 100; repeat x42 20]) = [76; 76; 8; 0].
Proof. vm_compute. reflexivity. Qed.
