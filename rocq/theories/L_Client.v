(** Lemmas about reading responses. *)
From Coq Require Import Lia Arith.
From Verif Require Import Base Value Text M_Marshal M_BinUnmarshal M_TreeBuilder M_Base64 M_Url M_Http M_HttpIO M_HttpWriter M_Registry M_Server M_Client
  S_Http S_Registry S_Server S_Client L_Base L_Text L_UrlText L_Http L_HttpIO L_HttpIO2 L_HttpIO3 L_HttpIO4 L_HttpIO5 L_Server L_Server2 L_Server3 L_Server4.

Definition resp_version (p : response) : bytes := if p_http11 p then str "HTTP/1.1" else str "HTTP/1.0".
Definition status_text (p : response) : bytes := resp_version p ++ [x20] ++ str "200" ++ [x20] ++ p_reason p.
Lemma response_head_eq : forall p, response_head p = status_text p ++ crlf ++ flat_map field_text (p_fields p) ++ crlf.
Proof. intro p. unfold response_head, status_text, resp_version. rewrite <- !app_assoc. reflexivity. Qed.
Lemma word_dec : forall s, s <> [] -> existsb is_space s = false -> word s.
Proof.
  intros s HN H. split; [assumption|]. intros c HI HS. apply space_spec in HS. assert (existsb is_space s = true) by (apply existsb_exists; exists c; auto). congruence.
Qed.
Lemma word_version : forall p, word (resp_version p).
Proof. intro p. unfold resp_version. destruct (p_http11 p); (apply word_dec; [discriminate|reflexivity]). Qed.
Lemma word_200 : word (str "200").
Proof. apply word_dec; [discriminate|reflexivity]. Qed.
Lemma one_line_status : forall p, one_line (p_reason p) -> one_line (status_text p).
Proof.
  intros p HR H. assert (NW : forall w, word w -> one_line w) by (intros w [_ X] HI; apply (X _ HI); right; cbn; lia).
  unfold status_text in H. repeat (apply in_app_or in H as [H|H]); try (cbn in H; intuition discriminate).
  - exact (NW _ (word_version p) H).
  - exact (HR H).
Qed.

Lemma read_status_good : forall p fuel rest sees ending, response_ok p ->
  exists sees', read_status (S fuel) (mkSock (status_text p ++ crlf ++ rest) sees ending) = (mkSock rest sees' ending, Ok (resp_version p)).
Proof.
  intros p fuel rest sees ending (HR1 & HR2 & HR3 & _). cbn [read_status].
  destruct (read_first_line true false (resp_version p) (str "200") (p_reason p) rest sees ending (word_version p) word_200 HR1 HR2 HR3) as (s1 & E).
  exists s1. assert (E' : read_line_opt true (-1) false (mkSock (status_text p ++ crlf ++ rest) sees ending) = (mkSock rest s1 ending, Ok (status_text p))).
  { etransitivity; [|exact E]. f_equal. f_equal. unfold status_text. rewrite <- !app_assoc. reflexivity. }
  rewrite E'. cbn [sbind]. assert (HN : status_text p <> []) by (unfold status_text, resp_version; destruct (p_http11 p); discriminate).
  destruct (status_text p) as [|c l] eqn:EQ; [congruence|]. rewrite <- EQ. unfold status_text. rewrite (split_three _ _ _ (word_version p) word_200 HR2).
  replace (bytes_eqb (resp_version p) (str "HTTP/1.0") || bytes_eqb (resp_version p) (str "HTTP/1.1")) with true by (unfold resp_version; destruct (p_http11 p); reflexivity).
  cbn [negb]. reflexivity.
Qed.
Lemma status_cut : forall p got lost fuel sees ending, response_ok p -> response_head p = got ++ lost -> lost <> [] -> (List.length got < fuel)%nat ->
  (exists s' c, read_status fuel (mkSock got sees ending) = (s', Err (ProtocolError c))) \/
  (exists got' sees', read_status fuel (mkSock got sees ending) = (mkSock got' sees' ending, Ok (resp_version p)) /\
     flat_map field_text (p_fields p) ++ crlf = got' ++ lost).
Proof.
  intros p got lost fuel sees ending HP E HL HF. rewrite response_head_eq in E. destruct fuel as [|fuel]; [lia|].
  destruct (line_cut _ _ _ _ (one_line_status p (proj1 HP)) E) as [(got' & -> & E2)|HN].
  - right. destruct (read_status_good p fuel got' sees ending HP) as (s1 & E1). exists got', s1. auto.
  - left. cbn [read_status]. destruct (no_lf_line true (mkSock got sees ending) HN) as (s' & c & ->). cbn [sbind]. eauto.
Qed.

Lemma response_um_spec : forall p b, response_type p b -> response_um (get_or_empty (str "Content-Type") (map as_read (p_fields p))) = Some b.
Proof.
  intros p b (content & HV & H). rewrite (get_or_empty_first _ _ _ HV). unfold response_um. destruct b.
  - destruct H as [H1 H2]. rewrite (contains_not _ _ H2). apply contains_spec in H1. rewrite H1. reflexivity.
  - apply contains_spec in H. rewrite H. reflexivity.
Qed.
Lemma protocols_spec : forall p old, advertises p (formats_of old) (formats_of (protocols_of old (header_get (str "Accept") 0 (map as_read (p_fields p))))).
Proof.
  intros p old. unfold advertises. destruct (value_or_not (str "Accept") (p_fields p)) as [(a & H)|H].
  - right. exists a. split; [assumption|]. rewrite (get_read _ _ _ H). unfold protocols_of, formats_of, P_XML, P_BINARY.
    rewrite <- !contains_spec. destruct (contains (str "text/xml") a), (contains (str "application/x-frpc") a); cbn; intuition discriminate.
  - left. split; [assumption|]. rewrite (get_read_none _ _ H). reflexivity.
Qed.
Lemma response_close_spec : forall p, choose_close (bytes_eqb (resp_version p) (str "HTTP/1.1")) (get_or_empty (str "Connection") (map as_read (p_fields p))) = false <-> stays_open p.
Proof.
  intro p. unfold stays_open. rewrite <- choose_close_spec. cbn [q_http11 q_fields]. unfold resp_version. destruct (p_http11 p); reflexivity.
Qed.

(** Reading the content of a response until the connection ends. *)
Lemma read_to_close : forall K (sink : K -> bytes -> K * option fail) k fields body sees,
  no_value (str "Content-Length") fields -> no_value (str "Transfer-Encoding") fields ->
  exists pieces, arrives body pieces /\
    match hand_over sink k pieces with
    | (k', None) => exists sees' n, read_content sink (-1) (map as_read fields) false (mkRd (mkSock body sees Closed) k 0)
                                  = (mkRd (mkSock [] sees' Closed) k' n, Ok (map as_read fields))
    | (k', Some f) => exists s n, read_content sink (-1) (map as_read fields) false (mkRd (mkSock body sees Closed) k 0)
                                  = (mkRd s k' n, match f with Exn e => Err e | Undef => UB end)
    end.
Proof.
  intros K sink k fields body sees HC HT. unfold read_content. rewrite (get_read_none _ _ HC), (get_read_none _ _ HT).
  unfold read_block. change (-1 =? 0) with false. cbn [Z.leb Z.compare andb r_sock pending].
  destruct (until_close sink (-1) (S (List.length body)) (mkRd (mkSock body sees Closed) k 0)) as (ps & E & HM); cbn [r_sock fin pending]; [lia|reflexivity|lia|].
  exists ps. split; [exact E|]. cbn [r_sink] in HM. destruct (hand_over sink k ps) as [k' [f|]].
  - destruct HM as (s & n & ->). exists s, n. destruct f; reflexivity.
  - destruct HM as (v & n & ->). exists v, n. reflexivity.
Qed.

Section Responses.
  Variable ums : bool -> unmarshaller.

  Lemma read_response_good : forall keep c p binary ver x ending text rest sees,
    response_ok p -> response_type p binary -> replies (ums binary) (p_body p) ver x -> l_held c <> Held_freed ->
    complete p ending rest text ->
    exists c' fd t, read_response ums keep c (mkSock text sees ending) = (c', fd, Ok (map as_read (p_fields p), t)) /\
      tb_data t = x /\ l_version c' = ver /\ advertises p (formats_of (l_protocols c)) (formats_of (l_protocols c')) /\
      l_protocols c' = protocols_of (l_protocols c) (header_get (str "Accept") 0 (map as_read (p_fields p))) /\
      l_must_close c' = l_must_close c /\ l_held c' = Held_live /\
      (fd = None \/ exists sees', fd = Some (mkSock rest sees' ending)) /\
      (fd <> None <-> keep = true /\ stays_open p /\ l_must_close c = false).
  Proof.
    intros keep c p binary ver x ending text rest sees HP HT HU HH HC.
    assert (GO : forall wire, text = response_head p ++ wire ++ rest ->
      (forall s2, exists pieces, arrives (p_body p) pieces /\
         match um_all (ums binary) (um_init (ums binary)) pieces with
         | (k', None) => exists sees' n, read_content (um_take (ums binary)) (-1) (map as_read (p_fields p)) false (mkRd (mkSock (wire ++ rest) s2 ending) (um_init (ums binary)) 0)
                                       = (mkRd (mkSock rest sees' ending) k' n, Ok (map as_read (p_fields p)))
         | (k', Some f) => True
         end) ->
      exists c' fd t, read_response ums keep c (mkSock text sees ending) = (c', fd, Ok (map as_read (p_fields p), t)) /\
        tb_data t = x /\ l_version c' = ver /\ advertises p (formats_of (l_protocols c)) (formats_of (l_protocols c')) /\
        l_protocols c' = protocols_of (l_protocols c) (header_get (str "Accept") 0 (map as_read (p_fields p))) /\
        l_must_close c' = l_must_close c /\ l_held c' = Held_live /\
        (fd = None \/ exists sees', fd = Some (mkSock rest sees' ending)) /\
        (fd <> None <-> keep = true /\ stays_open p /\ l_must_close c = false)).
    { intros wire ET HB. unfold read_response. cbn [pending].
      replace text with (status_text p ++ crlf ++ flat_map field_text (p_fields p) ++ crlf ++ wire ++ rest)
        by (rewrite ET, response_head_eq, <- !app_assoc; reflexivity).
      destruct (read_status_good p (List.length (status_text p ++ crlf ++ flat_map field_text (p_fields p) ++ crlf ++ wire ++ rest))
                 (flat_map field_text (p_fields p) ++ crlf ++ wire ++ rest) sees ending HP) as (s1 & ->).
      destruct (read_head (p_fields p) (wire ++ rest) s1 ending) as (s2 & ->); [apply HP|]. rewrite (response_um_spec _ _ HT).
      destruct (HB s2) as (ps & EP & HM). destruct (HU ps EP) as (k1 & k2 & HA & HF & HV & HD). rewrite HA in HM. destruct HM as (s3 & n & HR).
      rewrite HR. cbn [r_sink r_sock]. rewrite HF.
      do 3 eexists. split; [destruct (l_held c); [reflexivity|reflexivity|congruence]|]. cbn [l_version l_protocols l_must_close l_held].
      split; [exact HD|]. split; [exact HV|]. split; [apply protocols_spec|]. split; [reflexivity|]. split; [reflexivity|]. split; [reflexivity|].
      pose proof (response_close_spec p) as HCL. destruct (choose_close _ _).
      - split; [left; rewrite orb_true_r; reflexivity|]. rewrite orb_true_r. cbn [orb]. split; [congruence|]. intros (_ & X & _). apply HCL in X. discriminate.
      - destruct HCL as [HCL _]. specialize (HCL eq_refl). destruct keep, (l_must_close c); cbn [negb orb];
          (split; [eauto|]); (split; [try congruence; auto|]); intros (? & ? & ?); congruence. }
    destruct HC as [ending rest wire HFR|HCL HTE].
    - apply (GO wire eq_refl). intro s2. destruct (read_framed _ (um_take (ums binary)) (um_init (ums binary)) false _ _ wire rest s2 ending HFR) as (ps & EP & HM); [apply HP|].
      exists ps. split; [exact EP|]. rewrite hand_over_um in HM. destruct (um_all _ _ _) as [k' [f|]]; auto.
    - apply (GO (p_body p)); [rewrite app_nil_r; reflexivity|]. intro s2. rewrite app_nil_r.
      destruct (read_to_close _ (um_take (ums binary)) (um_init (ums binary)) (p_fields p) (p_body p) s2 HCL HTE) as (ps & EP & HM).
      exists ps. split; [exact EP|]. rewrite hand_over_um in HM. destruct (um_all _ _ _) as [k' [f|]]; auto.
  Qed.

  (** A body cut off. *)
  Lemma replies_good : forall u body ver x, replies u body ver x ->
    forall d rem k, d <> [] -> awaiting u body (d ++ rem) k -> exists k', um_take u k d = (k', None) /\ awaiting u body rem k'.
  Proof.
    intros u body ver x HD. apply awaiting_takes. intros pieces HP. destruct (HD pieces HP) as (s & _ & H & _). eauto.
  Qed.
  Lemma read_response_cut : forall keep c p binary ver x got sees ending,
    response_ok p -> response_type p binary -> replies (ums binary) (p_body p) ver x -> l_held c <> Held_freed -> cut_response p got ->
    exists c' code, read_response ums keep c (mkSock got sees ending) = (c', None, Err (ProtocolError code)).
  Proof.
    intros keep c p binary ver x got sees ending HP HT HU HH HCUT. pose proof HP as (_ & _ & _ & HF & HS).
    assert (HEAD : forall lost, response_head p = got ++ lost -> lost <> [] -> exists c' code, read_response ums keep c (mkSock got sees ending) = (c', None, Err (ProtocolError code))).
    { intros lost E HL. unfold read_response. cbn [pending].
      destruct (status_cut p got lost (S (List.length got)) sees ending HP E HL ltac:(lia)) as [(s' & code & ->)|(got' & s1 & -> & E2)]; [eauto|].
      unfold read_header. destruct (header_cut _ HF got' lost (S (List.length (pending (mkSock got' s1 ending)))) [] s1 ending E2 HL ltac:(cbn; lia)) as (s2 & code & ->). eauto. }
    assert (BODY : forall part, got = response_head p ++ part ->
      (forall sees', exists r' code, read_content (um_take (ums binary)) (-1) (map as_read (p_fields p)) false (mkRd (mkSock part sees' ending) (um_init (ums binary)) 0) = (r', Err (ProtocolError code))) ->
      exists c' code, read_response ums keep c (mkSock got sees ending) = (c', None, Err (ProtocolError code))).
    { intros part EG HB. unfold read_response. cbn [pending]. rewrite EG, response_head_eq, <- !app_assoc.
      destruct (read_status_good p (List.length (status_text p ++ crlf ++ flat_map field_text (p_fields p) ++ crlf ++ part))
                 (flat_map field_text (p_fields p) ++ crlf ++ part) sees ending HP) as (s1 & ->).
      destruct (read_head (p_fields p) part s1 ending HF) as (s2 & ->). rewrite (response_um_spec _ _ HT). destruct (HB s2) as (r' & code & ->).
      destruct (l_held c); [eauto|eauto|congruence]. }
    destruct HCUT as [got lost E HLO|v part lost HV HDV HB HLO|v wire part lost HV HTE HSN HC HB HLO].
    - exact (HEAD lost E HLO).
    - apply (BODY part eq_refl). intro s2. unfold read_content. rewrite (get_read _ _ _ HV), (read_dec_long_number _ _ HDV) by lia.
      rewrite <- blen_zlen in *. pose proof (blen_nonneg (p_body p)). replace (blen (p_body p) <? 0) with false by (symmetry; apply Z.ltb_ge; lia).
      cbn [Z.leb Z.compare andb]. unfold read_block.
      assert (0 < blen (p_body p)) by (rewrite HB, blen_app; pose proof (blen_pos _ HLO); pose proof (blen_nonneg part); lia).
      replace (blen (p_body p) =? 0) with false by (symmetry; apply Z.eqb_neq; lia). cbn [Z.leb Z.compare andb r_sock pending].
      destruct (block_cut (um_take (ums binary)) (awaiting (ums binary) (p_body p)) (replies_good _ _ _ _ HU) (S (List.length part)) (blen (p_body p))
                 (mkRd (mkSock part s2 ending) (um_init (ums binary)) 0) lost []) as (r' & code & ->); cbn [r_sock pending r_sink].
      + rewrite app_nil_r, <- HB. apply awaiting_start.
      + assumption.
      + rewrite HB. reflexivity.
      + lia.
      + cbn [sbind]. eauto.
    - apply (BODY part eq_refl). intro s2. unfold read_content. rewrite (get_read_none _ _ HV), (get_read _ _ _ HTE).
      replace (bytes_eqb (map to_upper v) (str "CHUNKED")) with true by (symmetry; apply bytes_eqb_spec; rewrite (upper_name _ _ HSN); reflexivity).
      unfold read_chunked. rewrite <- blen_zlen in *. cbn [r_sock pending].
      eapply (chunks_cut_good (um_take (ums binary)) (awaiting (ums binary) (p_body p)) (replies_good _ _ _ _ HU) _ _ _ HC eq_refl HS); [exact HB|assumption|reflexivity|lia|].
      apply awaiting_start.
  Qed.

  (** Any bytes at all. *)
  Lemma read_status_any : forall fuel s s' x, (List.length (pending s) < fuel)%nat -> read_status fuel s = (s', x) -> x <> UB.
  Proof.
    induction fuel as [|fuel IH]; intros s s' x HF H; [lia|]. cbn [read_status] in H.
    destruct (read_line_any true (-1) false s) as (p & v & y & E & HU & HL & _ & HX). rewrite E in H. destruct y as [l|e|]; cbn [sbind] in H; [| inversion H; discriminate|congruence].
    specialize (HX l eq_refl eq_refl). destruct l as [|c0 l]; [apply (IH _ _ _) in H; [assumption|cbn; lia]|].
    destruct (split_by_space _ 3) as [|a [|b [|d [|? ?]]]]; try (inversion H; discriminate).
    destruct (negb _); [inversion H; discriminate|]. destruct (negb _); inversion H; discriminate.
  Qed.
  Lemma read_response_any : forall keep c s c' fd x, (forall b, um_safe (ums b)) -> l_held c <> Held_freed -> read_response ums keep c s = (c', fd, x) ->
    x <> UB /\ (fd <> None -> keep = true /\ l_must_close c = false /\ exists y, x = Ok y) /\ (l_held c = Held_none -> l_held c' <> Held_freed) /\
    (forall h t, x = Ok (h, t) -> tb_data t <> UB) /\ l_must_close c' = l_must_close c.
  Proof.
    intros keep c s c' fd x HS HH H. unfold read_response in H.
    assert (BAD : forall (c1 : cl) (e : exn), (c1, None, Err e) = (c', fd, x) -> (l_held c = Held_none -> l_held c1 <> Held_freed) -> l_must_close c1 = l_must_close c ->
      x <> UB /\ (fd <> None -> keep = true /\ l_must_close c = false /\ exists y, x = Ok y) /\ (l_held c = Held_none -> l_held c' <> Held_freed) /\
      (forall h t, x = Ok (h, t) -> tb_data t <> UB) /\ l_must_close c' = l_must_close c).
    { intros c1 e E HH1 HM. inversion E; subst. split; [discriminate|]. split; [congruence|]. split; [assumption|]. split; [discriminate|assumption]. }
    destruct (read_status _ s) as [s1 y1] eqn:E1. apply read_status_any in E1; [|lia].
    destruct y1 as [protocol|e1|]; [| |congruence]; [|eapply BAD; [exact H|congruence|reflexivity]].
    unfold read_header in H. destruct (read_header_loop_any (S (List.length (pending s1))) false [] s1 ltac:(lia)) as (p2 & v2 & y2 & E2 & U2 & L2). rewrite E2 in H.
    destruct y2 as [h|e2|]; [| |congruence]; [|eapply BAD; [exact H|congruence|reflexivity]].
    assert (EH : forall (A : Type) (a b : A), match l_held c with Held_freed => a | _ => b end = b) by (intros; destruct (l_held c); congruence).
    destruct (response_um _) as [b|].
    2:{ destruct (l_held c) eqn:EHC; [| |congruence]; (eapply BAD; [exact H| |reflexivity]); cbn; congruence. }
    rewrite EH in H. destruct (read_content _ _ _ _ _) as [r y3] eqn:E3.
    apply (content_safe _ (um_reached (ums b)) (um_sink _ (HS b))) in E3 as (C1 & C2 & C3); [|exists []; reflexivity].
    destruct y3 as [h2|e3|]; [| |congruence]; [|eapply BAD; [exact H|discriminate|reflexivity]].
    destruct (C2 _ eq_refl) as (ps & HPS). destruct (HS b _ _ _ HPS) as [_ HFI]. specialize (HFI eq_refl). destruct HFI as [F1 F2].
    destruct (um_finish (ums b) (r_sink r)) as [k y4] eqn:E4. cbn [fst snd] in *.
    destruct y4 as [[]|e4|]; [| |congruence]; [|eapply BAD; [exact H|discriminate|reflexivity]].
    inversion H; subst. split; [discriminate|]. split; [|split; [discriminate|]; split; [|reflexivity]].
    - destruct keep, (l_must_close c), (choose_close _ _); cbn; try congruence. eauto.
    - intros h' t Eq. inversion Eq; subst. apply F2. reflexivity.
  Qed.
End Responses.
