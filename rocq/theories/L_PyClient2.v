(** Lemmas about the Python client: reading responses, what comes of a call. *)
From Coq Require Import Lia.
From Verif Require Import Base Value Text Unicode M_Marshal M_BinUnmarshal M_TreeBuilder M_Base64 M_Iso M_Url M_Http M_HttpIO M_HttpWriter M_Registry M_Server M_Client
  M_Python M_PyRegistry M_PyServer M_PyClient
  S_Value S_Http S_Registry S_Server S_Client S_Python S_PyRegistry S_PyServer S_PyClient L_Base L_Http L_HttpIO L_HttpIO2 L_HttpIO3 L_HttpIO4 L_HttpIO5 L_HttpWriter L_Registry P_HttpIO P_HttpWriter
  L_Server L_Server2 L_Server4 L_Client L_Client2 L_Client3 L_Python L_PyText L_PyRegistry L_PyServer L_PyClient.

(** * Responses *)
Section Responses.
  Variable ums : bool -> pyum.

  Lemma py_response_good : forall keep must p binary ver x ending text rest sees,
    response_ok p -> response_type p binary -> py_replies (ums binary) (p_body p) ver x -> complete p ending rest text ->
    exists fd t, py_read_response ums keep must (mkSock text sees ending) =
        ((protocols_of P_XML (header_get (str "Accept") 0 (map as_read (p_fields p))), ver), fd, Ok t, false) /\
      pb_data t = x /\
      (fd = None \/ exists sees', fd = Some (mkSock rest sees' ending)) /\
      (fd <> None <-> keep = true /\ stays_open p /\ must = false).
  Proof.
    intros keep must p binary ver x ending text rest sees HP HT HU HC.
    assert (GO : forall wire, text = response_head p ++ wire ++ rest ->
      (forall s2, exists pieces, arrives (p_body p) pieces /\
         match hand_over (pu_take (ums binary)) (pu_init (ums binary)) pieces with
         | (k', None) => exists sees' n, read_content (pu_take (ums binary)) (-1) (map as_read (p_fields p)) false (mkRd (mkSock (wire ++ rest) s2 ending) (pu_init (ums binary)) 0)
                                       = (mkRd (mkSock rest sees' ending) k' n, Ok (map as_read (p_fields p)))
         | (k', Some f) => True
         end) ->
      exists fd t, py_read_response ums keep must (mkSock text sees ending) =
        ((protocols_of P_XML (header_get (str "Accept") 0 (map as_read (p_fields p))), ver), fd, Ok t, false) /\
      pb_data t = x /\
      (fd = None \/ exists sees', fd = Some (mkSock rest sees' ending)) /\
      (fd <> None <-> keep = true /\ stays_open p /\ must = false)).
    { intros wire ET HB. unfold py_read_response. cbn [pending].
      replace text with (status_text p ++ crlf ++ flat_map field_text (p_fields p) ++ crlf ++ wire ++ rest)
        by (rewrite ET, response_head_eq, <- !app_assoc; reflexivity).
      destruct (read_status_good p (List.length (status_text p ++ crlf ++ flat_map field_text (p_fields p) ++ crlf ++ wire ++ rest))
                 (flat_map field_text (p_fields p) ++ crlf ++ wire ++ rest) sees ending HP) as (s1 & ->).
      destruct (read_head (p_fields p) (wire ++ rest) s1 ending) as (s2 & ->); [apply HP|]. rewrite (response_um_spec _ _ HT).
      destruct (HB s2) as (ps & EP & HM). destruct (HU ps EP) as (k1 & k2 & HA & HF & HV & HD). rewrite HA in HM. destruct HM as (s3 & n & HR).
      rewrite HR. cbn [r_sink r_sock]. rewrite HF, HV.
      do 2 eexists. split; [reflexivity|]. split; [exact HD|].
      pose proof (response_close_spec p) as HCL. destruct (choose_close _ _).
      - split; [left; rewrite orb_true_r; reflexivity|]. rewrite orb_true_r. cbn [orb]. split; [congruence|]. intros (_ & X & _). apply HCL in X. discriminate.
      - destruct HCL as [HCL _]. specialize (HCL eq_refl). destruct keep, must; cbn [negb orb];
          (split; [eauto|]); (split; [try congruence; auto|]); intros (? & ? & ?); congruence. }
    destruct HC as [ending rest wire HFR|HCL HTE].
    - apply (GO wire eq_refl). intro s2. destruct (read_framed _ (pu_take (ums binary)) (pu_init (ums binary)) false _ _ wire rest s2 ending HFR) as (ps & EP & HM); [apply HP|].
      exists ps. split; [exact EP|]. destruct (hand_over _ _ _) as [k' [f|]]; auto.
    - apply (GO (p_body p)); [rewrite app_nil_r; reflexivity|]. intro s2. rewrite app_nil_r.
      destruct (read_to_close _ (pu_take (ums binary)) (pu_init (ums binary)) (p_fields p) (p_body p) s2 HCL HTE) as (ps & EP & HM).
      exists ps. split; [exact EP|]. destruct (hand_over _ _ _) as [k' [f|]]; auto.
  Qed.

  Lemma py_response_fd : forall keep must s c fd x b, py_read_response ums keep must s = (c, fd, x, b) -> fd <> None ->
    keep = true /\ must = false /\ exists t, x = Ok t.
  Proof.
    intros keep must s c fd x b H HF. unfold py_read_response in H.
    destruct (read_status _ s) as [s1 [protocol|e|]]; [|inversion H; subst; congruence..].
    destruct (read_header false [] s1) as [s2 [h|e|]]; [|inversion H; subst; congruence..].
    destruct (response_um _) as [bin|]; [|inversion H; subst; congruence].
    destruct (read_content _ _ _ _ _) as [r [h2|e|]]; [|inversion H; subst; congruence..].
    destruct (pu_finish _ _) as [k [[]|e|]]; [|inversion H; subst; congruence..]. inversion H; subst.
    destruct keep, must; cbn [negb orb] in HF; rewrite ?orb_true_r in HF; try congruence. eauto.
  Qed.
End Responses.

(** * Calls *)
Section Exchanges.
  Variable message : exn -> bytes.
  Variable host : datetime -> datetime.
  Variable ums : bool -> pyum.
  Variable mars : bool -> version -> marshaller.
  Variable cut : bytes -> list bytes.
  Variable callback : list (bytes * bytes).

  (** The client of a call. *)
  Definition py_client (y : pyproxy) : client :=
    let p := y_proxy y in
    client_prepare (use_binary p) (mkClient (x_url p) (a_http10 (x_conf p)) (use_binary p) (y_chunks y) (a_keep (x_conf p)) (x_headers p ++ x_once p ++ callback)).
  Definition calls_of (name : bytes) (args : list py) : list mcall * option pyexn :=
    (PMethodCall (c_str name) :: fst (feed_args host args), snd (feed_args host args)).
  Definition y_no_once (y : pyproxy) : pyproxy := mkPyProxy (no_once (y_proxy y)) (y_chunks y) (y_last y).
  Definition y_with_fd (fd : option bytes) (y : pyproxy) : pyproxy := with_proxy (with_fd fd (y_proxy y)) y.
  (** The arguments cannot be written. *)
  Inductive unwritable (y : pyproxy) (name : bytes) (args : list py) : outcome -> Prop :=
  | unwritable_fails : forall o s e, (let m := mars (use_binary (y_proxy y)) (a_version (x_conf (y_proxy y))) in ma_run m (ma_init m) (fst (calls_of name args)) = (o, s, Some (Exn e))) ->
      unwritable y name args (of_exn e (message e))
  | unwritable_undef : forall o s, (let m := mars (use_binary (y_proxy y)) (a_version (x_conf (y_proxy y))) in ma_run m (ma_init m) (fst (calls_of name args)) = (o, s, Some Undef)) ->
      unwritable y name args Out_undef
  | unwritable_raises : forall e, snd (feed_args host args) = Some e -> unwritable y name args (Out_error frpc_runtime).

  Inductive exchange_case (y : pyproxy) (n : net) (name : bytes) (args : list py) : pyproxy -> list sock_event -> outcome -> bytes -> Prop :=
  | xc_unwritable : forall n1 out wire, unwritable y name args out -> linked (a_keep (x_conf (y_proxy y))) n (x_fd (y_proxy y)) n1 ->
      (k_chunks (py_client y) = false -> w_sent (n_wr n1) = false) ->
      exchange_case y n name args (y_with_fd (n_fd n1) (y_no_once y)) (n_events n1) out wire
  | xc_connect : forall es c wire, connect_socket (a_keep (x_conf (y_proxy y))) n (x_fd (y_proxy y)) = (None, es, Err (HTTPError c)) ->
      exchange_case y n name args (y_with_fd None (y_no_once y)) es (of_exn (HTTPError c) (message (HTTPError c))) wire
  | xc_failed : forall rest es bs lost c wire, connect_socket (a_keep (x_conf (y_proxy y))) n (x_fd (y_proxy y)) = (Some rest, es, Ok tt) -> wire = concat bs ++ lost ->
      exchange_case y n name args (y_with_fd None (y_no_once y)) (es ++ map Ev_send bs ++ [Ev_close]) (of_exn (ProtocolError c) (message (ProtocolError c))) wire
  | xc_wait : forall rest es bs lost wire, connect_socket (a_keep (x_conf (y_proxy y))) n (x_fd (y_proxy y)) = (Some rest, es, Ok tt) -> wire = concat bs ++ lost ->
      exchange_case y n name args (y_with_fd (Some rest) (y_no_once y)) (es ++ map Ev_send bs) Out_wait wire
  | xc_answer : forall must rest es0 bs lost wire y' es out, connect_socket (a_keep (x_conf (y_proxy y))) n (x_fd (y_proxy y)) = (Some rest, es0, Ok tt) -> wire = concat bs ++ lost ->
      (must = false -> lost = [] /\ snd (feed_args host args) = None) -> py_answer message ums (y_no_once y) n must (Some rest) (es0 ++ map Ev_send bs) = (y', es, out) ->
      exchange_case y n name args y' es out wire.

  Lemma send_writes_unsent : forall keep n head l s s' g, w_chunks (n_wr s) = false -> w_sent (n_wr s) = false -> send_writes keep n head l s = (s', g) ->
    g = Go /\ w_sent (n_wr s') = false.
  Proof.
    induction l as [|d r IH]; intros s s' g HC HS H; cbn [send_writes] in H; [inversion H; subst; auto|].
    unfold send_write in H. rewrite HC, andb_false_r in H.
    assert (X : w_chunks (wr_write head d (n_wr s)) = false /\ w_sent (wr_write head d (n_wr s)) = false).
    { unfold wr_write. destruct (_ <? _); [|auto]. rewrite HC. destruct (_ <? _); auto. }
    eapply IH; [| |exact H]; apply X.
  Qed.

  Lemma exchange_cases : forall y n name args y' es out, py_exchange message host ums mars cut callback y n name args = (y', es, out) ->
    exists wire, exchange_case y n name args y' es out wire /\
      (forall cs body, feed_args host args = (cs, None) -> written (mars (use_binary (y_proxy y)) (a_version (x_conf (y_proxy y)))) (PMethodCall (c_str name) :: cs) body ->
         wire = w_wire (wr_message (client_head (py_client y)) (k_chunks (py_client y)) (cut body))).
  Proof.
    intros y n name args y' es out H. unfold py_exchange in H.
    change (use_binary (mkProxy (x_url (y_proxy y)) (x_conf (y_proxy y)) (x_protocols (y_proxy y)) (x_headers (y_proxy y)) [] (x_fd (y_proxy y)))) with (use_binary (y_proxy y)) in H.
    cbn [x_conf x_url x_headers x_fd y_chunks y_proxy] in H. fold (no_once (y_proxy y)) in H. fold (y_no_once y) in H. fold (py_client y) in H.
    set (m := mars (use_binary (y_proxy y)) (a_version (x_conf (y_proxy y)))) in *. set (keep := a_keep (x_conf (y_proxy y))) in *. set (fd0 := x_fd (y_proxy y)) in *.
    set (k := py_client y) in *. cbn [fst snd] in H.
    destruct (ma_run m (ma_init m) (PMethodCall (c_str name) :: fst (feed_args host args))) as [[o s] f] eqn:EM.
    set (start := mkSending _ _ _ _) in *.
    assert (L0 : linked keep n fd0 start) by (apply linked_idle; reflexivity).
    set (whole := match f, snd (feed_args host args) with None, None => true | _, _ => false end) in *.
    set (pieces := cut (if whole then o ++ ma_flush m s else o)) in *.
    destruct (send_writes keep n (client_head k) pieces start) as [n1 g1] eqn:ES.
    pose proof (send_writes_spec keep n (client_head k) fd0 _ _ _ _ L0 ES) as HS. cbn [n_wr start] in HS.
    set (w0 := mkWr [] [] (k_chunks k) false 0 []) in *. set (w1 := fold_left _ pieces w0) in *.
    assert (WH : forall cs body, feed_args host args = (cs, None) -> written m (PMethodCall (c_str name) :: cs) body ->
              whole = true /\ body = o ++ ma_flush m s).
    { intros cs body HF (o' & s' & HR & ->). rewrite HF in EM. cbn [fst] in EM. unfold whole. rewrite HF. cbn [snd].
      assert (EQ : (o', s', None) = (o, s, f)) by (etransitivity; [symmetry; exact HR|exact EM]). injection EQ as -> -> <-. auto. }
    assert (STOP : forall wire n2 g2, stopped keep n fd0 wire n2 g2 ->
       match g2 with
       | Go => py_answer message ums (y_no_once y) n false (n_fd n2) (n_events n2)
       | Go_read => py_answer message ums (y_no_once y) n true (n_fd n2) (n_events n2)
       | Go_threw e => (y_with_fd (n_fd n2) (y_no_once y), n_events n2, of_exn e (message e))
       | Go_undef => (y_with_fd (n_fd n2) (y_no_once y), n_events n2, Out_undef)
       | Go_wait => (y_with_fd (n_fd n2) (y_no_once y), n_events n2, Out_wait)
       end = (y', es, out) -> exchange_case y n name args y' es out wire).
    { intros wire n2 g2 HT E. destruct HT as [es1 c A B C|rest es1 bs lost c A B C D|rest es1 bs lost A B C D|rest es1 bs lost A B C D]; rewrite B, C in E.
      - inversion E; subst. apply xc_connect. assumption.
      - inversion E; subst. eapply xc_failed; eauto.
      - eapply xc_answer; eauto. discriminate.
      - inversion E; subst. eapply xc_wait; eauto. }
    destruct whole eqn:EWH.
    - (* the whole request can be written *)
      exists (w_wire (wr_message (client_head k) (k_chunks k) pieces)). split; [|intros cs body HF HW; destruct (WH _ _ HF HW) as [_ ->]; reflexivity].
      assert (EW : w_wire (wr_message (client_head k) (k_chunks k) pieces) = w_wire (wr_send (client_head k) (w_chunks w1) w1)) by reflexivity.
      assert (MO : exists t, w_wire (wr_message (client_head k) (k_chunks k) pieces) = w_wire w1 ++ t) by (rewrite EW; destruct (wr_send_wire (client_head k) (w_chunks w1) w1) as (t & -> & _); eauto).
      assert (EFN : snd (feed_args host args) = None) by (unfold whole in EWH; destruct f as [f|]; [discriminate|]; destruct (snd (feed_args host args)); [discriminate|reflexivity]).
      assert (GOON : forall n2 g2, match g2 with Go => n_wr n2 = w1 /\ linked keep n fd0 n2 | g => stopped keep n fd0 (w_wire w1) n2 g end ->
         match g2 with
         | Go => let '(n2, g2) := send_flush keep n (client_head k) n2 in
                 match g2 with
                 | Go => py_answer message ums (y_no_once y) n false (n_fd n2) (n_events n2)
                 | Go_read => py_answer message ums (y_no_once y) n true (n_fd n2) (n_events n2)
                 | Go_threw e => (y_with_fd (n_fd n2) (y_no_once y), n_events n2, of_exn e (message e))
                 | Go_undef => (y_with_fd (n_fd n2) (y_no_once y), n_events n2, Out_undef)
                 | Go_wait => (y_with_fd (n_fd n2) (y_no_once y), n_events n2, Out_wait)
                 end
         | Go_read => py_answer message ums (y_no_once y) n true (n_fd n2) (n_events n2)
         | Go_threw e => (y_with_fd (n_fd n2) (y_no_once y), n_events n2, of_exn e (message e))
         | Go_undef => (y_with_fd (n_fd n2) (y_no_once y), n_events n2, Out_undef)
         | Go_wait => (y_with_fd (n_fd n2) (y_no_once y), n_events n2, Out_wait)
         end = (y', es, out) -> exchange_case y n name args y' es out (w_wire (wr_message (client_head k) (k_chunks k) pieces))).
      { intros n2 g2 HG E. destruct MO as (t & MO).
        destruct g2; try (rewrite MO; eapply STOP; [apply stopped_more; exact HG|exact E]).
        destruct HG as [HG1 HG2]. unfold send_flush in E. destruct (send_request keep n (client_head k) (w_chunks (n_wr n2)) n2) as [n3 g3] eqn:E3.
        apply send_request_spec with (fd0 := fd0) in E3; [|exact HG2]. rewrite HG1, <- EW in E3.
        destruct g3; try (eapply STOP; [exact E3|exact E]).
        destruct E3 as [E31 [A B C D|rest es1 bs A B C D F]].
        { exfalso. rewrite E31 in A. destruct (wr_send_sent (client_head k) (w_chunks w1) w1). congruence. }
        rewrite C, D in E. eapply xc_answer with (lost := []); eauto. rewrite app_nil_r, F, E31, EW. reflexivity. }
      unfold whole in EWH. destruct f as [f|]; [discriminate|]. destruct (snd (feed_args host args)) as [e|] eqn:EF; [discriminate|].
      apply (GOON n1 g1 HS). destruct g1; exact H.
    - (* it cannot *)
      exists (w_wire w1). split; [|intros cs body HF HW; destruct (WH _ _ HF HW) as [X _]; discriminate X].
      assert (US : g1 = Go -> k_chunks k = false -> w_sent (n_wr n1) = false).
      { intros _ HK. eapply send_writes_unsent in ES; [apply ES|exact HK|reflexivity]. }
      destruct g1; [|eapply STOP; [exact HS|exact H]..].
      destruct HS as [HS1 HS2]. specialize (US eq_refl).
      unfold whole in EWH. destruct f as [[e|]|].
      + inversion H; subst. apply xc_unwritable; auto. eapply unwritable_fails. exact EM.
      + inversion H; subst. apply xc_unwritable; auto. eapply unwritable_undef. exact EM.
      + destruct (snd (feed_args host args)) as [e|] eqn:EF; [|discriminate]. inversion H; subst. apply xc_unwritable; auto. eapply unwritable_raises. exact EF.
  Qed.
End Exchanges.
