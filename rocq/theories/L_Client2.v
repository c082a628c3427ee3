(** Lemmas about calls through a proxy. *)
From Coq Require Import Lia Arith.
From Verif Require Import Base Value Text M_Marshal M_BinUnmarshal M_TreeBuilder M_Base64 M_Iso M_Url M_Http M_HttpIO M_HttpWriter M_Registry M_Server M_Client
  S_Http S_Registry S_Server S_Client L_Base L_Text L_UrlText L_Http L_HttpIO L_HttpIO2 L_HttpIO3 L_HttpIO4 L_HttpIO5 L_HttpWriter L_Server L_Server2 L_Server3 L_Server4 L_Client P_HttpIO.

(** The pieces sent are a beginning of the message. *)
Lemma send_pieces_spec : forall pieces tries o e, send_pieces pieces tries = (o, e) ->
  (exists r, concat (map snd pieces) = o ++ r) /\ (e = Sent_all -> o = concat (map snd pieces)).
Proof.
  induction pieces as [|[w d] pieces IH]; intros tries o e H; cbn [send_pieces map concat snd] in *.
  - inversion H; subst. split; [exists []; reflexivity|auto].
  - destruct (send_data w d (hd [] tries)) as [o1 e1] eqn:E1. destruct (C36_send _ _ _ _ _ E1) as [(r1 & H1) H2].
    destruct e1.
    + destruct (send_pieces pieces (tl tries)) as [o2 e2] eqn:E2. inversion H; subst. destruct (IH _ _ _ E2) as [(r2 & H3) H4].
      specialize (H2 eq_refl). rewrite <- H2. split; [exists r2; rewrite H3, app_assoc; reflexivity|]. intro X. rewrite (H4 X). reflexivity.
    + inversion H; subst. split; [exists (r1 ++ concat (map snd pieces)); rewrite <- !app_assoc; reflexivity|discriminate].
    + inversion H; subst. split; [exists (r1 ++ concat (map snd pieces)); rewrite <- !app_assoc; reflexivity|discriminate].
Qed.
Lemma to_send_text : forall head front back, concat (map snd (to_send head front back)) = head ++ concat front ++ back.
Proof.
  intros head front back. unfold to_send. destruct front as [|f r]; cbn [map snd concat]; [rewrite !app_nil_r; reflexivity|].
  rewrite map_app, concat_app, map_map. cbn [map snd concat]. rewrite map_id, !app_nil_r, <- !app_assoc. reflexivity.
Qed.

Lemma connect_spec : forall keep n fd fd' es x, connect_socket keep n fd = (fd', es, x) ->
  sends es = [] /\ held_sockets fd + opened es = held_sockets fd' + closed es /\ opened es <= 1 /\
  ((x = Ok tt /\ exists rest, fd' = Some rest /\ ((fd = Some rest /\ es = [] /\ keep = true) \/ rest = [])) \/ (exists c, x = Err (HTTPError c) /\ fd' = None)).
Proof.
  intros keep n fd fd' es x H. unfold connect_socket in H.
  destruct fd as [rest|]; [destruct keep; [destruct (n_peek n)|]|]; cbn [negb] in H;
    try (inversion H; subst; cbn; repeat split; try lia; left; split; [reflexivity|]; eauto; fail);
    destruct (n_connect n); inversion H; subst; cbn; repeat split; try lia; eauto 8.
Qed.

Section Calls.
  Variable ums : bool -> unmarshaller.
  Variable mars : bool -> version -> marshaller.
  Variable cut : bytes -> list bytes.
  Variable callback : list (bytes * bytes).
  Hypothesis CUT : forall b, concat (cut b) = b.
  Notation call := (call ums mars cut callback).

  Definition no_once (p : proxy) : proxy := mkProxy (x_url p) (x_conf p) (x_protocols p) (x_headers p) [] (x_fd p).
  Definition arrived (rest : bytes) (n : net) : sock := mkSock (rest ++ pending (n_arrives n)) (sees (n_arrives n)) (fin (n_arrives n)).

  (** What can come of a call. *)
  Inductive call_case (p : proxy) (n : net) (name : bytes) (params : list value) : proxy -> list sock_event -> call_end -> Prop :=
  | case_early : forall x, (forall y, x <> Ok y) -> call_case p n name params (no_once p) [] (Returned x)
  | case_connect : forall es c, connect_socket (a_keep (x_conf p)) n (x_fd p) = (None, es, Err (HTTPError c)) ->
      call_case p n name params (with_fd None (no_once p)) es (Returned (Err (HTTPError c)))
  | case_waiting : forall es rest body out lost, connect_socket (a_keep (x_conf p)) n (x_fd p) = (Some rest, es, Ok tt) ->
      written (mars (use_binary p) (a_version (x_conf p))) (call_calls (c_str name) params) body ->
      client_head (call_client callback p (use_binary p)) (u32 (blen body)) ++ body = out ++ lost ->
      call_case p n name params (with_fd (Some rest) (no_once p)) (es ++ [Ev_send out]) Waiting
  | case_failed : forall es rest body out lost e, connect_socket (a_keep (x_conf p)) n (x_fd p) = (Some rest, es, Ok tt) ->
      written (mars (use_binary p) (a_version (x_conf p))) (call_calls (c_str name) params) body ->
      client_head (call_client callback p (use_binary p)) (u32 (blen body)) ++ body = out ++ lost ->
      call_case p n name params (with_fd None (no_once p)) (es ++ [Ev_send out; Ev_close]) (Returned (Err e))
  | case_thrown : forall es rest body out lost must c fd x, connect_socket (a_keep (x_conf p)) n (x_fd p) = (Some rest, es, Ok tt) ->
      written (mars (use_binary p) (a_version (x_conf p))) (call_calls (c_str name) params) body ->
      client_head (call_client callback p (use_binary p)) (u32 (blen body)) ++ body = out ++ lost ->
      read_response ums (a_keep (x_conf p)) (mkCl P_XML (mkVer 2 1) must Held_none) (arrived rest n) = (c, fd, x) -> (forall y, x <> Ok y) ->
      call_case p n name params (with_fd (option_map pending fd) (no_once p)) (es ++ [Ev_send out] ++ match fd with None => [Ev_close] | Some _ => [] end) (Returned x)
  | case_answered : forall es rest body out lost must c fd y, connect_socket (a_keep (x_conf p)) n (x_fd p) = (Some rest, es, Ok tt) ->
      written (mars (use_binary p) (a_version (x_conf p))) (call_calls (c_str name) params) body ->
      client_head (call_client callback p (use_binary p)) (u32 (blen body)) ++ body = out ++ lost -> (must = false -> lost = []) ->
      read_response ums (a_keep (x_conf p)) (mkCl P_XML (mkVer 2 1) must Held_none) (arrived rest n) = (c, fd, Ok y) ->
      call_case p n name params (mkProxy (x_url p) (with_version (l_version c) (x_conf p)) (l_protocols c) (x_headers p) [] (option_map pending fd))
        (es ++ [Ev_send out] ++ match fd with None => [Ev_close] | Some _ => [] end) (Returned (Ok y)).

  Lemma call_cases : forall p n name params p' es e, call p n name params = (p', es, e) -> call_case p n name params p' es e.
  Proof.
    intros p n name params p' es e H. unfold M_Client.call in H. fold (no_once p) in H.
    destruct (3 <? v_major (a_version (x_conf p))); [inversion H; subst; constructor; discriminate|].
    set (m := mars (use_binary p) (a_version (x_conf p))) in *.
    destruct (ma_run m (ma_init m) (call_calls (c_str name) params)) as [[o s] f] eqn:EM.
    destruct f as [[ex|]|]; [inversion H; subst; constructor; discriminate|inversion H; subst; constructor; discriminate|].
    assert (HWR : written m (call_calls (c_str name) params) (o ++ ma_flush m s)) by (exists o, s; auto).
    set (body := o ++ ma_flush m s) in *. clearbody body. clear EM.
    set (k := call_client callback p (use_binary p)) in *.
    destruct (plain_inv (client_head k) (cut body) (mkWr [] [] false false 0 []) eq_refl eq_refl eq_refl eq_refl) as (A & B & C & D & F).
    set (w := fold_left _ _ _) in *. clearbody w. cbn [w_front w_back concat app] in D. rewrite CUT in D. rewrite D in F.
    destruct (connect_socket _ n (x_fd p)) as [[fd es1] x1] eqn:EC. pose proof EC as HCS. apply connect_spec in HCS as (_ & _ & _ & HCS).
    destruct HCS as [(-> & rest & -> & HCS)|(c & -> & ->)]; [|inversion H; subst; apply case_connect; exact EC].
    destruct (send_pieces _ _) as [out e1] eqn:ES. destruct (send_pieces_spec _ _ _ _ ES) as [(lost & HT) HA]. rewrite to_send_text, D, F in HT, HA.
    fold (arrived rest n) in H.
    assert (ANS : forall must, (must = false -> lost = []) ->
      match read_response ums (a_keep (x_conf p)) (mkCl P_XML (mkVer 2 1) must Held_none) (arrived rest n) with
      | (c, fd2, x) =>
          match x with
          | Ok v => (mkProxy (x_url p) (with_version (l_version c) (x_conf p)) (l_protocols c) (x_headers p) [] (option_map pending fd2),
                     (es1 ++ [Ev_send out]) ++ match fd2 with None => [Ev_close] | Some _ => [] end, Returned (Ok v))
          | x => (with_fd (option_map pending fd2) (no_once p), (es1 ++ [Ev_send out]) ++ match fd2 with None => [Ev_close] | Some _ => [] end, Returned x)
          end
      end = (p', es, e) -> call_case p n name params p' es e).
    { intros must HMU. destruct (read_response ums (a_keep (x_conf p)) (mkCl P_XML (mkVer 2 1) must Held_none) (arrived rest n)) as [[c fd2] x] eqn:ER. intro HX.
      destruct x as [v|ex|]; rewrite <- app_assoc in HX; inversion HX; subst; [eapply case_answered; eauto|eapply case_thrown; eauto; discriminate|eapply case_thrown; eauto; discriminate]. }
    destruct e1 as [|ex|].
    - apply (ANS false); [|exact H]. intros _. specialize (HA eq_refl). rewrite HA in HT. rewrite <- (app_nil_r (_ ++ body)) in HT at 1. apply app_inv_head in HT. congruence.
    - assert (HX : (with_fd None (no_once p), (es1 ++ [Ev_send out]) ++ [Ev_close], Returned (Err ex)) = (p', es, e) -> call_case p n name params p' es e).
      { intro E. rewrite <- app_assoc in E. inversion E; subst. eapply case_failed; eauto. }
      destruct ex; try exact (HX H). apply (ANS true); [discriminate|exact H].
    - inversion H; subst. eapply case_waiting; eauto.
  Qed.
End Calls.

Lemma read_response_fd : forall ums keep c s c' fd x, read_response ums keep c s = (c', fd, x) -> fd <> None ->
  keep = true /\ l_must_close c = false /\ exists y, x = Ok y.
Proof.
  intros ums keep c s c' fd x H HF. unfold read_response in H.
  destruct (read_status _ s) as [s1 [protocol|e|]]; [|inversion H; subst; congruence..].
  destruct (read_header false [] s1) as [s2 [h|e|]]; [|inversion H; subst; congruence..].
  destruct (l_held c); [| |inversion H; subst; congruence];
    (destruct (response_um _) as [b|]; [|inversion H; subst; congruence];
     destruct (read_content _ _ _ _ _) as [r [h2|e|]]; [|inversion H; subst; congruence..];
     destruct (um_finish (ums b) (r_sink r)) as [k [[]|e|]]; [|inversion H; subst; congruence..];
     destruct keep, (l_must_close c), (choose_close _ _); cbn in H; inversion H; subst; try congruence; eauto).
Qed.

(** The request of a call. *)
Definition call_req (k : client) (body : bytes) : request :=
  mkReq (if url_is_unix (k_url k) then str "/" else u_path (k_url k)) (negb (k_http10 k)) (client_fields k (blen body)) body.
Lemma call_req_text : forall k body, k_chunks k = false -> zlen body < 2 ^ 32 ->
  request_text (call_req k body) (client_head k (u32 (blen body)) ++ body).
Proof.
  intros k body HC HB. rewrite <- blen_zlen in HB. pose proof (blen_nonneg body). rewrite u32_id by (unfold in_u32; lia). exists body. split.
  - eapply framed_length; cbn [q_fields q_body call_req]; [apply client_length; assumption|]. replace (zlen body) with (blen body) by apply blen_zlen. apply dec_is_number. lia.
  - f_equal. unfold client_head, request_head, header_text, call_req, http_version. cbn [q_path q_http11 q_fields]. destruct (k_http10 k); reflexivity.
Qed.
Lemma client_field : forall k n name v before after,
  (if k_http10 k then [] else [(str "Host", if url_is_unix (k_url k) then [] else u_host (k_url k) ++ [x3a] ++ dec (u_port (k_url k)))]) ++ before ++ (name, v) :: after
    = client_fields k n ->
  bytes_eqb (map ascii_lower (str "Host")) (map ascii_lower name) = false ->
  forallb (fun f => negb (bytes_eqb (map ascii_lower (fst f)) (map ascii_lower name))) before = true -> first_value name (client_fields k n) v.
Proof.
  intros k n name v before after E HH HB. rewrite <- E. rewrite app_assoc. eexists _, name, after. split; [reflexivity|]. split; [reflexivity|].
  apply Forall_app. split.
  - destruct (k_http10 k); repeat constructor. apply other_name. exact HH.
  - rewrite forallb_forall in HB. apply Forall_forall. intros f HF. apply other_name. apply HB in HF. apply negb_true_iff in HF. exact HF.
Qed.
Lemma call_req_asks : forall k c body, k_chunks k = false -> k_http10 k = a_http10 c -> k_keep k = a_keep c ->
  asks (k_url k) c (k_binary k) (k_custom k) body (call_req k body).
Proof.
  intros k c body HC HH HK. constructor; cbn [call_req q_path q_http11 q_body q_fields].
  - reflexivity.
  - rewrite HH. reflexivity.
  - reflexivity.
  - eapply (client_field k _ _ _ [] _); [unfold client_fields; cbn [app]; reflexivity|reflexivity|reflexivity].
  - eapply (client_field k _ _ _ [_] _); [unfold client_fields; cbn [app]; reflexivity|reflexivity|]. destruct (k_binary k); reflexivity.
  - rewrite <- HK. eapply (client_field k _ _ _ [_; _] _); [unfold client_fields; cbn [app]; reflexivity|reflexivity|]. destruct (k_binary k); reflexivity.
  - unfold client_fields. rewrite HC. rewrite app_assoc. eexists. split; [reflexivity|]. apply Forall_app. split.
    + destruct (k_http10 k); [constructor|]. constructor; [cbn [fst In]; tauto|constructor].
    + repeat (apply Forall_cons; [cbn [fst In]; tauto|]). apply Forall_nil.
Qed.
Lemma field_ok_host : forall h p, word h -> 0 <= p -> field_ok (str "Host", h ++ [x3a] ++ dec p).
Proof.
  intros h p [HN HW] HP. destruct (field_okb_ok (str "Host", []) eq_refl) as (A & B & _). split; [exact A|]. split; [exact B|].
  destruct (dec_chars _ _ (dec_is_number p HP)) as [HD HDC].
  assert (HC : forall c, In c (h ++ [x3a] ++ dec p) -> ~ ascii_space c).
  { intros c HI. apply in_app_or in HI as [HI|HI]; [apply HW; assumption|]. apply in_app_or in HI as [HI|HI]; [|apply HDC; assumption].
    destruct HI as [<-|[]]. intro X. apply space_spec in X. discriminate. }
  cbn [snd]. split; [|split].
  - intro HI. apply (HC _ HI). right. cbn. lia.
  - intros c r E. apply HC. rewrite E. left. reflexivity.
  - intros c r E. apply HC. rewrite E. apply in_or_app. right. left. reflexivity.
Qed.
Lemma call_req_well_formed : forall k body, url_fine (k_url k) -> Forall field_ok (k_custom k) -> zlen body < 2 ^ 63 -> k_chunks k = false -> well_formed (call_req k body).
Proof.
  intros k body [HU HPO] HX HB HC. split; [|split]; cbn [call_req q_path q_fields q_body].
  - destruct (url_is_unix (k_url k)); [apply word_dec; [discriminate|reflexivity]|apply HU; reflexivity].
  - unfold client_fields. apply Forall_app. split.
    + destruct (k_http10 k); [constructor|]. constructor; [|constructor]. destruct (url_is_unix (k_url k)); [apply field_okb_ok; reflexivity|].
      apply field_ok_host; [apply HU; reflexivity|assumption].
    + apply Forall_app. split; [|assumption]. rewrite HC. constructor; [apply field_okb_ok; destruct (k_binary k); reflexivity|].
      constructor; [apply field_okb_ok; reflexivity|]. constructor; [apply field_okb_ok; destruct (k_keep k); reflexivity|].
      constructor; [apply field_ok_length; apply blen_nonneg|constructor].
  - assumption.
Qed.

Lemma sends_app : forall a b, sends (a ++ b) = sends a ++ sends b.
Proof. intros. unfold sends. apply flat_map_app. Qed.
Lemma opened_app : forall a b, opened (a ++ b) = opened a + opened b.
Proof. intros. unfold opened. rewrite filter_app, zlen_app. reflexivity. Qed.
Lemma closed_app : forall a b, closed (a ++ b) = closed a + closed b.
Proof. intros. unfold closed. rewrite filter_app, zlen_app. reflexivity. Qed.
