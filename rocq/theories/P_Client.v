(** Properties of the client: C46, C48, C51, C62, C63, C64, C65. *)
From Coq Require Import Lia Arith.
From Verif Require Import Base Value Text M_Marshal M_BinUnmarshal M_TreeBuilder M_Base64 M_Json M_Xml M_Url M_Http M_HttpIO M_HttpWriter M_Registry M_Server M_Client
  S_Value S_Http S_Events S_Wire S_Registry S_Server S_Client L_Base L_Http L_Text L_Dup L_HttpIO L_HttpIO2 L_HttpIO3 L_HttpIO5 L_HttpWriter L_Registry L_Call L_Server L_Server2 L_Server3 L_Server4 L_Server5
  L_Client L_Client2 L_Client3 L_EndToEnd P_Registry P_Server.

(** How the marshallers write: everything. *)
Definition writes_all (cut : bytes -> list bytes) : Prop := forall b, concat (cut b) = b.

(** ** C63 *)
(** Whatever the network does, a call sends at most one request, once, over at most one new connection; it returns a
    response only if it sent one, and if it could not send all of it the connection is not kept. *)
Theorem C63_once : forall ums mars cut callback p n name params p' es e, writes_all cut -> no_nul name ->
  call ums mars cut callback p n name params = (p', es, e) ->
  at_most_one mars (x_url p) (x_conf p) (use_binary p) (x_headers p ++ x_once p ++ callback) name params es /\
  opened es <= 1 /\
  forall y, e = Returned (Ok y) -> exists out, sends es = [out] /\
    (x_fd p' <> None -> exists ver body q, written (mars (use_binary p) ver) (call_calls name params) body /\
       asks (x_url p) (x_conf p) (use_binary p) (x_headers p ++ x_once p ++ callback) body q /\ (zlen body < 2 ^ 32 -> request_text q out)).
Proof.
  intros ums mars cut callback p n name params p' es e HC HN H. destruct (call_sent ums mars cut callback HC _ _ _ _ _ _ _ H HN) as (H1 & H2 & H3).
  set (k := call_client callback p (use_binary p)) in *.
  assert (HA : forall body, asks (x_url p) (x_conf p) (use_binary p) (x_headers p ++ x_once p ++ callback) body (call_req k body))
    by (intro body; exact (call_req_asks k (x_conf p) body eq_refl eq_refl eq_refl)).
  split; [|split; [exact H1|]].
  - destruct H2 as [H2|(body & out & lost & W & S & T & _)]; [left; exact H2|right].
    exists (a_version (x_conf p)), body, (call_req k body), (out ++ lost), out, lost. repeat split; auto; try apply HA. intro HB. rewrite <- T. apply call_req_text; auto.
  - intros y ->. specialize (H3 ltac:(eauto)). destruct H2 as [H2|(body & out & lost & W & S & T & L)]; [congruence|]. exists out. split; [exact S|]. intro HF.
    specialize (L ltac:(eauto)). destruct lost as [|l lost]; [|destruct (HF (L ltac:(discriminate)))]. rewrite app_nil_r in T.
    exists (a_version (x_conf p)), body, (call_req k body). repeat split; auto; try apply HA. intro HB. rewrite <- T. apply call_req_text; auto.
Qed.
Print Assumptions C63_once.

(** ** C62 *)
(** Every connection made is closed or held, whatever the network does; one is held after a request was sent only if
    the response was read to its end and keep-alive is configured. *)
Theorem C62_no_leak : forall ums mars cut callback p n name params p' es e, writes_all cut ->
  call ums mars cut callback p n name params = (p', es, e) ->
  held_sockets (x_fd p) + opened es = held_sockets (x_fd p') + closed es /\
  (sends es <> [] -> x_fd p' <> None -> e = Waiting \/ a_keep (x_conf p) = true /\ exists y, e = Returned (Ok y)).
Proof. intros ums mars cut callback p n name params p' es e HC H. exact (call_sockets ums mars cut callback HC _ _ _ _ _ _ _ H). Qed.
Print Assumptions C62_no_leak.
(** Over any history of a proxy: a call that returns gives the fields and the value of the response to it, not of any
    other, if the server answers every request by one response. *)
Theorem C62_own_partial : forall ums mars cut callback u c ds p outs exs, writes_all cut ->
  after ums mars cut callback (new_proxy u c) ds = (p, outs) -> answered ums ds outs exs ->
  Forall2 (fun o ex => forall h t, snd o = Returned (Ok (h, t)) -> h = map as_read (p_fields (e_response ex)) /\ tb_data t = e_value ex) outs exs.
Proof.
  intros ums mars cut callback u c ds p outs exs HC H HA. exact (proj2 (after_own ums mars cut callback HC ds _ _ _ _ H (or_introl eq_refl) HA)).
Qed.
Print Assumptions C62_own_partial.

(** ** C46 *)
(** In any history the next call carries the headers added for every call, those added since the last call for the next
    call, and those of the callback; nothing else is added. *)
Theorem C46_headers : forall ums mars cut callback u c ds n name params p outs es e hs once, writes_all cut -> no_nul name ->
  after ums mars cut callback (new_proxy u c) (ds ++ [Do_call n name params]) = (p, outs ++ [(es, e)]) ->
  added_headers (rev ds) hs once ->
  exists binary, at_most_one mars u c binary (hs ++ once ++ callback) name params es.
Proof.
  intros ums mars cut callback u c ds n name params p outs es e hs once HC HN H HA. rewrite after_app in H.
  destruct (after ums mars cut callback (new_proxy u c) ds) as [p1 l1] eqn:E. cbn [after] in H.
  destruct (call ums mars cut callback p1 n name params) as [[p2 es2] e2] eqn:EC. inversion H as [[H1 H2]]. apply app_inj_tail in H2 as [-> H2]. inversion H2; subst es2 e2.
  destruct (after_headers ums mars cut callback HC _ _ _ _ _ _ _ E HA) as [<- <-]. destruct (after_keeps ums mars cut callback HC _ _ _ _ E) as (K1 & K2 & K3 & K4).
  cbn [new_proxy x_url x_conf] in *. exists (use_binary p1). destruct (C63_once _ _ _ _ _ _ _ _ _ _ _ HC HN EC) as [[S|S] _]; [left; exact S|right].
  destruct S as (ver & body & q & text & out & lost & S1 & S2 & S3 & S4 & S5). exists ver, body, q, text, out, lost. repeat split; auto; destruct S4; rewrite <- ?K1, <- ?K3, <- ?K4; assumption.
Qed.
Print Assumptions C46_headers.

(** ** C48 *)
(** In any history with well answered calls the format of the next request is the one of the transfer mode. *)
Theorem C48_mode : forall ums mars cut callback u c ds n name params p outs es e exs b, writes_all cut -> no_nul name ->
  after ums mars cut callback (new_proxy u c) (ds ++ [Do_call n name params]) = (p, outs ++ [(es, e)]) ->
  answered ums ds outs exs -> found_binary (combine outs exs) b ->
  exists binary extra, at_most_one mars u c binary extra name params es /\
    (a_mode c = NEVER -> binary = false) /\ (a_mode c = ALWAYS -> binary = true) /\ (a_mode c = ON_SUPPORT -> binary = b).
Proof.
  intros ums mars cut callback u c ds n name params p outs es e exs b HC HN H HA HF. rewrite after_app in H.
  destruct (after ums mars cut callback (new_proxy u c) ds) as [p1 l1] eqn:E. cbn [after] in H.
  destruct (call ums mars cut callback p1 n name params) as [[p2 es2] e2] eqn:EC. inversion H as [[H1 H2]]. apply app_inj_tail in H2 as [-> H2]. inversion H2; subst es2 e2.
  destruct (after_keeps ums mars cut callback HC _ _ _ _ E) as (K1 & K2 & K3 & K4). pose proof (after_found ums mars cut callback HC _ _ _ _ _ _ _ E HA HF) as HB.
  cbn [new_proxy x_url x_conf] in *. exists (use_binary p1), (x_headers p1 ++ x_once p1 ++ callback). split.
  - destruct (C63_once _ _ _ _ _ _ _ _ _ _ _ HC HN EC) as [[S|S] _]; [left; exact S|right].
    destruct S as (ver & body & q & text & out & lost & S1 & S2 & S3 & S4 & S5). exists ver, body, q, text, out, lost. repeat split; auto; destruct S4; rewrite <- ?K1, <- ?K3, <- ?K4; assumption.
  - unfold use_binary. rewrite K2. split; [intros ->; reflexivity|]. split; [intros ->; reflexivity|]. intros ->. change (ON_SUPPORT =? ON_SUPPORT) with true. cbv iota.
    rewrite <- HB. cbn [snd formats_of]. change P_BINARY with 2. apply land_two.
Qed.
Print Assumptions C48_mode.

(** ** C51 *)
(** A client object reads any number of responses safely, and can be destroyed, as long as only the first of them is of
    an unknown type. *)
Theorem C51_partial : forall ums keep s ss c xs, (forall b, um_safe (ums b)) ->
  reads ums keep cl_init (s :: ss) = (c, xs) -> Forall (fun x => x <> Err (StreamError "Unknown ContentType")) (tl xs) ->
  Forall (fun x => x <> UB) xs /\ destroy c = Ok tt.
Proof.
  intros ums keep s ss c xs HU H HX. cbn [reads] in H. destruct (read_response ums keep cl_init s) as [[c1 fd] x] eqn:E. destruct (reads ums keep c1 ss) as [c2 xs1] eqn:E2.
  inversion H; subst. cbn [tl] in HX. apply read_response_any in E as (R1 & _ & R2 & _); [|assumption|discriminate].
  destruct (reads_safe ums keep HU _ _ _ _ E2 (R2 eq_refl) HX) as [A B]. split; [constructor; assumption|]. unfold destroy. destruct (l_held c); congruence.
Qed.
Print Assumptions C51_partial.

(** ** C64 *)
(** Whatever the network does and whatever bytes arrive, a call returns or throws a C++ exception; nothing undefined
    happens, given parameters the marshallers can write and an XML unmarshaller that does nothing undefined. *)
Definition client_formats (val : option mktime_t) (xml : unmarshaller) (binary : bool) : unmarshaller :=
  if binary then bin_um val T_METHOD_RESPONSE else xml.
Definition client_writers (fin : Z -> bytes) (binary : bool) (ver : version) : marshaller := if binary then bin_ma ver else xml_ma fin ver.
Lemma response_um_safe : forall val, um_safe (bin_um val T_METHOD_RESPONSE).
Proof.
  intros val pieces s f H. destruct s as [u t]. change (um_init (bin_um val T_METHOD_RESPONSE)) with (unm_init, tb_init) in H. rewrite bin_um_all in H.
  destruct (unmarshall_all tb (tb_step val) T_METHOD_RESPONSE unm_init tb_init pieces) as [[u' t'] f'] eqn:E.
  apply P_Decode.C09_tree_no_bad_read in E as [H1 H2]. inversion H; subst. split; [assumption|]. intros _. cbn. split; [|intros _; assumption].
  unfold unm_finish. destruct (_ || _); discriminate.
Qed.
Theorem C64_any_response_partial : forall val xml fin cut callback p n name params p' es e, writes_all cut -> um_safe xml -> Forall tame params ->
  call (client_formats val xml) (client_writers fin) cut callback p n name params = (p', es, e) ->
  e <> Returned UB /\ forall h t, e = Returned (Ok (h, t)) -> tb_data t <> UB.
Proof.
  intros val xml fin cut callback p n name params p' es e HC HX HT H.
  apply (call_defined (client_formats val xml) (client_writers fin) cut callback HC _ _ _ _ _ _ _ H); [| |assumption].
  - intros []; [apply response_um_safe|exact HX].
  - intros [] v; [apply bin_ma_safe|apply xml_ma_safe].
Qed.
Print Assumptions C64_any_response_partial.

(** ** C65 *)
(** A response cut off within its head or within a body of known length or in chunks is never returned, in any history. *)
Theorem C65_cut : forall ums mars cut callback u c ds n name params p outs es e exs r binary ver x, writes_all cut ->
  after ums mars cut callback (new_proxy u c) (ds ++ [Do_call n name params]) = (p, outs ++ [(es, e)]) -> answered ums ds outs exs ->
  response_ok r -> response_type r binary -> replies (ums binary) (p_body r) ver x -> cut_response r (pending (n_arrives n)) ->
  (forall y, e <> Returned (Ok y)) /\ (sends es <> [] -> e = Waiting \/ x_fd p = None).
Proof.
  intros ums mars cut callback u c ds n name params p outs es e exs r binary ver x HC H HA HO HT HR HCUT. rewrite after_app in H.
  destruct (after ums mars cut callback (new_proxy u c) ds) as [p1 l1] eqn:E. cbn [after] in H.
  destruct (call ums mars cut callback p1 n name params) as [[p2 es2] e2] eqn:EC. inversion H as [[H1 H2]]. apply app_inj_tail in H2 as [-> H2]. inversion H2; subst es2 e2. subst p2.
  destruct (after_own ums mars cut callback HC _ _ _ _ _ E (or_introl eq_refl) HA) as [HCL _].
  assert (NO : forall y, e <> Returned (Ok y)) by (eapply (call_cut ums mars cut callback HC); eassumption). split; [exact NO|].
  intro HS. destruct (C62_no_leak _ _ _ _ _ _ _ _ _ _ _ HC EC) as [_ HK]. destruct (x_fd p); [|right; reflexivity].
  destruct (HK HS ltac:(discriminate)) as [->|(_ & y & ->)]; [left; reflexivity|]. destruct (NO y eq_refl).
Qed.
Print Assumptions C65_cut.

(** ** Samples *)
Definition here : url := mkUrl (str "localhost") 2424 (str "/RPC2") false false.
Definition pconf_of (mode : Z) : pconf := mkPc 10000 10000 10000 true mode false (mkVer 2 1).
Definition sample_cums : bool -> unmarshaller := client_formats None (bin_um None T_METHOD_RESPONSE).
Definition sample_call (p : proxy) (n : net) (name : string) (params : list value) : proxy * list sock_event * call_end :=
  call sample_cums (client_writers no_double) by_bytes [] p n (str name) params.
Definition sample_after (p : proxy) (ds : list deed) := after sample_cums (client_writers no_double) by_bytes [] p ds.
(** A network with nothing wrong, which lets this arrive. *)
Definition good_net (arrives : bytes) : net :=
  mkNet Peek_nothing true (repeat (repeat (Try_ready false (Some 100000) false) 3) 3) (mkSock arrives [5; 200] TimedOut).
Definition reply_of (more : list (bytes * bytes)) (v : value) : response :=
  let body := fst (bin_run (mkVer 2 1) (response_calls v)) in
  mkResp true (str "OK") (more ++ [(str "Content-Type", str "application/x-frpc"); (str "Content-Length", dec (zlen body))]) body.
Definition wire_of (r : response) : bytes := response_head r ++ p_body r.
Definition known : list (bytes * bytes) := [(str "Accept", str "text/xml, application/x-frpc")].
Definition res_of (e : call_end) : res value := match e with Returned (Ok (_, t)) => tb_data t | Returned (Err e) => Err e | Returned UB => UB | Waiting => Err (FrpcError "waiting") end.

Lemma reply_answers : forall more z, Forall field_ok more -> no_value (str "Content-Type") more -> no_value (str "Content-Length") more -> wf (mkVer 2 1) (VInt z) ->
  zlen (fst (bin_run (mkVer 2 1) (response_calls (VInt z)))) < 2 ^ 63 -> forall n, wire_of (reply_of more (VInt z)) = pending (n_arrives n) ->
  answered_by sample_cums n (mkEx (reply_of more (VInt z)) true (mkVer 2 1) (Ok (VInt z))).
Proof.
  intros more z HM HT HL HW HZ n E. unfold answered_by. cbn [e_response e_binary e_version e_value].
  assert (FF : forall name v rest, no_value name more -> first_value name ((name, v) :: rest) v -> first_value name (more ++ (name, v) :: rest) v)
    by (intros name v rest A _; exists more, name, rest; repeat split; exact A).
  split; [|split; [|split]].
  - split; [intro X; cbn in X; destruct X as [X|[X|[]]]; discriminate|]. split; [discriminate|]. split; [discriminate|]. split; [|exact HZ].
    cbn [reply_of p_fields]. apply Forall_app. split; [exact HM|]. constructor; [apply field_okb_ok; reflexivity|]. constructor; [|constructor].
    rewrite <- blen_zlen. apply field_ok_length. apply blen_nonneg.
  - exists (str "application/x-frpc"). split; [apply FF; [exact HT|exists [], (str "Content-Type"); eexists; repeat split; constructor]|].
    split; [exists [], []; reflexivity|]. intro X. apply contains_spec in X. vm_compute in X. discriminate.
  - destruct (L_EndToEnd.response_replies None (mkVer 2 1) (VInt z)) as (wire & S & R); [split; cbn; lia|exact HW|].
    unfold sent in S. destruct (bin_run (mkVer 2 1) (response_calls (VInt z))) as [o [[]|]] eqn:EB; try discriminate. inversion S; subst.
    cbn [reply_of p_body]. rewrite EB. exact R.
  - rewrite <- E. unfold wire_of. rewrite <- (app_nil_r (p_body _)). apply complete_framed. eapply framed_length.
    + cbn [reply_of p_fields]. exists (more ++ [(str "Content-Type", str "application/x-frpc")]), (str "Content-Length"), []. split; [rewrite <- app_assoc; reflexivity|]. split; [reflexivity|].
      apply Forall_app. split; [exact HL|]. constructor; [apply other_name; reflexivity|constructor].
    + cbn [reply_of p_body]. rewrite <- blen_zlen. apply dec_is_number. apply blen_nonneg.
Qed.

(** Two calls with transfer mode ON_SUPPORT: the first in XML, the answer telling that binary requests are taken, and a
    header for one call; the second in binary over the same connection, without that header. *)
Definition two_deeds : list deed :=
  [Do_add_once [(str "X-Id", str "7")]; Do_call (good_net (wire_of (reply_of known (VInt 5)))) (str "one") [VInt 1];
   Do_call (good_net (wire_of (reply_of known (VInt 6)))) (str "two") []].
Example two_calls : let '(p, outs) := sample_after (new_proxy here (pconf_of ON_SUPPORT)) two_deeds in
  map (fun o => res_of (snd o)) outs = [Ok (VInt 5); Ok (VInt 6)] /\
  map (fun o => map (fun t => (contains (str "X-Id: 7") t, contains (str "Content-Type: application/x-frpc") t)) (sends (fst o))) outs = [[(true, false)]; [(false, true)]] /\
  map (fun o => opened (fst o)) outs = [1; 0] /\ x_fd p = Some [].
Proof. vm_compute. auto. Qed.
Example C62_C46_C48_sample : exists exs outs p, sample_after (new_proxy here (pconf_of ON_SUPPORT)) two_deeds = (p, outs) /\ answered sample_cums two_deeds outs exs /\
  found_binary (combine outs exs) true /\ added_headers (rev (firstn 1 two_deeds)) [] [(str "X-Id", str "7")] /\ writes_all by_bytes.
Proof.
  exists [mkEx (reply_of known (VInt 5)) true (mkVer 2 1) (Ok (VInt 5)); mkEx (reply_of known (VInt 6)) true (mkVer 2 1) (Ok (VInt 6))].
  destruct (sample_after (new_proxy here (pconf_of ON_SUPPORT)) two_deeds) as [p outs] eqn:E. exists outs, p. split; [reflexivity|].
  assert (HL : exists es1 y1 es2 y2, outs = [(es1, Returned (Ok y1)); (es2, Returned (Ok y2))]) by (vm_compute in E; inversion E; repeat eexists).
  destruct HL as (es1 & y1 & es2 & y2 & ->).
  assert (HK : Forall field_ok known) by (constructor; [apply field_okb_ok; vm_compute; reflexivity|constructor]).
  assert (HA : forall z n, in_s32 z -> zlen (fst (bin_run (mkVer 2 1) (response_calls (VInt z)))) < 2 ^ 63 -> wire_of (reply_of known (VInt z)) = pending (n_arrives n) -> answered_by sample_cums n (mkEx (reply_of known (VInt z)) true (mkVer 2 1) (Ok (VInt z)))).
  { intros z n HZ HL HE. apply reply_answers; auto; [apply none_in; reflexivity|apply none_in; reflexivity|]. cbn. unfold in_s32, in_s64 in *. lia. }
  split; [|split; [|split]].
  - constructor. constructor; [intros _; apply HA; [unfold in_s32; lia|vm_compute; reflexivity|reflexivity]|]. constructor; [intros _; apply HA; [unfold in_s32; lia|vm_compute; reflexivity|reflexivity]|]. constructor.
  - apply (found_by [_]). split; [intros _|reflexivity]. exists (str "text/xml, application/x-frpc"). split; [eapply first_in; vm_compute; reflexivity|]. exists (str "text/xml, "), []. reflexivity.
  - cbn. apply (added_once [] [] [] [(str "X-Id", str "7")]). constructor.
  - intro b. apply by_bytes_well.
Qed.
Example C65_sample : cut_response (reply_of [] (VInt 5)) (ztake 60 (wire_of (reply_of [] (VInt 5)))) /\
  let '(p, es, e) := sample_call (new_proxy here (pconf_of ALWAYS)) (good_net (ztake 60 (wire_of (reply_of [] (VInt 5))))) "one" [] in
  res_of e = Err (ProtocolError HTTP_TIMEOUT) /\ x_fd p = None.
Proof.
  split; [|vm_compute; auto]. apply cut_rhead with (lost := zdrop 60 (response_head (reply_of [] (VInt 5)))); [vm_compute; reflexivity|vm_compute; discriminate].
Qed.
Example C64_sample : um_safe (bin_um None T_METHOD_RESPONSE) /\
  let '(p, es, e) := sample_call (new_proxy here (pconf_of ALWAYS)) (good_net (str "HTTP/1.1 200 OK" ++ crlf ++ str "Content-Type: application/x-frpc" ++ crlf ++ crlf ++ [xca; x11; x00])) "one" [VInt 3] in
  x_fd p = None /\ exists c, res_of e = Err (ProtocolError c).
Proof. split; [apply response_um_safe|]. vm_compute. split; [reflexivity|eexists; reflexivity]. Qed.

(** ** What does not hold *)
(** C51: a response of known type, then one of unknown type: destroying the client deletes the unmarshaller again, and so
    does reading another response. *)
Theorem C51_refuted : exists good bad,
  let '(c, xs) := reads sample_cums true cl_init [good; bad] in
  (forall i, nth i xs UB <> UB \/ (2 <= i)%nat) /\ destroy c = UB /\ snd (reads sample_cums true c [good]) = [UB].
Proof.
  exists (mkSock (wire_of (reply_of [] (VInt 5))) [] TimedOut), (mkSock (str "HTTP/1.1 200 OK" ++ crlf ++ str "Content-Type: text/html" ++ crlf ++ crlf) [] TimedOut).
  vm_compute. split; [intros [|[|i]]; [left; discriminate|left; discriminate|right; repeat apply le_n_S; apply Nat.le_0_l]|auto].
Qed.
Example C51_sample : let '(c, xs) := reads sample_cums true cl_init
    [mkSock (str "HTTP/1.1 200 OK" ++ crlf ++ str "Content-Type: text/html" ++ crlf ++ crlf) [] TimedOut; mkSock (wire_of (reply_of [] (VInt 5))) [] TimedOut] in
  destroy c = Ok tt /\ map (fun x => match x with Ok (_, t) => tb_data t | Err e => Err e | UB => UB end) xs = [Err (StreamError "Unknown ContentType"); Ok (VInt 5)].
Proof. vm_compute. auto. Qed.
(** C62: a server that sends more than one response to a request: the second call gets the response left over from the
    first. *)
Theorem C62_stale_refuted : exists n1 n2, pending (n_arrives n2) = wire_of (reply_of [] (VInt 6)) /\ n_peek n2 = Peek_data /\
  let '(p, outs) := sample_after (new_proxy here (pconf_of ALWAYS)) [Do_call n1 (str "one") []; Do_call n2 (str "two") []] in
  map (fun o => res_of (snd o)) outs = [Ok (VInt 5); Ok (VInt 55)].
Proof.
  exists (good_net (wire_of (reply_of [] (VInt 5)) ++ wire_of (reply_of [] (VInt 55)))),
    (mkNet Peek_data true (n_tries (good_net [])) (n_arrives (good_net (wire_of (reply_of [] (VInt 6)))))).
  split; [reflexivity|]. split; [reflexivity|]. vm_compute. reflexivity.
Qed.
