(** Properties of the server of the Python binding (C87, C88). *)
From Coq Require Import Lia.
From Verif Require Import Base Value Text Unicode M_Marshal M_BinUnmarshal M_TreeBuilder M_Base64 M_Json M_Xml M_Url M_Http M_HttpIO M_HttpWriter M_Registry M_Server M_XmlUm M_Python M_PyRegistry M_PyServer
  S_Value S_Http S_Wire S_Registry S_Server S_Xml S_XmlUm S_Python S_PyRegistry S_PyServer L_Base L_Http L_HttpIO L_Registry L_Wire L_Server L_Server2 L_PyText L_PyBuild L_PyRead L_Python L_PyLoad L_PyRegistry L_Message L_RoundTrip L_BinUnmarshal
  L_Server3 L_Server4 L_Server5 L_PyServer L_PyServer2 L_XmlParser P_Server P_Registry P_Python P_PyRegistry.

(** ** C87 *)
(** A connection carrying any number of well-formed requests, each perhaps after empty lines, cut into any pieces: every call is handled once, in
    order, and answered in the format asked for, until the first request after which the connection may not stay open; then [serve] returns, and what
    follows is left unread.  Without such a request [serve] raises ProtocolError when the client is gone.  The server object is
    left as it was. *)
Theorem C87_connection_partial : forall W message own host (cfg : pconfig W) ums mars reason cut added g client w qs w' outs ends,
  py_connection own host cfg ums mars added g client 0 w qs w' outs ends ->
  writes_well cut -> Forall well_formed qs -> Forall py_sendable outs ->
  forall texts st sees ending, ps_own st = [] -> Forall2 py_request_text qs texts -> ending = Closed \/ ending = TimedOut ->
  exists c x replies before after,
    py_serve message own host cfg ums mars reason cut added g client st (mkSock (concat texts) sees ending) w = (c, x) /\
    pc_world c = w' /\ pc_wire c = concat replies /\
    Forall2 (fun a t => let '(v, o, extra, body) := a in py_response_text (pf_binary cfg) v o (pf_keep cfg) extra body t) outs replies /\
    texts = before ++ after /\ List.length before = List.length outs /\ pending (pc_sock c) = concat after /\
    x = (if ends then Sv_none else Sv_protocol (match ending with TimedOut => 0 | _ => 2 end)) /\ ps_own (pc_srv c) = [].
Proof.
  intros W message own host cfg ums mars reason cut added g client w qs w' outs ends HC HW HQ HS texts st sees ending HO HT HE. unfold py_serve. cbn [pending].
  exact (py_serve_loop_connection message own host cfg ums mars reason cut added g client HW 0 w qs w' outs ends HC HQ HS texts HT _ (mkPSrv (ps_out st) (ps_chunks st) (ps_ver st) false false (ps_own st)) sees ending [] HO (le_n _) HE).
Qed.
Print Assumptions C87_connection_partial.

Lemma hand_over_bin : forall step req pieces u b, hand_over (pu_take (pbin_um step req)) (u, b) pieces =
  let '(u', b', f) := unmarshall_all pb step req u b pieces in ((u', b'), f).
Proof.
  intros step req. induction pieces as [|d r IH]; intros u b; [reflexivity|].
  cbn [hand_over pu_take pbin_um unmarshall_all fst snd]. destruct (unmarshall pb step req u b d) as [[u' b'] [f|]]; [reflexivity|]. apply IH.
Qed.
(** The binary format: the body of a request that carries a call is read as that call (texts in UTF-8; see C80). *)
Theorem C87_binary_calls : forall host pass native ver name ps, modern ver -> S_Wire.name_ok name ->
  Forall (wf ver) ps -> Forall texts ps -> Forall no_nul_names ps ->
  exists body l, sent ver (call_calls name ps) = Ok body /\ py_decodes (pbin_um (pb_step host pass native) T_METHOD_CALL) body ver name l /\ Forall2 (reads host native) ps l.
Proof.
  intros host pass native ver name ps HM NO W T N.
  assert (X : exists l, items_of host pass native ps = Some l /\ Forall2 (reads host native) ps l).
  { induction ps as [|x ps IH]; [exists []; split; [reflexivity|constructor]|]. inversion W; inversion T; inversion N; subst.
    destruct (texts_read host native pass x) as (p & E & R); auto; [eapply wf_uniq; eauto|]. destruct IH as (l & EL & RL); auto. exists (p :: l). cbn [items_of]. rewrite E, EL. split; [reflexivity|constructor; auto]. }
  destruct X as (l & EP & R).
  set (b0 := fst (pb_step host pass native pb_init (EMethodCall name))).
  assert (F : Forall (builds_py host pass native) ps) by (apply Forall_forall; intros; apply L_PyBuild.builds_all).
  pose proof (L_PyBuild.builds_items host pass native ps F b0 L_root [] [] eq_refl eq_refl) as D. rewrite EP in D. cbn [option_map done_to] in D. destruct D as [m D].
  destruct (call_decodes_any pb (pb_step host pass native) T_METHOD_CALL ver (modern_legal ver HM) HM name ps pb_init b0 _ [] NO ltac:(eapply Forall_impl; [|exact W]; apply wf_wfu) (or_intror (or_introl eq_refl)) eq_refl D) as [Q1 Q2].
  unfold sent. destruct (bin_run ver (call_calls name ps)) as [o f]. cbn [fst snd] in *. subst f. exists o, l. split; [reflexivity|]. split; [|exact R].
  intros pieces [E _]. cbn [pbin_um pu_init]. rewrite hand_over_bin.
  erewrite all_of_lbig; [|exact E| |exact Q2]; [|apply idle_cinv; lia]. do 2 eexists. split; [reflexivity|]. split; [reflexivity|]. split; [reflexivity|]. split; reflexivity.
Qed.
Print Assumptions C87_binary_calls.

(** A server with the methods of P_PyRegistry.v: two calls, the second one asks for closing; what follows is not read. *)
Definition py_ten : pconfig wld := mkPConf wld true true 10 None None.
Definition py_ums (k : in_type) : pyum :=
  let step := pb_step utc_host false true in
  match k with
  | In_binary => pbin_um step T_METHOD_CALL
  | In_base64 => pb64_um step T_METHOD_CALL
  | In_url p => purl_um step no_strtod false p
  | In_xml => pxml_um step at_once (fun _ => None) false T_METHOD_CALL
  end.
Definition py_sample (cfg : pconfig wld) (added : wld -> header) (g : pregistry (W:=wld)) (st : psrv) (s : sock) (w : wld) : pconn (W:=wld) * served :=
  py_serve msg_of ex_own utc_host cfg py_ums (writers no_double) no_reason by_bytes added g PyNone st s w.
Definition add_body : bytes := call_body "add" [VInt 2; VInt 3].
Definition p1 : request :=
  mkReq (str "/RPC2") true [accept; (str "Content-Type", str "application/x-frpc"); (str "Content-Length", dec (zlen add_body))] add_body.
Definition p2 : request :=
  mkReq (str "/RPC2") true [accept; (str "Connection", str "close"); (str "Content-Type", str "application/x-frpc"); (str "Content-Length", dec (zlen add_body))] add_body.
Definition add_answer : bytes := fst (bin_run (mkVer 2 1) [PMethodResponse; PInt 5]).
Definition add_log : wld := [("pre"%string, [PyInt 2; PyInt 3]); ("add"%string, [PyInt 2; PyInt 3]); ("post"%string, [PyInt 5])].
Definition add_field (w : wld) : header := [(str "X-Calls", dec (zlen w))].

Lemma add_decodes : py_decodes (py_ums In_binary) add_body (mkVer 2 1) (str "add") [PyInt 2; PyInt 3].
Proof.
  destruct (C87_binary_calls utc_host false true (mkVer 2 1) (str "add") [VInt 2; VInt 3]) as (body & l & S & D & R).
  - split; cbn; lia.
  - unfold S_Wire.name_ok. cbn. lia.
  - repeat constructor; cbn; unfold in_s64; lia.
  - repeat constructor.
  - repeat constructor.
  - assert (HB : body = add_body) by (unfold sent in S; vm_compute in S; vm_compute; congruence). subst body.
    inversion R as [|? ? ? ? R1 R2]; subst. inversion R2 as [|? ? ? ? R3 R4]; subst. inversion R4; subst. inversion R1; subst. inversion R3; subst. exact D.
Qed.
Lemma add_answers : forall q w, q = p1 \/ q = p2 -> py_answers ex_own utc_host py_ten py_ums (writers no_double) ex_reg PyNone w q (w ++ add_log) Out_binary add_answer.
Proof.
  intros q w H. apply (py_answered ex_own utc_host py_ten py_ums (writers no_double) ex_reg PyNone w q (w ++ add_log) Out_binary add_answer
    In_binary (mkVer 2 1) (str "add") (ustr "add") [PyInt 2; PyInt 3] (PyInt 5) [PMethodResponse; PInt 5]).
  - exists (str "application/x-frpc"). split; [destruct H as [-> | ->]; eapply first_in; vm_compute; reflexivity|].
    exists [], (str "application/x-frpc"), (tl types). repeat split; [|constructor|discriminate]. exists [], []. reflexivity.
  - change Out_binary with (if pf_binary py_ten then Out_binary else Out_xml). apply type_binary with (a := str "application/x-frpc").
    + destruct H as [-> | ->]; eapply first_in; vm_compute; reflexivity.
    + exists [], []. reflexivity.
  - destruct H as [-> | ->]; exact add_decodes.
  - cbn. lia.
  - exact (proj1 C84_example).
  - assert (KN : forall m : pmethod (W:=wld), known ex_reg (str "add") m -> m_names m = None) by (intros m K; unfold known in K; vm_compute in K; inversion K; reflexivity).
    apply handled_runs with (w1 := w ++ [("pre"%string, [PyInt 2; PyInt 3])]) (w2 := w ++ [("pre"%string, [PyInt 2; PyInt 3]); ("add"%string, [PyInt 2; PyInt 3])]) (x := Returned (PyInt 5)).
    + apply pre_passes with (f := ex_pre) (names := None) (v := PyNone); [reflexivity|intros m K; symmetry; exact (KN m K)|reflexivity|reflexivity].
    + eapply ran_plain; [reflexivity|reflexivity|]. unfold ex_add. rewrite <- app_assoc. reflexivity.
    + apply post_passes with (f := ex_post) (r := Some (PyInt 5)) (p := None) (e := None); [reflexivity|constructor; discriminate| |constructor].
      unfold ex_post. rewrite <- app_assoc. reflexivity.
  - apply message_value; [discriminate|]. constructor. unfold in_s64. lia.
  - apply bin_written. vm_compute. reflexivity.
Qed.
Definition after_blank (q : request) : bytes := (crlf ++ [x0a]) ++ request_head q ++ add_body.
Lemma add_text : forall q, q = p1 \/ q = p2 -> py_request_text q (after_blank q).
Proof.
  intros q H. exists [crlf; [x0a]], (request_head q ++ add_body). split; [constructor; [left; reflexivity|]; constructor; [right; reflexivity|constructor]|]. split; [|reflexivity].
  exists add_body. split; [|reflexivity]. destruct H as [-> | ->];
    (eapply framed_length; [eapply first_in; vm_compute; reflexivity|]; replace (zlen _) with 13 by (vm_compute; reflexivity);
     apply (S_Http.dec_more [x31] 1 x33 3); [apply (S_Http.dec_one x31 1)|..]; first [reflexivity|lia]).
Qed.
Lemma add_well_formed : forall q, q = p1 \/ q = p2 -> well_formed q.
Proof.
  intros q H. destruct (echo_well_formed q1 (or_introl eq_refl)) as (HW & _). split; [destruct H as [-> | ->]; exact HW|]. split; [|destruct H as [-> | ->]; vm_compute; reflexivity].
  destruct H as [-> | ->]; repeat (constructor; [apply field_okb_ok; vm_compute; reflexivity|]); constructor.
Qed.
Example C87_sample : let outs := [(true, Out_binary, add_field add_log, add_answer); (true, Out_binary, add_field (add_log ++ add_log), add_answer)] in
  py_connection ex_own utc_host py_ten py_ums (writers no_double) add_field ex_reg PyNone 0 [] [p1; p2; p1] (add_log ++ add_log) outs true /\
  Forall well_formed [p1; p2; p1] /\ Forall py_sendable outs /\ Forall2 py_request_text [p1; p2; p1] (map after_blank [p1; p2; p1]) /\ writes_well by_bytes.
Proof.
  cbv zeta. split; [|split; [|split; [|split]]].
  - eapply py_connection_more with (w' := add_log) (added := add_field); [constructor; reflexivity|apply (add_answers p1 []); auto| |].
    + split; [reflexivity|]. split; [apply choose_close_spec; vm_compute; reflexivity|reflexivity].
    + eapply py_connection_last with (w' := add_log ++ add_log) (added := add_field); [constructor; reflexivity|apply (add_answers p2 add_log); auto|].
      intros (_ & HK & _). cbn in HK. apply (HK (str "close")); [eapply first_in; vm_compute; reflexivity|reflexivity].
  - constructor; [apply add_well_formed; auto|]. constructor; [apply add_well_formed; auto|]. constructor; [apply add_well_formed; auto|constructor].
  - assert (S : forall w, add_field w = [(str "X-Calls", str "3")] \/ add_field w = [(str "X-Calls", str "6")] -> py_sendable (true, Out_binary, add_field w, add_answer)).
    { intros w E. split; [discriminate|]. split; [vm_compute; reflexivity|]. destruct E as [-> | ->]; (split; [constructor; [apply field_okb_ok; vm_compute; reflexivity|constructor]|repeat (constructor; [apply none_in; vm_compute; reflexivity|]); constructor]). }
    constructor; [apply S; left; vm_compute; reflexivity|]. constructor; [apply S; right; vm_compute; reflexivity|constructor].
  - cbn [map]. constructor; [apply add_text; auto|]. constructor; [apply add_text; auto|]. constructor; [apply add_text; auto|constructor].
  - exact by_bytes_well.
Qed.
Example C87_run : let '(c, x) := py_sample py_ten add_field ex_reg psrv_init (mkSock (after_blank p1 ++ after_blank p2 ++ str "GET /") [7; 1; 30] TimedOut) [] in
  x = Sv_none /\ pc_world c = add_log ++ add_log /\ pending (pc_sock c) = str "GET /" /\ ps_own (pc_srv c) = [].
Proof. vm_compute. auto. Qed.

(** *** What does not hold *)
(** A form calls the method its path says when it reaches the C++ server (C60, C43); the Python server calls RPC2 for every path. *)
Definition form_request (path body : bytes) : bytes :=
  str "POST " ++ path ++ str " HTTP/1.1" ++ crlf ++ flat_map field_text [(str "Content-Type", str "application/x-www-form-urlencoded"); (str "Content-Length", dec (blen body))] ++ crlf ++ body.
Definition form_reg : pregistry (W:=wld) :=
  with_method (str "RPC2") (mkMethod (Plain (fun w l => (w ++ [("RPC2"%string, l)], Returned PyNone))) (PyTuple []) (PyStr []) None)
  (with_method (str "add") (mkMethod (Plain ex_add) (PyTuple []) (PyStr []) None) (new_pregistry None None true)).
Theorem C87_form_path_refuted : exists text,
  (let '(c, x) := serve msg_of ten (formats None (bin_um None T_METHOD_CALL) (url_um no_strtod false None)) (writers no_double) no_reason by_bytes (fun _ => [])
     (with_methods [(str "add", mkEntry (User (fun w ps => (w + 1, Ok (VInt 1)))) (str "i") (str ""))]) srv_init (mkSock text [] Closed) 0 in c_world c = 1) /\
  (let '(c, x) := py_sample py_ten (fun _ => []) form_reg psrv_init (mkSock text [] Closed) [] in map fst (pc_world c) = ["RPC2"%string]).
Proof. exists (form_request (str "/add") (str "a=true")). split; vm_compute; reflexivity. Qed.
(** A client that closes the connection it was told it may keep: the C++ server returns, the Python server raises. *)
Theorem C87_keep_alive_refuted : exists text,
  snd (sample_serve srv_init (mkSock text [] Closed) 0) = Ok tt /\ snd (py_sample py_ten (fun _ => []) ex_reg psrv_init (mkSock text [] Closed) []) = Sv_protocol 2.
Proof. exists (request_head p1 ++ add_body). split; vm_compute; reflexivity. Qed.
(** Header fields added for a call that ends in an HTTP error are sent to the next client. *)
Definition secret_reg : pregistry (W:=wld) :=
  with_method (str "add") (mkMethod (Plain ex_add) (PyTuple []) (PyStr []) None)
  (with_method (str "login") (mkMethod (Plain (fun w l => (w ++ [("login"%string, l)], Returned PyOther))) (PyTuple []) (PyStr []) None) (new_pregistry None None true)).
Definition cookie (w : wld) : header := match w with [(s, _)] => if String.eqb s "login" then [(str "Set-Cookie", str "session=1")] else [] | _ => [] end.
Theorem C87_fields_refuted : exists text1 text2,
  let '(c1, x1) := py_sample py_ten cookie secret_reg psrv_init (mkSock text1 [] Closed) [] in
  let '(c2, x2) := py_sample py_ten cookie secret_reg (pc_srv c1) (mkSock text2 [] Closed) (pc_world c1) in
  x1 = Sv_none /\ ~ occurs (str "Set-Cookie") (pc_wire c1) /\ cookie (pc_world c2) = [] /\ occurs (str "Set-Cookie: session=1") (pc_wire c2).
Proof.
  exists (binary_request [] (call_body "login" [])), (binary_request [accept] add_body).
  set (r1 := py_sample py_ten cookie secret_reg psrv_init _ _). vm_compute in r1. subst r1. cbv iota zeta.
  set (r2 := py_sample py_ten cookie secret_reg _ _ _). vm_compute in r2. subst r2. cbv iota zeta. cbn [pc_wire pc_world].
  split; [reflexivity|]. split; [intro X; apply contains_spec in X; vm_compute in X; discriminate|]. split; [vm_compute; reflexivity|]. apply contains_spec. vm_compute. reflexivity.
Qed.
Print Assumptions C87_form_path_refuted.
Print Assumptions C87_keep_alive_refuted.
Print Assumptions C87_fields_refuted.

(** ** C88 *)
(** *** What does not hold *)
(** A string that is not UTF-8: with a postprocessor it is called with a null argument ... *)
Theorem C88_postprocessor_refuted : exists text, snd (py_sample py_ten (fun _ => []) ex_reg psrv_init (mkSock text [] Closed) []) = Sv_undef.
Proof. exists (binary_request [] (call_body "add" [VString [xff]])). vm_compute. reflexivity. Qed.
(** ... without one the method runs without its parameters. *)
Theorem C88_arguments_refuted : exists text, pc_world (fst (py_sample py_ten (fun _ => []) form_reg psrv_init (mkSock text [] Closed) [])) = [("add"%string, [])].
Proof. exists (binary_request [] (call_body "add" [VInt 1; VString [xff]])). vm_compute. reflexivity. Qed.
(** An XML request of a version that is not known terminates the process ... *)
Theorem C88_version_refuted : exists text, snd (py_sample py_ten (fun _ => []) form_reg psrv_init (mkSock text [] Closed) []) = Sv_abort.
Proof. exists (text_xml (str "<!--protocolVersion=""9.0""--><methodCall><methodName>add</methodName><int>1</int></methodCall>")). vm_compute. reflexivity. Qed.
(** ... one without the name of a method dereferences a null pointer. *)
Theorem C88_no_name_refuted : exists text, snd (py_sample py_ten (fun _ => []) form_reg psrv_init (mkSock text [] Closed) []) = Sv_undef.
Proof. exists (text_xml (str "<methodCall><int>1</int></methodCall>")). vm_compute. reflexivity. Qed.
(** The smallest integer as a result. *)
Theorem C88_smallest_integer_refuted : exists text, snd (py_sample py_ten (fun _ => [])
  (with_method (str "least") (mkMethod (Plain (fun w l => (w, Returned (PyInt (- 2 ^ 63))))) (PyTuple []) (PyStr []) None) (new_pregistry None None true)) psrv_init (mkSock text [] Closed) []) = Sv_undef.
Proof. exists (binary_request [] (call_body "least" [])). vm_compute. reflexivity. Qed.
(** A fault raised by [preRead] is lost: null is returned without an exception. *)
Theorem C88_pre_read_refuted : exists f : wld -> wld * called, (exists w, snd (f w) = Threw (mkThrown true (PyFault (PyInt 1) (PyStr (ustr "no"))) None)) /\
  snd (py_sample (mkPConf wld true true 10 (Some f) None) (fun _ => []) ex_reg psrv_init (mkSock [] [] Closed) []) = Sv_raise PE_System.
Proof. exists (fun w => (w, Threw (mkThrown true (PyFault (PyInt 1) (PyStr (ustr "no"))) None))). split; [exists []; reflexivity|vm_compute; reflexivity]. Qed.
(** A result with a member whose name is empty: the exception of the library that says so leaves the extension module. *)
Theorem C88_member_name_refuted : exists text, snd (py_sample py_ten (fun _ => [])
  (with_method (str "user") (mkMethod (Plain (fun w l => (w, Returned (PyDict [(PyStr [], PyInt 1)])))) (PyTuple []) (PyStr []) None) (new_pregistry None None true)) psrv_init (mkSock text [] Closed) []) = Sv_abort.
Proof. exists (binary_request [accept] (call_body "user" [])). vm_compute. reflexivity. Qed.
Print Assumptions C88_postprocessor_refuted.
Print Assumptions C88_arguments_refuted.
Print Assumptions C88_version_refuted.
Print Assumptions C88_no_name_refuted.
Print Assumptions C88_smallest_integer_refuted.
Print Assumptions C88_pre_read_refuted.
Print Assumptions C88_member_name_refuted.
