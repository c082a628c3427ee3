(** Properties of serving connections: C43 (calls read by the server), C52, C60, C61. *)
From Coq Require Import Lia.
From Verif Require Import Base Value Text M_Marshal M_BinUnmarshal M_TreeBuilder M_Base64 M_Json M_Xml M_Url M_Http M_HttpIO M_HttpWriter M_Registry M_Server M_XmlUm
  S_Value S_Http S_Events S_Wire S_Registry S_Server S_Xml S_XmlUm L_Base L_Http L_Text L_Dup L_HttpIO L_Registry L_Call L_Server L_Server2 L_Server3 L_Server4 L_Server5 L_XmlSafe L_XmlParser S_Url L_UrlSafe L_ServerUrl P_Registry.

(** ** C52, C61 *)
(** A connection carrying any number of well-formed requests, cut into any pieces: every request is answered, in order,
    by one response in the format it asked for, until the first one after which the connection may not stay open; what
    follows that one is left unread, and without one the server waits for the end of the connection. *)
Theorem C52_connection : forall W message cfg ums mars reason cut (added : W -> header) g w qs w' outs left,
  connection message cfg ums mars added g 0 w qs w' outs left ->
  writes_well cut -> f_max cfg < 2 ^ 32 -> Forall well_formed qs -> Forall sendable outs ->
  forall texts st sees ending, Forall2 request_text qs texts -> ending = Closed \/ ending = TimedOut ->
  exists c replies before after,
    serve message cfg ums mars reason cut added g st (mkSock (concat texts) sees ending) w = (c, Ok tt) /\
    c_world c = w' /\ c_wire c = concat replies /\
    Forall2 (fun a t => let '(v, o, extra, body) := a in response_text (f_binary cfg) v o (f_keep cfg) extra body t) outs replies /\
    texts = before ++ after /\ List.length before = List.length outs /\ pending (c_sock c) = concat after.
Proof.
  intros W message cfg ums mars reason cut added g w qs w' outs left HC HW HM HQ HS texts st sees ending HT HE. unfold serve. cbn [pending].
  exact (serve_loop_connection message cfg ums mars reason cut added g HW 0 w qs w' outs left HC HM (or_introl eq_refl) HQ HS texts HT _ _ sees ending [] [] (le_n _) HE).
Qed.
Print Assumptions C52_connection.

(** ** C43 *)
(** A request cut off by the end of the connection, after any number of complete ones: nothing is executed for it and
    nothing answered. *)
Theorem C43_cut_partial : forall W message cfg ums mars reason cut (added : W -> header) g w qs w' outs left q k ver name params got,
  connection message cfg ums mars added g 0 w qs w' outs left ->
  writes_well cut -> f_max cfg < 2 ^ 32 -> Forall well_formed qs -> Forall sendable outs ->
  well_formed q -> cut_request q got -> request_type q k -> decodes (ums k) (q_body q) ver name params ->
  forall texts st sees ending, Forall2 request_text qs texts ->
  exists c x replies,
    serve message cfg ums mars reason cut added g st (mkSock (concat texts ++ got) sees ending) w = (c, x) /\ x <> UB /\
    c_world c = w' /\ c_wire c = concat replies /\
    Forall2 (fun a t => let '(v, o, extra, body) := a in response_text (f_binary cfg) v o (f_keep cfg) extra body t) outs replies.
Proof.
  intros W message cfg ums mars reason cut added g w qs w' outs left q k ver name params got HC HW HM HQ HS HQ0 HCUT HK HD texts st sees ending HT. unfold serve. cbn [pending].
  exact (serve_loop_cut message cfg ums mars reason cut added g HW 0 w qs w' outs left HC HM (or_introl eq_refl) HQ HS texts q k ver name params got HT HQ0 HCUT HK HD
           _ _ sees ending [] [] (le_n _)).
Qed.
Print Assumptions C43_cut_partial.

(** ** C56 *)
(** The XML unmarshaller with its tree builder, reading requests cut into any pieces, does nothing undefined. *)
Theorem C56_requests_partial : forall P strtod erange val, orderly P -> um_safe (xml_um P strtod erange val T_METHOD_CALL).
Proof. exact xml_um_safe. Qed.
Print Assumptions C56_requests_partial.
(** Also for a call that begins inside other containers: those are suspended, the array of the parameters is the value. *)
Example C56_requests_sample : orderly at_once /\
  let u := xml_um at_once (fun _ => None) false None T_METHOD_CALL in
  let '(s, f) := um_all u (um_init u) [str "<array><struct><methodName>a"; str "dd</methodName><int>1</int></struct><int>2</int></array>"] in
  f = None /\ snd (um_finish u s) = Ok tt /\ tb_data (um_builder u (fst (um_finish u s))) = Ok (VArray [VInt 1]) /\
  tb_method (um_builder u (fst (um_finish u s))) = str "add".
Proof. split; [apply at_once_orderly|]. vm_compute. auto. Qed.

(** ** C60 *)
(** Whatever arrives on the connection, [serve] returns or throws a C++ exception; nothing undefined happens, given
    methods whose results the marshallers can write, an XML parser whose callbacks nest and whose errors have known numbers,
    an unmarshaller for URL-encoded requests that does nothing undefined, and a server object that no earlier connection left
    in the middle of a request. *)
Theorem C60_any_input_partial : forall W message cfg val fin P strtod erange url reason cut (added : W -> header) g,
  orderly P -> (forall p, um_safe (url p)) -> methods_safe g ->
  forall st s w, s_extra st = No_header ->
  snd (serve message cfg (formats val (xml_um P strtod erange val T_METHOD_CALL) url) (writers fin) reason cut added g st s w) <> UB.
Proof.
  intros W message cfg val fin P strtod erange url reason cut added g HX HU HG st s w HS. unfold serve. rewrite HS.
  apply (serve_loop_any message cfg (formats val (xml_um P strtod erange val T_METHOD_CALL) url) (writers fin) reason cut added g) with (k2 := S (List.length (pending s))); auto.
  - intros []; [apply bin_um_safe|apply xml_um_safe; exact HX|apply HU|apply b64_um_safe].
  - apply writers_safe.
  - discriminate.
Qed.
Print Assumptions C60_any_input_partial.
(** With the decoder of forms the library uses: something undefined happens only when the bytes that arrived contain, in their
    order, those of a form with a value ending in the middle of an escape. *)
Theorem C60_forms_partial : forall W message cfg val fin P xstrtod strtod xerange erange reason cut (added : W -> header) g,
  orderly P -> methods_safe g ->
  forall st s w, s_extra st = No_header ->
  snd (serve message cfg (formats val (xml_um P xstrtod xerange val T_METHOD_CALL) (url_um strtod erange val)) (writers fin) reason cut added g st s w) = UB ->
  exists body, part_of body (pending s) /\ bad_form body.
Proof.
  intros W message cfg val fin P xstrtod strtod xerange erange reason cut added g HX HG st s w HS H. unfold serve in H. rewrite HS in H.
  refine (loop_url message cfg strtod erange val (formats val (xml_um P xstrtod xerange val T_METHOD_CALL) (url_um strtod erange val)) _ (writers fin) reason cut added g _ _ HG
    (S (List.length (pending s))) 0 _ _ _ H).
  - reflexivity.
  - intros []; [apply bin_um_safe|apply xml_um_safe; exact HX|apply guarded_safe|apply b64_um_safe].
  - apply writers_safe.
  - discriminate.
  - apply le_n.
Qed.
Print Assumptions C60_forms_partial.

(** ** Samples *)
Definition by_bytes (b : bytes) : list bytes := map (fun c => [c]) b.
Lemma by_bytes_well : writes_well by_bytes.
Proof.
  intro b. split; [induction b as [|c b IH]; [reflexivity|cbn; f_equal; exact IH]|]. intro H. destruct b as [|c b]; [congruence|].
  exists O, [c], (by_bytes b). split; [reflexivity|]. split; [discriminate|]. cbn. lia.
Qed.
Definition ten : config := mkConf true true 10.
Definition no_reason (code : Z) : bytes := str "Error".
Definition no_double (z : Z) : bytes := str "0".
Definition no_strtod (s : bytes) : option Z * bool := (None, false).
(** The server with its formats; XML requests do not occur below. *)
Definition sample_ums : in_type -> unmarshaller :=
  formats None (bin_um None T_METHOD_CALL) (url_um no_strtod false None).
Definition sample_serve (st : srv) (s : sock) (w : Z) : conn (W:=Z) * res unit :=
  serve msg_of ten sample_ums (writers no_double) no_reason by_bytes (fun _ => []) app st s w.
Definition head (version : bytes) (fields : list (bytes * bytes)) : bytes :=
  str "POST /RPC2 " ++ version ++ crlf ++ flat_map field_text fields ++ crlf.
Definition call_body (name : string) (params : list value) : bytes := fst (bin_run (mkVer 2 1) (call_calls (str name) params)).
Definition binary_request (more : list (bytes * bytes)) (body : bytes) : bytes :=
  head (str "HTTP/1.1") (more ++ [(str "Content-Type", str "application/x-frpc"); (str "Content-Length", dec (blen body))]) ++ body.

(** A sample satisfying the hypotheses of C52 and C43: two calls, the second of which asks for closing. *)
Definition echo_body : bytes := call_body "echo" [VString (str "hello")].
Definition accept : bytes * bytes := (str "Accept", str "application/x-frpc").
Definition q1 : request :=
  mkReq (str "/RPC2") true [accept; (str "Content-Type", str "application/x-frpc"); (str "Content-Length", dec (zlen echo_body))] echo_body.
Definition q2 : request :=
  mkReq (str "/RPC2") true [accept; (str "Connection", str "close"); (str "Content-Type", str "application/x-frpc"); (str "Content-Length", dec (zlen echo_body))] echo_body.
Definition echo_answer : bytes := fst (bin_run (mkVer 2 1) (response_calls (VString (str "hello")))).

Lemma first_in : forall name fs n v, find (fun f => bytes_eqb (map ascii_lower (fst f)) (map ascii_lower name)) fs = Some (n, v) -> first_value name fs v.
Proof.
  intros name fs n v. induction fs as [|f fs IH]; intro H; [discriminate|]. cbn [find] in H.
  destruct (bytes_eqb (map ascii_lower (fst f)) (map ascii_lower name)) eqn:E.
  - inversion H; subst. apply bytes_eqb_spec in E. exists [], n, fs. repeat split; [exact E|constructor].
  - destruct (IH H) as (a & n' & b & -> & H1 & H2). exists (f :: a), n', b. repeat split; [exact H1|]. constructor; [|exact H2].
    intro X. apply bytes_eqb_spec in X. exact (eq_true_false_abs _ X E).
Qed.
Lemma none_in : forall name fs, find (fun f => bytes_eqb (map ascii_lower (fst f)) (map ascii_lower name)) fs = None -> no_value name fs.
Proof.
  intros name fs. induction fs as [|f fs IH]; intro H; [constructor|]. cbn [find] in H. destruct (bytes_eqb _ _) eqn:E; [discriminate|].
  constructor; [|apply IH; exact H]. intro X. apply bytes_eqb_spec in X. exact (eq_true_false_abs _ X E).
Qed.

Lemma echo_decodes : decodes (bin_um None T_METHOD_CALL) echo_body (mkVer 2 1) (str "echo") [VString (str "hello")].
Proof.
  intros pieces [HP _]. destruct (bin_um_call None (mkVer 2 1) (str "echo") [VString (str "hello")]) as (wire & HS & HR).
  - split; cbn; lia.
  - cbn. lia.
  - repeat constructor. cbn. unfold small. cbn. lia.
  - assert (HB : wire = echo_body) by (unfold sent in HS; vm_compute in HS; vm_compute; congruence). subst wire.
    destruct (HR pieces HP) as (s & H1 & H2 & H3 & H4 & H5 & H6). exists s, s. split; [exact H1|]. split; [|auto].
    destruct (um_finish (bin_um None T_METHOD_CALL) s) as [s' x] eqn:E. cbn [fst snd] in *. congruence.
Qed.
Lemma echo_type : forall q, q = q1 \/ q = q2 -> request_type q In_binary.
Proof.
  intros q H. exists (str "application/x-frpc"). split; [destruct H as [-> | ->]; eapply first_in; vm_compute; reflexivity|].
  exists [], (str "application/x-frpc"), (tl types). repeat split; [|constructor|discriminate]. exists [], []. reflexivity.
Qed.
Lemma echo_answers : forall q w, q = q1 \/ q = q2 ->
  answers msg_of ten sample_ums (writers no_double) app w q (w + 1) Out_binary echo_answer.
Proof.
  intros q w H. apply answers_value with (k := In_binary) (ver := mkVer 2 1) (name := str "echo") (params := [VString (str "hello")]) (v := VString (str "hello")).
  - apply echo_type. exact H.
  - change Out_binary with (if f_binary ten then Out_binary else Out_xml). apply type_binary with (a := str "application/x-frpc").
    + destruct H as [-> | ->]; eapply first_in; vm_compute; reflexivity.
    + exists [], []. reflexivity.
  - destruct H as [-> | ->]; exact echo_decodes.
  - cbn. lia.
  - constructor. econstructor 1; [vm_compute; reflexivity|]. reflexivity.
  - apply bin_written. vm_compute. reflexivity.
Qed.
Lemma echo_well_formed : forall q, q = q1 \/ q = q2 -> well_formed q.
Proof.
  intros q H. assert (HW : word (str "/RPC2")).
  { split; [discriminate|]. intros c HI HS. cbn in HI. unfold ascii_space in HS. repeat (destruct HI as [<-|HI]; [destruct HS as [X|X]; [discriminate X|cbn in X; lia]|]). exact HI. }
  split; [destruct H as [-> | ->]; exact HW|]. split; [|destruct H as [-> | ->]; vm_compute; reflexivity].
  destruct H as [-> | ->]; repeat (constructor; [apply field_okb_ok; vm_compute; reflexivity|]); constructor.
Qed.
Lemma echo_text : forall q, q = q1 \/ q = q2 -> request_text q (request_head q ++ echo_body).
Proof.
  intros q H. exists echo_body. split; [|reflexivity]. destruct H as [-> | ->];
    (eapply framed_length; [eapply first_in; vm_compute; reflexivity|]; replace (zlen _) with 17 by (vm_compute; reflexivity);
     apply (dec_more [x31] 1 x37 7); [apply (dec_one x31 1)|..]; first [reflexivity|lia]).
Qed.
Example C52_sample : connection msg_of ten sample_ums (writers no_double) (fun _ => []) app 0 0 [q1; q2; q1] 2
    [(true, Out_binary, [], echo_answer); (true, Out_binary, [], echo_answer)] [q1] /\
  Forall well_formed [q1; q2; q1] /\ Forall sendable [(true, Out_binary, [], echo_answer); (true, Out_binary, [], echo_answer)] /\
  Forall2 request_text [q1; q2; q1] (map (fun q => request_head q ++ echo_body) [q1; q2; q1]).
Proof.
  split; [|split; [|split]].
  - eapply connection_more with (w' := 1) (added := fun _ : Z => []); [apply echo_answers; auto| |].
    + split; [reflexivity|]. split; [apply choose_close_spec; vm_compute; reflexivity|reflexivity].
    + eapply connection_last with (w' := 2) (added := fun _ : Z => []); [apply (echo_answers q2 1); auto|].
      intros (_ & HK & _). cbn in HK. apply (HK (str "close")); [eapply first_in; vm_compute; reflexivity|reflexivity].
  - constructor; [apply echo_well_formed; auto|]. constructor; [apply echo_well_formed; auto|]. constructor; [apply echo_well_formed; auto|constructor].
  - assert (sendable (true, Out_binary, [], echo_answer)).
    { split; [discriminate|]. split; [vm_compute; reflexivity|]. split; constructor. }
    constructor; [assumption|]. constructor; [assumption|constructor].
  - cbn [map]. constructor; [apply echo_text; auto|]. constructor; [apply echo_text; auto|]. constructor; [apply echo_text; auto|constructor].
Qed.
Example C52_run : let '(c, x) := sample_serve srv_init (mkSock (request_head q1 ++ echo_body ++ request_head q2 ++ echo_body ++ str "GET /") [7; 1; 30] TimedOut) 0 in
  x = Ok tt /\ c_world c = 2 /\ pending (c_sock c) = str "GET /".
Proof. vm_compute. auto. Qed.
Example C43_sample : cut_request q1 (request_head q1 ++ ztake 16 echo_body) /\ cut_request q1 (str "POST /RPC2 HTTP/1.1") /\
  let '(c, x) := sample_serve srv_init (mkSock (request_head q1 ++ ztake 16 echo_body) [] Closed) 0 in c_world c = 0 /\ x = Err (ProtocolError HTTP_CLOSED).
Proof.
  split; [|split].
  - apply cut_length with (v := dec (zlen echo_body)) (lost := zdrop 16 echo_body).
    + eapply first_in; vm_compute; reflexivity.
    + replace (zlen _) with 17 by (vm_compute; reflexivity). apply (dec_more [x31] 1 x37 7); [apply (dec_one x31 1)|..]; first [reflexivity|lia].
    + vm_compute. reflexivity.
    + vm_compute. discriminate.
  - eapply cut_head; [vm_compute; reflexivity|discriminate].
  - vm_compute. auto.
Qed.

(** ** What does not hold *)
(** C52: a request of an unknown type is answered by a fault, and the connection stays open although it asks for closing:
    the call after it is executed. *)
Definition qx (more : list (bytes * bytes)) (body : bytes) : request :=
  mkReq (str "/RPC2") true (more ++ [(str "Content-Type", str "text/plain"); (str "Content-Length", dec (zlen body))]) body.
Theorem C52_unknown_type_refuted : exists q, well_formed q /\ ~ goes_on ten 1 q /\ request_text q (request_head q ++ q_body q) /\
  let '(c, x) := sample_serve srv_init (mkSock (request_head q ++ q_body q ++ request_head q1 ++ echo_body) [] Closed) 0 in x = Ok tt /\ c_world c = 1.
Proof.
  exists (qx [(str "Connection", str "close")] []). split; [|split; [|split]].
  - split; [apply (echo_well_formed q1); auto|]. split; [|vm_compute; reflexivity].
    repeat (constructor; [apply field_okb_ok; vm_compute; reflexivity|]); constructor.
  - intros (_ & HK & _). cbn in HK. apply (HK (str "close")); [eapply first_in; vm_compute; reflexivity|reflexivity].
  - exists []. split; [|reflexivity]. eapply framed_length; [eapply first_in; vm_compute; reflexivity|]. apply (dec_one x30 0); [reflexivity|lia].
  - vm_compute. auto.
Qed.
(** C61: the body of such a request is not read, and taken for the next request: the call in it is executed. *)
Theorem C61_body_executed_refuted : exists q, well_formed q /\ request_text q (request_head q ++ q_body q) /\
  let '(c, x) := sample_serve srv_init (mkSock (request_head q ++ q_body q) [] Closed) 0 in x = Ok tt /\ c_world c = 1.
Proof.
  exists (qx [] (request_head q1 ++ echo_body)). split; [|split].
  - split; [apply (echo_well_formed q1); auto|]. split; [|vm_compute; reflexivity].
    repeat (constructor; [apply field_okb_ok; vm_compute; reflexivity|]); constructor.
  - exists (request_head q1 ++ echo_body). split; [|reflexivity]. eapply framed_length; [eapply first_in; vm_compute; reflexivity|].
    replace (zlen _) with 122 by (vm_compute; reflexivity).
    apply (dec_more [x31; x32] 12 x32 2); [apply (dec_more [x31] 1 x32 2); [apply (dec_one x31 1)|..]|..]; first [reflexivity|lia].
  - vm_compute. auto.
Qed.
(** C60: a URL-encoded request ending in a percent sign reads past the end of its text ... *)
Theorem C60_url_refuted : exists text, snd (sample_serve srv_init (mkSock text [] Closed) 0) = UB.
Proof.
  exists (head (str "HTTP/1.1") [(str "Content-Type", str "application/x-www-form-urlencoded"); (str "Content-Length", str "3")] ++ str "a=%").
  vm_compute. reflexivity.
Qed.
(** ... the answer of a method returning its parameter may negate the smallest integer ... *)
Theorem C60_smallest_integer_refuted : exists text, snd (sample_serve srv_init (mkSock text [] Closed) 0) = UB.
Proof. exists (binary_request [] (call_body "echo" [VInt (- 2 ^ 63)])). vm_compute. reflexivity. Qed.
(** ... and a connection ended by an HTTP error leaves the server object with a pointer to the header of that connection,
    used when the next connection begins with a request that cannot be read. *)
Theorem C60_next_connection_refuted : exists text1 text2,
  let '(c, x) := sample_serve srv_init (mkSock text1 [] Closed) 0 in
  x = Ok tt /\ snd (sample_serve (c_srv c) (mkSock text2 [] Closed) (c_world c)) = UB /\
  snd (sample_serve srv_init (mkSock text2 [] Closed) (c_world c)) = Ok tt.
Proof.
  exists (str "HEAD / HTTP/1.1" ++ crlf ++ crlf), (head (str "HTTP/1.1") [(str "Content-Type", str "text/plain")]). vm_compute. auto.
Qed.
(** ... and the texts of XML parser errors are looked up beyond their table: the bound is its size in bytes.  The parser here
    finds in a document that claims another version of XML what libxml2 finds, error 108 (XML_ERR_UNKNOWN_VERSION). *)
Definition picky : parser :=
  mkParser unit tt (fun s d => (s, [], if is_prefix (str "<?xml version=""2.0""") d then 108 else 0)).
Definition text_xml (body : bytes) : bytes :=
  head (str "HTTP/1.1") [(str "Content-Type", str "text/xml"); (str "Content-Length", dec (blen body))] ++ body.
Theorem C60_error_number_refuted : exists text,
  (forall pieces batches s, reports picky (ps_init picky) pieces batches s -> concat batches = []) /\
  snd (serve msg_of ten (formats None (xml_um picky (fun _ => None) false None T_METHOD_CALL) (url_um no_strtod false None)) (writers no_double) no_reason
         by_bytes (fun _ => []) app srv_init (mkSock text [] Closed) 0) = UB.
Proof.
  exists (text_xml (str "<?xml version=""2.0""?>")). split; [|vm_compute; reflexivity].
  intros pieces batches s H. induction H as [|s d s1 batch pieces batches s2 HT HR IH]; [reflexivity|]. cbn [concat]. rewrite IH, app_nil_r.
  cbn [picky ps_take] in HT. inversion HT. reflexivity.
Qed.
Print Assumptions C60_error_number_refuted.
(** C43: a body that ends between two parameters of the call is taken for a complete call. *)
Theorem C43_between_parameters_refuted : exists n body, body = call_body "echo" [VInt 1; VInt 2] /\ n < blen body /\
  let '(c, x) := sample_serve srv_init (mkSock (binary_request [] (ztake n body)) [] Closed) 0 in c_world c = 1.
Proof. exists 12. eexists. split; [reflexivity|]. split; vm_compute; reflexivity. Qed.

(** A registry and unmarshallers as C60 asks for. *)
Definition app_one : registry (W:=Z) := with_methods [(str "one", mkEntry (User (fun w ps => (w + 1, Ok (VInt 1)))) (str "i") (str ""))].
Example C60_sample : methods_safe app_one /\ um_safe (bin_um None T_METHOD_CALL) /\ orderly at_once /\
  let '(c, x) := serve msg_of ten (formats None (xml_um at_once (fun _ => None) false None T_METHOD_CALL) (fun _ => bin_um None T_METHOD_CALL)) (writers no_double) no_reason by_bytes (fun _ => []) app_one
                   srv_init (mkSock (binary_request [] (call_body "one" []) ++ text_xml (str "<methodCall><methodName>one</methodName></methodCall>") ++ str "GET / HTTP/1.1" ++ crlf) [] Broken) 0 in
  x = Err (ProtocolError HTTP_SYSCALL) /\ c_world c = 2.
Proof.
  split; [|split; [apply bin_um_safe|split; [apply at_once_orderly|vm_compute; auto]]].
  intros w name params w' x [f sig help HR HF|d HR HD HF]; [|discriminate HD].
  unfold registered in HR. set (m := g_methods app_one) in HR. vm_compute in m. subst m. cbn [map_get] in HR.
  repeat (match type of HR with context [bytes_cmp ?a ?b] => destruct (bytes_cmp a b) end; try discriminate HR).
  inversion HR; subst. inversion HF; subst. cbn. discriminate.
Qed.

(** A form in the middle of other requests, with '%' only in complete escapes: no undefined behaviour, by C60_forms_partial no
    matter what arrives without a dangling '%'. *)
Example C60_forms_sample :
  let text := binary_request [] (call_body "one" []) ++
    head (str "HTTP/1.1") [(str "Content-Type", str "application/x-www-form-urlencoded"); (str "Content-Length", str "7")] ++ str "a=%22%2" in
  let '(c, x) := serve msg_of ten (formats None (xml_um at_once (fun _ => None) false None T_METHOD_CALL) (url_um no_strtod false None)) (writers no_double) no_reason by_bytes (fun _ => []) app_one
                   srv_init (mkSock text [] Closed) 0 in x <> UB /\ c_world c = 1.
Proof. vm_compute. split; [discriminate|reflexivity]. Qed.
