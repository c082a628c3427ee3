(** The client of the Python binding: any response ends in a result or an exception (C96). *)
From Coq Require Import Lia.
From Verif Require Import Base Value Text Unicode M_Marshal M_BinUnmarshal M_TreeBuilder M_Base64 M_Iso M_Json M_Url M_Http M_HttpIO M_HttpWriter M_Registry M_Server M_Xml M_XmlUm M_Client
  M_Python M_PyRegistry M_PyServer M_PyClient
  S_Value S_Events S_Http S_Wire S_Registry S_Server S_Client S_Xml S_XmlUm S_Python S_PyRegistry S_PyServer S_PyClient L_Base L_Bits L_Text L_Http L_Dup L_BinUnmarshal L_Call L_HttpIO L_HttpIO2 L_HttpIO3 L_HttpIO5 L_HttpWriter L_Registry
  L_Server L_Server2 L_Server4 L_Client L_Client2 L_Client3 L_Python L_PyText L_PyBuild L_PyRead L_PyLoad L_Wire L_Message L_RoundTrip L_PyCall L_PyRegistry L_PyServer L_PyServer2 L_PyServer3 L_XmlParser L_PyClient L_PyClient2 L_PyClient3 L_PyXml L_PyXml2 L_PyClient4
  P_Registry P_Server P_Client P_Python P_Xml P_XmlClient P_PyServer P_PyClient P_PyHooks.

Lemma of_exn_lives : forall e t, ~ kills (Exn e) -> exists x, of_exn e t = Out_error x.
Proof. intros [] t K; cbn in *; try (exfalso; exact (K I)); eexists; reflexivity. Qed.
Lemma data_lives : forall b, out_of_data (pb_data b) <> Out_abort /\ out_of_data (pb_data b) <> Out_undef.
Proof.
  intro b. unfold pb_data. destruct (pb_object b) as [v|]; [|split; discriminate]. destruct (pb_method b); [destruct (py_tuple v); split; discriminate|].
  destruct v; split; discriminate.
Qed.
Lemma ret_lives : forall W (post : option (W -> bytes -> list py -> py -> option pyerr -> W * called)) out, out <> Out_abort -> out <> Out_undef -> ret_of post out <> Ret_abort /\ ret_of post out <> Ret_undef.
Proof. intros W post [v|[c m|k [t|]|[t|]|[t|]|[t|]]| | |] A B; cbn; split; congruence. Qed.

Section Any.
  Variable message : exn -> bytes.
  Variable host : datetime -> datetime.
  Variable ums : bool -> pyum.
  Variable mars : bool -> version -> marshaller.
  Variable cut : bytes -> list bytes.
  Variable callback : list (bytes * bytes).
  Lemma exchange_any : forall y n name args body y' es out, writable host mars y name args body ->
    py_exchange message host ums mars cut callback y n name args = (y', es, out) -> v_major (a_version (x_conf (y_proxy y))) <= 3 ->
    out <> Out_abort /\ out <> Out_undef /\ v_major (a_version (x_conf (y_proxy y'))) <= 3 \/
    exists l, (l = [] \/ x_fd (y_proxy y) = Some l) /\ py_in_part ums (l ++ M_HttpIO.pending (n_arrives n)).
  Proof.
    intros y n name args body y' es out HW H HV. apply exchange_cases in H as (wire & HC & _).
    destruct HC as [n1 out wire HU HL HS|es c wire HS|rest es bs lost c wire HS HE|rest es bs lost wire HS HE|must rest es0 bs lost wire y' es out HS HE HM HP].
    - exfalso. exact (writable_not _ _ _ _ _ _ _ _ HW HU).
    - left. split; [discriminate|]. split; [discriminate|exact HV].
    - left. split; [discriminate|]. split; [discriminate|exact HV].
    - left. split; [discriminate|]. split; [discriminate|exact HV].
    - apply py_answer_spec in HP as (c & fd2 & x & st & HR & _ & _ & _ & _ & _ & HX). cbv zeta in HR. apply py_response_any in HR as [HR|HR].
      + left. destruct x as [b|e|].
        * destruct HX as (-> & -> & _). destruct (data_lives b) as [A B]. auto.
        * destruct HX as (-> & -> & _). destruct (of_exn_lives e (if st then status_error (S (List.length (rest ++ M_HttpIO.pending (n_arrives n)))) (mkSock (rest ++ M_HttpIO.pending (n_arrives n)) (M_HttpIO.sees (n_arrives n)) (fin (n_arrives n))) else message e) HR) as (x & X).
          cbn [M_HttpIO.pending] in *. rewrite X. split; [discriminate|]. split; [discriminate|exact HV].
        * contradiction.
      + right. exists rest. split; [|exact HR]. apply connect_spec in HS as (_ & _ & _ & [(_ & r & E1 & [(E2 & _)|E2])|(c0 & X & _)]); [right; cbn [x_fd y_proxy] in E2|left|discriminate X]; injection E1 as <-; first [exact E2|reflexivity].
  Qed.
End Any.

(** Whatever arrives, a call with arguments that can be written ends in an object or an exception (or waits), and the proxy stays usable.  Otherwise part of what was left
    on the connection or arrives is a binary fault whose message is not UTF-8, or an XML document in which something comes after a fault, or with a text that is not
    UTF-8 (which no parser should report), or that declares a version it must not.  What is missing: arguments that cannot be written. *)
Theorem C96_any_response_partial : forall W message host pass native P strtod erange ums mars cut callback (pre : option (W -> _)) post y w n name args headers hs cs body y' w' es r,
  let p := y_proxy y in let step := pb_step host pass native in
  ums true = pbin_um step T_METHOD_RESPONSE -> ums false = pxml_um step P strtod erange T_METHOD_RESPONSE -> orderly P ->
  hooks_return pre post -> v_major (a_version (x_conf p)) <= 3 -> given_fields headers hs -> no_nul name ->
  describes_all host args cs -> written (mars (use_binary p) (a_version (x_conf p))) (PMethodCall name :: cs) body ->
  py_call message host ums mars cut callback pre post y w n name args headers = (y', w', es, r) ->
  r <> Ret_abort /\ r <> Ret_undef /\ v_major (a_version (x_conf (y_proxy y'))) <= 3 \/
  exists l pieces, (l = [] \/ x_fd p = Some l) /\ part_of (concat pieces) (l ++ M_HttpIO.pending (n_arrives n)) /\
    ((exists u b n msg, ~ is_text msg /\ unmarshall_all _ (traced step) T_METHOD_RESPONSE unm_init (pb_init, []) pieces = (u, (b, [EFault n msg]), Some Undef)) \/
     ((forall l, told_of P pieces l -> fault_last l /\ utf8_texts l) -> bad_declaration (first_text pieces))).
Proof.
  intros W message host pass native P strtod erange ums mars cut callback pre post y w n name args headers hs cs body y' w' es r p step BIN XML ORD HH HV HG HN HD HB H.
  apply (L_PyClient3.call_cases _ _ _ _ _ _ _ _ _ _ _ _ _ _ _ _ _ _ _ HG) in H.
  set (y1 := with_proxy (add_header_once hs (y_proxy y)) y) in *.
  apply operator_returns in H as (out & HE & ->); [|exact HH|exact HV].
  apply (exchange_any message host ums mars cut callback _ _ _ _ body) in HE; [|exists cs; split|exact HV].
  - destruct HE as [(A & B & C)|(l & HL & b & ps & PP & T)].
    + left. destruct (ret_lives _ post out A B). auto.
    + right. exists l, ps. split; [exact HL|]. split; [exact PP|]. destruct b.
      * left. rewrite BIN in T. exact (binary_troubles host pass native ps T).
      * right. intro F. rewrite XML in T. exact (xml_response_fine host pass native P strtod erange ORD ps F T).
  - apply describes_feed. exact HD.
  - rewrite (c_str_same _ HN). exact HB.
Qed.
Print Assumptions C96_any_response_partial.

(** The hypotheses can be met, and a response of nonsense raises an exception. *)
Definition xml_net (body : bytes) : net := good_net (xml_reply body).
Definition bin_reply_net (body : bytes) : net :=
  good_net (wire_of (mkResp true (str "OK") (known ++ [(str "Content-Type", str "application/x-frpc"); (str "Content-Length", dec (zlen body))]) body)).
Definition ret_of_call (n : net) : pyret := snd (py_calls false (py_proxy false) [] n (str "one") [] None).
Example C96_sample : py_cums true = pbin_um (pb_step utc_host false true) T_METHOD_RESPONSE /\ py_cums false = pxml_um (pb_step utc_host false true) at_once (fun _ => None) false T_METHOD_RESPONSE /\
  orderly at_once /\ hooks_return (W := list noted) None None /\ describes_all utc_host [] [] /\
  (exists body, written (client_writers no_double (use_binary (y_proxy (py_proxy false))) (a_version (x_conf (y_proxy (py_proxy false))))) [PMethodCall (str "one")] body) /\
  (exists t, ret_of_call (bin_reply_net (str "nonsense")) = Ret_response t) /\ (exists k t, ret_of_call (good_net (str "nonsense")) = Ret_protocol k t) /\
  ret_of_call (xml_net plain_fault) = Ret_fault (PyInt 4) (PyStr (ustr "no")).
Proof.
  split; [reflexivity|]. split; [reflexivity|]. split; [apply at_once_orderly|]. split; [split; intros; discriminate|]. split; [constructor|].
  split; [eexists; do 2 eexists; split; [reflexivity|reflexivity]|]. split; [eexists; vm_compute; reflexivity|]. split; [do 2 eexists; vm_compute; reflexivity|vm_compute; reflexivity].
Qed.
(** A binary fault whose message is not UTF-8: a call with null arguments. *)
Theorem C96_fault_refuted : exists msg, ret_of_call (py_net [PFault 3 msg]) = Ret_undef.
Proof. exists [xff]. vm_compute. reflexivity. Qed.
Print Assumptions C96_fault_refuted.
(** An XML response in which a fault contains a response: the end of a container that was not begun. *)
Theorem C96_after_fault_refuted : exists body, ret_of_call (xml_net body) = Ret_undef.
Proof. exists bad_fault. vm_compute. reflexivity. Qed.
Print Assumptions C96_after_fault_refuted.
(** An XML response that declares version 9: the call returns, the next one terminates the interpreter. *)
Theorem C96_version_refuted : exists body n2, let '(y, w, outs) := py_after (py_calls false) (py_proxy false) [] [Py_call (xml_net body) (str "one") [] None; Py_call n2 (str "two") [] None] in
  map snd outs = [Ret (PyInt 5); Ret_abort].
Proof.
  exists (str "<?xml version=""1.0""?><!--protocolVersion=""9.0""--><methodResponse><params><param><value><i4>5</i4></value></param></params></methodResponse>"), (py_net [PMethodResponse; PInt 6]).
  vm_compute. reflexivity.
Qed.
Print Assumptions C96_version_refuted.
(** ... and one that declares it across byte 80 does so at once. *)
Theorem C96_declaration_refuted : exists body, ret_of_call (xml_net body) = Ret_abort.
Proof.
  exists (str "<?xml version=""1.0"" encoding=""UTF-8""?>" ++ repeat x20 20 ++ str "<!--protocolVersion=""2.1""--><methodResponse><params><param><value><i4>5</i4></value></param></params></methodResponse>").
  vm_compute. reflexivity.
Qed.
Print Assumptions C96_declaration_refuted.
