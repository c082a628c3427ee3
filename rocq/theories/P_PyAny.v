(** The Python server and any input (C88). *)
From Coq Require Import Lia.
From Verif Require Import Base Value Text Unicode M_Marshal M_BinUnmarshal M_TreeBuilder M_Base64 M_Json M_Xml M_Url M_Http M_HttpIO M_HttpWriter M_Registry M_Server M_XmlUm M_Python M_PyRegistry M_PyServer
  S_Value S_Url S_Http S_Wire S_Registry S_Server S_Xml S_XmlUm S_Python S_PyRegistry S_PyServer L_Base L_Server L_Server5 L_PyRegistry L_XmlParser L_PyStrs L_PyServer3 L_PyXml P_Server P_Registry P_Python P_PyRegistry P_PyServer.

(** Whatever bytes arrive, in whatever pieces, and whatever happens to the connection: with a registry whose functions and hooks
    do not crash themselves, [serve] terminates or crashes the interpreter only because of an XML request that declares a version that is not known
    ([C88_version_refuted]) or at the wrong place ([C88_declaration_refuted]) or that has no method name ([C88_no_name_refuted]), because of a form with a
    '%' at the end of a value ([C88_form_refuted]), or because the result of a call that was received cannot be written, or because of a postProcess and a call that was
    received with a name that is not UTF-8 or with parameters that could not be decoded ([C88_postprocessor_refuted]). *)
Theorem C88_any_input_partial : forall W message own host pass native strtod erange P xstrtod xerange (cfg : pconfig W) ums fin reason cut added g client st s w c x,
  ums In_binary = pbin_um (pb_step host pass native) T_METHOD_CALL ->
  ums In_base64 = pb64_um (pb_step host pass native) T_METHOD_CALL ->
  (forall p, ums (In_url p) = purl_um (pb_step host pass native) strtod erange p) ->
  ums In_xml = pxml_um (pb_step host pass native) P xstrtod xerange T_METHOD_CALL -> orderly P ->
  well_behaved g ->
  (forall f w, pf_read cfg = Some f -> snd (f w) <> Crashed) ->
  (forall f w, pf_head cfg = Some f -> snd (f w) <> Crashed) ->
  v_major (ps_ver st) <= 3 ->
  py_serve message own host cfg ums (writers fin) reason cut added g client st s w = (c, x) ->
  x = Sv_abort \/ x = Sv_undef ->
  (exists pieces, part_of (concat pieces) (pending s) /\ (bad_declaration (first_text pieces) \/ nameless P pieces)) \/
  (exists body, part_of body (pending s) /\ bad_form body) \/
  (exists name params, received_call own ums (pending s) name params /\ exists w0 w1 v, dispatch_call own g client w0 name params = (w1, D_value v) /\ ~ writable host v) \/
  (r_post g <> None /\ exists name params, received_call own ums (pending s) name params /\ (~ is_text name \/ exists t, params = No_params t)).
Proof.
  intros W message own host pass native strtod erange P xstrtod xerange cfg ums fin reason cut added g client st s w c x BIN B64 URL XML ORD WELL READ HEAD HV H HC. unfold py_serve in H.
  assert (KEEPS : forall whole b, built_from ums whole b -> pb_ok b).
  { intros whole b (k & ps & k1 & k2 & _ & HO & HF & ->).
    assert (K : keeps (ums k)) by (destruct k; [rewrite BIN; apply bin_keeps|rewrite XML; apply xml_keeps|rewrite URL; apply url_keeps|rewrite B64; apply b64_keeps]).
    exact (K ps k1 k2 HO HF). }
  assert (L : (List.length (pending s) < S (List.length (pending s)))%nat) by lia.
  destruct (loop_any message own host cfg ums fin reason cut added g client WELL KEEPS READ HEAD (S (List.length (pending s))) _ (mkPConn (mkPSrv (ps_out st) (ps_chunks st) (ps_ver st) false false (ps_own st)) s w []) _ _ L HV H HC) as [(k & ps & PP & T)|[B|B]]; [|auto|auto].
  cbn [pc_sock] in PP. destruct k as [| |p|].
  - destruct (binary_fine host pass native ums BIN _ T).
  - left. exists ps. split; [exact PP|]. rewrite XML in T. exact (xml_fine host pass native P xstrtod xerange ORD ps T).
  - right. left. exists (concat ps). split; [exact PP|]. exact (form_fine _ _ _ _ _ ums URL p ps T).
  - destruct (base64_fine _ _ _ _ _ ums B64 URL _ T).
Qed.
Print Assumptions C88_any_input_partial.

(** A server with the method "add" whose sum is cut to 32 bits. *)
Definition add32 (w : wld) (l : list py) : wld * called :=
  (w ++ [("add"%string, l)], match l with [PyInt a; PyInt b] => Returned (PyInt (s32 (a + b))) | _ => Threw (mkThrown false PyOther (Some (ustr "TypeError: add"))) end).
Definition add_reg : pregistry (W:=wld) := mkPReg None None [(str "add", mkMethod (Plain add32) (PyTuple []) (PyStr []) None)] None None None None true.
Lemma add_well : well_behaved add_reg.
Proof.
  constructor; intros; try (match goal with H : _ add_reg = Some _ |- _ => inversion H end).
  - unfold add_reg in H. cbn [r_methods map_get] in H. destruct (bytes_cmp name (str "add")); try discriminate. injection H as <-. injection H0 as <-.
    unfold add32. cbn [snd]. destruct l as [|[] [|[] [|]]]; cbn; auto; right; discriminate.
  - unfold add_reg in H. cbn [r_methods map_get] in H. destruct (bytes_cmp name (str "add")); try discriminate. injection H as <-. discriminate H0.
Qed.
(** It satisfies the hypotheses; a call, a request cut short and bytes that are no request. *)
Example C88_any_hypotheses : (py_ums In_binary = pbin_um (pb_step utc_host false true) T_METHOD_CALL) /\ (py_ums In_base64 = pb64_um (pb_step utc_host false true) T_METHOD_CALL) /\
  (forall p, py_ums (In_url p) = purl_um (pb_step utc_host false true) no_strtod false p) /\ (py_ums In_xml = pxml_um (pb_step utc_host false true) at_once (fun _ => None) false T_METHOD_CALL) /\ orderly at_once /\ well_behaved add_reg /\ v_major (ps_ver psrv_init) <= 3.
Proof. repeat (split; [reflexivity|]). split; [exact at_once_orderly|]. split; [exact add_well|]. cbn. lia. Qed.
Example C88_any_runs :
  snd (py_sample py_ten (fun _ => []) add_reg psrv_init (mkSock (after_blank p1 ++ after_blank p2) [5] Closed) []) = Sv_none /\
  snd (py_sample py_ten (fun _ => []) add_reg psrv_init (mkSock (ztake 100 (after_blank p1)) [3] Closed) []) = Sv_protocol 2 /\
  snd (py_sample py_ten (fun _ => []) add_reg psrv_init (mkSock (str "@" ++ crlf ++ crlf) [] Closed) []) = Sv_none.
Proof. split; [vm_compute; reflexivity|]. split; vm_compute; reflexivity. Qed.
(** The causes there are: a form ... *)
Theorem C88_form_refuted : exists text, snd (py_sample py_ten (fun _ => []) add_reg psrv_init (mkSock text [] Closed) []) = Sv_undef.
Proof. exists (form_request (str "/add") (str "a=1%")). vm_compute. reflexivity. Qed.
(** ... a version whose number is behind the first 80 bytes ... *)
Theorem C88_declaration_refuted : exists text, snd (py_sample py_ten (fun _ => []) add_reg psrv_init (mkSock text [] Closed) []) = Sv_abort.
Proof.
  exists (text_xml (str "<?xml version=""1.0"" encoding=""UTF-8""?>" ++ repeat x20 20 ++ str "<!--protocolVersion=""2.1""--><methodCall><methodName>add</methodName></methodCall>")). vm_compute. reflexivity.
Qed.
(** ... and a result: 2^63 is no integer that can be sent, and the code that should refuse it takes it for -2^63. *)
Theorem C88_large_integer_refuted : exists text, snd (py_sample py_ten (fun _ => [])
  (mkPReg None None [(str "large", mkMethod (Plain (fun w l => (w, Returned (PyInt (2 ^ 63))))) (PyTuple []) (PyStr []) None)] None None None None true) psrv_init (mkSock text [] Closed) []) = Sv_undef.
Proof. exists (binary_request [] (call_body "large" [])). vm_compute. reflexivity. Qed.
Print Assumptions C88_form_refuted.
Print Assumptions C88_declaration_refuted.
Print Assumptions C88_large_integer_refuted.
