(** Properties of XML messages: C31, C55, C56. *)
From Coq Require Import Lia.
From Verif Require Import Base Value Text M_Marshal M_BinUnmarshal M_TreeBuilder M_Base64 M_Dump M_Json M_Iso M_Url M_Xml
  S_Value S_Events S_Base64 S_Iso S_Xml S_Wire L_Base L_Text L_RoundTrip L_TreeBuilder L_Base64 L_Iso L_Json
  L_Xml L_Xml2 L_Xml3 L_Xml4 L_Xml5 L_Xml6 L_Xml7.
Ltac Zify.zify_post_hook ::= Z.div_mod_to_equations.

(** ** C31 *)
Theorem C31_quoted_text : forall s, xml_escaped (xquote s) s.
Proof. exact xquote_escaped. Qed.
Print Assumptions C31_quoted_text.

(** Escaped text denotes one string only, so different strings are written differently. *)
Theorem C31_unambiguous : forall t s1 s2, xml_escaped t s1 -> xml_escaped t s2 -> s1 = s2.
Proof. exact escaped_fun. Qed.
Print Assumptions C31_unambiguous.

Theorem C31_no_markup : forall s c, In c (xquote s) -> c <> x3c /\ c <> x3e /\ c <> x22.
Proof. intros s c I. exact (escaped_no_markup _ _ (xquote_escaped s) c I). Qed.
Print Assumptions C31_no_markup.

(** Inside an element the text is read back as the characters of the string. *)
Theorem C31_in_document : forall name s rest stk,
  xtok (name :: stk) true LText (xquote s ++ rest) = option_map (app (map (fun c => SChars [c]) s)) (xtok (name :: stk) true LText rest).
Proof. intros. exact (tok_quoted s name stk true rest). Qed.
Print Assumptions C31_in_document.

Example C31_sample : xquote (str "</string>&amp;""") = str "&lt;/string&gt;&amp;amp;&quot;".
Proof. reflexivity. Qed.

(** ** C55 *)
Theorem C55_response_partial : forall fin strtod val want ver v,
  2 <= v_major ver <= 3 -> xml_wf (double_exact fin strtod) v -> ordered v ->
  want = TYPE_ANY \/ want = T_METHOD_RESPONSE ->
  exists text doc, xml_output fin ver (response_calls v) = Ok text /\ xml_doc text = Some doc /\
  forall pieces last, delivery text pieces last ->
    bind (xml_received val strtod false want pieces last) tb_data = Ok (plain (fun d => make_datetime val (iso_fields d)) v).
Proof. exact xml_response. Qed.
Print Assumptions C55_response_partial.

(** With date-time validation (the default) nothing is lost compared to the binary format. *)
Theorem C55_like_binary_partial : forall fin strtod mk want ver v wire pieces,
  modern ver -> wf ver v -> xml_wf (double_exact fin strtod) v -> ordered v ->
  want = TYPE_ANY \/ want = T_METHOD_RESPONSE ->
  sent ver (response_calls v) = Ok wire -> concat pieces = wire ->
  exists text doc, xml_output fin ver (response_calls v) = Ok text /\ xml_doc text = Some doc /\
  forall xpieces last, delivery text xpieces last ->
    bind (xml_received (Some mk) strtod false want xpieces last) tb_data = received_value (Some mk) want pieces.
Proof. exact xml_like_binary. Qed.
Print Assumptions C55_like_binary_partial.

Theorem C55_call_partial : forall fin strtod val want ver name params,
  2 <= v_major ver <= 3 -> name_ok name -> xml_text name ->
  Forall (fun v => xml_wf (double_exact fin strtod) v /\ ordered v) params ->
  want = TYPE_ANY \/ want = T_METHOD_CALL ->
  exists text doc, xml_output fin ver (call_calls name params) = Ok text /\ xml_doc text = Some doc /\
  forall pieces last, delivery text pieces last ->
    bind (xml_received val strtod false want pieces last) (fun t => bind (tb_data t) (fun v => Ok (tb_method t, v)))
    = Ok (name, VArray (map (plain (fun d => make_datetime val (iso_fields d))) params)).
Proof. exact xml_call_ok. Qed.
Print Assumptions C55_call_partial.

Theorem C55_fault_partial : forall fin strtod val want ver code msg,
  2 <= v_major ver <= 3 -> in_s32 code -> xml_text msg -> msg <> [] ->
  want = TYPE_ANY \/ want = T_METHOD_RESPONSE ->
  exists text doc, xml_output fin ver [PFault code msg] = Ok text /\ xml_doc text = Some doc /\
  forall pieces last, delivery text pieces last ->
    bind (xml_received val strtod false want pieces last) tb_data = Err (FaultExn code msg).
Proof. exact xml_fault_ok. Qed.
Print Assumptions C55_fault_partial.

(** The calls any builder receives. *)
Theorem C55_calls_partial : forall fin strtod want ver v,
  2 <= v_major ver <= 3 -> xml_wf (double_exact fin strtod) v -> want = TYPE_ANY \/ want = T_METHOD_RESPONSE ->
  exists text doc, xml_output fin ver (response_calls v) = Ok text /\ xml_doc text = Some doc /\
  forall pieces last, delivery text pieces last ->
    exists u, x_receive record_step strtod false want [] pieces last = (u, EMethodResponse :: map xml_event (events v), None).
Proof. exact xml_trace. Qed.
Print Assumptions C55_calls_partial.

(** The version the receiver reports: the one the sender stated, if the first piece reaches that far, else 2.1. *)
Theorem C55_version_partial : forall fin strtod want ver v chunk batch pieces last text,
  2 <= v_major ver <= 3 -> xml_wf (double_exact fin strtod) v -> want = TYPE_ANY \/ want = T_METHOD_RESPONSE ->
  xml_output fin ver (response_calls v) = Ok text -> delivery text ((chunk, batch) :: pieces) last ->
  exists u b, x_receive record_step strtod false want [] ((chunk, batch) :: pieces) last = (u, b, None) /\
    x_ver u = (if 46 <=? blen chunk then (if (v_major ver =? 2) && (v_minor ver =? 0) then mkVer 2 0 else mkVer 2 1) else mkVer 2 1).
Proof. exact xml_version. Qed.
Print Assumptions C55_version_partial.

(** *** Cases outside *)
Definition no_doubles (_ : Z) : bytes := str "0".
Definition no_strtod (_ : bytes) : option Z := None.
Definition xml_text_of (v : value) : bytes :=
  match xml_output no_doubles (mkVer 2 1) (response_calls v) with Ok t => t | _ => [] end.
Definition doc_of (text : bytes) : list sax := match xml_doc text with Some d => d | None => [] end.

Lemma whole_delivery : forall text doc, text <> [] -> xml_doc text = Some doc -> delivery text [(text, doc)] [].
Proof.
  intros text doc NE E. unfold delivery. cbn [map concat fst snd]. rewrite !app_nil_r.
  split; [reflexivity|]. split; [|split; [exists doc; split; [exact E|reflexivity]|cbn; tauto]].
  intros p [<-|[]]. exact NE.
Qed.

(** A carriage return arrives as a line feed. *)
Theorem C55_carriage_return_refuted : exists text pieces last,
  xml_output no_doubles (mkVer 2 1) (response_calls (VString [x41; x0d; x42])) = Ok text /\ delivery text pieces last /\
  bind (xml_received None no_strtod false TYPE_ANY pieces last) tb_data = Ok (VString [x41; x0a; x42]).
Proof.
  set (t := xml_text_of (VString [x41; x0d; x42])). exists t, [(t, doc_of t)], [].
  split; [vm_compute; reflexivity|]. split; [apply whole_delivery; [vm_compute; discriminate|vm_compute; reflexivity]|].
  vm_compute. reflexivity.
Qed.
(** A string with a control character or one that is not UTF-8 makes the document ill-formed: the marshaller does not check. *)
Theorem C55_ill_formed_refuted : exists s text,
  xml_output no_doubles (mkVer 2 1) (response_calls (VString s)) = Ok text /\ xml_doc text = None.
Proof. exists [x01], (xml_text_of (VString [x01])). split; vm_compute; reflexivity. Qed.
(** The smallest integer is undefined behaviour in the marshaller. *)
Theorem C55_smallest_integer_refuted : xml_output no_doubles (mkVer 2 1) (response_calls (VInt (- 2 ^ 63))) = UB.
Proof. vm_compute. reflexivity. Qed.
(** With a stale [errno] the largest integer is refused, although the document is the same. *)
Theorem C55_stale_errno_refuted : exists text pieces last,
  xml_output no_doubles (mkVer 2 1) (response_calls (VInt (2 ^ 63 - 1))) = Ok text /\ delivery text pieces last /\
  bind (xml_received None no_strtod false TYPE_ANY pieces last) tb_data = Ok (VInt (2 ^ 63 - 1)) /\
  bind (xml_received None no_strtod true TYPE_ANY pieces last) tb_data = Err (StreamError "Unsupported size of int (too big) !!!").
Proof.
  set (t := xml_text_of (VInt (2 ^ 63 - 1))). exists t, [(t, doc_of t)], [].
  split; [vm_compute; reflexivity|]. split; [apply whole_delivery; [vm_compute; discriminate|vm_compute; reflexivity]|].
  split; vm_compute; reflexivity.
Qed.

Definition xml_sample : value :=
  VStruct [ (str "a<b", VArray [VNull; VBool true; VInt (-5); VInt (2 ^ 40)]);
            (str "d", VDateTime (mkDT 2024 2 29 23 59 58 4 1709251198 (-3600)));
            (str "s", VString (str "x & ""y"" <z>")); (str "z", VSecret (VBinaryRef 4 [[x00; xff]; [x0d; x0a]])) ].
Example xml_sample_wf : xml_wf (double_exact no_doubles no_strtod) xml_sample /\ ordered xml_sample.
Proof.
  assert (T : forall s, forallb asc s = true -> xml_text s) by (intros s H; split; [apply asc_chars; exact H|apply asc_no_cr; exact H]).
  split.
  - unfold xml_sample. apply xml_wf_struct. split; [vm_compute; reflexivity|].
    constructor; [|constructor; [|constructor; [|constructor; [|constructor]]]]; cbn [fst snd];
      (split; [vm_compute; split; discriminate|]; split; [apply T; vm_compute; reflexivity|]).
    + apply xml_wf_array. split; [vm_compute; reflexivity|].
      constructor; [exact I|]. constructor; [exact I|]. constructor; [cbn [xml_wf]; lia|]. constructor; [cbn [xml_wf]; lia|constructor].
    + cbn [xml_wf]. unfold iso_range. cbn. repeat (split; try lia). exists (-60). lia.
    + apply T. vm_compute. reflexivity.
    + exact I.
  - cbn. repeat split; try exact I; intros k' x H; repeat (destruct H as [H|H]; [inversion H; subst; reflexivity|]); contradiction.
Qed.
Example C55_sample : let t := xml_text_of xml_sample in
  xml_doc t = Some (doc_of t) /\
  bind (xml_received None no_strtod false TYPE_ANY [(ztake 30 t, []); (zdrop 30 t, doc_of t)] []) tb_data
  = Ok (plain iso_fields xml_sample).
Proof. cbn zeta. split; vm_compute; reflexivity. Qed.

(** ** C56 *)
(** A server (wanting a call) sends its builder only balanced containers, whatever well nested document comes. *)
Theorem C56_server_partial : forall B (bstep : B -> event -> B * option fail) strtod erange b l,
  nested_sax [] l ->
  balanced [] (snd (snd (sax_steps (traced bstep) strtod erange T_METHOD_CALL xun_init (b, []) l))).
Proof. exact server_balanced. Qed.
Print Assumptions C56_server_partial.

(** So does every receiver as long as the document has no <fault>. *)
Theorem C56_no_fault_partial : forall B (bstep : B -> event -> B * option fail) strtod erange want b l,
  nested_sax [] l -> ~ In (SStart (str "fault")) l ->
  balanced [] (snd (snd (sax_steps (traced bstep) strtod erange want xun_init (b, []) l))).
Proof. exact no_fault_balanced. Qed.
Print Assumptions C56_no_fault_partial.

Example C56_sample : let l := doc_of (xml_text_of xml_sample) in nested_sax [] l /\ ~ In (SStart (str "fault")) l /\
  List.length (snd (snd (sax_steps (traced record_step) no_strtod false TYPE_ANY xun_init ([], []) l))) = 16%nat.
Proof.
  cbn zeta. split; [vm_compute; repeat split|]. split; [|vm_compute; reflexivity].
  vm_compute. intro H. repeat (destruct H as [H|H]; [discriminate|]). contradiction.
Qed.

(** A client can be driven into undefined behaviour: the tree builder is told to close a container it never opened. *)
Definition bad_fault : bytes :=
  str "<methodResponse><fault><struct><methodResponse></methodResponse></struct></fault></methodResponse>".
Theorem C56_client_refuted : exists pieces last, delivery bad_fault pieces last /\
  xml_received None no_strtod false T_METHOD_RESPONSE pieces last = UB.
Proof.
  exists [(bad_fault, doc_of bad_fault)], []. split; [apply whole_delivery; [vm_compute; discriminate|vm_compute; reflexivity]|].
  vm_compute. reflexivity.
Qed.

(** A version mark at the end of the first 80 bytes makes the unmarshaller throw [std::out_of_range], not one of its own
    exceptions. *)
Definition far_mark : bytes :=
  str "<?xml version=""1.0""?><!--                                    protocolVersion=""2.1""--><methodResponse></methodResponse>".
Theorem C56_out_of_range_refuted : exists pieces last, delivery far_mark pieces last /\
  xml_received None no_strtod false T_METHOD_RESPONSE pieces last = Err OutOfRange.
Proof.
  exists [(far_mark, doc_of far_mark)], []. split; [apply whole_delivery; [vm_compute; discriminate|vm_compute; reflexivity]|].
  vm_compute. reflexivity.
Qed.

(** The version the receiver reports depends on how the text was cut. *)
Theorem C56_version_refuted : exists text p1 p2, delivery text p1 [] /\ delivery text p2 [] /\
  x_ver (fst (fst (x_receive record_step no_strtod false TYPE_ANY [] p1 []))) = mkVer 2 0 /\
  x_ver (fst (fst (x_receive record_step no_strtod false TYPE_ANY [] p2 []))) = mkVer 2 1.
Proof.
  set (t := match xml_output no_doubles (mkVer 2 0) (response_calls VNull) with Ok t => t | _ => [] end).
  exists t, [(t, doc_of t)], [(ztake 45 t, []); (zdrop 45 t, doc_of t)].
  split; [apply whole_delivery; [vm_compute; discriminate|vm_compute; reflexivity]|].
  split; [|split; vm_compute; reflexivity].
  unfold delivery. split; [vm_compute; reflexivity|]. split.
  - intros p [<-|[<-|[]]]; vm_compute; discriminate.
  - split; [|cbn; tauto]. exists (doc_of t). split; vm_compute; reflexivity.
Qed.
