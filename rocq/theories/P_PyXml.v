(** Properties of XML messages and the Python binding (C87, C91, C97-C99). *)
From Coq Require Import Lia.
From Verif Require Import Base Value Text Unicode M_Marshal M_BinUnmarshal M_TreeBuilder M_Base64 M_Dump M_Json M_Iso M_Url M_Http M_HttpIO M_HttpWriter M_Registry M_Server M_Xml M_XmlUm M_Python M_PyRegistry M_PyServer M_PyDumps
  S_Value S_Events S_Iso S_Xml S_Wire S_Http S_Registry S_Server S_Client S_XmlUm S_Python S_PyServer S_PyClient S_PyXml
  L_Base L_Text L_RoundTrip L_TreeBuilder L_Json L_Xml L_Xml2 L_Xml3 L_Xml4 L_Xml5 L_Xml6 L_Xml7 L_XmlUm L_XmlParser L_PyText L_PyBuild L_PyRead L_Python L_PyLoad L_PyXmlMsg L_PyDumps L_ReadAny L_PyXml L_PyXml2.

(** ** C87, C91: XML requests and responses *)
(** The XML format: the body of a request that carries a call is read as that call by the Python server; a date-time without its week day and time, which
    the host computes. *)
Theorem C87_xml_calls_partial : forall host pass native P fin strtod name ps, faithful P -> name_ok name -> xml_text name ->
  Forall (fun v => xml_wf (double_exact fin strtod) v /\ ordered v) ps ->
  exists body l, xml_output fin (mkVer 2 1) (call_calls name ps) = Ok body /\
    py_decodes (pxml_um (pb_step host pass native) P strtod false T_METHOD_CALL) body (mkVer 2 1) name l /\ Forall2 (S_Python.reads host native) (map (plain iso_fields) ps) l.
Proof.
  intros host pass native P fin strtod name ps HF NK NT F. assert (M : 2 <= v_major (mkVer 2 1) <= 3) by (cbn; lia).
  assert (FW : Forall (xml_wf (double_exact fin strtod)) ps) by (eapply Forall_impl; [|exact F]; intros v [A _]; exact A).
  assert (FU : Forall uniq ps) by (eapply Forall_impl; [|exact F]; intros v [_ A]; exact (ordered_uniq v A)).
  destruct (xml_parameters host pass native fin strtod ps name FW FU) as (l & m & R & E).
  exists (x_magic (mkVer 2 1) ++ call_body fin name ps), l. split; [exact (call_output fin _ (mkVer 2 1) name ps M NK FW)|]. split; [|exact R].
  pose proof (call_doc_ok fin _ (exact_plain fin strtod) (mkVer 2 1) name ps NT FW) as DOC.
  intros pieces HA. destruct (pum_received host pass native P strtod T_METHOD_CALL _ _ HF DOC pieces HA) as (xp & last & s & EX & DL & HU).
  destruct (read_call (pb_step host pass native) strtod fin T_METHOD_CALL name ps pb_init _ _ FW (or_intror eq_refl) eq_refl E) as (u & S & D).
  destruct (delivery_steps _ (pb_step host pass native) strtod T_METHOD_CALL (mkVer 2 1) _ _ _ _ _ _ _ (proj1 M) DOC DL S D) as (vv & EE & EV).
  destruct (HU _ _ EE) as (U1 & p & U2). do 2 eexists. split; [exact U1|]. split; [exact U2|].
  cbn [pu_version pu_builder pxml_um fst snd set_vc x_ver]. rewrite EV, learned_21. split; [reflexivity|]. split; reflexivity.
Qed.
Print Assumptions C87_xml_calls_partial.
Example C87_xml_example : exists body l, xml_output (fun _ => str "0") (mkVer 2 1) (call_calls (str "f") [VArray [VInt (-7); VString (str "a<b")]; VStruct [(str "a", VNull); (str "b", VBool true)]]) = Ok body /\
  py_decodes (pxml_um (pb_step (fun d => d) false true) at_once (fun _ => None) false T_METHOD_CALL) body (mkVer 2 1) (str "f") l /\
  l = [PyList [PyInt (-7); PyStr [97; 60; 98]]; PyDict [(PyStr [97], PyNone); (PyStr [98], PyBool true)]].
Proof.
  destruct (C87_xml_calls_partial (fun d => d) false true at_once (fun _ => str "0") (fun _ => None) (str "f") [VArray [VInt (-7); VString (str "a<b")]; VStruct [(str "a", VNull); (str "b", VBool true)]] at_once_faithful) as (body & l & E & D & R).
  - split; vm_compute; discriminate.
  - split; [vm_compute; reflexivity|]. intros [H|[]]. discriminate.
  - constructor; [|constructor; [|constructor]]; (split; [|cbn; repeat split; auto; try (intros k' x [X|[]]; inversion X; reflexivity)]).
    + cbn [xml_wf]. split; [vm_compute; reflexivity|]. split; [lia|]. split; [|exact I]. split; [vm_compute; reflexivity|]. cbn. intuition discriminate.
    + cbn [xml_wf]. split; [vm_compute; reflexivity|]. repeat split; try (vm_compute; reflexivity); try (vm_compute; discriminate); intros [H|[]]; discriminate.
    + intros k' x [].
  - exists body, l. split; [exact E|]. split; [exact D|].
    specialize (D [body]). destruct D as (s & s' & A & B & C & N & V).
    { split; [cbn; apply app_nil_r|]. constructor; [|constructor]. intros ->. vm_compute in E. discriminate. }
    vm_compute in E. inversion E; subst body. vm_compute in A. inversion A; subst s. vm_compute in B. inversion B; subst s'. vm_compute in V. inversion V. reflexivity.
Qed.

(** What the Python client gets of the response that carries a value or a fault. *)
Theorem C91_xml_values_partial : forall host pass native P fin strtod v, faithful P -> xml_wf (double_exact fin strtod) v -> ordered v ->
  exists body p, xml_output fin (mkVer 2 1) (response_calls v) = Ok body /\ body <> [] /\
    py_replies (pxml_um (pb_step host pass native) P strtod false T_METHOD_RESPONSE) body (mkVer 2 1) (PyOk p) /\ S_Python.reads host native (plain iso_fields v) p.
Proof.
  intros host pass native P fin strtod v HF W O. assert (M : 2 <= v_major (mkVer 2 1) <= 3) by (cbn; lia).
  destruct (xml_object host pass native fin strtod v W (ordered_uniq v O)) as (p & m & R & E).
  exists (x_magic (mkVer 2 1) ++ response_body fin v), p. split; [exact (response_output fin _ (mkVer 2 1) v M W)|]. split; [discriminate|]. split; [|exact R].
  pose proof (response_doc_ok fin _ (exact_plain fin strtod) (mkVer 2 1) v W) as DOC.
  intros pieces HA. destruct (pum_received host pass native P strtod T_METHOD_RESPONSE _ _ HF DOC pieces HA) as (xp & last & s & EX & DL & HU).
  destruct (read_response (pb_step host pass native) strtod fin T_METHOD_RESPONSE v pb_init pb_init _ W (or_intror eq_refl) eq_refl E) as (u & S & D).
  destruct (delivery_steps _ (pb_step host pass native) strtod T_METHOD_RESPONSE (mkVer 2 1) _ _ _ _ _ _ _ (proj1 M) DOC DL S D) as (vv & EE & EV).
  destruct (HU _ _ EE) as (U1 & q & U2). do 2 eexists. split; [exact U1|]. split; [exact U2|].
  cbn [pu_version pu_builder pxml_um fst snd set_vc x_ver]. rewrite EV, learned_21. split; reflexivity.
Qed.
Print Assumptions C91_xml_values_partial.
Theorem C91_xml_faults_partial : forall host pass native P fin strtod code msg m, faithful P -> in_s32 code -> xml_text msg -> same_str msg m ->
  exists body, xml_output fin (mkVer 2 1) [PFault code msg] = Ok body /\ body <> [] /\
    py_replies (pxml_um (pb_step host pass native) P strtod false T_METHOD_RESPONSE) body (mkVer 2 1) (PyOk (PyFault (PyInt code) (PyStr m))).
Proof.
  intros host pass native P fin strtod code msg m HF HC MT SS. assert (M : 2 <= v_major (mkVer 2 1) <= 3) by (cbn; lia).
  assert (H : - 2 ^ 63 < code < 2 ^ 63) by (unfold in_s32 in HC; lia). pose proof (decode_same false msg m SS) as D0.
  exists (x_magic (mkVer 2 1) ++ fault_body fin code msg). split; [exact (fault_output fin (double_exact fin strtod) (exact_plain fin strtod) (mkVer 2 1) code msg M H)|]. split; [discriminate|].
  pose proof (fault_doc_ok fin _ (exact_plain fin strtod) (mkVer 2 1) code msg H MT) as DOC.
  intros pieces HA. destruct (pum_received host pass native P strtod T_METHOD_RESPONSE _ _ HF DOC pieces HA) as (xp & last & s & EX & DL & HU).
  assert (ST : pb_step host pass native pb_init (EFault code msg) = (mkPB [] (P_done (PyFault (PyInt code) (PyStr m))) true false [] None, None)) by (cbn [pb_step pb_init pb_error]; rewrite D0; reflexivity).
  destruct (read_fault (pb_step host pass native) strtod fin T_METHOD_RESPONSE code msg pb_init _ HC MT (or_intror eq_refl) ST) as (u & S & D).
  destruct (delivery_steps _ (pb_step host pass native) strtod T_METHOD_RESPONSE (mkVer 2 1) _ _ _ _ _ _ _ (proj1 M) DOC DL S D) as (vv & E & EV).
  destruct (HU _ _ E) as (U1 & p & U2). do 2 eexists. split; [exact U1|]. split; [exact U2|].
  cbn [pu_version pu_builder pxml_um fst snd set_vc x_ver]. rewrite EV, learned_21. split; reflexivity.
Qed.
Print Assumptions C91_xml_faults_partial.

(** ** C97: from Python to Python in XML *)
Theorem C97_calls_partial : forall host pass native P fin strtod ver name params l use,
  prompt P -> 2 <= v_major ver <= 3 -> 0 <= v_minor ver < 256 -> name_fits name -> xml_str name -> args_of params l ->
  Forall is_object l -> Forall (xml_has (double_exact fin strtod)) l -> use <> Some true ->
  exists text, dumps_any host fin 0 (v_major ver) (v_minor ver) (Some name) params = PyOk (PyStr text) /\
  loads_data host pass native P strtod false use (PyStr text) = PyOk (PyTuple (map (fun x => seen host native (undated x)) l), Some name).
Proof.
  intros host pass native P fin strtod [ma mi] name params l use HP M MI NF NX PA O H NU. cbn [v_major v_minor] in *.
  assert (FW : Forall (xml_wf (double_exact fin strtod)) (map (value_of host) l)) by (rewrite Forall_forall in *; intros v IV; apply in_map_iff in IV as (x & <- & IX); apply has_wf; auto).
  assert (FU : Forall uniq (map (value_of host) l)) by (rewrite Forall_forall in *; intros v IV; apply in_map_iff in IV as (x & <- & IX); eapply has_uniq; auto).
  set (s := flat_map utf8_char name). assert (NO : name_ok s) by (unfold name_ok; apply NF). assert (NT : xml_text s) by (apply str_text; exact NX).
  pose proof (call_doc_ok fin _ (exact_plain fin strtod) (mkVer ma mi) s _ NT FW) as DOC.
  destruct (text_back _ _ DOC) as (u & GD & EN). exists u. split.
  - unfold dumps_any, method_arg. rewrite (encode_xml name (proj1 NF)). fold s.
    replace (existsb (fun c => c =? 0) name) with false.
    2:{ symmetry. apply not_true_is_false. intros E. apply existsb_exists in E as (c & IC & E). apply Z.eqb_eq in E. subst c. exact (str_no_zero name NX IC). }
    replace ((ma <? 0) || (mi <? 0)) with false by lia. cbv zeta. replace (u8 ma) with ma by (unfold u8; symmetry; apply Z.mod_small; lia). replace (u8 mi) with mi by (unfold u8; symmetry; apply Z.mod_small; lia).
    cbn [v_major]. replace (3 <? ma) with false by lia. change (negb (0 =? 0)) with false.
    assert (WC := write_call host fin strtod (mkVer ma mi) M s l NO H).
    destruct PA as [-> | ->]; rewrite WC; cbn [then_data]; exact GD.
  - cbn [loads_data]. rewrite EN.
    destruct (xml_parameters host pass native fin strtod (map (value_of host) l) s FW FU) as (ps & m & R & E).
    destruct (read_call (pb_step host pass native) strtod fin TYPE_ANY s (map (value_of host) l) pb_init _ _ FW (or_introl eq_refl) eq_refl E) as (v & S & D).
    rewrite (whole_text host pass native P strtod HP use (mkVer ma mi) _ _ _ _ NU (proj1 M) DOC S D).
    replace ps with (map (fun x => seen host native (undated x)) l).
    2:{ clear - R O H. revert ps R. induction l as [|x l IH]; intros ps R; inversion R; subst; [reflexivity|]. inversion O; inversion H; subst. cbn [map]. f_equal; [|apply IH; auto].
        symmetry. eapply xml_back; eauto. }
    cbn. unfold s. rewrite (decode_same false (flat_map utf8_char name) name); [reflexivity|]. split; [apply NF|reflexivity].
Qed.
Print Assumptions C97_calls_partial.
Theorem C97_responses_partial : forall host pass native P fin strtod ver params x use,
  prompt P -> 2 <= v_major ver <= 3 -> 0 <= v_minor ver < 256 -> args_of params [x] -> is_object x -> xml_has (double_exact fin strtod) x -> use <> Some true ->
  exists text, dumps_any host fin 0 (v_major ver) (v_minor ver) None params = PyOk (PyStr text) /\
  loads_data host pass native P strtod false use (PyStr text) = PyOk (seen host native (undated x), None).
Proof.
  intros host pass native P fin strtod [ma mi] params x use HP M MI PA O H NU. cbn [v_major v_minor] in *.
  pose proof (has_wf host _ x H) as W. pose proof (has_uniq host _ x O H) as U.
  pose proof (response_doc_ok fin _ (exact_plain fin strtod) (mkVer ma mi) _ W) as DOC.
  destruct (text_back _ _ DOC) as (u & GD & EN). exists u. split.
  - unfold dumps_any. replace ((ma <? 0) || (mi <? 0)) with false by lia. cbv zeta. replace (u8 ma) with ma by (unfold u8; symmetry; apply Z.mod_small; lia). replace (u8 mi) with mi by (unfold u8; symmetry; apply Z.mod_small; lia).
    cbn [v_major]. replace (3 <? ma) with false by lia. change (negb (0 =? 0)) with false.
    assert (WC := write_response host fin strtod (mkVer ma mi) M x H).
    destruct PA as [-> | ->]; rewrite WC; cbn [then_data]; exact GD.
  - cbn [loads_data]. rewrite EN.
    destruct (xml_object host pass native fin strtod (value_of host x) W U) as (p & m & R & E).
    destruct (read_response (pb_step host pass native) strtod fin TYPE_ANY (value_of host x) pb_init pb_init _ W (or_introl eq_refl) eq_refl E) as (v & S & D).
    rewrite (whole_text host pass native P strtod HP use (mkVer ma mi) _ _ _ _ NU (proj1 M) DOC S D).
    rewrite (xml_back host _ native x p O H R). cbn. destruct (seen host native (undated x)) eqn:ES; try reflexivity.
    exfalso. clear - ES H. destruct x; cbn in ES, H; try discriminate; try contradiction; destruct native; discriminate.
Qed.
Print Assumptions C97_responses_partial.
Theorem C97_faults_partial : forall host pass native P fin strtod ver code msg use,
  prompt P -> 2 <= v_major ver <= 3 -> 0 <= v_minor ver < 256 -> in_s32 code -> xml_str msg -> use <> Some true ->
  exists text, dumps_any host fin 0 (v_major ver) (v_minor ver) None (PyFault (PyInt code) (PyStr msg)) = PyOk (PyStr text) /\
  loads_data host pass native P strtod false use (PyStr text) = PyRaise (PE_Fault (PyInt code) (PyStr msg)).
Proof.
  intros host pass native P fin strtod [ma mi] code msg use HP M MI HC MX NU. cbn [v_major v_minor] in *.
  assert (H : - 2 ^ 63 < code < 2 ^ 63) by (unfold in_s32 in HC; lia). set (s := flat_map utf8_char msg). assert (MT : xml_text s) by (apply str_text; exact MX).
  pose proof (fault_doc_ok fin _ (exact_plain fin strtod) (mkVer ma mi) code s H MT) as DOC.
  destruct (text_back _ _ DOC) as (u & GD & EN). exists u. split.
  - unfold dumps_any. replace ((ma <? 0) || (mi <? 0)) with false by lia. cbv zeta. replace (u8 ma) with ma by (unfold u8; symmetry; apply Z.mod_small; lia). replace (u8 mi) with mi by (unfold u8; symmetry; apply Z.mod_small; lia).
    cbn [v_major]. replace (3 <? ma) with false by lia. change (negb (0 =? 0)) with false. cbv iota. rewrite (encode_xml msg (xml_uchar msg MX)). fold s.
    replace ((- 2 ^ 63 <=? code) && (code <? 2 ^ 63)) with true by lia. rewrite s32_id by exact HC.
    rewrite (run_xml fin strtod (mkVer ma mi) M _ _ _ (eq_refl : snd ([PFault code s], @None pyexn) = None) (fun _ => eq_refl) (fault_output fin (double_exact fin strtod) (exact_plain fin strtod) (mkVer ma mi) code s M H)). exact GD.
  - cbn [loads_data]. rewrite EN.
    assert (ST : pb_step host pass native pb_init (EFault code s) = (mkPB [] (P_done (PyFault (PyInt code) (PyStr msg))) true false [] None, None)).
    { cbn [pb_step pb_init pb_error]. unfold s. rewrite (decode_same false (flat_map utf8_char msg) msg); [reflexivity|]. split; [apply xml_uchar; exact MX|reflexivity]. }
    destruct (read_fault (pb_step host pass native) strtod fin TYPE_ANY code s pb_init _ HC MT (or_introl eq_refl) ST) as (v & S & D).
    rewrite (whole_text host pass native P strtod HP use (mkVer ma mi) _ _ _ _ NU (proj1 M) DOC S D). reflexivity.
Qed.
Print Assumptions C97_faults_partial.

Definition no_floats (_ : Z) : bytes := str "0".

(** A parser that reports a document when it is complete. *)
Lemma at_once_prompt : prompt at_once.
Proof.
  intros text doc D. cbn [at_once ps_take ps_init fst snd]. destruct text as [|c text]; [discriminate|]. cbn [app]. unfold bytes in *. rewrite D. do 2 eexists. split; reflexivity.
Qed.
Definition xml_objects : list py :=
  [PyDict [(PyStr [97; 269; 60], PyList [PyNone; PyBool true; PyInt (- 2 ^ 63 + 1); PyStr [128512; 38; 10]; PyTuple []]); (PyStr [98], PyBytes [x00; xff])];
   PyDate (mkDT 2024 2 29 23 59 58 4 1709251198 3600); PyInt 2147483648].
Example xml_objects_ok : Forall is_object xml_objects /\ Forall (xml_has (double_exact no_floats (fun _ => None))) xml_objects.
Proof.
  split.
  - repeat constructor; cbn; repeat split; try lia; try (repeat constructor; lia); try (intros H; inversion H); try tauto.
    all: repeat constructor; cbn; intuition congruence.
  - assert (K : forall u, forallb (fun c => (c =? 9) || (c =? 10) || (32 <=? c) && (c <=? 55295) || (65536 <=? c) && (c <=? 1114111)) u = true -> xml_str u).
    { intros u H. rewrite forallb_forall in H. apply Forall_forall. intros c I. specialize (H c I). unfold xml_char. lia. }
    assert (N : forall u, xml_str u -> 1 <= blen (flat_map utf8_char u) <= 255 -> exists v, PyStr u = PyStr v /\ xml_str v /\ name_fits v).
    { intros u X L. exists u. split; [reflexivity|]. split; [exact X|]. split; [apply xml_uchar; exact X|exact L]. }
    assert (L : forall z, (1 <=? z) && (z <=? 255) = true -> 1 <= z <= 255) by (intros; lia).
    constructor; [|constructor; [|constructor; [|constructor]]]; cbn [xml_has].
    + split; [reflexivity|]. split; [apply N; [apply K; reflexivity|apply L; vm_compute; reflexivity]|]. split.
      { split; [reflexivity|]. split; [exact I|]. split; [exact I|]. split; [lia|]. split; [apply K; reflexivity|]. split; [split; [reflexivity|exact I]|exact I]. }
      split; [apply N; [apply K; reflexivity|apply L; vm_compute; reflexivity]|]. split; exact I.
    + unfold iso_range. cbn. repeat split; try lia. exists 60. lia.
    + lia.
Qed.
Example C97_example : exists text, dumps_any (fun d => d) no_floats 0 2 1 (Some [102]) (PyTuple xml_objects) = PyOk (PyStr text) /\
  loads_data (fun d => d) false true at_once (fun _ => None) false None (PyStr text) =
  PyOk (PyTuple [PyDict [(PyStr [97; 269; 60], PyList [PyNone; PyBool true; PyInt (- 2 ^ 63 + 1); PyStr [128512; 38; 10]; PyList []]); (PyStr [98], PyBytes [x00; xff])];
                 PyDate (mkDT 2024 2 29 23 59 58 0 0 3600); PyInt 2147483648], Some [102]).
Proof.
  destruct xml_objects_ok as [O H].
  refine (C97_calls_partial (fun d => d) false true at_once no_floats (fun _ => None) (mkVer 2 1) [102] (PyTuple xml_objects) xml_objects None at_once_prompt _ _ _ _ _ O H _); cbn.
  - lia.
  - lia.
  - split; [repeat constructor; unfold uchar; lia|cbn; lia].
  - constructor; [unfold xml_char; lia|constructor].
  - left. reflexivity.
  - discriminate.
Qed.

(** ** What XML does to the objects it does not have *)
(** A string with a control character: the text is not XML. *)
Theorem C97_control_refuted : forall host fin, exists text data, dumps_any host fin 0 2 1 None (PyTuple [PyStr [97; 1]]) = PyOk (PyStr text) /\ py_encode text = Some data /\ xml_doc data = None.
Proof. intros. do 2 eexists. split; [vm_compute; reflexivity|]. split; vm_compute; reflexivity. Qed.
Print Assumptions C97_control_refuted.
(** A carriage return comes back as a line feed. *)
Theorem C97_carriage_return_refuted : exists text, dumps_any (fun d => d) no_floats 0 2 1 None (PyTuple [PyStr [97; 13]]) = PyOk (PyStr text) /\
  loads_data (fun d => d) false false at_once (fun _ => None) false None (PyStr text) = PyOk (PyStr [97; 10], None).
Proof. eexists. split; [vm_compute; reflexivity|vm_compute; reflexivity]. Qed.
Print Assumptions C97_carriage_return_refuted.
(** The smallest integer, and 2^63, which is taken for it: negated, which is undefined. *)
Theorem C97_smallest_integer_refuted : forall host fin params, params = PyTuple [PyInt (- 2 ^ 63)] \/ params = PyTuple [PyInt (2 ^ 63)] ->
  dumps_any host fin 0 2 1 (Some [102]) params = PyUndef /\ dumps_any host fin 0 2 1 None params = PyUndef /\ dumps_any host fin 1 2 1 None params <> PyUndef.
Proof. intros host fin params [-> | ->]; (split; [vm_compute; reflexivity|]; split; [vm_compute; reflexivity|vm_compute; discriminate]). Qed.
Print Assumptions C97_smallest_integer_refuted.
(** A [datetime.datetime] is local time and is written as universal time. *)
Theorem C97_datetime_refuted : forall tz, exists text, dumps_any (fun d => d) no_floats 0 2 1 None (PyTuple [PyStdDate (mkDT 2024 7 1 12 0 0 1 0 tz)]) = PyOk (PyStr text) /\
  loads_data (fun d => d) false false at_once (fun _ => None) false None (PyStr text) = PyOk (PyDate (mkDT 2024 7 1 12 0 0 0 0 0), None).
Proof. intros. eexists. split; [vm_compute; reflexivity|vm_compute; reflexivity]. Qed.
Print Assumptions C97_datetime_refuted.
Definition two_text : pystr := match dumps_any (fun d => d) no_floats 0 2 1 None (PyTuple [PyList [PyInt 1; PyInt 2]]) with PyOk (PyStr t) => t | _ => [] end.
Definition two_doc : list sax := match py_encode two_text with Some d => match xml_doc d with Some doc => doc | None => [] end | None => [] end.
(** The text cut within an array: [loads] returns the part that is there, if the parser reports what it has read. *)
Theorem C97_cut_refuted : exists text rest batch others data,
  dumps_any (fun d => d) no_floats 0 2 1 None (PyTuple [PyList [PyInt 1; PyInt 2]]) = PyOk (PyStr (text ++ rest)) /\ 0 < zlen rest /\
  py_encode (text ++ rest) = Some data /\ xml_doc data = Some (batch ++ others) /\
  forall P s, ps_take P (ps_init P) (map z2b text) = (s, batch, 0) -> loads_data (fun d => d) false false P (fun _ => None) false None (PyStr text) = PyOk (PyList [PyInt 1], None).
Proof.
  exists (ztake 134 two_text), (zdrop 134 two_text), (ztake 18 two_doc), (zdrop 18 two_doc), (map z2b two_text).
  split; [vm_compute; reflexivity|]. split; [vm_compute; reflexivity|]. split; [vm_compute; reflexivity|]. split; [vm_compute; reflexivity|].
  intros P s H. assert (E : py_encode (ztake 134 two_text) = Some (map z2b (ztake 134 two_text))) by (vm_compute; reflexivity).
  cbn [loads_data]. rewrite E. unfold loads_any, take_detected. 
  change (blen (map z2b (ztake 134 two_text)) <? 4) with false. cbv iota. change (is_magic (map z2b (ztake 134 two_text))) with false. cbv iota. unfold take_xml. rewrite H. vm_compute. reflexivity.
Qed.
Print Assumptions C97_cut_refuted.

(** ** C98: any XML *)
Theorem C98_any_xml_partial : forall host pass native P strtod erange use data, orderly P ->
  (forall s batch code, ps_take P (ps_init P) data = (s, batch, code) -> fault_last batch /\ utf8_texts batch) ->
  use = Some false \/ (use = None /\ 4 <= blen data /\ forall r, data <> xca :: x11 :: r) -> ~ bad_declaration data ->
  (exists v n, loads_any host pass native P strtod erange use data = PyOk (v, n)) \/
  (exists e, loads_any host pass native P strtod erange use data = PyRaise e /\ (e = PE_Decode \/ e = PE_Runtime \/ e = PE_Type \/ exists c m, e = PE_Fault c m)).
Proof.
  intros host pass native P strtod erange use data ORD FINE HU NB. unfold loads_any.
  assert (T : (match use with None => take_detected host pass native P strtod erange data | Some true => take_binary host pass native pb_init data | Some false => take_xml host pass native P strtod erange pb_init data end) = take_xml host pass native P strtod erange pb_init data).
  { destruct HU as [->|(-> & L & N)]; [reflexivity|]. unfold take_detected. replace (blen data <? 4) with false by (symmetry; apply Z.ltb_ge; exact L).
    replace (is_magic data) with false; [reflexivity|]. symmetry. destruct data as [|a [|c data]]; try reflexivity. unfold is_magic. apply not_true_is_false. intros E. apply andb_prop in E as [A B]. apply Z.eqb_eq in A, B.
    apply (N data). f_equal; [|f_equal]; apply b2z_inj; assumption. }
  rewrite T. clear T. unfold take_xml. destruct (ps_take P (ps_init P) data) as [[s batch] code] eqn:ET. destruct (FINE _ _ _ eq_refl) as [FL UT].
  destruct (ORD [] [] _ _ _ _ _ (reports_nil P _) ET) as [HN HC]. cbn [concat app] in HN.
  destruct (x_unmarshall (pb_step host pass native) strtod erange TYPE_ANY xun_init pb_init data batch code) as [[u b] f] eqn:EU.
  assert (START : rgood [] [] xun_init pb_init).
  { split; [reflexivity|]. split; [|split; reflexivity]. split; [exact is_text_nil|]. split; [exact is_text_nil|]. split; [discriminate|]. left. split; [discriminate|right; cbn; lia]. }
  pose proof (unmarshall_r host pass native strtod erange TYPE_ANY [] [] _ _ data batch code u b f HN FL UT HC START EU) as G.
  assert (BD : bad_declaration (first_text ([] ++ [data])) -> False) by (intros X; apply NB; destruct data; exact X).
  destruct f as [[e|]|]; [|destruct (BD G)|].
  - destruct e; try (destruct (BD G)). right. eexists. split; [reflexivity|]. auto.
  - unfold pb_data. destruct (pb_object b) as [v|]; [|right; eexists; split; [reflexivity|auto]].
    destruct (pb_method b) as [m|] eqn:EM.
    + destruct (py_tuple v) as [l|]; [|right; eexists; split; [reflexivity|auto]]. unfold pb_name. rewrite EM. destruct (py_decode false m); [left; eauto|right; eexists; split; [reflexivity|auto]].
    + unfold pb_name. rewrite EM. destruct v; cbn beta iota; try (left; do 2 eexists; reflexivity). right. eexists. split; [reflexivity|]. right. right. right. eauto.
Qed.
Print Assumptions C98_any_xml_partial.
Definition one_text : bytes :=
  match dumps_any (fun d => d) no_floats 0 1 0 None (PyTuple [PyList [PyInt 1; PyStr [97]]]) with PyOk (PyStr t) => map z2b t | _ => [] end.
Definition one_doc : list sax := match xml_doc one_text with Some doc => doc | None => [] end.
Example C98_example : (forall s batch code, ps_take at_once (ps_init at_once) one_text = (s, batch, code) -> fault_last batch /\ utf8_texts batch) /\ orderly at_once /\
  4 <= blen one_text /\ (forall r, one_text <> xca :: x11 :: r) /\ ~ bad_declaration one_text /\
  loads_any (fun d => d) false true at_once (fun _ => None) false None one_text = PyOk (PyList [PyInt 1; PyStr [97]], None).
Proof.
  split; [|split; [exact at_once_orderly|split; [vm_compute; discriminate|split; [intros r E; vm_compute in E; discriminate|split; [|vm_compute; reflexivity]]]]].
  - intros s batch code H. assert (E : batch = one_doc) by (vm_compute in H; vm_compute; inversion H; reflexivity). subst batch. split.
    + intros a b E. exfalso. assert (X : existsb (fun e => match e with SStart n => bytes_eqb n (str "fault") | _ => false end) one_doc = true); [|vm_compute in X; discriminate].
      apply existsb_exists. eexists. split; [rewrite E; apply in_elt|reflexivity].
    + intros t I. apply text_decode. assert (X : forallb (fun e => match e with SChars t => match py_decode false t with Some _ => true | None => false end | _ => true end) one_doc = true) by (vm_compute; reflexivity).
      rewrite forallb_forall in X. specialize (X _ I). cbn beta iota in X. destruct (py_decode false t); [eauto|discriminate].
  - intros (before & major & dot & minor & after & E & L & C). set (mark := str "protocolVersion=""") in *.
    assert (X : existsb (fun n => bytes_eqb (firstn (List.length mark) (skipn n one_text)) mark) (seq 0 (List.length one_text)) = true); [|vm_compute in X; discriminate].
    apply existsb_exists. exists (List.length before). split.
    + apply in_seq. rewrite E, !app_length. change (List.length mark) with 17%nat. lia.
    + rewrite E, skipn_app, skipn_all, Nat.sub_diag. cbn [app skipn]. rewrite firstn_app, firstn_all, Nat.sub_diag. cbn [firstn]. rewrite app_nil_r. apply bytes_eqb_eq. reflexivity.
Qed.
(** A version out of place ends the interpreter: the exception is not one the binding expects. *)
Theorem C98_version_refuted : exists data doc, xml_doc data = Some doc /\
  forall host pass native P strtod erange, (exists s batch code, ps_take P (ps_init P) data = (s, batch, code)) -> loads_any host pass native P strtod erange None data = PyAbort.
Proof.
  exists (str "<?xml version=""1.0""?><!--                                    protocolVersion=""2.1""--><methodResponse></methodResponse>"). eexists. split; [vm_compute; reflexivity|].
  intros host pass native P strtod erange (s & batch & code & H). unfold loads_any, take_detected.
  match goal with |- context [blen ?d <? 4] => set (data := d) in * end.
  change (blen data <? 4) with false. cbv iota. change (is_magic data) with false. cbv iota. unfold take_xml. rewrite H. unfold x_unmarshall.
  assert (E : exists u, x_sniff xun_init data = (u, Some (Exn OutOfRange))) by (eexists; vm_compute; reflexivity). destruct E as [u ->]. reflexivity.
Qed.
Print Assumptions C98_version_refuted.
(** A fault within a fault: undefined. *)
Theorem C98_fault_refuted : orderly at_once /\ faithful at_once /\ exists data doc, xml_doc data = Some doc /\
  forall host pass native strtod, loads_any host pass native at_once strtod false None data = PyUndef.
Proof.
  split; [exact at_once_orderly|]. split; [exact at_once_faithful|].
  exists (str "<methodResponse><fault><struct><methodResponse></methodResponse></struct></fault></methodResponse>"). eexists. split; [vm_compute; reflexivity|]. intros. vm_compute. reflexivity.
Qed.
Print Assumptions C98_fault_refuted.
