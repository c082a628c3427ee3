(** Properties of the handlers of Python web frameworks (C99-C104). *)
From Coq Require Import Lia.
From Verif Require Import Base Value Text Unicode M_Marshal M_BinUnmarshal M_TreeBuilder M_Xml M_XmlUm M_Python M_PyRegistry M_PyDumps M_PyHandlers
  S_Value S_Events S_Iso S_Xml S_Wire S_XmlUm S_Python S_PyXml S_PyHandlers L_Base L_RoundTrip L_TreeBuilder L_Json L_Xml L_Xml2 L_Xml3 L_Xml4 L_Xml5 L_Xml6 L_Xml7 L_XmlUm L_PyText L_PyBuild L_PyRead L_XmlParser L_PyXmlMsg L_ReadAny L_PyXml L_PyXml2 L_Python L_PyLoad L_PyDumps L_PyHandlers P_Python P_PyXml S_PyClient S_PyServer.

Section Handlers.
  Context {W : Type}.
  Variable host : datetime -> datetime.
  Variable fin : Z -> bytes.
  Variable pass native : bool.
  Variable P : parser.
  Variable strtod : bytes -> option Z.
  Variable erange : bool.
  Variable bad_args : list py -> pystr.
  Variable bad_await : py -> pystr.
  Notation flask := (@flask_handle W host fin pass native P strtod erange bad_args bad_await).
  Notation aiohttp := (@aiohttp_handle W host fin pass native P strtod erange bad_args bad_await).
  Notation tornado := (@tornado_post W host fin pass native P strtod erange bad_args).

  (** ** C99: which requests are refused *)
  Lemma rpc_not_plain : forall ct b acc p n, rpc_answer host fin ct b acc p <> A_plain n.
  Proof. intros. unfold rpc_answer. destruct (dumps_any _ _ _ _ _ _ _); discriminate. Qed.
  Theorem C99_flask_partial : forall uwsgi allowed all w r, Forall type_name allowed ->
    let a := match hq_accept r with Some a => a | None => [] end in
    (~ accepts_one allowed a -> flask uwsgi allowed all w r = (w, A_plain 400)) /\
    (forall ct, hq_type r = Some ct -> ~ In ct allowed -> flask uwsgi allowed all w r = (w, A_plain 400)) /\
    (hq_type r = None -> fst (flask uwsgi allowed all w r) = w) /\
    (forall ct n, hq_type r = Some ct -> In ct allowed -> accepts_one allowed a -> snd (flask uwsgi allowed all w r) <> A_plain n).
  Proof.
    intros uwsgi allowed all w r F a. unfold flask_handle, flask_types. fold a. cbv zeta. split; [|split; [|split]].
    - intros N. rewrite (accepts_none _ _ F N). reflexivity.
    - intros ct E N. rewrite E, (str_in_false _ _ N). destruct (existsb _ _); reflexivity.
    - intros E. rewrite E. destruct (existsb _ _); reflexivity.
    - intros ct n E I A. rewrite E. rewrite (proj2 (accepts_one_spec _ _ F) A), (proj2 (str_in_in _ _) I). cbn [negb].
      destruct (if str_eqb FRPC_TYPE ct then _ else _); [|discriminate]. destruct (loads_any _ _ _ _ _ _ _ _) as [[args name]|e| |]; try discriminate.
      destruct (answer_of _ _ _ _ _ _ _) as [w' [v|x]]; [|discriminate]. cbn [snd]. destruct (str_in FRPC_TYPE _); apply rpc_not_plain.
  Qed.

  Lemma listed_nonempty : forall a t, type_name t -> (In t (map py_strip (filter (fun s => negb (str_eqb s [])) (py_split a))) <-> listed a t).
  Proof.
    intros a t TN. rewrite <- (listed_in a t TN), !in_map_iff. split; intros (x & E & I).
    - apply filter_In in I as [I _]. eauto.
    - exists x. split; [exact E|]. apply filter_In. split; [exact I|]. rewrite str_eqb_neq; [reflexivity|]. intros ->. destruct TN as (_ & (b & l & ET & _) & _). rewrite ET in E. discriminate.
  Qed.
  Lemma one_nonempty : forall types a, Forall type_name types ->
    (existsb (fun t => str_in t types) (map py_strip (filter (fun s => negb (str_eqb s [])) (py_split a))) = true <-> accepts_one types a).
  Proof.
    intros types a F. rewrite existsb_exists. rewrite Forall_forall in F. split.
    - intros (t & I & T). apply str_in_in in T. exists t. split; [exact T|]. apply listed_nonempty; auto.
    - intros (t & T & L). exists t. split; [apply listed_nonempty; auto|apply str_in_in; exact T].
  Qed.
  Lemma only_commas : forall a, filter (fun s => negb (str_eqb s [])) (py_split a) = [] <-> Forall (eq 44) a.
  Proof.
    induction a as [|c a IH]; [split; [constructor|reflexivity]|]. cbn [py_split]. destruct (Z.eqb_spec c 44) as [->|NC].
    - cbn [filter]. rewrite str_eqb_refl. cbn [negb]. rewrite IH. split; [constructor; auto|]. intros H. inversion H; assumption.
    - destruct (split_not_nil a) as (x & l & ->). cbn [filter]. rewrite str_eqb_neq by discriminate. cbn [negb]. split; [discriminate|]. intros H. inversion H; subst. congruence.
  Qed.
  (** A field Accept that is empty, or has commas only, is as none. *)
  Theorem C99_aiohttp_partial : forall allowed all w r, Forall type_name allowed ->
    let a := match hq_accept r with Some a => a | None => [] end in
    (~ Forall (eq 44) a -> ~ accepts_one allowed a -> aiohttp allowed all w r = (w, A_plain 400)) /\
    (forall ct, hq_type r = Some ct -> ~ In ct allowed -> aiohttp allowed all w r = (w, A_plain 400)) /\
    (hq_type r = None -> fst (aiohttp allowed all w r) = w) /\
    (forall ct n, hq_type r = Some ct -> In ct allowed -> Forall (eq 44) a \/ accepts_one allowed a -> snd (aiohttp allowed all w r) <> A_plain n).
  Proof.
    intros allowed all w r F a. unfold aiohttp_handle. fold a. cbv zeta. set (raw := filter _ (py_split a)). split; [|split; [|split]].
    - intros NC N. assert (X : existsb (fun t => str_in t allowed) (map py_strip raw) = false).
      { destruct (existsb _ _) eqn:E; [|reflexivity]. apply (one_nonempty _ _ F) in E. contradiction. }
      destruct raw as [|x l] eqn:ER; [exfalso; apply NC, only_commas; exact ER|]. cbn [map] in *. rewrite X. reflexivity.
    - intros ct E N. rewrite E. destruct (map py_strip raw) as [|x l]; cbn [option_map].
      + cbn [existsb]. rewrite (str_in_false _ _ N). reflexivity.
      + rewrite (str_in_false _ _ N). destruct (existsb _ _); reflexivity.
    - intros E. rewrite E. destruct (map py_strip raw) as [|x l]; cbn [option_map]; [reflexivity|]. destruct (existsb _ _); reflexivity.
    - intros ct n E I A. rewrite E.
      assert (X : exists types, (match map py_strip raw with [] => option_map (fun t => [t]) (Some ct) | _ => Some (map py_strip raw) end) = Some types /\ existsb (fun t => str_in t allowed) types = true).
      { destruct A as [A|A].
        - apply only_commas in A. fold raw in A. rewrite A. cbn [map option_map]. eexists. split; [reflexivity|]. cbn [existsb]. rewrite (proj2 (str_in_in _ _) I). reflexivity.
        - pose proof (proj2 (one_nonempty _ _ F) A) as Y. fold raw in Y. destruct (map py_strip raw) as [|x l]; [discriminate|]. eexists. split; [reflexivity|exact Y]. }
      destruct X as (types & -> & ->). rewrite (proj2 (str_in_in _ _) I). cbn [negb].
      destruct (loads_any _ _ _ _ _ _ _ _) as [[args name]|e| |]; try discriminate.
      destruct (answer_of _ _ _ _ _ _ _) as [w' [v|x]]; [|discriminate]. cbn [snd]. destruct (str_in FRPC_TYPE _); apply rpc_not_plain.
  Qed.

  Lemma supported_names : Forall type_name supported.
  Proof.
    assert (A : type_name XML_TYPE).
    { split; [cbn; lia|]. split; [exists 116, (ustr "ext/xml"); split; [reflexivity|unfold white; lia]|exists (ustr "text/xm"), 108; split; [reflexivity|unfold white; lia]]. }
    assert (B : type_name FRPC_TYPE).
    { split; [cbn; lia|]. split; [exists 97, (ustr "pplication/x-frpc"); split; [reflexivity|unfold white; lia]|exists (ustr "application/x-frp"), 99; split; [reflexivity|unfold white; lia]]. }
    constructor; [exact A|constructor; [exact B|constructor]].
  Qed.
  Definition tornado_types (r : hrequest) (ct : pystr) : pystr := match hq_accept r with Some (c :: a) => c :: a | _ => ct end.
  Lemma own_listed : forall ct, In ct supported -> map py_strip (py_split ct) = [ct].
  Proof. intros ct [<-|[<-|[]]]; vm_compute; reflexivity. Qed.
  Lemma possible_spec : forall r ct, In ct supported ->
    let types := match hq_accept r with Some (c :: a) => map py_strip (py_split (c :: a)) | _ => [ct] end in
    types = map py_strip (py_split (tornado_types r ct)) /\ (filter (fun t => str_in t types) supported = [] <-> ~ accepts_one supported (tornado_types r ct)).
  Proof.
    intros r ct I types. assert (E : types = map py_strip (py_split (tornado_types r ct))).
    { unfold types, tornado_types. destruct (hq_accept r) as [[|c a]|]; try reflexivity; rewrite (own_listed ct I); reflexivity. }
    split; [exact E|]. pose proof supported_names as SN. rewrite Forall_forall in SN. split.
    - intros N (t & IT & L). assert (X : In t (filter (fun t => str_in t types) supported)); [|rewrite N in X; destruct X].
      apply filter_In. split; [exact IT|]. apply str_in_in. rewrite E. apply listed_in; auto.
    - intros N. destruct (filter (fun t => str_in t types) supported) as [|t l] eqn:EF; [reflexivity|]. exfalso. apply N. assert (X : In t (filter (fun t => str_in t types) supported)) by (rewrite EF; left; reflexivity).
      apply filter_In in X as [IT X]. exists t. split; [exact IT|]. apply str_in_in in X. rewrite E in X. apply listed_in; auto.
  Qed.
  Theorem C99_tornado_partial : forall all w r,
    (hq_type r = None -> tornado all w r = (w, A_raise F_key)) /\
    (forall ct, hq_type r = Some ct -> ~ In ct supported -> tornado all w r = (w, A_plain 400)) /\
    (forall ct a, hq_type r = Some ct -> In ct supported -> hq_accept r = Some a -> a <> [] -> ~ accepts_one supported a -> tornado all w r = (w, A_plain 406)) /\
    (forall ct n, hq_type r = Some ct -> In ct supported -> (hq_accept r = None \/ hq_accept r = Some [] \/ exists a, hq_accept r = Some a /\ accepts_one supported a) -> snd (tornado all w r) <> A_plain n).
  Proof.
    intros all w r. unfold tornado_post. split; [intros ->; reflexivity|]. split; [intros ct -> N; rewrite (str_in_false _ _ N); reflexivity|]. split.
    - intros ct a E I EA NE N. rewrite E, (proj2 (str_in_in _ _) I). cbn [negb]. cbv zeta. destruct (possible_spec r ct I) as [_ X]. destruct X as [_ X]. cbv zeta in X. rewrite X; [reflexivity|].
      unfold tornado_types. rewrite EA. destruct a; [congruence|exact N].
    - intros ct n E I A. rewrite E, (proj2 (str_in_in _ _) I). cbn [negb]. cbv zeta. destruct (possible_spec r ct I) as [_ X]. destruct X as [X _]. cbv zeta in X.
      assert (Y : accepts_one supported (tornado_types r ct)).
      { assert (S : accepts_one supported ct) by (exists ct; split; [exact I|]; apply listed_in; [pose proof supported_names as SN; rewrite Forall_forall in SN; auto|rewrite (own_listed ct I); left; reflexivity]).
        unfold tornado_types. destruct A as [->|[->|(a & -> & A)]]; [exact S|exact S|]. destruct a as [|c a]; [exact S|exact A]. }
      destruct (filter _ supported) as [|t l] eqn:EF; [exfalso; apply X; [reflexivity|exact Y]|].
      destruct (loads_any _ _ _ _ _ _ _ _) as [[args [name|]]|e| |]; try discriminate. destruct (find_method name all) as [m|]; [|discriminate].
      destruct (run_method _ _ _ _ _ _) as [w' [v|x]].
      + cbn [snd]. destruct (str_in FRPC_TYPE _); apply rpc_not_plain.
      + destruct (x_exception x); [|discriminate]. destruct (x_text x); [|discriminate]. cbn [snd]. destruct (str_in FRPC_TYPE _); apply rpc_not_plain.
  Qed.

  (** The type of the answer. *)
  Lemma data_kind : forall b r x, then_data b r = PyOk x -> if b then exists wire, x = PyBytes wire else exists t, x = PyStr t.
  Proof. intros b r x H. unfold then_data in H. destruct r; try discriminate. unfold get_data in H. destruct b; [inversion H; eauto|]. destruct (py_decode _ _); inversion H; eauto. Qed.
  Lemma dumps_kind : forall n p b, dumps_any host fin n 2 1 None p = PyOk b -> if negb (n =? 0) then exists wire, b = PyBytes wire else exists t, b = PyStr t.
  Proof.
    intros n p b D. unfold dumps_any in D. cbv zeta in D.
    change ((2 <? 0) || (1 <? 0)) with false in D; cbv iota in D; change (3 <? v_major (mkVer (u8 2) (u8 1))) with false in D; cbv iota in D.
    destruct p as [| | | | | | | | |l|l| |c m|]; try discriminate.
    - destruct l; apply data_kind in D; exact D.
    - destruct l; apply data_kind in D; exact D.
    - destruct (match c with PyInt z => Some z | PyBool b0 => Some (if b0 then 1 else 0) | _ => None end); [|discriminate]. destruct m; try discriminate. destruct (py_encode s); [|discriminate].
      destruct ((- 2 ^ 63 <=? z) && (z <? 2 ^ 63)); [apply data_kind in D; exact D|]. destruct (then_data _ _); discriminate.
  Qed.
  Lemma frpc_name : type_name FRPC_TYPE.
  Proof. pose proof supported_names as SN; inversion SN as [|? ? _ SN2]; inversion SN2; assumption. Qed.
  Lemma answer_kind : forall ct n acc p ct' len acc' body, rpc_answer host fin ct n acc p = A_rpc ct' len acc' body ->
    ct' = ct /\ acc' = acc /\ len = body_len body /\ if negb (n =? 0) then exists wire, body = PyBytes wire else exists t, body = PyStr t.
  Proof. intros ct n acc p ct' len acc' body H. unfold rpc_answer in H. destruct (dumps_any _ _ _ _ _ _ _) eqn:E; inversion H; subst. apply dumps_kind in E. auto. Qed.
  Theorem C99_flask_type_partial : forall uwsgi allowed all w r w' ct len acc body,
    flask uwsgi allowed all w r = (w', A_rpc ct len acc body) -> let a := match hq_accept r with Some a => a | None => [] end in
    acc = allowed /\ ((ct = FRPC_TYPE /\ listed a FRPC_TYPE /\ exists wire, body = PyBytes wire) \/ (ct = XML_TYPE /\ ~ listed a FRPC_TYPE /\ exists text, body = PyStr text)).
  Proof.
    intros uwsgi allowed all w r w' ct len acc body H a.
    unfold flask_handle, flask_types in H. fold a in H. cbv zeta in H. destruct (existsb _ _); [|discriminate]. cbn [negb] in H. destruct (hq_type r) as [c|]; [|discriminate]. destruct (str_in c allowed); [|discriminate]. cbn [negb] in H.
    destruct (if str_eqb FRPC_TYPE c then _ else _); [|discriminate]. destruct (loads_any _ _ _ _ _ _ _ _) as [[args name]|e| |]; try discriminate.
    destruct (answer_of _ _ _ _ _ _ _) as [w1 [v|x]]; [|discriminate].
    destruct (str_in FRPC_TYPE (map py_strip (py_split a))) eqn:EL; injection H as HW H; apply answer_kind in H as (-> & -> & _ & K); (split; [reflexivity|]).
    - left. apply str_in_in, (listed_in _ _ frpc_name) in EL. auto.
    - right. split; [reflexivity|]. split; [|exact K]. intros X. apply (listed_in _ _ frpc_name), str_in_in in X. congruence.
  Qed.
  Theorem C99_tornado_type_partial : forall all w r w' ct len acc body,
    tornado all w r = (w', A_rpc ct len acc body) ->
    exists t a, hq_type r = Some t /\ (hq_accept r = Some a /\ a <> [] \/ (hq_accept r = None \/ hq_accept r = Some []) /\ a = t) /\ acc = supported /\
    ((ct = FRPC_TYPE /\ listed a FRPC_TYPE /\ exists wire, body = PyBytes wire) \/ (ct = XML_TYPE /\ listed a XML_TYPE /\ ~ listed a FRPC_TYPE /\ exists text, body = PyStr text)).
  Proof.
    intros all w r w' ct len acc body H. unfold tornado_post in H. destruct (hq_type r) as [t|]; [|discriminate]. destruct (str_in t supported) eqn:ES; [|discriminate]. cbn [negb] in H. cbv zeta in H.
    apply str_in_in in ES. destruct (possible_spec r t ES) as [ET _]. exists t, (tornado_types r t). split; [reflexivity|]. split.
    { unfold tornado_types. destruct (hq_accept r) as [[|c a]|]; auto. left. split; [reflexivity|discriminate]. }
    cbv zeta in ET. rewrite ET in H. clear ET. set (types := map py_strip (py_split (tornado_types r t))) in *.
    assert (FR : str_in FRPC_TYPE (filter (fun t0 => str_in t0 types) supported) = str_in FRPC_TYPE types).
    { cbn [filter supported]. destruct (str_in XML_TYPE types), (str_in FRPC_TYPE types); vm_compute; reflexivity. }
    assert (XM : filter (fun t0 => str_in t0 types) supported <> [] -> str_in FRPC_TYPE types = false -> str_in XML_TYPE types = true).
    { cbn [filter supported]. destruct (str_in XML_TYPE types), (str_in FRPC_TYPE types); congruence. }
    assert (LX : type_name XML_TYPE) by (pose proof supported_names as SN; inversion SN; assumption).
    rewrite FR in H. destruct (filter _ supported) as [|t0 l]; [discriminate|]. clear FR. assert (XM' := XM ltac:(discriminate)). clear XM.
    destruct (loads_any _ _ _ _ _ _ _ _) as [[args [name|]]|e| |]; try discriminate. destruct (find_method name all) as [m|]; [|discriminate].
    destruct (run_method _ _ _ _ _ _) as [w1 res].
    assert (K : forall p, (if str_in FRPC_TYPE types then rpc_answer host fin FRPC_TYPE 1 supported p else rpc_answer host fin XML_TYPE 0 supported p) = A_rpc ct len acc body -> acc = supported /\
      ((ct = FRPC_TYPE /\ listed (tornado_types r t) FRPC_TYPE /\ exists wire, body = PyBytes wire) \/ (ct = XML_TYPE /\ listed (tornado_types r t) XML_TYPE /\ ~ listed (tornado_types r t) FRPC_TYPE /\ exists text, body = PyStr text))).
    { intros p K. destruct (str_in FRPC_TYPE types) eqn:EL; apply answer_kind in K as (-> & -> & _ & K); (split; [reflexivity|]).
      - left. apply str_in_in, (listed_in _ _ frpc_name) in EL. auto.
      - right. split; [reflexivity|]. split; [apply (listed_in _ _ LX), str_in_in; auto|]. split; [|exact K]. intros X. apply (listed_in _ _ frpc_name), str_in_in in X. fold types in X. congruence. }
    destruct res as [v|x]; [injection H as _ H; exact (K _ H)|]. destruct (x_exception x); [|discriminate]. destruct (x_text x); [|discriminate]. injection H as _ H. exact (K _ H).
  Qed.
End Handlers.

(** ** C100: a call runs its method once, with the parameters sent, and the answer carries the result *)
Section Calls.
  Context {W : Type}.
  Variable host : datetime -> datetime.
  Variable fin : Z -> bytes.
  Variable pass native : bool.
  Variable P : parser.
  Variable strtod : bytes -> option Z.
  Variable bad_args : list py -> pystr.
  Variable bad_await : py -> pystr.
  Hypothesis HP : prompt P.
  Notation flask := (@flask_handle W host fin pass native P strtod false bad_args bad_await).
  Notation aiohttp := (@aiohttp_handle W host fin pass native P strtod false bad_args bad_await).
  Notation tornado := (@tornado_post W host fin pass native P strtod false bad_args).
  Notation asks' := (asks host native fin strtod).
  Notation tells' := (tells host native strtod).
  Notation can' := (can_tell host fin strtod).

  Lemma reads_lists : forall ps l l', Forall2 (S_Python.reads host native) ps l -> Forall2 (S_Python.reads host native) ps l' -> l = l'.
  Proof. induction ps as [|v ps IH]; intros l l' A B; inversion A; inversion B; subst; [reflexivity|]. f_equal; [eapply reads_one; eauto|eapply IH; eauto]. Qed.
  Lemma loads_asks : forall data n l, asks' data n l -> loads_any host pass native P strtod false None data = PyOk (PyTuple l, Some n).
  Proof.
    intros data n l [ver name n' ps l' wire HM NO NS F S R|ver name n' ps l' text M NO NT NS F X R].
    - assert (F1 : Forall (wf ver) ps /\ Forall texts ps /\ Forall no_nul_names ps) by (repeat split; (eapply Forall_impl; [|exact F]; intros v (A & B & C); assumption)). destruct F1 as (F1 & F2 & F3).
      destruct (C80_loads_calls_partial host pass native ver name n' ps HM NO NS F1 F2 F3) as (wire' & l2 & S' & L & R'). rewrite S in S'. inversion S'; subst wire'.
      destruct (starts_magic ver (PMethodCall name) _ wire I S) as [L4 MG]. rewrite loads_detected by assumption. rewrite L, (reads_lists _ _ _ R R'). reflexivity.
    - assert (FW : Forall (xml_wf (double_exact fin strtod)) ps) by (eapply Forall_impl; [|exact F]; intros v [A _]; exact A).
      assert (FU : Forall uniq ps) by (eapply Forall_impl; [|exact F]; intros v [_ A]; exact (ordered_uniq v A)).
      rewrite (call_output fin _ ver name ps M NO FW) in X. assert (ET : text = x_magic ver ++ call_body fin name ps) by congruence. rewrite ET. clear X ET text.
      pose proof (call_doc_ok fin _ (exact_plain fin strtod) ver name ps NT FW) as DOC.
      destruct (xml_parameters host pass native fin strtod ps name FW FU) as (l2 & m & R' & E).
      destruct (read_call (pb_step host pass native) strtod fin TYPE_ANY name ps pb_init _ _ FW (or_introl eq_refl) eq_refl E) as (u & S & D).
      rewrite (whole_text host pass native P strtod HP None ver _ _ _ _ ltac:(discriminate) (proj1 M) DOC S D). cbn. rewrite (decode_same false name n' NS), (reads_lists _ _ _ R R'). reflexivity.
  Qed.

  Lemma modern_21 : modern (mkVer 2 1).
  Proof. unfold modern. cbn. lia. Qed.
  Lemma answer_binary : forall n acc q, n <> 0 -> can' FRPC_TYPE q ->
    exists wire, rpc_answer host fin FRPC_TYPE n acc (PyTuple [q]) = A_rpc FRPC_TYPE (blen wire) acc (PyBytes wire) /\ tells' (PyBytes wire) q.
  Proof.
    intros n acc q N (O & [(_ & WI & S)|(X & _)]); [|discriminate]. unfold rpc_answer. rewrite dumps_any_binary by exact N.
    destruct (C79_python_responses host (mkVer 2 1) (PyTuple [q]) q modern_21 (or_introl eq_refl) O WI (sends_no_large (mkVer 2 1) q S)) as [(_ & wire & u & D & ME & R)|[X _]]; [|contradiction].
    cbn [v_major v_minor] in D. rewrite D. exists wire. split; [reflexivity|]. eapply tells_binary; eauto.
  Qed.
  Lemma answer_xml : forall acc q, can' XML_TYPE q ->
    exists text, rpc_answer host fin XML_TYPE 0 acc (PyTuple [q]) = A_rpc XML_TYPE (zlen text) acc (PyStr text) /\ tells' (PyStr text) q.
  Proof.
    intros acc q (O & [(X & _)|(_ & H)]); [discriminate|]. unfold rpc_answer.
    assert (K : forall P' pass', prompt P' -> exists text, dumps_any host fin 0 2 1 None (PyTuple [q]) = PyOk (PyStr text) /\ loads_data host pass' native P' strtod false None (PyStr text) = PyOk (seen host native (undated q), None)).
    { intros P' pass' HP'. apply (C97_responses_partial host pass' native P' fin strtod (mkVer 2 1) (PyTuple [q]) q None HP'); cbn [v_major v_minor]; try lia; auto; [left; reflexivity|discriminate]. }
    destruct (K P pass HP) as (text & D & _). rewrite D. exists text. split; [reflexivity|]. apply tells_xml. intros P' pass' HP'. destruct (K P' pass' HP') as (t & D' & L). rewrite D in D'. inversion D'; subst t. exact L.
  Qed.
  Lemma answer_given : forall a ct acc q (b : bool), (b = true <-> listed a FRPC_TYPE) -> answer_type a ct -> can' ct q ->
    exists body, (if b then rpc_answer host fin FRPC_TYPE 1 acc (PyTuple [q]) else rpc_answer host fin XML_TYPE 0 acc (PyTuple [q])) = A_rpc ct (body_len body) acc body /\ tells' body q.
  Proof.
    intros a ct acc q b B [[-> L]|[-> L]] CT.
    - replace b with true by (symmetry; tauto). destruct (answer_binary 1 acc q ltac:(lia) CT) as (wire & E & T). exists (PyBytes wire). auto.
    - replace b with false by (symmetry; destruct b; tauto). destruct (answer_xml acc q CT) as (text & E & T). exists (PyStr text). auto.
  Qed.
  Lemma in_listed : forall a, str_in FRPC_TYPE (map py_strip (py_split a)) = true <-> listed a FRPC_TYPE.
  Proof. intros a. rewrite str_in_in. apply listed_in. exact frpc_name. Qed.

  (** A request flask.py takes: of a type and with a field Accept that are allowed; a binary one in one chunk and on uWSGI. *)
  Definition flask_takes (uwsgi : bool) (allowed : list pystr) (r : hrequest) (a : pystr) (data : bytes) : Prop :=
    hq_accept r = Some a /\ accepts_one allowed a /\ exists ct, hq_type r = Some ct /\ In ct allowed /\
    (ct = FRPC_TYPE /\ uwsgi = true /\ hq_chunks r = [data] \/ ct <> FRPC_TYPE /\ concat (hq_chunks r) = data).
  Lemma flask_core : forall uwsgi allowed all w r a data args name, Forall type_name allowed -> flask_takes uwsgi allowed r a data ->
    loads_any host pass native P strtod false None data = PyOk (args, name) ->
    flask uwsgi allowed all w r =
    match answer_of bad_args bad_await all false w name (args_in args) with
    | (w', inr x) => (w', A_raise (F_exc x))
    | (w', inl v) => (w', if str_in FRPC_TYPE (map py_strip (py_split a)) then rpc_answer host fin FRPC_TYPE 1 allowed (PyTuple [autostatus v]) else rpc_answer host fin XML_TYPE 0 allowed (PyTuple [autostatus v]))
    end.
  Proof.
    intros uwsgi allowed all w r a data args name F (EA & AO & ct & ET & IT & HD) L. unfold flask_handle, flask_types. rewrite EA, ET. cbv zeta. rewrite (proj2 (accepts_one_spec _ _ F) AO), (proj2 (str_in_in _ _) IT). cbn [negb].
    replace (if str_eqb FRPC_TYPE ct then if uwsgi then Some (hd [] (hq_chunks r)) else None else Some (concat (hq_chunks r))) with (Some data).
    2:{ destruct HD as [(-> & -> & ->)|(N & ->)]; [rewrite str_eqb_refl; reflexivity|]. rewrite str_eqb_neq by congruence. reflexivity. }
    rewrite L. reflexivity.
  Qed.
  Theorem C100_flask_partial : forall uwsgi allowed introspection regs w r a data n l m f w' v q ct,
    Forall type_name allowed -> flask_takes uwsgi allowed r a data -> asks' data n l ->
    latest (own_flask introspection ++ regs) n m -> h_kind m = H_user f -> f w l = (w', HReturn v) ->
    is_object v -> with_status v q -> answer_type a ct -> can' ct q ->
    exists len body, flask uwsgi allowed (registered (own_flask introspection) regs) w r = (w', A_rpc ct len allowed body) /\ tells' body q.
  Proof.
    intros uwsgi allowed introspection regs w r a data n l m f w' v q ct F TK AS LT HK HF OV WS AT CT.
    rewrite (flask_core uwsgi allowed _ w r a data _ _ F TK (loads_asks _ _ _ AS)). unfold answer_of. rewrite (registered_latest _ _ _ _ (own_flask_nodup introspection) LT). unfold run_method. rewrite HK. cbn [args_in]. rewrite HF. cbn [andb].
    rewrite (autostatus_is v q OV WS). destruct (answer_given a ct allowed q _ (in_listed a) AT CT) as (body & -> & T). eauto.
  Qed.

  (** A request aiohttp.py takes; the field Accept may be missing. *)
  Definition aiohttp_takes (allowed : list pystr) (r : hrequest) (a : pystr) (data : bytes) : Prop :=
    concat (hq_chunks r) = data /\ exists ct, hq_type r = Some ct /\ In ct allowed /\ (hq_accept r = Some a /\ accepts_one allowed a \/ (hq_accept r = None \/ hq_accept r = Some []) /\ a = ct).
  Lemma aiohttp_core : forall allowed all w r a data args name, Forall type_name allowed -> aiohttp_takes allowed r a data ->
    loads_any host pass native P strtod false None data = PyOk (args, name) ->
    exists b, (b = true <-> listed a FRPC_TYPE) /\ aiohttp allowed all w r =
    match answer_of bad_args bad_await all true w name (args_in args) with
    | (w', inr x) => (w', A_raise (F_exc x))
    | (w', inl v) => (w', if b : bool then rpc_answer host fin FRPC_TYPE 2 allowed (PyTuple [v]) else rpc_answer host fin XML_TYPE 3 allowed (PyTuple [v]))
    end.
  Proof.
    intros allowed all w r a data args name F (HD & ct & ET & IT & HA) L.
    assert (X : exists types, (match map py_strip (filter (fun s => negb (str_eqb s [])) (py_split (match hq_accept r with Some a => a | None => [] end))) with [] => option_map (fun t => [t]) (hq_type r) | _ => Some (map py_strip (filter (fun s => negb (str_eqb s [])) (py_split (match hq_accept r with Some a => a | None => [] end)))) end) = Some types /\
      existsb (fun t => str_in t allowed) types = true /\ (str_in FRPC_TYPE types = true <-> listed a FRPC_TYPE)).
    { destruct HA as [[EA AO]|[EA ->]].
      - rewrite EA. pose proof (proj2 (one_nonempty _ _ F) AO) as Y. destruct (map py_strip _) as [|x z] eqn:EM; [discriminate|]. eexists. split; [reflexivity|]. split; [exact Y|]. rewrite str_in_in, <- EM. apply listed_nonempty. exact frpc_name.
      - assert (EF : filter (fun s => negb (str_eqb s [])) (py_split (match hq_accept r with Some a => a | None => [] end)) = []) by (destruct EA as [->| ->]; reflexivity).
        rewrite EF, ET. cbn [map option_map]. eexists. split; [reflexivity|]. cbn [existsb]. rewrite (proj2 (str_in_in _ _) IT). split; [reflexivity|].
        rewrite str_in_in. assert (TN : type_name ct) by (rewrite Forall_forall in F; auto). split.
        + intros [E|[]]. rewrite E. apply (listed_in _ _ frpc_name). rewrite (own_listed FRPC_TYPE); [left; reflexivity|right; left; reflexivity].
        + intros LI. apply (listed_in _ _ frpc_name) in LI. left.
          assert (SP : py_split ct = [ct]) by (apply split_last, TN). rewrite SP in LI. cbn [map] in LI. destruct LI as [LI|[]]. pose proof (strip_name [] ct [] ltac:(constructor) ltac:(constructor) TN) as Y. cbn [app] in Y. rewrite app_nil_r in Y. congruence. }
    destruct X as (types & E1 & E2 & E3). exists (str_in FRPC_TYPE types). split; [exact E3|]. unfold aiohttp_handle. cbv zeta. rewrite E1, E2, ET, (proj2 (str_in_in _ _) IT), HD, L. reflexivity.
  Qed.
  (** Binary answers only; for XML see C99_aiohttp_type_refuted. *)
  Theorem C100_aiohttp_partial : forall allowed introspection regs w r a data n l m f w' v,
    Forall type_name allowed -> aiohttp_takes allowed r a data -> asks' data n l ->
    latest (own_aiohttp introspection ++ regs) n m -> h_kind m = H_user f -> h_coroutine m = true -> f w l = (w', HReturn v) ->
    listed a FRPC_TYPE -> can' FRPC_TYPE v ->
    exists len body, aiohttp allowed (registered (own_aiohttp introspection) regs) w r = (w', A_rpc FRPC_TYPE len allowed body) /\ tells' body v.
  Proof.
    intros allowed introspection regs w r a data n l m f w' v F TK AS LT HK HC HF LI CT.
    destruct (aiohttp_core allowed (registered (own_aiohttp introspection) regs) w r a data _ _ F TK (loads_asks _ _ _ AS)) as (b & B & ->). unfold answer_of. rewrite (registered_latest _ _ _ _ (own_aiohttp_nodup introspection) LT). unfold run_method. rewrite HK. cbn [args_in]. rewrite HF, HC. cbn [andb negb].
    replace b with true by (symmetry; tauto). destruct (answer_binary 2 allowed v ltac:(lia) CT) as (wire & -> & T). eauto.
  Qed.

  (** A request tornado.py takes. *)
  Definition tornado_takes (r : hrequest) (a : pystr) (data : bytes) : Prop :=
    concat (hq_chunks r) = data /\ exists ct, hq_type r = Some ct /\ In ct supported /\ (hq_accept r = Some a /\ accepts_one supported a \/ (hq_accept r = None \/ hq_accept r = Some []) /\ a = ct).
  Lemma tornado_core : forall all w r a data args name, tornado_takes r a data ->
    loads_any host pass native P strtod false None data = PyOk (args, name) ->
    exists b, (b = true <-> listed a FRPC_TYPE) /\ tornado all w r =
    match (match name with Some n => find_method n all | None => None end) with
    | None => (w, A_raise F_key)
    | Some m =>
        let '(w', res) := run_method bad_args all false m w (args_in args) in
        match res with
        | HReturn v => (w', if b : bool then rpc_answer host fin FRPC_TYPE 1 supported (PyTuple [v]) else rpc_answer host fin XML_TYPE 0 supported (PyTuple [v]))
        | HRaise x =>
            if x_exception x then
              match x_text x with
              | Some t => (w', if b then rpc_answer host fin FRPC_TYPE 1 supported (PyFault (PyInt (-500)) (PyStr (x_class x ++ ustr ": " ++ t))) else rpc_answer host fin XML_TYPE 0 supported (PyFault (PyInt (-500)) (PyStr (x_class x ++ ustr ": " ++ t))))
              | None => (w', A_raise (F_exc x))
              end
            else (w', A_raise (F_exc x))
        end
    end.
  Proof.
    intros all w r a data args name (HD & ct & ET & IT & HA) L. unfold tornado_post. rewrite ET, (proj2 (str_in_in _ _) IT). cbn [negb]. cbv zeta.
    destruct (possible_spec r ct IT) as [EP NP]. cbv zeta in EP, NP. rewrite EP in *. clear EP.
    assert (EA : tornado_types r ct = a).
    { unfold tornado_types. destruct HA as [[-> AO]|[[->| ->] ->]]; try reflexivity. destruct a as [|c a]; [|reflexivity]. exfalso. destruct AO as (t & IS & (b1 & s1 & s2 & a1 & E & _)). destruct b1; [|discriminate]. destruct s1; [|discriminate].
      destruct IS as [<-|[<-|[]]]; discriminate. }
    rewrite EA in *.
    assert (AO : accepts_one supported a).
    { destruct HA as [[_ AO]|[_ ->]]; [exact AO|]. exists ct. split; [exact IT|]. apply listed_in; [pose proof supported_names as SN; rewrite Forall_forall in SN; auto|rewrite (own_listed ct IT); left; reflexivity]. }
    assert (FR : str_in FRPC_TYPE (filter (fun t0 => str_in t0 (map py_strip (py_split a))) supported) = str_in FRPC_TYPE (map py_strip (py_split a))).
    { cbn [filter supported]. destruct (str_in XML_TYPE _), (str_in FRPC_TYPE (map _ _)); vm_compute; reflexivity. }
    exists (str_in FRPC_TYPE (map py_strip (py_split a))). split; [apply in_listed|]. rewrite FR. destruct (filter _ supported) as [|t0 l0]; [exfalso; apply (proj1 NP eq_refl); exact AO|].
    rewrite HD, L. destruct name as [n|]; [|reflexivity]. destruct (find_method n all) as [m|]; [|reflexivity]. destruct (run_method _ _ _ _ _ _) as [w1 [v|x]]; [reflexivity|]. destruct (x_exception x); [|reflexivity]. destruct (x_text x); reflexivity.
  Qed.
  Lemma find_dict : forall (all : @hmethods W) n m, NoDup (map fst all) -> In (n, m) all -> find_method n all = Some m.
  Proof.
    intros all n m. induction all as [|[k x] all IH]; intros N I; [destruct I|]. inversion N; subst. cbn [find_method]. destruct I as [I|I].
    - inversion I; subst. rewrite str_eqb_refl. reflexivity.
    - rewrite str_eqb_neq; [auto|]. intros ->. apply H1. apply in_map_iff. exists (k, m). auto.
  Qed.
  Theorem C100_tornado_partial : forall all w r a data n l m f w' v ct,
    tornado_takes r a data -> asks' data n l -> NoDup (map fst all) -> In (n, m) all -> h_kind m = H_user f -> f w l = (w', HReturn v) ->
    answer_type a ct -> can' ct v -> exists len body, tornado all w r = (w', A_rpc ct len supported body) /\ tells' body v.
  Proof.
    intros all w r a data n l m f w' v ct TK AS ND IM HK HF AT CT. destruct (tornado_core all w r a data _ _ TK (loads_asks _ _ _ AS)) as (b & B & ->). rewrite (find_dict all n m ND IM). unfold run_method. rewrite HK. cbn [args_in]. rewrite HF.
    destruct (answer_given a ct supported v b B AT CT) as (body & -> & T). eauto.
  Qed.

  (** ** C101: names there are not, and exceptions *)
  Definition quoted (a : string) (n : pystr) (b : string) : pystr := ustr a ++ n ++ ustr b.
  Lemma own_status : forall n t, n <> 200 -> autostatus (status_dict n t) = status_of n t.
  Proof.
    intros n t N. unfold status_dict, autostatus. set (m := [(PyStr (ustr "status"), PyInt n); (PyStr (ustr "statusMessage"), PyStr t)]).
    change (has_key "status" m) with true. cbv zeta iota. change (has_key "statusMessage" m) with true. reflexivity.
  Qed.
  Theorem C101_flask_unknown_partial : forall uwsgi allowed introspection regs w r a data n l ct,
    Forall type_name allowed -> flask_takes uwsgi allowed r a data -> asks' data n l -> ~ In n (map fst (own_flask introspection ++ regs)) ->
    answer_type a ct -> can' ct (status_of 501 (quoted "Method '" n "' not found.")) ->
    exists len body, flask uwsgi allowed (registered (own_flask introspection) regs) w r = (w, A_rpc ct len allowed body) /\ tells' body (status_of 501 (quoted "Method '" n "' not found.")).
  Proof.
    intros uwsgi allowed introspection regs w r a data n l ct F TK AS NI AT CT.
    rewrite (flask_core uwsgi allowed _ w r a data _ _ F TK (loads_asks _ _ _ AS)). unfold answer_of. rewrite (registered_none _ _ _ (own_flask_nodup introspection) NI). unfold not_found. rewrite own_status by lia. fold (quoted "Method '" n "' not found.").
    destruct (answer_given a ct allowed _ _ (in_listed a) AT CT) as (body & -> & T). eauto.
  Qed.
  Theorem C101_flask_exception_partial : forall uwsgi allowed introspection regs w r a data n l m f w' x t ct,
    Forall type_name allowed -> flask_takes uwsgi allowed r a data -> asks' data n l ->
    latest (own_flask introspection ++ regs) n m -> h_kind m = H_user f -> f w l = (w', HRaise x) -> x_exception x = true -> x_text x = Some t ->
    answer_type a ct -> can' ct (status_of 500 t) ->
    exists len body, flask uwsgi allowed (registered (own_flask introspection) regs) w r = (w', A_rpc ct len allowed body) /\ tells' body (status_of 500 t).
  Proof.
    intros uwsgi allowed introspection regs w r a data n l m f w' x t ct F TK AS LT HK HF XE XT AT CT.
    rewrite (flask_core uwsgi allowed _ w r a data _ _ F TK (loads_asks _ _ _ AS)). unfold answer_of. rewrite (registered_latest _ _ _ _ (own_flask_nodup introspection) LT). unfold run_method. rewrite HK. cbn [args_in]. rewrite HF. cbv zeta beta iota. rewrite XE, XT.
    rewrite own_status by lia. destruct (answer_given a ct allowed _ _ (in_listed a) AT CT) as (body & -> & T). eauto.
  Qed.
  (** Exceptions that are no [Exception] go to the framework; what the method has done stays. *)
  Theorem C101_flask_passed : forall uwsgi allowed introspection regs w r a data n l m f w' x,
    Forall type_name allowed -> flask_takes uwsgi allowed r a data -> asks' data n l ->
    latest (own_flask introspection ++ regs) n m -> h_kind m = H_user f -> f w l = (w', HRaise x) -> x_exception x = false \/ x_text x = None ->
    flask uwsgi allowed (registered (own_flask introspection) regs) w r = (w', A_raise (F_exc x)).
  Proof.
    intros uwsgi allowed introspection regs w r a data n l m f w' x F TK AS LT HK HF XE.
    rewrite (flask_core uwsgi allowed _ w r a data _ _ F TK (loads_asks _ _ _ AS)). unfold answer_of. rewrite (registered_latest _ _ _ _ (own_flask_nodup introspection) LT). unfold run_method. rewrite HK. cbn [args_in]. rewrite HF. cbv zeta beta iota.
    destruct XE as [->| ->]; [reflexivity|]. destruct (x_exception x); reflexivity.
  Qed.
  Theorem C101_aiohttp_unknown_partial : forall allowed introspection regs w r a data n l,
    Forall type_name allowed -> aiohttp_takes allowed r a data -> asks' data n l -> ~ In n (map fst (own_aiohttp introspection ++ regs)) ->
    listed a FRPC_TYPE -> can' FRPC_TYPE (status_of 501 (quoted "Method '" n "' not found.")) ->
    exists len body, aiohttp allowed (registered (own_aiohttp introspection) regs) w r = (w, A_rpc FRPC_TYPE len allowed body) /\ tells' body (status_of 501 (quoted "Method '" n "' not found.")).
  Proof.
    intros allowed introspection regs w r a data n l F TK AS NI LI CT.
    destruct (aiohttp_core allowed (registered (own_aiohttp introspection) regs) w r a data _ _ F TK (loads_asks _ _ _ AS)) as (b & B & ->). unfold answer_of. rewrite (registered_none _ _ _ (own_aiohttp_nodup introspection) NI).
    replace b with true by (symmetry; tauto). change (not_found (Some n)) with (status_of 501 (quoted "Method '" n "' not found.")). destruct (answer_binary 2 allowed _ ltac:(lia) CT) as (wire & -> & T). eauto.
  Qed.
  Theorem C101_aiohttp_exception_partial : forall allowed introspection regs w r a data n l m f w' x t,
    Forall type_name allowed -> aiohttp_takes allowed r a data -> asks' data n l ->
    latest (own_aiohttp introspection ++ regs) n m -> h_kind m = H_user f -> f w l = (w', HRaise x) -> x_exception x = true -> x_text x = Some t ->
    listed a FRPC_TYPE -> can' FRPC_TYPE (status_of 500 t) ->
    exists len body, aiohttp allowed (registered (own_aiohttp introspection) regs) w r = (w', A_rpc FRPC_TYPE len allowed body) /\ tells' body (status_of 500 t).
  Proof.
    intros allowed introspection regs w r a data n l m f w' x t F TK AS LT HK HF XE XT LI CT.
    destruct (aiohttp_core allowed (registered (own_aiohttp introspection) regs) w r a data _ _ F TK (loads_asks _ _ _ AS)) as (b & B & ->). unfold answer_of. rewrite (registered_latest _ _ _ _ (own_aiohttp_nodup introspection) LT). unfold run_method. rewrite HK. cbn [args_in]. rewrite HF. cbv zeta beta iota. rewrite XE, XT.
    replace b with true by (symmetry; tauto). change (status_dict 500 t) with (status_of 500 t). destruct (answer_binary 2 allowed _ ltac:(lia) CT) as (wire & -> & T). eauto.
  Qed.
  (** A method that is no coroutine is run, its result lost: the answer is an error. *)
  Theorem C100_aiohttp_plain_refuted : forall allowed introspection regs w r a data n l m f w' v,
    Forall type_name allowed -> aiohttp_takes allowed r a data -> asks' data n l ->
    latest (own_aiohttp introspection ++ regs) n m -> h_kind m = H_user f -> h_coroutine m = false -> f w l = (w', HReturn v) ->
    listed a FRPC_TYPE -> can' FRPC_TYPE (status_of 500 (bad_await v)) ->
    exists len body, aiohttp allowed (registered (own_aiohttp introspection) regs) w r = (w', A_rpc FRPC_TYPE len allowed body) /\ tells' body (status_of 500 (bad_await v)).
  Proof.
    intros allowed introspection regs w r a data n l m f w' v F TK AS LT HK HC HF LI CT.
    destruct (aiohttp_core allowed (registered (own_aiohttp introspection) regs) w r a data _ _ F TK (loads_asks _ _ _ AS)) as (b & B & ->). unfold answer_of. rewrite (registered_latest _ _ _ _ (own_aiohttp_nodup introspection) LT). unfold run_method. rewrite HK. cbn [args_in]. rewrite HF, HC. cbn [andb negb x_exception x_text].
    replace b with true by (symmetry; tauto). change (status_dict 500 (bad_await v)) with (status_of 500 (bad_await v)). destruct (answer_binary 2 allowed _ ltac:(lia) CT) as (wire & -> & T). eauto.
  Qed.
  (** tornado.py: an unknown name is an exception, which the framework answers; an exception of a method is a fault. *)
  Theorem C101_tornado_unknown : forall all w r a data n l, tornado_takes r a data -> asks' data n l -> ~ In n (map fst all) -> tornado all w r = (w, A_raise F_key).
  Proof.
    intros all w r a data n l TK AS NI. destruct (tornado_core all w r a data _ _ TK (loads_asks _ _ _ AS)) as (b & B & ->). rewrite (proj2 (find_in n all) NI). reflexivity.
  Qed.
  Theorem C101_tornado_exception_partial : forall all w r a data n l m f w' x t ct,
    tornado_takes r a data -> asks' data n l -> NoDup (map fst all) -> In (n, m) all -> h_kind m = H_user f -> f w l = (w', HRaise x) -> x_exception x = true -> x_text x = Some t ->
    answer_type a ct -> let msg := x_class x ++ ustr ": " ++ t in Forall uchar msg -> blen (flat_map utf8_char msg) < 2 ^ 30 -> (ct = XML_TYPE -> xml_str msg) ->
    exists len body, tornado all w r = (w', A_rpc ct len supported body) /\ tells_fault host native strtod body (-500) msg.
  Proof.
    intros all w r a data n l m f w' x t ct TK AS ND IM HK HF XE XT AT msg U L XS. destruct (tornado_core all w r a data _ _ TK (loads_asks _ _ _ AS)) as (b & B & ->). rewrite (find_dict all n m ND IM). unfold run_method. rewrite HK. cbn [args_in]. rewrite HF. cbv zeta beta iota. rewrite XE, XT. fold msg.
    unfold rpc_answer. destruct AT as [[-> LI]|[-> LI]].
    - replace b with true by (symmetry; tauto). rewrite dumps_any_binary by lia.
      destruct (C79_python_faults host (mkVer 2 1) (-500) msg modern_21 ltac:(unfold in_s32; lia) U ltac:(unfold msg; destruct (x_class x); discriminate) L) as (wire & D & R). cbn [v_major v_minor] in D. rewrite D.
      do 2 eexists. split; [reflexivity|]. apply fault_binary. exact R.
    - replace b with false by (symmetry; destruct b; tauto).
      assert (K : forall P' pass', prompt P' -> exists text, dumps_any host fin 0 2 1 None (PyFault (PyInt (-500)) (PyStr msg)) = PyOk (PyStr text) /\ loads_data host pass' native P' strtod false None (PyStr text) = PyRaise (PE_Fault (PyInt (-500)) (PyStr msg))).
      { intros P' pass' HP'. apply (C97_faults_partial host pass' native P' fin strtod (mkVer 2 1) (-500) msg None HP'); cbn [v_major v_minor]; try lia; auto; [unfold in_s32; lia|discriminate]. }
      destruct (K P pass HP) as (text & D & _). rewrite D. do 2 eexists. split; [reflexivity|]. apply fault_xml. intros P' pass' HP'. destruct (K P' pass' HP') as (t' & D' & LO). rewrite D in D'. inversion D'; subst t'. exact LO.
  Qed.

  (** ** C102: introspection *)
  Lemma latest_own : forall (own regs : @hmethods W) n m, NoDup (map fst own) -> In (n, m) own -> ~ In n (map fst regs) -> latest (own ++ regs) n m.
  Proof.
    intros own regs n m ND I NI. apply in_split in I as (b & e & ->). exists b, (e ++ regs). split; [rewrite <- app_assoc; reflexivity|]. rewrite map_app. intros X. apply in_app_or in X as [X|X]; [|contradiction].
    rewrite map_app in ND. cbn [map fst] in ND. apply NoDup_remove_2 in ND. apply ND. apply in_or_app. auto.
  Qed.
  Theorem C102_flask_names_partial : forall uwsgi allowed regs w r a data ct, let names := PyList (map PyStr (first_ones (map fst (own_flask true ++ regs)))) in
    Forall type_name allowed -> flask_takes uwsgi allowed r a data -> asks' data (ustr "system.listMethods") [] -> ~ In (ustr "system.listMethods") (map fst regs) -> answer_type a ct -> can' ct names ->
    exists len body, flask uwsgi allowed (registered (own_flask true) regs) w r = (w, A_rpc ct len allowed body) /\ tells' body names.
  Proof.
    intros uwsgi allowed regs w r a data ct names F TK AS NI AT CT.
    rewrite (flask_core uwsgi allowed _ w r a data _ _ F TK (loads_asks _ _ _ AS)). unfold answer_of.
    rewrite (registered_latest _ _ _ _ (own_flask_nodup true) (latest_own _ _ _ _ (own_flask_nodup true) (or_introl eq_refl) NI)). unfold run_method. cbn [h_kind args_in andb]. cbv iota beta. cbn [autostatus].
    replace (map (fun kv => PyStr (fst kv)) (registered (own_flask true) regs)) with (map PyStr (first_ones (map fst (own_flask true ++ regs)))) by (rewrite <- (registered_names regs (own_flask true) (own_flask_nodup true)), map_map; reflexivity).
    fold names. destruct (answer_given a ct allowed names _ (in_listed a) AT CT) as (body & -> & T). eauto.
  Qed.
  Theorem C102_flask_help_partial : forall uwsgi allowed regs w r a data ct k m,
    Forall type_name allowed -> flask_takes uwsgi allowed r a data -> asks' data (ustr "system.methodHelp") [PyStr k] -> ~ In (ustr "system.methodHelp") (map fst regs) -> latest (own_flask true ++ regs) k m ->
    let doc := PyStr (match h_doc m with Some d => d | None => [] end) in answer_type a ct -> can' ct doc ->
    exists len body, flask uwsgi allowed (registered (own_flask true) regs) w r = (w, A_rpc ct len allowed body) /\ tells' body doc.
  Proof.
    intros uwsgi allowed regs w r a data ct k m F TK AS NI LT doc AT CT.
    rewrite (flask_core uwsgi allowed _ w r a data _ _ F TK (loads_asks _ _ _ AS)). unfold answer_of.
    rewrite (registered_latest _ _ _ _ (own_flask_nodup true) (latest_own _ _ _ _ (own_flask_nodup true) (or_intror (or_introl eq_refl)) NI)). unfold run_method. cbn [h_kind args_in andb]. cbv iota beta.
    rewrite (registered_latest _ _ _ _ (own_flask_nodup true) LT).
    replace (match h_doc m with Some (c :: d) => PyStr (c :: d) | Some [] => PyStr [] | None => PyStr [] end) with doc by (unfold doc; destruct (h_doc m) as [[|c d]|]; reflexivity). cbn [autostatus doc].
    fold doc. destruct (answer_given a ct allowed doc _ (in_listed a) AT CT) as (body & -> & T). eauto.
  Qed.
  (** An unknown name: the text of the exception. *)
  Theorem C102_flask_no_help_partial : forall uwsgi allowed regs w r a data ct k,
    Forall type_name allowed -> flask_takes uwsgi allowed r a data -> asks' data (ustr "system.methodHelp") [PyStr k] -> ~ In (ustr "system.methodHelp") (map fst regs) -> ~ In k (map fst (own_flask true ++ regs)) ->
    answer_type a ct -> can' ct (status_of 500 (quoted "Method '" k "' doesn't exist")) ->
    exists len body, flask uwsgi allowed (registered (own_flask true) regs) w r = (w, A_rpc ct len allowed body) /\ tells' body (status_of 500 (quoted "Method '" k "' doesn't exist")).
  Proof.
    intros uwsgi allowed regs w r a data ct k F TK AS NI NK AT CT.
    rewrite (flask_core uwsgi allowed _ w r a data _ _ F TK (loads_asks _ _ _ AS)). unfold answer_of.
    rewrite (registered_latest _ _ _ _ (own_flask_nodup true) (latest_own _ _ _ _ (own_flask_nodup true) (or_intror (or_introl eq_refl)) NI)). unfold run_method. cbn [h_kind args_in andb]. cbv iota beta.
    rewrite (registered_none _ _ _ (own_flask_nodup true) NK). unfold no_method, plain_exc. cbn [x_exception x_text]. fold (quoted "Method '" k "' doesn't exist").
    rewrite own_status by lia. destruct (answer_given a ct allowed _ _ (in_listed a) AT CT) as (body & -> & T). eauto.
  Qed.
  (** server.stat answers that all is well. *)
  Theorem C102_flask_stat_partial : forall uwsgi allowed introspection regs w r a data ct, let ok := PyDict [(key "status", PyInt 200); (key "statusMessage", PyStr (ustr "OK"))] in
    Forall type_name allowed -> flask_takes uwsgi allowed r a data -> asks' data (ustr "server.stat") [] -> ~ In (ustr "server.stat") (map fst regs) -> answer_type a ct -> can' ct ok ->
    exists len body, flask uwsgi allowed (registered (own_flask introspection) regs) w r = (w, A_rpc ct len allowed body) /\ tells' body ok.
  Proof.
    intros uwsgi allowed introspection regs w r a data ct ok F TK AS NI AT CT.
    rewrite (flask_core uwsgi allowed _ w r a data _ _ F TK (loads_asks _ _ _ AS)). unfold answer_of.
    assert (I : exists m, In (ustr "server.stat", m) (@own_flask W introspection) /\ h_kind m = H_stat) by (eexists; split; [unfold own_flask; apply in_or_app; right; left; reflexivity|reflexivity]). destruct I as (m & I & HK).
    rewrite (registered_latest _ _ _ _ (own_flask_nodup introspection) (latest_own _ _ _ _ (own_flask_nodup introspection) I NI)). unfold run_method. rewrite HK. cbn [args_in andb]. cbv iota beta.
    change (autostatus (PyDict [])) with ok. destruct (answer_given a ct allowed ok _ (in_listed a) AT CT) as (body & -> & T). eauto.
  Qed.
  Theorem C102_aiohttp_names_partial : forall allowed regs w r a data, let names := PyList (map PyStr (first_ones (map fst (own_aiohttp true ++ regs)))) in
    Forall type_name allowed -> aiohttp_takes allowed r a data -> asks' data (ustr "system.listMethods") [] -> ~ In (ustr "system.listMethods") (map fst regs) -> listed a FRPC_TYPE -> can' FRPC_TYPE names ->
    exists len body, aiohttp allowed (registered (own_aiohttp true) regs) w r = (w, A_rpc FRPC_TYPE len allowed body) /\ tells' body names.
  Proof.
    intros allowed regs w r a data names F TK AS NI LI CT.
    destruct (aiohttp_core allowed (registered (own_aiohttp true) regs) w r a data _ _ F TK (loads_asks _ _ _ AS)) as (b & B & ->). unfold answer_of.
    rewrite (registered_latest _ _ _ _ (own_aiohttp_nodup true) (latest_own _ _ _ _ (own_aiohttp_nodup true) (or_introl eq_refl) NI)). unfold run_method. cbn [h_kind h_coroutine args_in andb negb]. cbv iota beta.
    replace (map (fun kv => PyStr (fst kv)) (registered (own_aiohttp true) regs)) with (map PyStr (first_ones (map fst (own_aiohttp true ++ regs)))) by (rewrite <- (registered_names regs (own_aiohttp true) (own_aiohttp_nodup true)), map_map; reflexivity).
    replace b with true by (symmetry; tauto). fold names. destruct (answer_binary 2 allowed names ltac:(lia) CT) as (wire & -> & T). eauto.
  Qed.
  Theorem C102_tornado_names_partial : forall all w r a data n m ct, let names := PyList (map PyStr (map fst all)) in
    tornado_takes r a data -> asks' data n [] -> NoDup (map fst all) -> In (n, m) all -> h_kind m = H_list -> answer_type a ct -> can' ct names ->
    exists len body, tornado all w r = (w, A_rpc ct len supported body) /\ tells' body names.
  Proof.
    intros all w r a data n m ct names TK AS ND IM HK AT CT. destruct (tornado_core all w r a data _ _ TK (loads_asks _ _ _ AS)) as (b & B & ->). rewrite (find_dict all n m ND IM). unfold run_method. rewrite HK. cbn [args_in].
    replace (map (fun kv => PyStr (fst kv)) all) with (map PyStr (map fst all)) by (rewrite map_map; reflexivity). fold names. destruct (answer_given a ct supported names b B AT CT) as (body & -> & T). eauto.
  Qed.
  Theorem C102_tornado_help_partial : forall all w r a data n m k x ct,
    tornado_takes r a data -> asks' data n [PyStr k] -> NoDup (map fst all) -> In (n, m) all -> h_kind m = H_help -> In (k, x) all ->
    let doc := match h_doc x with Some d => PyStr d | None => PyNone end in answer_type a ct -> can' ct doc ->
    exists len body, tornado all w r = (w, A_rpc ct len supported body) /\ tells' body doc.
  Proof.
    intros all w r a data n m k x ct TK AS ND IM HK IX doc AT CT. destruct (tornado_core all w r a data _ _ TK (loads_asks _ _ _ AS)) as (b & B & ->). rewrite (find_dict all n m ND IM). unfold run_method. rewrite HK. cbn [args_in]. rewrite (find_dict all k x ND IX).
    replace (match h_doc x with Some (c :: d) => PyStr (c :: d) | Some [] => PyStr [] | None => PyNone end) with doc by (unfold doc; destruct (h_doc x) as [[|c d]|]; reflexivity).
    destruct (answer_given a ct supported doc b B AT CT) as (body & -> & T). eauto.
  Qed.
End Calls.

(** ** C99 (continued): the type of the answers of aiohttp.py *)
Section More.
  Context {W : Type}.
  Variable host : datetime -> datetime.
  Variable fin : Z -> bytes.
  Variable pass native : bool.
  Variable P : parser.
  Variable strtod : bytes -> option Z.
  Variable erange : bool.
  Variable bad_args : list py -> pystr.
  Variable bad_await : py -> pystr.
  Notation flask := (@flask_handle W host fin pass native P strtod erange bad_args bad_await).
  Notation aiohttp := (@aiohttp_handle W host fin pass native P strtod erange bad_args bad_await).
  Notation tornado := (@tornado_post W host fin pass native P strtod erange bad_args).

  Lemma response_magic : forall n ct acc v ct' len acc' body, n <> 0 -> rpc_answer host fin ct n acc (PyTuple [v]) = A_rpc ct' len acc' body -> exists rest, body = PyBytes (xca :: x11 :: rest).
  Proof.
    intros n ct acc v ct' len acc' body N H. unfold rpc_answer in H. destruct (dumps_any _ _ _ _ _ _ _) eqn:E; inversion H; subst. clear H. rewrite dumps_any_binary in E by exact N. unfold dumps in E.
    change ((2 <? 0) || (1 <? 0)) with false in E. cbv zeta iota in E. change (bin_create (mkVer (u8 2) (u8 1))) with (Ok tt) in E. cbv iota in E. unfold M_Python.written in E. cbn [fst bin_run bin_pack] in E.
    destruct (bin_run _ (fst (feed_py host v))) as [o [f|]].
    - exfalso. destruct f as [[]|]; cbn in E; discriminate E.
    - cbn [snd] in E. destruct (snd (feed_py host v)); inversion E. eexists. reflexivity.
  Qed.
  (** Every answer is in the binary format, also one declared to be XML. *)
  Theorem C99_aiohttp_type_refuted : forall allowed all w r w' ct len acc body,
    aiohttp allowed all w r = (w', A_rpc ct len acc body) -> (ct = FRPC_TYPE \/ ct = XML_TYPE) /\ exists rest, body = PyBytes (xca :: x11 :: rest).
  Proof.
    intros allowed all w r w' ct len acc body H. unfold aiohttp_handle in H. cbv zeta in H. destruct (match map py_strip _ with [] => _ | _ => _ end) as [types|]; [|discriminate]. destruct (existsb _ types); [|discriminate]. cbn [negb] in H.
    destruct (hq_type r) as [c|]; [|discriminate]. destruct (str_in c allowed); [|discriminate]. cbn [negb] in H.
    destruct (loads_any _ _ _ _ _ _ _ _) as [[args name]|e| |]; try discriminate. destruct (answer_of _ _ _ _ _ _ _) as [w1 [v|x]]; [|discriminate].
    destruct (str_in FRPC_TYPE types); injection H as _ H; (split; [apply answer_kind in H as (-> & _); auto|]); (eapply response_magic; [|exact H]); unfold frpc_ALWAYS, frpc_NEVER; lia.
  Qed.

  (** ** C104: the length declared *)
  Theorem C104_binary : forall uwsgi allowed all w r w' ct len acc wire,
    (flask uwsgi allowed all w r = (w', A_rpc ct len acc (PyBytes wire)) \/ aiohttp allowed all w r = (w', A_rpc ct len acc (PyBytes wire)) \/ tornado all w r = (w', A_rpc ct len acc (PyBytes wire))) -> len = blen wire.
  Proof.
    intros uwsgi allowed all w r w' ct len acc wire H.
    assert (K : forall c n ac p, rpc_answer host fin c n ac p = A_rpc ct len acc (PyBytes wire) -> len = blen wire) by (intros c n ac p K; apply answer_kind in K as (_ & _ & K & _); exact K).
    destruct H as [H|[H|H]].
    - unfold flask_handle in H. cbv zeta in H. destruct (existsb _ _); [|discriminate]. cbn [negb] in H. destruct (hq_type r) as [c|]; [|discriminate]. destruct (str_in c allowed); [|discriminate]. cbn [negb] in H.
      destruct (if str_eqb FRPC_TYPE c then _ else _); [|discriminate]. destruct (loads_any _ _ _ _ _ _ _ _) as [[args name]|e| |]; try discriminate.
      destruct (answer_of _ _ _ _ _ _ _) as [w1 [v|x]]; [|discriminate]. destruct (str_in FRPC_TYPE _); injection H as _ H; eapply K; exact H.
    - unfold aiohttp_handle in H. cbv zeta in H. destruct (match map py_strip _ with [] => _ | _ => _ end) as [types|]; [|discriminate]. destruct (existsb _ types); [|discriminate]. cbn [negb] in H.
      destruct (hq_type r) as [c|]; [|discriminate]. destruct (str_in c allowed); [|discriminate]. cbn [negb] in H.
      destruct (loads_any _ _ _ _ _ _ _ _) as [[args name]|e| |]; try discriminate. destruct (answer_of _ _ _ _ _ _ _) as [w1 [v|x]]; [|discriminate].
      destruct (str_in FRPC_TYPE types); injection H as _ H; eapply K; exact H.
    - unfold tornado_post in H. destruct (hq_type r) as [t|]; [|discriminate]. destruct (str_in t supported); [|discriminate]. cbn [negb] in H. cbv zeta in H. destruct (filter _ supported) as [|t0 l]; [discriminate|].
      destruct (loads_any _ _ _ _ _ _ _ _) as [[args [name|]]|e| |]; try discriminate. destruct (find_method name all) as [m|]; [|discriminate]. destruct (run_method _ _ _ _ _ _) as [w1 [v|x]].
      + destruct (str_in FRPC_TYPE _); injection H as _ H; eapply K; exact H.
      + destruct (x_exception x); [|discriminate]. destruct (x_text x); [|discriminate]. destruct (str_in FRPC_TYPE _); injection H as _ H; eapply K; exact H.
  Qed.
  (** XML: characters are counted, so the length is too small if there is one outside of ASCII. *)
  Lemma utf8_length : forall u, let s := flat_map utf8_char u in zlen u <= blen s /\ (Forall (fun c => c < 128) u -> zlen u = blen s) /\ (Exists (fun c => 128 <= c) u -> zlen u < blen s).
  Proof.
    induction u as [|c u (A & B & C)]; cbn [flat_map]; [repeat split; intros; try reflexivity; try (cbn; lia); inversion H|]. set (t := flat_map utf8_char u) in *. cbv zeta.
    assert (L : zlen (c :: u) = 1 + zlen u) by (unfold zlen; cbn [List.length]; lia). assert (K : blen (utf8_char c ++ t) = blen (utf8_char c) + blen t) by (unfold blen; rewrite app_length; lia). rewrite L, K.
    assert (M : 1 <= blen (utf8_char c) /\ (c < 128 -> blen (utf8_char c) = 1) /\ (128 <= c -> 2 <= blen (utf8_char c))).
    { unfold utf8_char. destruct (Z.ltb_spec c 128); [cbn; lia|]. destruct (Z.ltb_spec c 2048); [cbn; lia|]. destruct (Z.ltb_spec c 65536); cbn; lia. }
    split; [lia|]. split; intros F; inversion F as [|? ? H0 H1]; subst; [specialize (B H1); lia|lia|]. apply C in H0; lia.
  Qed.
  Lemma encode_length : forall u s, py_encode u = Some s -> (Forall (fun c => c < 128) u -> zlen u = blen s) /\ (Exists (fun c => 128 <= c) u -> zlen u < blen s).
  Proof. intros u s H. unfold py_encode in H. destruct (existsb _ _); inversion H; subst. apply (utf8_length u). Qed.
  Theorem C104_xml_partial : forall uwsgi allowed all w r w' ct len acc text data,
    (flask uwsgi allowed all w r = (w', A_rpc ct len acc (PyStr text)) \/ tornado all w r = (w', A_rpc ct len acc (PyStr text))) -> py_encode text = Some data ->
    (Forall (fun c => c < 128) text -> len = blen data) /\ (Exists (fun c => 128 <= c) text -> len < blen data).
  Proof.
    intros uwsgi allowed all w r w' ct len acc text data H E.
    assert (X : len = zlen text).
    { assert (K : forall c n ac p, rpc_answer host fin c n ac p = A_rpc ct len acc (PyStr text) -> len = zlen text) by (intros c n ac p K; apply answer_kind in K as (_ & _ & K & _); exact K).
      destruct H as [H|H].
      - unfold flask_handle in H. cbv zeta in H. destruct (existsb _ _); [|discriminate]. cbn [negb] in H. destruct (hq_type r) as [c|]; [|discriminate]. destruct (str_in c allowed); [|discriminate]. cbn [negb] in H.
        destruct (if str_eqb FRPC_TYPE c then _ else _); [|discriminate]. destruct (loads_any _ _ _ _ _ _ _ _) as [[args name]|e| |]; try discriminate.
        destruct (answer_of _ _ _ _ _ _ _) as [w1 [v|x]]; [|discriminate]. destruct (str_in FRPC_TYPE _); injection H as _ H; eapply K; exact H.
      - unfold tornado_post in H. destruct (hq_type r) as [t|]; [|discriminate]. destruct (str_in t supported); [|discriminate]. cbn [negb] in H. cbv zeta in H. destruct (filter _ supported) as [|t0 l]; [discriminate|].
        destruct (loads_any _ _ _ _ _ _ _ _) as [[args [name|]]|e| |]; try discriminate. destruct (find_method name all) as [m|]; [|discriminate]. destruct (run_method _ _ _ _ _ _) as [w1 [v|x]].
        + destruct (str_in FRPC_TYPE _); injection H as _ H; eapply K; exact H.
        + destruct (x_exception x); [|discriminate]. destruct (x_text x); [|discriminate]. destruct (str_in FRPC_TYPE _); injection H as _ H; eapply K; exact H. }
    destruct (encode_length text data E) as (A & B). rewrite X. auto.
  Qed.

  (** ** C103: any request *)
  Lemma plain_run : forall cs, Forall (fun c => match c with PDateTime d => dt_unix d <> - 2 ^ 63 | _ => True end) cs ->
    match snd (bin_run (mkVer 2 1) cs) with None => True | Some f => of_fail (A := bytes) f <> PyAbort /\ of_fail (A := bytes) f <> PyUndef end.
  Proof.
    induction cs as [|c cs IH]; intros F; [exact I|]. inversion F; subst. cbn [bin_run]. destruct (bin_pack (mkVer 2 1) c) as [o [f|]] eqn:E.
    - cbn [snd]. destruct c; cbn [bin_pack] in E; try discriminate; repeat match type of E with context [if ?b then _ else _] => destruct b eqn:? end; try discriminate; try (inversion E; subst; split; discriminate).
      unfold pack_datetime in E. change (2 <? v_major (mkVer 2 1)) with false in E. cbv iota in E. destruct (Z.eqb_spec (dt_unix d) (- 2 ^ 63)); [contradiction|discriminate].
    - specialize (IH H2). destruct (bin_run (mkVer 2 1) cs) as [o' f']. exact IH.
  Qed.
  Definition plain_call (c : mcall) : Prop := match c with PDateTime d => dt_unix d <> - 2 ^ 63 | _ => True end.
  Lemma fed_plain : forall p, no_least_time host p -> Forall plain_call (fst (feed_py host p)).
  Proof.
    assert (SEQ : forall l, Forall (fun p => Forall plain_call (fst (feed_py host p))) l -> Forall plain_call (fst (feed_seq (feed_py host) l))).
    { induction l as [|x l IH]; intros F; [constructor|]. inversion F; subst. specialize (IH H2). cbn [feed_seq]. destruct (feed_py host x) as [c [e|]]; cbn [fst] in *; [exact H1|].
      fold (feed_seq (feed_py host)). destruct (feed_seq (feed_py host) l) as [c' e']. cbn [fst] in *. apply Forall_app. auto. }
    assert (ITEMS : forall m, Forall (fun kv => Forall plain_call (fst (feed_py host (snd kv)))) m -> Forall plain_call (fst (feed_items (feed_py host) m))).
    { induction m as [|[k x] m IH]; intros F; [constructor|]. inversion F; subst. specialize (IH H2). cbn [snd] in H1. cbn [feed_items]. fold (feed_items (feed_py host)) in *.
      destruct k; try (constructor; fail). destruct (py_encode s) as [name|]; [|constructor]. destruct (feed_py host x) as [c [e|]]; cbn [fst] in *; [constructor; [exact I|exact H1]|].
      destruct (feed_items (feed_py host) m) as [c' e']. cbn [fst] in *. constructor; [exact I|]. apply Forall_app. auto. }
    induction p as [|b|b|z|d|s|s|d|d|l IH|l IH|m IH|c m|] using py_nested_ind; intros H; cbn [no_least_time feed_py] in *; try (repeat constructor; fail).
    - destruct (as_int z); repeat constructor.
    - destruct (py_encode s); repeat constructor.
    - repeat constructor. exact H.
    - repeat constructor. exact H.
    - rewrite all_items in H. assert (F : Forall (fun p => Forall plain_call (fst (feed_py host p))) l) by (rewrite Forall_forall in *; auto). specialize (SEQ l F). destruct (feed_seq (feed_py host) l). constructor; [exact I|exact SEQ].
    - rewrite all_items in H. assert (F : Forall (fun p => Forall plain_call (fst (feed_py host p))) l) by (rewrite Forall_forall in *; auto). specialize (SEQ l F). destruct (feed_seq (feed_py host) l). constructor; [exact I|exact SEQ].
    - assert (F : Forall (fun kv => Forall plain_call (fst (feed_py host (snd kv)))) m).
      { clear - IH H. induction m as [|[k x] m IM]; [constructor|]. inversion IH; subst. destruct H as [A B]. constructor; [cbn [snd] in *; auto|]. apply IM; auto. }
      specialize (ITEMS m F). destruct (feed_items (feed_py host) m). constructor; [exact I|exact ITEMS].
  Qed.
  Lemma binary_answer_safe : forall n ct acc v, n <> 0 -> no_least_time host v -> rpc_answer host fin ct n acc (PyTuple [v]) <> A_abort /\ rpc_answer host fin ct n acc (PyTuple [v]) <> A_undef.
  Proof.
    intros n ct acc v N H. unfold rpc_answer. rewrite dumps_any_binary by exact N. unfold dumps. change ((2 <? 0) || (1 <? 0)) with false. cbv zeta iota. change (bin_create (mkVer (u8 2) (u8 1))) with (Ok tt). cbv iota. unfold M_Python.written. cbn [fst].
    change (mkVer (u8 2) (u8 1)) with (mkVer 2 1). assert (F : Forall plain_call (PMethodResponse :: fst (feed_py host v))) by (constructor; [exact I|apply fed_plain; exact H]). pose proof (plain_run _ F) as R.
    destruct (bin_run (mkVer 2 1) _) as [o [f|]].
    - cbn [snd] in R. destruct f as [[]|]; cbn in *; split; (discriminate || tauto).
    - cbn [snd]. destruct (snd (feed_py host v)); split; discriminate.
  Qed.

  (** Methods whose results have no such date. *)
  Definition sound_methods (all : @hmethods W) : Prop :=
    forall n m, In (n, m) all -> (forall f w l w' v, h_kind m = H_user f -> f w l = (w', HReturn v) -> no_least_time host v) /\ (forall s, h_signature m = Some s -> no_least_time host s).
  Lemma find_some : forall n m (all : @hmethods W), find_method n all = Some m -> exists k, In (k, m) all.
  Proof. intros n m all. induction all as [|[k x] all IH]; cbn [find_method]; [discriminate|]. destruct (str_eqb n k); [intros H; inversion H; subst; exists k; left; reflexivity|]. intros H. destruct (IH H) as [k' I]. exists k'. right. exact I. Qed.
  Lemma run_sound : forall all e k m w l w' v, sound_methods all -> In (k, m) all -> run_method bad_args all e m w l = (w', HReturn v) -> no_least_time host v.
  Proof.
    intros all e k m w l w' v S I H. unfold run_method, plain_exc, no_method in H. destruct (S k m I) as [SF SS]. destruct (h_kind m) eqn:EK.
    - destruct l; inversion H; subst. cbn [no_least_time]. induction all as [|x all IH]; [exact I0 || exact Logic.I|]. cbn [map]. split; [exact Logic.I|]. clear. induction all; [exact Logic.I|]. cbn [map]. split; [exact Logic.I|assumption].
    - destruct l as [|p [|q l]]; try discriminate; destruct p; try discriminate. destruct (find_method s all) as [x|]; [|discriminate]. inversion H; subst. destruct (h_doc x) as [[|c d]|]; try exact Logic.I. destruct e; exact Logic.I.
    - destruct l as [|p [|q l]]; try discriminate; destruct p; try discriminate. destruct (find_method s all) as [x|] eqn:EF; [|discriminate]. inversion H; subst. destruct (h_signature x) eqn:ES; [|exact Logic.I]. apply find_some in EF as [k' I']. eapply (S k' x I'). exact ES.
    - destruct l; inversion H; subst. exact Logic.I.
    - eapply SF; eauto.
  Qed.
  Lemma auto_sound : forall v, no_least_time host v -> no_least_time host (autostatus v).
  Proof.
    assert (SN : forall m k x, no_least_time host (PyDict m) -> no_least_time host x -> no_least_time host (PyDict (m ++ [(k, x)]))).
    { intros m k x. induction m as [|[a b] m IH]; intros H X; [cbn; auto|]. destruct H as [A B]. cbn [app]. split; [exact A|]. apply IH; assumption. }
    intros v H. destruct v; try exact H. unfold autostatus. cbv zeta. set (m' := if has_key "status" m then m else m ++ [(PyStr (ustr "status"), PyInt 200)]).
    assert (H' : no_least_time host (PyDict m')) by (unfold m'; destruct (has_key "status" m); [exact H|apply SN; [exact H|exact Logic.I]]). destruct (negb _ && _); [apply SN; [exact H'|exact Logic.I]|exact H'].
  Qed.
  Lemma answer_sound : forall all aw w n l w' v, sound_methods all -> answer_of bad_args bad_await all aw w n l = (w', inl v) -> no_least_time host v.
  Proof.
    intros all aw w n l w' v S H. unfold answer_of in H. destruct n as [n|]; [|inversion H; subst; cbn; auto]. destruct (find_method n all) as [m|] eqn:EF; [|inversion H; subst; cbn; auto].
    destruct (run_method bad_args all true m w l) as [w1 r] eqn:ER. apply find_some in EF as [k I]. destruct r as [u|x]; cbn beta iota zeta in H.
    - destruct (aw && negb (h_coroutine m)).
      + inversion H; subst. cbn. auto.
      + inversion H; subst. eapply run_sound; eauto.
    - destruct (x_exception x); [|discriminate]. destruct (x_text x); [|discriminate]. inversion H; subst. cbn. auto.
  Qed.
  Lemma fault_safe : forall n ct acc c m, n <> 0 -> in_s64 c -> rpc_answer host fin ct n acc (PyFault (PyInt c) (PyStr m)) <> A_abort /\ rpc_answer host fin ct n acc (PyFault (PyInt c) (PyStr m)) <> A_undef.
  Proof.
    intros n ct acc c m N IC. unfold rpc_answer, dumps_any. change ((2 <? 0) || (1 <? 0)) with false. cbv zeta iota. change (3 <? v_major (mkVer (u8 2) (u8 1))) with false. cbv iota. destruct (py_encode m) as [s|]; [|split; discriminate].
    replace ((- 2 ^ 63 <=? c) && (c <? 2 ^ 63)) with true by (unfold in_s64 in IC; lia). replace (n =? 0) with false by lia. cbn [negb]. unfold run_calls. cbn [fst snd bin_run bin_pack then_data get_data]. split; discriminate.
  Qed.
  (** A binary request, its first chunk of four bytes or more. *)
  Definition binary_request (r : hrequest) : Prop := exists first rest, hq_chunks r = (xca :: x11 :: first) :: rest /\ 2 <= blen first.
  Definition safe (a : hanswer) : Prop := a <> A_abort /\ a <> A_undef.
  Lemma request_magic : forall r d, binary_request r -> d = hd [] (hq_chunks r) \/ d = concat (hq_chunks r) -> 4 <= blen d /\ is_magic d = true.
  Proof.
    intros r d (first & rest & E & L) H. rewrite E in H. cbn [hd concat app] in H. destruct H as [->| ->]; (split; [unfold blen in *; cbn [List.length]; rewrite ?app_length; lia|reflexivity]).
  Qed.
  Lemma safe_handlers : forall uwsgi allowed all w r a, sound_methods all -> hq_accept r = Some a -> listed a FRPC_TYPE ->
    (forall d, d = hd [] (hq_chunks r) \/ d = concat (hq_chunks r) -> loads_any host pass native P strtod erange None d <> PyUndef /\ loads_any host pass native P strtod erange None d <> PyAbort) ->
    safe (snd (flask uwsgi allowed all w r)) /\ safe (snd (aiohttp allowed all w r)) /\ safe (snd (tornado all w r)).
  Proof.
    intros uwsgi allowed all w r a SM EA LI LD.
    split; [|split].
    - unfold flask_handle, flask_types. rewrite EA. cbv zeta. destruct (existsb _ _); [|split; discriminate]. cbn [negb]. destruct (hq_type r) as [c|]; [|split; discriminate]. destruct (str_in c allowed); [|split; discriminate]. cbn [negb].
      destruct (if str_eqb FRPC_TYPE c then _ else _) as [d|] eqn:ED; [|split; discriminate].
      assert (HD : d = hd [] (hq_chunks r) \/ d = concat (hq_chunks r)) by (destruct (str_eqb FRPC_TYPE c), uwsgi; inversion ED; auto). destruct (LD d HD) as [L1 L2].
      destruct (loads_any _ _ _ _ _ _ _ d) as [[args name]|e| |]; try congruence; [|split; discriminate]. destruct (answer_of _ _ _ _ _ _ _) as [w1 [v|x]] eqn:EO; [|split; discriminate]. cbn [snd].
      rewrite (proj2 (in_listed a) LI). apply binary_answer_safe; [lia|]. apply auto_sound. eapply answer_sound; eauto.
    - unfold aiohttp_handle. cbv zeta. destruct (match map py_strip _ with [] => _ | _ => _ end) as [types|]; [|split; discriminate]. destruct (existsb _ types); [|split; discriminate]. cbn [negb].
      destruct (hq_type r) as [c|]; [|split; discriminate]. destruct (str_in c allowed); [|split; discriminate]. cbn [negb]. destruct (LD (concat (hq_chunks r)) (or_intror eq_refl)) as [L1 L2].
      destruct (loads_any _ _ _ _ _ _ _ _) as [[args name]|e| |]; try congruence; [|split; discriminate]. destruct (answer_of _ _ _ _ _ _ _) as [w1 [v|x]] eqn:EO; [|split; discriminate]. cbn [snd].
      pose proof (answer_sound _ _ _ _ _ _ _ SM EO) as SO. destruct (str_in FRPC_TYPE types); (apply binary_answer_safe; [unfold frpc_ALWAYS, frpc_NEVER; lia|exact SO]).
    - unfold tornado_post. destruct (hq_type r) as [t|]; [|split; discriminate]. destruct (str_in t supported) eqn:ES; [|split; discriminate]. cbn [negb]. cbv zeta. rewrite EA.
      assert (EN : (match a with [] => [t] | c :: s => map py_strip (py_split (c :: s)) end) = map py_strip (py_split a)).
      { destruct a; [|reflexivity]. exfalso. destruct LI as (b1 & s1 & s2 & a1 & E & _). destruct b1; [|discriminate]. destruct s1; discriminate. }
      replace (match Some a with Some (c :: s) => map py_strip (py_split (c :: s)) | _ => [t] end) with (map py_strip (py_split a)) by (destruct a; [symmetry; exact EN|reflexivity]).
      assert (FR : str_in FRPC_TYPE (filter (fun t0 => str_in t0 (map py_strip (py_split a))) supported) = true).
      { apply str_in_in, filter_In. split; [right; left; reflexivity|]. apply (in_listed a). exact LI. }
      rewrite FR. destruct (filter _ supported); [discriminate|]. destruct (LD (concat (hq_chunks r)) (or_intror eq_refl)) as [L1 L2].
      destruct (loads_any _ _ _ _ _ _ _ _) as [[args [name|]]|e| |]; try congruence; try (split; discriminate). destruct (find_method name all) as [m|] eqn:EF; [|split; discriminate].
      destruct (run_method _ _ _ _ _ _) as [w1 [v|x]] eqn:ER.
      + cbn [snd]. apply find_some in EF as [k I]. apply binary_answer_safe; [lia|]. eapply run_sound; eauto.
      + destruct (x_exception x); [|split; discriminate]. destruct (x_text x); [|split; discriminate]. cbn [snd]. apply fault_safe; [lia|unfold in_s64; lia].
  Qed.
  Theorem C103_binary_partial : forall uwsgi allowed all w r a, sound_methods all -> binary_request r -> hq_accept r = Some a -> listed a FRPC_TYPE ->
    (forall d, d = hd [] (hq_chunks r) \/ d = concat (hq_chunks r) -> loads host pass native d <> PyUndef) ->
    safe (snd (flask uwsgi allowed all w r)) /\ safe (snd (aiohttp allowed all w r)) /\ safe (snd (tornado all w r)).
  Proof.
    intros uwsgi allowed all w r a SM BR EA LI NU. apply (safe_handlers uwsgi allowed all w r a SM EA LI).
    intros d HD. destruct (request_magic r d BR HD) as [L M]. rewrite loads_detected by assumption. split; [auto|]. destruct (C83_any_data_partial host pass native d) as [(v & n & E)|[E|[E|[(n & m & E)|(E & _)]]]]; rewrite E; discriminate.
  Qed.
  (** XML with an answer in the binary format; the conditions on the document are those of C98. *)
  Theorem C103_xml_partial : forall uwsgi allowed all w r a data, sound_methods all -> hq_accept r = Some a -> listed a FRPC_TYPE -> orderly P -> hq_chunks r = [data] ->
    (forall s batch code, ps_take P (ps_init P) data = (s, batch, code) -> fault_last batch /\ utf8_texts batch) -> 4 <= blen data -> (forall rest, data <> xca :: x11 :: rest) -> ~ bad_declaration data ->
    safe (snd (flask uwsgi allowed all w r)) /\ safe (snd (aiohttp allowed all w r)) /\ safe (snd (tornado all w r)).
  Proof.
    intros uwsgi allowed all w r a data SM EA LI OR EC FINE L N NB. apply (safe_handlers uwsgi allowed all w r a SM EA LI). intros d HD.
    assert (E : d = data) by (rewrite EC in HD; cbn [hd concat] in HD; rewrite app_nil_r in HD; tauto). subst d.
    destruct (C98_any_xml_partial host pass native P strtod erange None data OR FINE (or_intror (conj eq_refl (conj L N))) NB) as [(v & n & E)|(e & E & _)]; rewrite E; split; discriminate.
  Qed.
End More.
Print Assumptions C99_flask_partial. Print Assumptions C99_aiohttp_partial. Print Assumptions C99_tornado_partial. Print Assumptions C99_flask_type_partial. Print Assumptions C99_tornado_type_partial. Print Assumptions C99_aiohttp_type_refuted.
Print Assumptions C100_flask_partial. Print Assumptions C100_aiohttp_partial. Print Assumptions C100_tornado_partial. Print Assumptions C100_aiohttp_plain_refuted.
Print Assumptions C101_flask_unknown_partial. Print Assumptions C101_flask_exception_partial. Print Assumptions C101_flask_passed. Print Assumptions C101_aiohttp_unknown_partial. Print Assumptions C101_aiohttp_exception_partial.
Print Assumptions C101_tornado_unknown. Print Assumptions C101_tornado_exception_partial.
Print Assumptions C102_flask_names_partial. Print Assumptions C102_flask_help_partial. Print Assumptions C102_flask_no_help_partial. Print Assumptions C102_flask_stat_partial. Print Assumptions C102_aiohttp_names_partial.
Print Assumptions C102_tornado_names_partial. Print Assumptions C102_tornado_help_partial. Print Assumptions C103_binary_partial. Print Assumptions C103_xml_partial. Print Assumptions C104_binary. Print Assumptions C104_xml_partial.

(** ** Requests that are refused although they may not be, and others *)
Definition both : list pystr := [FRPC_TYPE; XML_TYPE].
Lemma both_names : Forall type_name both.
Proof. pose proof supported_names as SN. inversion SN as [|? ? A SN2]; subst. inversion SN2 as [|? ? B _]; subst. constructor; [exact B|constructor; [exact A|constructor]]. Qed.
Section Refuted.
  Context {W : Type}.
  Variable host : datetime -> datetime.
  Variable fin : Z -> bytes.
  Variable pass native : bool.
  Variable P : parser.
  Variable strtod : bytes -> option Z.
  Variable erange : bool.
  Variable bad_args : list py -> pystr.
  Variable bad_await : py -> pystr.
  Notation flask := (@flask_handle W host fin pass native P strtod erange bad_args bad_await).
  Notation aiohttp := (@aiohttp_handle W host fin pass native P strtod erange bad_args bad_await).
  Notation tornado := (@tornado_post W host fin pass native P strtod erange bad_args).

  (** Accept with a weight, or with a type range, is not understood. *)
  Theorem C99_range_refuted : forall a, a = ustr "*/*" \/ a = ustr "text/xml;q=0.9" \/ a = ustr "application/*, text/*" ->
    forall uwsgi all w ct chunks, In ct both -> let r := mkHReq (Some ct) (Some a) chunks in
    flask uwsgi both all w r = (w, A_plain 400) /\ aiohttp both all w r = (w, A_plain 400) /\ tornado all w r = (w, A_plain 406).
  Proof.
    intros a HA uwsgi all w ct chunks IC r. assert (NA : forall types, types = both \/ types = supported -> ~ accepts_one types a).
    { intros types HT (t & IT & L). assert (TT : t = FRPC_TYPE \/ t = XML_TYPE) by (destruct HT as [-> | ->]; destruct IT as [<-|[<-|[]]]; auto).
      assert (TN : type_name t) by (pose proof supported_names as SN; rewrite Forall_forall in SN; apply SN; destruct TT as [-> | ->]; [right; left; reflexivity|left; reflexivity]).
      apply (listed_in _ _ TN), str_in_in in L. destruct HA as [->|[->| ->]], TT as [-> | ->]; vm_compute in L; discriminate. }
    split; [|split].
    - apply (C99_flask_partial host fin pass native P strtod erange bad_args bad_await uwsgi both all w r both_names). cbn. apply NA. auto.
    - apply (C99_aiohttp_partial host fin pass native P strtod erange bad_args bad_await both all w r both_names); cbn; [|apply NA; auto]. intros F. destruct HA as [->|[->| ->]]; inversion F; discriminate.
    - apply (C99_tornado_partial host fin pass native P strtod erange bad_args all w r) with (ct := ct) (a := a); try reflexivity; [destruct IC as [<-|[<-|[]]]; [right; left; reflexivity|left; reflexivity]|destruct HA as [->|[->| ->]]; discriminate|apply NA; auto].
  Qed.
  (** A parameter of the type either. *)
  Theorem C99_charset_refuted : forall uwsgi all w accept chunks, let r := mkHReq (Some (ustr "text/xml; charset=utf-8")) accept chunks in
    flask uwsgi both all w r = (w, A_plain 400) /\ aiohttp both all w r = (w, A_plain 400) /\ tornado all w r = (w, A_plain 400).
  Proof.
    intros uwsgi all w accept chunks r. assert (N : ~ In (ustr "text/xml; charset=utf-8") both) by (vm_compute; intuition discriminate). assert (N' : ~ In (ustr "text/xml; charset=utf-8") supported) by (vm_compute; intuition discriminate).
    split; [|split].
    - exact (proj1 (proj2 (C99_flask_partial host fin pass native P strtod erange bad_args bad_await uwsgi both all w r both_names)) _ eq_refl N).
    - exact (proj1 (proj2 (C99_aiohttp_partial host fin pass native P strtod erange bad_args bad_await both all w r both_names)) _ eq_refl N).
    - exact (proj1 (proj2 (C99_tornado_partial host fin pass native P strtod erange bad_args all w r)) _ eq_refl N').
  Qed.
  (** flask.py refuses a request without Accept; it is written to answer it in its own type. *)
  Theorem C99_no_accept_refuted : forall uwsgi allowed all w ct chunks, Forall type_name allowed -> flask uwsgi allowed all w (mkHReq (Some ct) None chunks) = (w, A_plain 400).
  Proof.
    intros uwsgi allowed all w ct chunks F. apply (C99_flask_partial host fin pass native P strtod erange bad_args bad_await uwsgi allowed all w _ F). cbn. intros (t & IT & b & s1 & s2 & e & E & _).
    rewrite Forall_forall in F. destruct (F t IT) as (_ & (c & l & -> & _) & _). destruct b; [|discriminate]. destruct s1; discriminate.
  Qed.
  (** Binary requests without uWSGI. *)
  Theorem C100_server_refuted : forall allowed all w r a, Forall type_name allowed -> In FRPC_TYPE allowed -> hq_type r = Some FRPC_TYPE -> hq_accept r = Some a -> accepts_one allowed a ->
    flask false allowed all w r = (w, A_raise F_not_implemented).
  Proof.
    intros allowed all w r a F I E EA A. unfold flask_handle, flask_types. rewrite E, EA. cbv zeta. rewrite (proj2 (accepts_one_spec _ _ F) A), (proj2 (str_in_in _ _) I), str_eqb_refl. reflexivity.
  Qed.
End Refuted.
Print Assumptions C99_range_refuted. Print Assumptions C99_charset_refuted. Print Assumptions C99_no_accept_refuted. Print Assumptions C100_server_refuted.

(** ** Examples *)
(** A method that records its parameters and returns them in a [dict]. *)
Definition record (v : list py -> hresult) : @hmethod (list (list py)) := user (fun w l => (w ++ [l], v l)) (Some (ustr "Records.")).
Definition echo : @hmethods (list (list py)) := [(ustr "f", record (fun l => HReturn (PyDict [(PyStr (ustr "got"), PyList l)])))].
Definition text_of (t : string) : @hmethods (list (list py)) := [(ustr "f", record (fun _ => HReturn (PyStr (ustr t ++ [269]))))].
Definition call_wire (ps : list value) : bytes := match sent (mkVer 2 1) (call_calls (str "f") ps) with Ok w => w | _ => [] end.
Notation flask0 := (@flask_handle (list (list py)) (fun d => d) (fun _ => str "0") false true at_once (fun _ => None) false (fun _ => []) (fun _ => [])).
Notation aiohttp0 := (@aiohttp_handle (list (list py)) (fun d => d) (fun _ => str "0") false true at_once (fun _ => None) false (fun _ => []) (fun _ => [])).
Notation tornado0 := (@tornado_post (list (list py)) (fun d => d) (fun _ => str "0") false true at_once (fun _ => None) false (fun _ => [])).
Definition frpc_request (chunks : list bytes) : hrequest := mkHReq (Some FRPC_TYPE) (Some (ustr "text/plain , application/x-frpc")) chunks.

Lemma five_asked : asks (fun d => d) true (fun _ => str "0") (fun _ => None) (call_wire [VInt 5; VString (str "a")]) (ustr "f") [PyInt 5; PyStr [97]].
Proof.
  apply (asks_binary (fun d => d) true (fun _ => str "0") (fun _ => None) (mkVer 2 1) (str "f") (ustr "f") [VInt 5; VString (str "a")]).
  - exact modern_21.
  - split; vm_compute; discriminate.
  - split; [repeat constructor; vm_compute; intuition congruence|reflexivity].
  - constructor; [|constructor; [|constructor]]; cbn.
    + unfold in_s64. repeat split; lia.
    + repeat split; [unfold small; vm_compute; repeat split; congruence|]. exists [97]. split; [repeat constructor; unfold uchar; lia|reflexivity].
  - vm_compute. reflexivity.
  - constructor; [constructor|constructor; [|constructor]]. constructor. split; [repeat constructor; unfold uchar; lia|reflexivity].
Qed.
Lemma frpc_listed : listed (ustr "text/plain , application/x-frpc") FRPC_TYPE.
Proof. apply (listed_in _ _ frpc_name). vm_compute. auto. Qed.
Definition got : py := PyDict [(PyStr (ustr "got"), PyList [PyInt 5; PyStr [97]])].
Definition got_status : py := PyDict [(PyStr (ustr "got"), PyList [PyInt 5; PyStr [97]]); (key "status", PyInt 200); (key "statusMessage", PyStr (ustr "OK"))].
Lemma got_told : can_tell (fun d => d) (fun _ => str "0") (fun _ => None) FRPC_TYPE got /\ can_tell (fun d => d) (fun _ => str "0") (fun _ => None) FRPC_TYPE got_status.
Proof.
  assert (U : forall t, forallb (fun c => (0 <=? c) && (c <? 128)) t = true -> is_str t /\ Forall uchar t).
  { intros t H. rewrite forallb_forall in H. split; apply Forall_forall; intros c IC; specialize (H c IC); unfold uchar; lia. }
  assert (NF : forall t, forallb (fun c => (0 <=? c) && (c <? 128)) t = true -> (1 <=? blen (flat_map utf8_char t)) && (blen (flat_map utf8_char t) <=? 255) = true -> name_fits t).
  { intros t H K. split; [apply U; exact H|lia]. }
  split; (split; [|left; split; [reflexivity|]]); unfold got, got_status, key; cbn [is_object within py_sends map fst].
  - split; [constructor; [intros []|constructor]|]. repeat split; try exact I; apply U; reflexivity.
  - split; [vm_compute; repeat split; reflexivity|]. split; [exists (ustr "got"); split; [reflexivity|apply NF; reflexivity]|]. split; [|exact I]. split; [unfold in_s64; lia|]. split; [apply U; reflexivity|exact I].
  - split; [repeat (constructor; [vm_compute; intuition discriminate|]); constructor|]. repeat split; try exact I; apply U; reflexivity.
  - split; [vm_compute; repeat split; reflexivity|]. split; [exists (ustr "got"); split; [reflexivity|apply NF; reflexivity]|].
    split; [split; [unfold in_s64; lia|]; split; [apply U; reflexivity|exact I]|].
    split; [exists (ustr "status"); split; [reflexivity|apply NF; reflexivity]|]. split; [unfold in_s64; lia|].
    split; [exists (ustr "statusMessage"); split; [reflexivity|apply NF; reflexivity]|]. split; [apply U; reflexivity|exact I].
Qed.
Lemma got_with_status : with_status got got_status.
Proof. apply (ws_new [(PyStr (ustr "got"), PyList [PyInt 5; PyStr [97]])]); vm_compute; intuition discriminate. Qed.
Lemma frpc_accepted : accepts_one both (ustr "text/plain , application/x-frpc") /\ accepts_one supported (ustr "text/plain , application/x-frpc").
Proof. split; exists FRPC_TYPE; (split; [cbn; auto|exact frpc_listed]). Qed.
Example C100_flask_example : exists len body, flask0 true both (registered (own_flask true) echo) [] (frpc_request [call_wire [VInt 5; VString (str "a")]]) = ([[PyInt 5; PyStr [97]]], A_rpc FRPC_TYPE len both body) /\
  tells (fun d => d) true (fun _ => None) body got_status.
Proof.
  eapply (C100_flask_partial (fun d => d) (fun _ => str "0") false true at_once (fun _ => None) (fun _ => []) (fun _ => []) at_once_prompt true both true echo [] _ _ (call_wire [VInt 5; VString (str "a")]) (ustr "f") _ _ _ _ got got_status FRPC_TYPE both_names).
  - split; [reflexivity|]. split; [apply frpc_accepted|]. exists FRPC_TYPE. split; [reflexivity|]. split; [cbn; auto|]. left. repeat split.
  - exact five_asked.
  - exists (own_flask true), []. split; [reflexivity|]. intros [].
  - reflexivity.
  - reflexivity.
  - apply got_told.
  - exact got_with_status.
  - left. split; [reflexivity|exact frpc_listed].
  - apply got_told.
Qed.
Example C100_aiohttp_example : exists len body, aiohttp0 both (registered (own_aiohttp true) echo) [] (frpc_request [call_wire [VInt 5; VString (str "a")]]) = ([[PyInt 5; PyStr [97]]], A_rpc FRPC_TYPE len both body) /\
  tells (fun d => d) true (fun _ => None) body got.
Proof.
  eapply (C100_aiohttp_partial (fun d => d) (fun _ => str "0") false true at_once (fun _ => None) (fun _ => []) (fun _ => []) at_once_prompt both true echo [] _ _ (call_wire [VInt 5; VString (str "a")]) (ustr "f") _ _ _ _ got both_names).
  - split; [cbn [concat hq_chunks frpc_request]; apply app_nil_r|]. exists FRPC_TYPE. split; [reflexivity|]. split; [cbn; auto|]. left. split; [reflexivity|apply frpc_accepted].
  - exact five_asked.
  - exists (own_aiohttp true), []. split; [reflexivity|]. intros [].
  - reflexivity.
  - reflexivity.
  - reflexivity.
  - exact frpc_listed.
  - apply got_told.
Qed.
Example C100_tornado_example : exists len body, tornado0 echo [] (frpc_request [call_wire [VInt 5; VString (str "a")]]) = ([[PyInt 5; PyStr [97]]], A_rpc FRPC_TYPE len supported body) /\
  tells (fun d => d) true (fun _ => None) body got.
Proof.
  eapply (C100_tornado_partial (fun d => d) (fun _ => str "0") false true at_once (fun _ => None) (fun _ => []) (fun _ => []) at_once_prompt echo [] _ _ (call_wire [VInt 5; VString (str "a")]) (ustr "f") _ _ _ _ got FRPC_TYPE).
  - split; [cbn [concat hq_chunks frpc_request]; apply app_nil_r|]. exists FRPC_TYPE. split; [reflexivity|]. split; [cbn; auto|]. left. split; [reflexivity|apply frpc_accepted].
  - exact five_asked.
  - repeat constructor. intros [].
  - left. reflexivity.
  - reflexivity.
  - reflexivity.
  - left. split; [reflexivity|exact frpc_listed].
  - apply got_told.
Qed.

Lemma nf_asked : asks (fun d => d) true (fun _ => str "0") (fun _ => None) (call_wire [VInt 5; VString (str "a")]) (ustr "f") [PyInt 5; PyStr [97]] /\ ~ In (ustr "f") (map fst (@own_flask (list (list py)) true ++ [])).
Proof. split; [exact five_asked|]. vm_compute. intuition discriminate. Qed.
(** The answers for a name there is not, for an exception, to introspection. *)
Definition wire_of (n : string) (ps : list value) : bytes := match sent (mkVer 2 1) (call_calls (str n) ps) with Ok w => w | _ => [] end.
Definition raising : @hmethods (list (list py)) := [(ustr "f", record (fun _ => HRaise (mkHExc true (ustr "ValueError") (Some (ustr "no")))))].
Definition reply (a : hanswer) : option value := match a with A_rpc _ _ _ (PyBytes wire) => match received_value None T_METHOD_RESPONSE [wire] with Ok v => Some v | _ => None end | _ => None end.
Example C101_samples :
  reply (snd (flask0 true both (registered (own_flask true) []) [] (frpc_request [wire_of "f" []]))) = Some (VStruct [(str "status", VInt 501); (str "statusMessage", VString (str "Method 'f' not found."))]) /\
  reply (snd (flask0 true both (registered (own_flask true) raising) [] (frpc_request [wire_of "f" []]))) = Some (VStruct [(str "status", VInt 500); (str "statusMessage", VString (str "no"))]) /\
  (exists len wire, snd (tornado0 raising [] (frpc_request [wire_of "f" []])) = A_rpc FRPC_TYPE len supported (PyBytes wire) /\ received_value None T_FAULT [wire] = Err (FaultExn (-500) (str "ValueError: no"))).
Proof. split; [vm_compute; reflexivity|]. split; [vm_compute; reflexivity|]. do 2 eexists. split; [vm_compute; reflexivity|]. vm_compute; reflexivity. Qed.
Example C102_samples :
  reply (snd (flask0 true both (registered (own_flask true) (echo ++ raising)) [] (frpc_request [wire_of "system.listMethods" []]))) =
    Some (VArray [VString (str "system.listMethods"); VString (str "system.methodHelp"); VString (str "server.stat"); VString (str "f")]) /\
  reply (snd (flask0 true both (registered (own_flask true) echo) [] (frpc_request [wire_of "system.methodHelp" [VString (str "f")]]))) = Some (VString (str "Records.")) /\
  reply (snd (flask0 true both (registered (own_flask true) echo) [] (frpc_request [wire_of "server.stat" []]))) = Some (VStruct [(str "status", VInt 200); (str "statusMessage", VString (str "OK"))]).
Proof. split; [vm_compute; reflexivity|]. split; vm_compute; reflexivity. Qed.

(** ** Refuted by examples *)
(** The answer is in the binary format although only XML is allowed. *)
Theorem C99_not_allowed_refuted : exists len body, flask0 true [XML_TYPE] (registered (own_flask true) []) [] (mkHReq (Some XML_TYPE) (Some (ustr "text/xml, application/x-frpc")) [wire_of "server.stat" []]) =
  ([], A_rpc FRPC_TYPE len [XML_TYPE] (PyBytes body)).
Proof. do 2 eexists. vm_compute. reflexivity. Qed.
Print Assumptions C99_not_allowed_refuted.
(** A body that is a response is answered as a call of None. *)
Theorem C101_response_refuted : exists wire, sent (mkVer 2 1) (response_calls (VInt 1)) = Ok wire /\
  reply (snd (flask0 true both (registered (own_flask true) []) [] (frpc_request [wire]))) = Some (VStruct [(str "status", VInt 501); (str "statusMessage", VString (str "Method 'None' not found."))]).
Proof. eexists. split; [vm_compute; reflexivity|]. vm_compute. reflexivity. Qed.
Print Assumptions C101_response_refuted.
(** flask.py takes one chunk of a binary request for the whole: the method is run with part of the parameters. *)
Theorem C100_chunks_refuted : exists a b, call_wire [VInt 5; VArray [VInt 6; VInt 7]] = a ++ b /\ b <> [] /\
  (exists ans, flask0 true both (registered (own_flask true) echo) [] (frpc_request [a; b]) = ([[PyInt 5; PyList [PyInt 6]]], ans)) /\
  (exists ans, aiohttp0 both (registered (own_aiohttp true) echo) [] (frpc_request [a; b]) = ([[PyInt 5; PyList [PyInt 6; PyInt 7]]], ans)).
Proof.
  exists (ztake 13 (call_wire [VInt 5; VArray [VInt 6; VInt 7]])), (zdrop 13 (call_wire [VInt 5; VArray [VInt 6; VInt 7]])). split; [vm_compute; reflexivity|]. split; [vm_compute; discriminate|]. split; eexists; vm_compute; reflexivity.
Qed.
Print Assumptions C100_chunks_refuted.
(** Aborts, and undefined behaviour: a fault whose message is not UTF-8, a version out of place, the smallest integer in an answer in XML. *)
Theorem C103_fault_refuted : exists wire, sent (mkVer 2 1) [PFault 1 [xff]] = Ok wire /\ forall all w,
  snd (flask0 true both all w (frpc_request [wire])) = A_undef /\ snd (aiohttp0 both all w (frpc_request [wire])) = A_undef /\ snd (tornado0 all w (frpc_request [wire])) = A_undef.
Proof. eexists. split; [vm_compute; reflexivity|]. intros all w. split; [|split]; reflexivity. Qed.
Print Assumptions C103_fault_refuted.
Theorem C103_version_refuted : exists data doc, xml_doc data = Some doc /\ forall all w r, hq_type r = Some XML_TYPE -> hq_accept r = Some XML_TYPE -> hq_chunks r = [data] ->
  snd (flask0 true both all w r) = A_abort /\ snd (aiohttp0 both all w r) = A_abort /\ snd (tornado0 all w r) = A_abort.
Proof.
  exists (str "<?xml version=""1.0""?><!--                                    protocolVersion=""2.1""--><methodResponse></methodResponse>"). eexists. split; [vm_compute; reflexivity|].
  intros all w [t a c] ET EA EC. cbn [hq_type hq_accept hq_chunks] in *. subst. split; [|split]; vm_compute; reflexivity.
Qed.
Print Assumptions C103_version_refuted.
Definition least : @hmethods (list (list py)) := [(ustr "f", record (fun _ => HReturn (PyInt (- 2 ^ 63))))].
Theorem C103_least_integer_refuted : let r := mkHReq (Some FRPC_TYPE) (Some XML_TYPE) [wire_of "f" []] in
  snd (flask0 true both (registered (own_flask true) least) [] r) = A_undef /\ snd (tornado0 least [] r) = A_undef.
Proof. split; vm_compute; reflexivity. Qed.
Print Assumptions C103_least_integer_refuted.
(** The length of XML with another letter than those of ASCII. *)
Theorem C104_xml_refuted : exists len text data, snd (tornado0 (text_of "a") [] (mkHReq (Some FRPC_TYPE) (Some XML_TYPE) [wire_of "f" []])) = A_rpc XML_TYPE len supported (PyStr text) /\
  py_encode text = Some data /\ len = blen data - 1.
Proof. do 3 eexists. split; [vm_compute; reflexivity|]. split; [vm_compute; reflexivity|]. vm_compute; reflexivity. Qed.
Print Assumptions C104_xml_refuted.
(** What is sent as XML by aiohttp.py. *)
Example C99_aiohttp_sample : exists len wire, snd (aiohttp0 both (registered (own_aiohttp true) echo) [] (mkHReq (Some XML_TYPE) None [wire_of "f" []])) = A_rpc XML_TYPE len both (PyBytes (xca :: x11 :: wire)).
Proof. do 2 eexists. vm_compute. reflexivity. Qed.
Example C103_example : forall w, let r := frpc_request [wire_of "f" []] in
  safe (snd (flask0 true both least w r)) /\ safe (snd (aiohttp0 both least w r)) /\ safe (snd (tornado0 least w r)).
Proof.
  intros w r. apply C103_binary_partial with (a := ustr "text/plain , application/x-frpc").
  - intros n m [E|[]]. inversion E; subst. split; [|intros s H; discriminate]. intros f w0 l w' v EK EF. inversion EK; subst. inversion EF; subst. exact I.
  - exists (skipn 2 (wire_of "f" [])), []. split; [vm_compute; reflexivity|vm_compute; discriminate].
  - reflexivity.
  - exact frpc_listed.
  - intros d H. assert (E : d = wire_of "f" []) by (destruct H as [H|H]; rewrite H; [reflexivity|apply app_nil_r]). rewrite E. vm_compute. discriminate.
Qed.
