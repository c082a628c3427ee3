(** The client of the Python binding: what a call sends (C89), arguments that cannot be sent (C90), whose response a call gets (C91). *)
From Coq Require Import Lia.
From Verif Require Import Base Value Text Unicode M_Marshal M_BinUnmarshal M_TreeBuilder M_Base64 M_Iso M_Json M_Url M_Http M_HttpIO M_HttpWriter M_Registry M_Server M_XmlUm M_Client
  M_Python M_PyRegistry M_PyServer M_PyClient
  S_Value S_Http S_Wire S_Registry S_Server S_Client S_Xml S_XmlUm S_Python S_PyRegistry S_PyServer S_PyClient L_Base L_Bits L_Text L_Http L_Dup L_BinUnmarshal L_Call L_HttpIO L_HttpIO2 L_HttpIO3 L_HttpIO5 L_HttpWriter L_Registry
  L_Server L_Server2 L_Server4 L_Client L_Client2 L_Client3 L_Python L_PyText L_PyBuild L_PyRead L_PyLoad L_Wire L_Message L_RoundTrip L_PyCall L_PyRegistry L_PyServer L_PyServer2 L_PyServer3 L_XmlParser L_PyClient L_PyClient2 L_PyClient3
  P_Registry P_Server P_Client P_Python P_PyServer.

(** ** C89 *)
Lemma request_nonempty : forall k pieces, w_wire (wr_message (client_head k) (k_chunks k) pieces) <> [].
Proof.
  intros k pieces. unfold wr_message, wr_flush. set (w := fold_left _ _ _). destruct (wr_send_wire (client_head k) (w_chunks w) w) as (t & -> & ->).
  destruct (w_chunks w) eqn:E.
  - intro X. apply app_eq_nil in X as [_ X]. apply app_eq_nil in X as [_ X]. apply app_eq_nil in X as [_ X]. discriminate.
  - assert (S : w_sent w = false).
    { destruct (k_chunks k) eqn:K.
      - assert (C : forall l x, w_chunks x = true -> w_chunks (fold_left (fun x d => wr_write (client_head k) d x) l x) = true).
        { induction l as [|d l IH]; intros x HX; [exact HX|]. cbn [fold_left]. apply IH. unfold wr_write. destruct (_ <? _); [rewrite HX; reflexivity|exact HX]. }
        unfold w in E. rewrite C in E; [discriminate|reflexivity].
      - apply (plain_inv (client_head k) pieces (mkWr [] [] false false 0 []) eq_refl eq_refl eq_refl eq_refl). }
    rewrite S. intro X. apply app_eq_nil in X as [_ X]. apply app_eq_nil in X as [X _]. discriminate.
Qed.

(** Whatever the network does, a call sends nothing or a beginning of one request, which carries the call, over at most one new connection.  Every
    connection made is closed or held; it is held only if all of the request was sent and the whole response read (or while the call goes on). *)
Theorem C89_once : forall W message host ums mars cut callback (pre : option (W -> _)) post y w n name args headers hs cs y' w' es r,
  let p := y_proxy y in let extra := x_headers p ++ (x_once p ++ hs) ++ callback in
  writes_well cut -> no_nul name -> given_fields headers hs -> describes_all host args cs ->
  (y_chunks y = true -> no_value (str "Content-Length") extra /\ exists body, written (mars (use_binary p) (a_version (x_conf p))) (PMethodCall name :: cs) body) ->
  py_call message host ums mars cut callback pre post y w n name args headers = (y', w', es, r) ->
  opened es <= 1 /\ held_sockets (x_fd p) + opened es = held_sockets (x_fd (y_proxy y')) + closed es /\
  exists lost, py_sent host mars (x_url p) (x_conf p) (use_binary p) extra name args es lost /\
    (x_fd (y_proxy y') <> None -> sends es <> [] ->
     r = Ret_waiting \/ r = Ret_undef \/ a_keep (x_conf p) = true /\ lost = [] /\ (forall k t, r <> Ret_protocol k t) /\ (forall t, r <> Ret_response t)) /\
    (from_response r -> x_fd (y_proxy y') <> None -> lost = [] /\ sends es <> []).
Proof.
  intros W message host ums mars cut callback pre post y w n name args headers hs cs y' w' es r p extra HC HN HG HD HCH H.
  apply (call_cases _ _ _ _ _ _ _ _ _ _ _ _ _ _ _ _ _ _ _ HG) in H. set (y1 := with_proxy (add_header_once hs (y_proxy y)) y) in *.
  apply operator_cases in H as [(-> & -> & HR)|(out & HE & HR & HV)].
  - split; [cbn; lia|]. split; [reflexivity|]. exists []. split; [apply sent_nothing; reflexivity|]. split; [cbn; congruence|].
    destruct HR as [->| ->]; intros [].
  - pose proof HE as HE0. apply exchange_facts in HE as (SS & _ & _ & O1 & O2 & wire & HW & HX). change (x_fd (y_proxy (named name y1))) with (x_fd p) in O2.
    split; [exact O1|]. split; [exact O2|].
    assert (FD : feed_args host args = (cs, None)) by (apply describes_feed; exact HD).
    assert (HB : use_binary (y_proxy (named name y1)) = use_binary p) by reflexivity.
    destruct (writable_or_not message host mars (named name y1) name args) as [(body & WB)|(out0 & UW)].
    + destruct HX as [X|(lost & HL & HK)]; [destruct (writable_not _ _ _ _ _ _ _ _ WB X)|].
      rewrite (HW _ WB) in HL. set (k := py_client callback (named name y1)) in *.
      assert (NE : lost = [] -> sends es <> []).
      { intros -> E. rewrite E in HL. cbn in HL. exact (request_nonempty _ _ HL). }
      exists lost. split; [|split].
      * destruct WB as (cs' & F & WB). rewrite FD in F. injection F as <-. rewrite (c_str_same _ HN) in WB.
        eapply sent_part with (q := call_req k body); [exact HD|exact WB| | |exact HL].
        -- exact (py_req_asks k (x_conf p) body eq_refl eq_refl).
        -- intros B1 B2. apply py_req_text; auto. intro KC. cbn [k py_client client_prepare k_chunks] in KC.
           destruct (y_chunks y) eqn:EY; [exact (proj1 (HCH eq_refl))|]. exfalso. unfold k, py_client, client_prepare in KC. cbn [k_chunks named y_chunks y1 with_proxy] in KC. rewrite EY in KC. destruct (use_binary _); discriminate.
      * intros K _. destruct (HK K) as [->|(A & -> & x & ->)].
        -- destruct HR as [->| ->]; auto.
        -- destruct HR as [->| ->]; [|auto]. right. right. split; [exact A|]. split; [reflexivity|]. destruct x as [v|e| |]; [destruct v|..]; split; intros; cbn; discriminate.
      * intros F K. destruct HR as [->| ->]; [|destruct F]. destruct (HK K) as [->|(_ & L & _)]; [destruct F|]. auto.
    + destruct (k_chunks (py_client callback (named name y1))) eqn:KC.
      * exfalso. unfold py_client, client_prepare in KC. cbn [k_chunks named y_chunks y1 with_proxy] in KC.
        destruct (y_chunks y) eqn:EY; [|destruct (use_binary _); discriminate]. destruct (HCH eq_refl) as (_ & body & WB).
        eapply writable_not; [|exact UW]. exists cs. split; [exact FD|]. rewrite (c_str_same _ HN). exact WB.
      * destruct (exchange_unwritable message host ums mars cut callback _ n name args _ KC UW) as (out' & E & U). rewrite E in HE0. injection HE0 as <- <- <-.
        exists []. split; [apply sent_nothing; reflexivity|]. split; [cbn; congruence|]. intro F. exfalso.
        destruct HR as [->| ->]; [|exact F]. apply got_from in F. destruct U; try exact F. exact (of_exn_not _ _ F).
Qed.
Print Assumptions C89_once.

(** ** C90 *)
(** Hooks that do not crash themselves. *)
Definition hooks_return {W} (pre : option (W -> bytes -> list py -> W * called)) (post : option (W -> bytes -> list py -> py -> option pyerr -> W * called)) : Prop :=
  (forall f w name args, pre = Some f -> snd (f w name args) <> Crashed) /\ (forall f w name args d e, post = Some f -> snd (f w name args d e) <> Crashed).
Lemma operator_returns : forall W message host ums mars cut callback pre post y (w : W) n name args y' w' es r, hooks_return pre post ->
  v_major (a_version (x_conf (y_proxy y))) <= 3 -> py_operator message host ums mars cut callback pre post y w n name args = (y', w', es, r) ->
  exists out, py_exchange message host ums mars cut callback (named name y) n name args = (y', es, out) /\ r = ret_of post out.
Proof.
  intros W message host ums mars cut callback pre post y w n name args y' w' es r [H1 H2] HV H. unfold py_operator in H. fold (named name y) in H. cbn [named y_proxy] in H.
  destruct (Z.ltb_spec 3 (v_major (a_version (x_conf (y_proxy y))))); [lia|].
  destruct (match pre with Some f => _ | None => _ end) as [w1 d] eqn:EP.
  assert (HD : d <> None).
  { destruct pre as [f|]; [|inversion EP; discriminate]. specialize (H1 f w name args eq_refl). destruct (f w name args) as [w2 []]; inversion EP; subst; try discriminate. cbn in H1. congruence. }
  destruct d as [d|]; [|congruence]. destruct (py_exchange _ _ _ _ _ _ (named name y) n name args) as [[y1 es1] out] eqn:E. exists out.
  destruct out; try (inversion H; subst; auto; fail).
  - destruct post as [f|]; [|inversion H; subst; auto]. specialize (H2 f w1 name args d None eq_refl). destruct (f w1 name args d None) as [w2 []]; inversion H; subst; auto. cbn in H2. congruence.
  - destruct post as [f|]; [|inversion H; subst; auto]. specialize (H2 f w1 name args d (Some e) eq_refl). destruct (f w1 name args d (Some e)) as [w2 []]; inversion H; subst; auto. cbn in H2. congruence.
Qed.

Lemma bin_fails : forall m ver cs f, m = bin_ma ver -> (exists o s, ma_run m (ma_init m) cs = (o, s, Some f)) <-> snd (bin_run ver cs) = Some f.
Proof.
  intros m ver cs f ->. rewrite bin_ma_run. split; [intros (o & s & H); injection H as _ _ H; exact H|]. intros ->. eauto.
Qed.

(** A call in the binary format, not chunked, with an argument the format does not have: an exception is raised, nothing is sent, the connection is
    not touched.  What is missing: chunked requests ([C90_chunked_refuted]), integers from 2^63 to 2^64 - 1 ([C90_large_refuted]). *)
Theorem C90_unsendable_partial : forall W message host ums mars cut callback pre post y (w : W) n name args headers hs y' w' es r,
  let p := y_proxy y in let ver := a_version (x_conf p) in
  (forall v, mars true v = bin_ma v) -> use_binary p = true -> y_chunks y = false -> modern ver -> S_Wire.name_ok name -> no_nul name -> given_fields headers hs ->
  hooks_return pre post ->
  Forall is_object args -> Forall (within host ver) args -> Forall no_large args -> ~ Forall (py_sends ver) args ->
  py_call message host ums mars cut callback pre post y w n name args headers = (y', w', es, r) ->
  es = [] /\ x_fd (y_proxy y') = x_fd p /\ ((exists e, r = Ret_raise e) \/ exists t, r = Ret_response t).
Proof.
  intros W message host ums mars cut callback pre post y w n name args headers hs y' w' es r p ver MA UB CH HM HN NZ HG HH HO HI HL HS H.
  apply (L_PyClient3.call_cases _ _ _ _ _ _ _ _ _ _ _ _ _ _ _ _ _ _ _ HG) in H. set (y1 := with_proxy (add_header_once hs (y_proxy y)) y) in *.
  apply operator_returns in H as (out & HE & ->); [|exact HH|change (v_major ver <= 3); destruct HM as [[X|X] _]; rewrite X; lia].
  destruct (fed_seq host ver HM args) as [(X & _)|[_ B]]; [|contradiction|].
  { rewrite !Forall_forall in *. intros a A. apply fed_all; auto. }
  assert (BP : exists o, bin_pack ver (PMethodCall (c_str name)) = (o, None)).
  { rewrite (c_str_same _ NZ). cbn [bin_pack]. unfold S_Wire.name_ok in HN. destruct ((255 <? blen name) || (blen name =? 0)) eqn:E; [apply orb_true_iff in E; lia|eauto]. }
  destruct BP as (o & BP). apply (bad_cons ver _ _ _ BP) in B. unfold bad in B. cbn [fst snd] in B.
  assert (EM : mars (use_binary (y_proxy (named name y1))) (a_version (x_conf (y_proxy (named name y1)))) = bin_ma ver).
  { change (use_binary (y_proxy (named name y1))) with (use_binary p). change (a_version (x_conf (y_proxy (named name y1)))) with ver. rewrite UB, MA. reflexivity. }
  assert (UW : exists out0, unwritable message host mars (named name y1) name args out0).
  { destruct B as [(e & E & P)|[E (e & F)]].
    - destruct (proj2 (bin_fails _ _ (fst (calls_of host name args)) (Exn e) EM) E) as (o1 & s1 & E1). eexists. eapply unwritable_fails. exact E1.
    - eexists. eapply unwritable_raises. exact F. }
  destruct UW as (out0 & UW).
  destruct (exchange_unwritable message host ums mars cut callback (named name y1) n name args out0) as (out' & E & U); [|exact UW|].
  { unfold py_client, client_prepare. cbn [k_chunks named y_chunks y1 with_proxy]. rewrite CH. destruct (use_binary _); reflexivity. }
  rewrite E in HE. injection HE as <- <- <-. split; [reflexivity|]. split; [reflexivity|].
  assert (PX : forall e, plain_exn e -> (exists e', ret_of post (of_exn e (message e)) = Ret_raise e') \/ exists t, ret_of post (of_exn e (message e)) = Ret_response t).
  { intros e [->|(m & ->)]; unfold of_exn; cbn [handler ret_of raised]; destruct (text_of _); eauto. }
  destruct U as [o1 s1 e U|o1 s1 U|e U].
  - apply PX. cbv zeta in U. pose proof (proj1 (bin_fails _ _ _ _ EM) (ex_intro _ o1 (ex_intro _ s1 U))) as X. unfold calls_of, feed_args in X. cbn [fst] in X.
    destruct B as [(e1 & E1 & P)|[E1 _]]; rewrite E1 in X; [injection X as <-; exact P|discriminate].
  - exfalso. cbv zeta in U. pose proof (proj1 (bin_fails _ _ _ _ EM) (ex_intro _ o1 (ex_intro _ s1 U))) as X. unfold calls_of, feed_args in X. cbn [fst] in X.
    destruct B as [(e1 & E1 & P)|[E1 _]]; rewrite E1 in X; discriminate.
  - left. eexists. reflexivity.
Qed.
Print Assumptions C90_unsendable_partial.

(** ** C91 *)
(** In any history of a proxy: a call that returns an object or raises a Fault does so because of the response to it, and no other, if the server
    answers every request by one response; connections may fail and be closed at any point. *)
Theorem C91_own_partial : forall W message host ums mars cut callback (pre : option (W -> _)) post server via conf chunks major minor headers y w ds y' w' outs exs,
  py_new message server via conf chunks major minor headers = inl y ->
  py_after (py_call message host ums mars cut callback pre post) y w ds = (y', w', outs) -> py_answered host ums ds outs exs ->
  Forall2 (fun o ex => from_response (snd o) -> caller_gets (pe_value ex) (snd o)) outs exs.
Proof.
  intros W message host ums mars cut callback pre post server via conf chunks major minor headers y w ds y' w' outs exs HN H HA.
  eapply L_PyClient3.after_own; [exact H| |exact HA]. left. unfold py_new in HN. destruct (url_make server via) as [u|e|]; [|destruct e; discriminate|discriminate].
  destruct headers as [h|]; [|inversion HN; reflexivity]. destruct (feed_headers h) as [hs []]; inversion HN; reflexivity.
Qed.
Print Assumptions C91_own_partial.

(** What the unmarshaller makes of a binary response: the object for the value sent ... *)
Theorem C91_binary_values : forall host pass native ver v, modern ver -> wf ver v -> texts v -> no_nul_names v ->
  exists body p, sent ver (response_calls v) = Ok body /\ py_replies (pbin_um (pb_step host pass native) T_METHOD_RESPONSE) body ver (PyOk p) /\ reads host native v p.
Proof.
  intros host pass native ver v HM W T N. destruct (texts_read host native pass v T (wf_uniq ver v W) N) as (p & E & R).
  pose proof (builds_all host pass native v pb_init L_root eq_refl eq_refl) as D. rewrite E in D. cbn [option_map done_to] in D. destruct D as [m D].
  destruct (response_decodes_any pb (pb_step host pass native) T_METHOD_RESPONSE ver (modern_legal ver HM) HM v pb_init pb_init _ [] (wf_wfu _ _ W) (or_intror (or_introl eq_refl)) eq_refl D) as [Q1 Q2].
  unfold sent. destruct (bin_run ver (response_calls v)) as [o f]. cbn [fst snd] in *. subst f. exists o, p. split; [reflexivity|]. split; [|exact R].
  intros pieces [EC _]. cbn [pbin_um pu_init]. rewrite hand_over_bin.
  erewrite all_of_lbig; [|exact EC| |exact Q2]; [|apply idle_cinv; lia]. do 2 eexists. split; [reflexivity|]. split; [reflexivity|]. split; reflexivity.
Qed.
Print Assumptions C91_binary_values.
(** ... and the Fault with its code and message. *)
Theorem C91_binary_faults : forall host pass native ver code msg m, modern ver -> in_s32 code -> small (blen msg) -> same_str msg m ->
  exists body, sent ver [PFault code msg] = Ok body /\
  py_replies (pbin_um (pb_step host pass native) T_METHOD_RESPONSE) body ver (PyOk (PyFault (PyInt code) (PyStr m))).
Proof.
  intros host pass native ver code msg m HM HC HS HT. pose proof (decode_same false msg m HT) as D.
  assert (ST : pb_step host pass native pb_init (EFault code msg) = (mkPB [] (P_done (PyFault (PyInt code) (PyStr m))) true false [] None, None)) by (cbn [pb_step pb_init pb_error]; rewrite D; reflexivity).
  destruct (fault_decodes pb (pb_step host pass native) T_METHOD_RESPONSE ver (modern_legal ver HM) HM code msg pb_init _ [] HC HS ltac:(right; right; auto) ST) as [Q1 Q2].
  unfold sent. destruct (bin_run ver [PFault code msg]) as [o f]. cbn [fst snd] in *. subst f. exists o. split; [reflexivity|].
  intros pieces [EC _]. cbn [pbin_um pu_init]. rewrite hand_over_bin.
  erewrite all_of_lbig; [|exact EC| |exact Q2]; [|apply idle_cinv; lia]. do 2 eexists. split; [reflexivity|]. split; [reflexivity|]. split; reflexivity.
Qed.
Print Assumptions C91_binary_faults.

(** ** Samples *)
Definition py_cums (binary : bool) : pyum :=
  let step := pb_step utc_host false true in
  if binary then pbin_um step T_METHOD_RESPONSE else pxml_um step at_once (fun _ => None) false T_METHOD_RESPONSE.
Definition py_conf : pconf := mkPc 10000 10000 10000 true ALWAYS false (mkVer 2 1).
Definition py_proxy (chunks : bool) : pyproxy := mkPyProxy (new_proxy here py_conf) chunks [].
(** The hooks write down what they are given. *)
Inductive noted : Type := Noted_pre (name : bytes) (args : list py) | Noted_post (name : bytes) (args : list py) (data : py) (e : option pyerr).
Definition note_pre (w : list noted) (name : bytes) (args : list py) : list noted * called := (w ++ [Noted_pre name args], Returned (PyInt 7)).
Definition note_post (w : list noted) (name : bytes) (args : list py) (d : py) (e : option pyerr) : list noted * called := (w ++ [Noted_post name args d e], Returned PyNone).
Definition py_calls (hooks : bool) : pyproxy -> list noted -> net -> bytes -> list py -> option py -> pyproxy * list noted * list sock_event * pyret :=
  py_call msg_of utc_host py_cums (client_writers no_double) by_bytes [] (if hooks then Some note_pre else None) (if hooks then Some note_post else None).
Definition py_bodies : list (list mcall) := [[PMethodResponse; PInt 5]; [PFault 3 (str "no")]].
Definition py_reply (cs : list mcall) : response :=
  let body := fst (bin_run (mkVer 2 1) cs) in
  mkResp true (str "OK") (known ++ [(str "Content-Type", str "application/x-frpc"); (str "Content-Length", dec (zlen body))]) body.
Definition py_net (cs : list mcall) : net := good_net (wire_of (py_reply cs)).
Definition x_id : option py := Some (PyList [PyTuple [PyStr (ustr "X-Id"); PyStr (ustr "7")]]).
Definition py_deeds : list pydeed :=
  [Py_call (py_net [PMethodResponse; PInt 5]) (str "one") [PyInt 1; PyStr (ustr "a")] x_id; Py_call (py_net [PFault 3 (str "no")]) (str "two") [] None;
   Py_call (py_net [PMethodResponse; PInt 5]) (str "bad") [PyOther] None; Py_close].
(** Three calls over one connection, the first with a header field; the second ends in a Fault, the third has an argument that cannot be sent. *)
Example py_three_calls : let '(y, w, outs) := py_after (py_calls true) (py_proxy true) [] py_deeds in
  map snd outs = [Ret (PyInt 5); Ret_fault (PyInt 3) (PyStr (ustr "no")); Ret_raise PE_Runtime] /\
  map (fun o => map (fun t => (contains (str "X-Id: 7") t, contains (str "Transfer-Encoding: chunked") t)) (sends (fst o))) outs = [[(true, true)]; [(false, true)]; []] /\
  map (fun o => opened (fst o)) outs = [1; 0; 0] /\ x_fd (y_proxy y) = None /\
  w = [Noted_pre (str "one") [PyInt 1; PyStr (ustr "a")]; Noted_post (str "one") [PyInt 1; PyStr (ustr "a")] (PyInt 7) None;
       Noted_pre (str "two") []; Noted_post (str "two") [] (PyInt 7) (Some (E_fault (PyInt 3) (PyStr (ustr "no"))));
       Noted_pre (str "bad") [PyOther]; Noted_post (str "bad") [PyOther] (PyInt 7) (Some frpc_runtime)].
Proof. vm_compute. auto 8. Qed.
Lemma py_reply_answers : forall cs v ver n, (exists body, sent ver cs = Ok body /\ ver = mkVer 2 1 /\ py_replies (py_cums true) body ver v) -> zlen (fst (bin_run (mkVer 2 1) cs)) < 2 ^ 63 ->
  wire_of (py_reply cs) = pending (n_arrives n) -> py_answered_by py_cums n (mkPyEx (py_reply cs) true ver v).
Proof.
  intros cs v ver n (body & S & -> & R) HZ E. unfold py_answered_by. cbn [pe_response pe_binary pe_version pe_value].
  assert (EB : fst (bin_run (mkVer 2 1) cs) = body) by (unfold sent in S; destruct (bin_run (mkVer 2 1) cs) as [o [[]|]]; inversion S; reflexivity).
  split; [|split; [|split]].
  - split; [intro X; cbn in X; destruct X as [X|[X|[]]]; discriminate|]. split; [discriminate|]. split; [discriminate|]. split; [|exact HZ].
    cbn [py_reply p_fields]. apply Forall_app. split; [constructor; [apply field_okb_ok; vm_compute; reflexivity|constructor]|]. constructor; [apply field_okb_ok; reflexivity|]. constructor; [|constructor].
    rewrite <- blen_zlen. apply field_ok_length. apply blen_nonneg.
  - exists (str "application/x-frpc"). split; [eapply first_in; vm_compute; reflexivity|].
    split; [exists [], []; reflexivity|]. intro X. apply contains_spec in X. vm_compute in X. discriminate.
  - cbn [py_reply p_body]. rewrite EB. exact R.
  - rewrite <- E. unfold wire_of. rewrite <- (app_nil_r (p_body _)). apply complete_framed. eapply framed_length.
    + cbn [py_reply p_fields]. exists (known ++ [(str "Content-Type", str "application/x-frpc")]), (str "Content-Length"), []. split; [rewrite <- app_assoc; reflexivity|]. split; [reflexivity|].
      apply none_in. reflexivity.
    + cbn [py_reply p_body]. rewrite <- blen_zlen. apply dec_is_number. apply blen_nonneg.
Qed.
Lemma ver21 : modern (mkVer 2 1). Proof. split; cbn; lia. Qed.
Example C91_sample : exists exs outs y w, py_new msg_of (str "http://localhost:2424/RPC2") [] py_conf true 2 1 None = inl (py_proxy true) /\
  py_after (py_calls true) (py_proxy true) [] py_deeds = (y, w, outs) /\ py_answered utc_host py_cums py_deeds outs exs /\
  map pe_value exs = [PyOk (PyInt 5); PyOk (PyFault (PyInt 3) (PyStr (ustr "no"))); PyOk PyNone].
Proof.
  exists [mkPyEx (py_reply [PMethodResponse; PInt 5]) true (mkVer 2 1) (PyOk (PyInt 5)); mkPyEx (py_reply [PFault 3 (str "no")]) true (mkVer 2 1) (PyOk (PyFault (PyInt 3) (PyStr (ustr "no"))));
          mkPyEx (py_reply []) true (mkVer 2 1) (PyOk PyNone)].
  destruct (py_after (py_calls true) (py_proxy true) [] py_deeds) as [[y w] outs] eqn:E. exists outs, y, w. split; [vm_compute; reflexivity|]. split; [reflexivity|]. split; [|reflexivity].
  assert (HL : exists es1 es2 es3, outs = [(es1, Ret (PyInt 5)); (es2, Ret_fault (PyInt 3) (PyStr (ustr "no"))); (es3, Ret_raise PE_Runtime)]) by (vm_compute in E; inversion E; repeat eexists).
  destruct HL as (es1 & es2 & es3 & ->). unfold py_deeds.
  constructor; [discriminate|discriminate| |constructor; [discriminate|discriminate| |constructor; [discriminate|discriminate| |constructor; constructor]]].
  - intros _. apply py_reply_answers; [|vm_compute; reflexivity|reflexivity].
    destruct (C91_binary_values utc_host false true (mkVer 2 1) (VInt 5) ver21) as (body & p & S & R & X); [cbn; unfold in_s64; lia|exact I|exact I|].
    exists body. split; [exact S|]. split; [reflexivity|]. cbn in X. inversion X; subst. exact R.
  - intros _. apply py_reply_answers; [|vm_compute; reflexivity|reflexivity].
    destruct (C91_binary_faults utc_host false true (mkVer 2 1) 3 (str "no") (ustr "no") ver21) as (body & S & R); [unfold in_s32; lia|unfold small; vm_compute; split; congruence|split; [repeat constructor; vm_compute; intuition congruence|reflexivity]|].
    exists body. split; [exact S|]. split; [reflexivity|]. exact R.
  - intros [[]|(_ & _ & cs & X)]. vm_compute in X. discriminate X.
Qed.
Example C89_sample : writes_well by_bytes /\ no_nul (str "one") /\ given_fields x_id [(str "X-Id", str "7")] /\ describes_all utc_host [PyInt 1; PyStr (ustr "a")] [PInt 1; PString (str "a")] /\
  no_value (str "Content-Length") ([(str "X-Id", str "7")]) /\ exists body, S_Registry.written (client_writers no_double true (mkVer 2 1)) [PMethodCall (str "one"); PInt 1; PString (str "a")] body.
Proof.
  split; [exact by_bytes_well|]. split; [intro X; cbn in X; repeat (destruct X as [X|X]; [discriminate|]); exact X|]. split.
  { apply given_list. constructor; [|constructor]. exists (ustr "X-Id"), (ustr "7"). split; [auto|]. split; (split; [repeat constructor; vm_compute; intuition congruence|reflexivity]). }
  split.
  { apply (all_cons utc_host (PyInt 1) [PInt 1]); [constructor; unfold in_s64; lia|]. apply (all_cons utc_host (PyStr (ustr "a")) [PString (str "a")]); [|constructor].
    constructor. split; [repeat constructor; vm_compute; intuition congruence|reflexivity]. }
  split; [apply none_in; reflexivity|]. eexists. eexists. exists tt. split; [vm_compute; reflexivity|reflexivity].
Qed.
Example C90_sample : Forall is_object [PyInt 1; PyStr [55296]] /\ Forall (within utc_host (mkVer 2 1)) [PyInt 1; PyStr [55296]] /\ Forall no_large [PyInt 1; PyStr [55296]] /\
  ~ Forall (py_sends (mkVer 2 1)) [PyInt 1; PyStr [55296]] /\ hooks_return (Some note_pre) (Some note_post) /\
  (let '(y, w, es, r) := py_calls true (py_proxy false) [] (py_net []) (str "one") [PyInt 1; PyStr [55296]] None in es = [] /\ r = Ret_raise PE_Runtime).
Proof.
  split; [repeat constructor; cbn; lia|]. split; [repeat constructor; cbn; lia|]. split; [repeat constructor; cbn; lia|]. split.
  - intro X. inversion X; subst. inversion H2; subst. cbn in H3. inversion H3; subst. unfold uchar in *. lia.
  - split; [split; intros f w name args; [|intros d e]; intro X; injection X as <-; cbn; discriminate|]. vm_compute. auto.
Qed.

(** ** What does not hold *)
(** C90, chunked: of a request with a large argument and one that cannot be sent the first part is sent, and the connection is kept; the request of the next call
    goes over the same connection, so that the server takes its beginning for a chunk of the request before. *)
Fixpoint by_blocks (fuel : nat) (b : bytes) : list bytes := match fuel, b with S k, _ :: _ => ztake 60000 b :: by_blocks k (zdrop 60000 b) | _, _ => [] end.
Definition in_blocks (b : bytes) : list bytes := by_blocks (List.length b) b.
Definition py_block_calls := py_call msg_of utc_host py_cums (client_writers no_double) in_blocks [] (None : option (list noted -> _)) None.
Theorem C90_chunked_refuted : exists a n1 n2, let '(y, w, outs) := py_after py_block_calls (py_proxy true) [] [Py_call n1 (str "one") [PyBytes a; PyOther] None; Py_call n2 (str "two") [] None] in
  map snd outs = [Ret_raise PE_Runtime; Ret (PyInt 5)] /\ map (fun o => zlen (concat (sends (fst o)))) outs = [60177; 188] /\ map (fun o => opened (fst o)) outs = [1; 0] /\
  map (fun o => closed (fst o)) outs = [0; 0].
Proof. exists (repeat x61 (Z.to_nat 70000)), (py_net []), (py_net [PMethodResponse; PInt 5]). vm_compute. auto. Qed.
Print Assumptions C90_chunked_refuted.

(** C90, large integers: of two calls with different arguments the same request is sent; the one with 2^63, which is not an integer of the format, is no error. *)
Theorem C90_large_refuted : exists n, let call a := py_calls false (py_proxy false) [] n (str "one") [PyInt a] None in
  let '(_, _, es1, r1) := call (2 ^ 63) in let '(_, _, es2, r2) := call (- 2 ^ 63) in r1 = Ret (PyInt 5) /\ r2 = Ret (PyInt 5) /\ sends es1 = sends es2 /\ sends es1 <> [].
Proof. exists (py_net [PMethodResponse; PInt 5]). vm_compute. split; [reflexivity|]. split; [reflexivity|]. split; [reflexivity|discriminate]. Qed.
Print Assumptions C90_large_refuted.

(** C91, a server that sends more than one response: the second one is taken for that to the next call, if it is there when that call is made (the client
    looks whether something can be read before it sends, and goes on). *)
Theorem C91_stale_refuted : exists n1 n2, pending (n_arrives n2) = wire_of (py_reply [PMethodResponse; PInt 6]) /\ n_peek n2 = Peek_data /\
  let '(y, w, outs) := py_after (py_calls false) (py_proxy false) [] [Py_call n1 (str "one") [] None; Py_call n2 (str "two") [] None] in
  map snd outs = [Ret (PyInt 5); Ret (PyInt 55)].
Proof.
  exists (good_net (wire_of (py_reply [PMethodResponse; PInt 5]) ++ wire_of (py_reply [PMethodResponse; PInt 55]))),
    (mkNet Peek_data true (n_tries (good_net [])) (n_arrives (py_net [PMethodResponse; PInt 6]))).
  split; [reflexivity|]. split; [reflexivity|]. vm_compute. reflexivity.
Qed.
Print Assumptions C91_stale_refuted.
