(** The client of the Python binding: the hooks of a call (C92), the names of methods (C93), header fields (C94), errors told by HTTP (C95). *)
From Coq Require Import Lia.
From Verif Require Import Base Value Text Unicode M_Marshal M_BinUnmarshal M_TreeBuilder M_Base64 M_Iso M_Json M_Url M_Http M_HttpIO M_HttpWriter M_Registry M_Server M_XmlUm M_Client
  M_Python M_PyRegistry M_PyServer M_PyClient
  S_Value S_Http S_Wire S_Registry S_Server S_Client S_Xml S_XmlUm S_Python S_PyRegistry S_PyServer S_PyClient L_Base L_Bits L_Text L_Http L_Dup L_BinUnmarshal L_Call L_HttpIO L_HttpIO2 L_HttpIO3 L_HttpIO5 L_HttpWriter L_Registry
  L_Server L_Server2 L_Server4 L_Client L_Client2 L_Client3 L_Python L_PyText L_PyBuild L_PyRead L_PyLoad L_Wire L_Message L_RoundTrip L_PyCall L_PyRegistry L_PyServer L_PyServer2 L_PyServer3 L_XmlParser L_PyClient L_PyClient2 L_PyClient3
  P_Registry P_Server P_Client P_Python P_PyServer P_PyClient.

(** ** C92 *)
(** What [postCall] is told of a call that ends so: the exception, if one is raised. *)
Inductive told : pyret -> option pyerr -> Prop :=
| told_value : forall v, told (Ret v) None
| told_fault : forall c m, told (Ret_fault c m) (Some (E_fault c m))
| told_protocol : forall n t, told (Ret_protocol n t) (Some (E_protocol n (Some t)))
| told_response : forall t, told (Ret_response t) (Some (E_response (Some t)))
| told_type : forall t, told (Ret_raise PE_Type) (Some (E_type (Some t)))
| told_runtime : forall t, told (Ret_raise PE_Runtime) (Some (E_runtime (Some t)))
| told_no_text : forall e, told (Ret_raise PE_System) (Some e).
Definition ends (r : pyret) : Prop := match r with Ret_abort | Ret_undef | Ret_waiting => False | _ => True end.
(** What [preCall] leaves: the world, and what it returned ([None] if it raised an exception). *)
Definition before_call {W} (pre : option (W -> bytes -> list py -> W * called)) (w : W) (name : bytes) (args : list py) : W * py :=
  match pre with
  | None => (w, PyNone)
  | Some f => (fst (f w name args), match snd (f w name args) with Returned v => v | _ => PyNone end)
  end.
Definition after_call {W} (post : option (W -> bytes -> list py -> py -> option pyerr -> W * called)) (w : W) (name : bytes) (args : list py) (d : py) (e : option pyerr) : W :=
  match post with None => w | Some f => fst (f w name args d e) end.

(** The hooks are run once each, with the name and the arguments, [postCall] with what [preCall] returned and the exception of the call.  They change neither what is
    sent, nor the proxy, nor how the call ends (except for exceptions whose text is not UTF-8, [C92_text_refuted]), even if they raise. *)
Theorem C92_hooks_partial : forall W message host ums mars cut callback (pre : option (W -> _)) post y w n name args headers hs y' w' es r y0 w0 es0 r0,
  hooks_return pre post -> v_major (a_version (x_conf (y_proxy y))) <= 3 -> given_fields headers hs ->
  py_call message host ums mars cut callback pre post y w n name args headers = (y', w', es, r) ->
  py_call message host ums mars cut callback None None y w n name args headers = (y0, w0, es0, r0) ->
  y' = y0 /\ es = es0 /\ (r = r0 \/ r0 = Ret_raise PE_Decode /\ r = Ret_raise PE_System) /\
  let '(w1, d) := before_call pre w name args in
  (ends r -> post <> None -> exists e, told r e /\ w' = after_call post w1 name args d e) /\ (~ ends r \/ post = None -> w' = w1).
Proof.
  intros W message host ums mars cut callback pre post y w n name args headers hs y' w' es r y0 w0 es0 r0 [H1 H2] HV HG H H0.
  apply (call_cases _ _ _ _ _ _ _ _ _ _ _ _ _ _ _ _ _ _ _ HG) in H. apply (call_cases _ _ _ _ _ _ _ _ _ _ _ _ _ _ _ _ _ _ _ HG) in H0.
  set (y1 := with_proxy (add_header_once hs (y_proxy y)) y) in *. unfold py_operator in H, H0. fold (named name y1) in H, H0. cbn [named y_proxy] in H, H0.
  assert (V : 3 <? v_major (a_version (x_conf (y_proxy y1))) = false) by (apply Z.ltb_ge; exact HV). rewrite V in H, H0.
  destruct (match pre with Some f => _ | None => _ end) as [w1 x] eqn:EP.
  assert (HD : exists d, x = Some d /\ before_call pre w name args = (w1, d)).
  { unfold before_call. destruct pre as [f|]; [|inversion EP; subst; eauto]. specialize (H1 f w name args eq_refl).
    destruct (f w name args) as [w2 []]; inversion EP; subst; cbn; eauto. cbn in H1. congruence. }
  destruct HD as (d & -> & ->). destruct (py_exchange _ _ _ _ _ _ (named name y1) n name args) as [[y2 es2] out] eqn:E.
  assert (RD : forall e, raised post e = raised (W := W) None e \/ raised (W := W) None e = Ret_raise PE_Decode /\ raised post e = Ret_raise PE_System).
  { intros [c m|k [t|]|[t|]|[t|]|[t|]]; cbn; auto; destruct post; auto. }
  assert (TD : forall e, post <> None -> told (raised post e) (Some e)).
  { intros e HP. destruct post; [|congruence]. destruct e as [c m|k [t|]|[t|]|[t|]|[t|]]; cbn; constructor. }
  assert (NE : forall e, ends (raised post e)).
  { intros [c m|k [t|]|[t|]|[t|]|[t|]]; cbn; exact I. }
  destruct out as [v|e| | |]; cbv zeta in H, H0.
  - injection H0 as <- <- <- <-. destruct post as [f|].
    + specialize (H2 f w1 name args d None eq_refl). unfold after_call. destruct (f w1 name args d None) as [w2 c] eqn:EF.
      assert (X : (y', w', es, r) = (y2, w2, es2, Ret v)) by (rewrite <- H; destruct c; cbn in H2; congruence). injection X as -> -> -> ->.
      split; [reflexivity|]. split; [reflexivity|]. split; [left; reflexivity|]. split.
      * intros _ _. exists None. split; [constructor|]. rewrite EF. reflexivity.
      * intros [X|X]; [destruct X; exact I|discriminate].
    + injection H as <- <- <- <-. split; [reflexivity|]. split; [reflexivity|]. split; [left; reflexivity|]. split; [congruence|reflexivity].
  - injection H0 as <- <- <- <-. destruct post as [f|].
    + specialize (H2 f w1 name args d (Some e) eq_refl). unfold after_call. destruct (f w1 name args d (Some e)) as [w2 c] eqn:EF.
      assert (X : (y', w', es, r) = (y2, w2, es2, raised (Some f) e)) by (rewrite <- H; destruct c; cbn in H2; congruence). injection X as -> -> -> ->.
      split; [reflexivity|]. split; [reflexivity|]. split; [apply RD|]. split.
      * intros _ _. exists (Some e). split; [apply TD; discriminate|]. rewrite EF. reflexivity.
      * intros [X|X]; [destruct X; apply NE|discriminate].
    + injection H as <- <- <- <-. split; [reflexivity|]. split; [reflexivity|]. split; [left; reflexivity|]. split; [congruence|reflexivity].
  - injection H as <- <- <- <-. injection H0 as <- <- <- <-. split; [reflexivity|]. split; [reflexivity|]. split; [left; reflexivity|]. split; [intros []|reflexivity].
  - injection H as <- <- <- <-. injection H0 as <- <- <- <-. split; [reflexivity|]. split; [reflexivity|]. split; [left; reflexivity|]. split; [intros []|reflexivity].
  - injection H as <- <- <- <-. injection H0 as <- <- <- <-. split; [reflexivity|]. split; [reflexivity|]. split; [left; reflexivity|]. split; [intros []|reflexivity].
Qed.
Print Assumptions C92_hooks_partial.

(** ** C93 *)
(** [proxy.a.b.c] is the method "a.b.c", for names that are text without a NUL and do not begin with "__"; the first is not one of the attributes of the proxy, unless
    these are hidden. *)
Definition plain_name (b : bytes) (a : pystr) : Prop := same_str b a /\ no_nul b /\ ~ exists r, b = str "__" ++ r.
Lemma dunder_spec : forall b, dunder b = false <-> ~ exists r, b = str "__" ++ r.
Proof.
  intros b. destruct b as [|x [|y r]]; cbn.
  - split; [intros _ (r & X); discriminate|reflexivity].
  - split; [intros _ (r & X); discriminate|reflexivity].
  - split.
    + intros H (q & X). injection X as -> -> _. discriminate.
    + intro H. destruct (Z.eqb_spec (b2z x) 95) as [A|A]; [|reflexivity]. destruct (Z.eqb_spec (b2z y) 95) as [B|B]; [|reflexivity].
      destruct H. exists r. rewrite <- (z2b_b2z x), <- (z2b_b2z y), A, B. reflexivity.
Qed.
Lemma c_string_same : forall b, no_nul b -> c_string b = b.
Proof. intros b H. exact (c_string_id b H). Qed.
Lemma attr_name_plain : forall b a, plain_name b a -> attr_name a = Some b /\ dunder b = false.
Proof.
  intros b a (S & N & D). unfold attr_name. rewrite (encode_of _ _ S). cbn. rewrite (c_string_same _ N). split; [reflexivity|]. apply dunder_spec. exact D.
Qed.
Theorem C93_names : forall hide b a bs names, plain_name b a -> Forall2 plain_name bs names ->
  (hide = false -> ~ In b [str "host"; str "path"; str "port"; str "url"; str "last_call"]) ->
  attrs_of (proxy_attr hide a) names = At_method (b ++ concat (map (fun c => str "." ++ c) bs)).
Proof.
  intros hide b a bs names H HF HO. destruct (attr_name_plain _ _ H) as [E D]. unfold proxy_attr. rewrite E, D.
  assert (X : negb hide && existsb (bytes_eqb b) own_attributes = false).
  { destruct hide; [reflexivity|]. cbn [negb andb]. destruct (existsb (bytes_eqb b) own_attributes) eqn:EE; [|reflexivity]. exfalso. apply existsb_exists in EE as (x & I & Q).
    apply bytes_eqb_eq in Q. subst x. exact (HO eq_refl I). }
  rewrite X. clear - HF. revert b. induction HF as [|c d bs names H HF IH]; intro b; [cbn; rewrite app_nil_r; reflexivity|].
  cbn [attrs_of]. unfold method_attr. destruct (attr_name_plain _ _ H) as [E D]. rewrite E, D, IH. f_equal. cbn [map concat]. rewrite !app_assoc. reflexivity.
Qed.
Print Assumptions C93_names.
(** Names that begin with "__" are no methods: AttributeError (or the dictionary). *)
Theorem C93_special : forall hide a b, same_str b a -> no_nul b -> (exists r, b = str "__" ++ r) -> proxy_attr hide a = At_missing \/ proxy_attr hide a = At_dict /\ b = str "__dict__".
Proof.
  intros hide a b S N D. unfold proxy_attr, attr_name. rewrite (encode_of _ _ S). cbn [option_map]. rewrite (c_string_same _ N).
  destruct (dunder b) eqn:E; [|apply dunder_spec in E; contradiction]. destruct (bytes_eqb b (str "__dict__")) eqn:Q; [right|left; reflexivity]. split; [reflexivity|]. apply bytes_eqb_eq in Q. exact Q.
Qed.
Print Assumptions C93_special.
Example C93_sample : attrs_of (proxy_attr false (ustr "system")) [ustr "listMethods"] = At_method (str "system.listMethods") /\
  plain_name (str "system") (ustr "system") /\ Forall2 plain_name [str "listMethods"] [ustr "listMethods"] /\ proxy_attr false (ustr "__len__") = At_missing.
Proof.
  split; [vm_compute; reflexivity|]. assert (X : forall s, (forall r, str s <> str "__" ++ r) -> no_nul (str s) -> Forall uchar (ustr s) -> str s = flat_map utf8_char (ustr s) -> plain_name (str s) (ustr s)).
  { intros s A B C D. split; [split; [exact C|exact D]|]. split; [exact B|]. intros (r & Q). exact (A r Q). }
  split; [|split; [constructor; [|constructor]|vm_compute; reflexivity]].
  - apply X; [intros r Q; discriminate|intro Q; cbn in Q; repeat (destruct Q as [Q|Q]; [discriminate|]); exact Q|repeat constructor; vm_compute; intuition congruence|vm_compute; reflexivity].
  - apply X; [intros r Q; discriminate|intro Q; cbn in Q; repeat (destruct Q as [Q|Q]; [discriminate|]); exact Q|repeat constructor; vm_compute; intuition congruence|vm_compute; reflexivity].
Qed.
(** A name is cut at a NUL: two attributes are the same method. *)
Theorem C93_nul_refuted : exists a b, a <> b /\ proxy_attr false a = At_method (str "a") /\ proxy_attr false b = At_method (str "a").
Proof. exists [97; 0; 98], [97; 0; 99]. split; [discriminate|]. vm_compute. auto. Qed.
Print Assumptions C93_nul_refuted.

(** [last_call] of the proxy is the name of the method called last. *)
Theorem C93_last_call : forall W message host ums mars cut callback (pre : option (W -> _)) post y w n name args headers hs y' w' es r,
  given_fields headers hs -> py_call message host ums mars cut callback pre post y w n name args headers = (y', w', es, r) -> y_last y' = name.
Proof.
  intros W message host ums mars cut callback pre post y w n name args headers hs y' w' es r HG H.
  apply (L_PyClient3.call_cases _ _ _ _ _ _ _ _ _ _ _ _ _ _ _ _ _ _ _ HG) in H. set (y1 := with_proxy (add_header_once hs (y_proxy y)) y) in *. unfold py_operator in H. fold (named name y1) in H.
  destruct (3 <? _); [injection H as <- _ _ _; reflexivity|]. destruct (match pre with Some f => _ | None => _ end) as [w1 [d|]]; [|injection H as <- _ _ _; reflexivity].
  destruct (py_exchange _ _ _ _ _ _ (named name y1) n name args) as [[y2 es2] out] eqn:E. apply exchange_facts in E as (_ & _ & L & _). change (y_last (named name y1)) with name in L.
  destruct out; destruct post as [f|]; try (injection H as <- _ _ _; exact L).
  - destruct (f w1 name args d None) as [w2 []]; injection H as <- _ _ _; exact L.
  - destruct (f w1 name args d (Some e)) as [w2 []]; injection H as <- _ _ _; exact L.
Qed.
Print Assumptions C93_last_call.

(** ** C94 *)
Definition pycalls (ds : list pydeed) : list (bytes * list py * option py) :=
  flat_map (fun d => match d with Py_call _ name args headers => [(name, args, headers)] | Py_close => [] end) ds.
Section Histories.
  Context {W : Type}.
  Variable message : exn -> bytes.
  Variable host : datetime -> datetime.
  Variable ums : bool -> pyum.
  Variable mars : bool -> version -> marshaller.
  Variable cut : bytes -> list bytes.
  Variable callback : list (bytes * bytes).
  Variable pre : option (W -> bytes -> list py -> W * called).
  Variable post : option (W -> bytes -> list py -> py -> option pyerr -> W * called).
  Notation py_call := (py_call message host ums mars cut callback pre post).

  Lemma call_settings : forall y w n name args headers hs y' w' es r, given_fields headers hs -> py_call y w n name args headers = (y', w', es, r) ->
    r <> Ret_abort -> r <> Ret_undef -> same_settings y y' /\ x_once (y_proxy y') = [].
  Proof.
    intros y w n name args headers hs y' w' es r HG H NA NU. apply (call_cases _ _ _ _ _ _ _ _ _ _ _ _ _ _ _ _ _ _ _ HG) in H.
    apply operator_cases in H as [(_ & _ & [->| ->])|(out & HE & _)]; [congruence..|].
    apply exchange_facts in HE as (SS & O & _). split; [|exact O]. destruct SS. constructor; assumption.
  Qed.
  Lemma history_fields : forall ds y w y' w' outs hs0, writes_well cut -> x_headers (y_proxy y) = hs0 -> x_once (y_proxy y) = [] ->
    py_after py_call y w ds = (y', w', outs) -> Forall (fun c => exists hs, given_fields (snd c) hs) (pycalls ds) ->
    Forall (fun o => snd o <> Ret_abort /\ snd o <> Ret_undef) outs ->
    Forall2 (fun c o => let '(name, args, headers) := c in forall hs cs, given_fields headers hs -> no_nul name -> describes_all host args cs ->
      (y_chunks y = true -> no_value (str "Content-Length") (hs0 ++ hs ++ callback) /\ forall binary ver, exists body, written (mars binary ver) (PMethodCall name :: cs) body) ->
      exists c binary lost, a_http10 c = a_http10 (x_conf (y_proxy y)) /\ a_keep c = a_keep (x_conf (y_proxy y)) /\
        py_sent host mars (x_url (y_proxy y)) c binary (hs0 ++ hs ++ callback) name args (fst o) lost) (pycalls ds) outs.
  Proof.
    induction ds as [|d ds IH]; intros y w y' w' outs hs0 HW HH HO H HF HR.
    - cbn in H. inversion H; subst. constructor.
    - destruct d as [n name args headers|]; cbn [py_after pycalls flat_map app] in *.
      + fold (pycalls ds) in *. destruct (py_call y w n name args headers) as [[[y1 w1] es] r] eqn:E. destruct (py_after py_call y1 w1 ds) as [[y2 w2] l] eqn:E2. injection H as <- <- <-.
        inversion HR as [|? ? [NA NU] HR2]; subst. inversion HF as [|? ? (hs1 & HG1) HF2]; subst. cbn [fst snd] in *.
        destruct (call_settings _ _ _ _ _ _ _ _ _ _ _ HG1 E NA NU) as [[SU SM SH SK SHD SC] SO]. constructor.
        * intros hs cs HG HN HD HCH. pose proof (C89_once W message host ums mars cut callback pre post y w n name args headers hs cs y1 w1 es r HW HN HG HD) as C. cbv zeta in C. rewrite HO in C. cbn [app] in C.
          destruct C as (_ & _ & lost & S & _); [|exact E|].
          { intro K. destruct (HCH K) as [A B]. split; [exact A|apply B]. }
          do 3 eexists. split; [|split; [|exact S]]; reflexivity.
        * specialize (IH y1 w1 y2 w2 l (x_headers (y_proxy y)) HW SHD SO E2 HF2 HR2). rewrite SU, SH, SK, SC in IH. exact IH.
      + specialize (IH (fst (py_close y)) w y' w' outs hs0 HW HH HO H HF HR). exact IH.
  Qed.
End Histories.

(** The header fields given to the proxy are sent with every call, those given with a call with this call and no other. *)
Theorem C94_fields_partial : forall W message host ums mars cut callback (pre : option (W -> _)) post server via conf chunks major minor headers hs0 y w ds y' w' outs u,
  url_make server via = Ok u -> given_fields headers hs0 -> py_new message server via conf chunks major minor headers = inl y ->
  writes_well cut -> py_after (py_call message host ums mars cut callback pre post) y w ds = (y', w', outs) ->
  Forall (fun c => exists hs, given_fields (snd c) hs) (pycalls ds) -> Forall (fun o => snd o <> Ret_abort /\ snd o <> Ret_undef) outs ->
  Forall2 (fun c o => let '(name, args, headers) := c in forall hs cs, given_fields headers hs -> no_nul name -> describes_all host args cs ->
    (chunks = true -> no_value (str "Content-Length") (hs0 ++ hs ++ callback) /\ forall binary ver, exists body, written (mars binary ver) (PMethodCall name :: cs) body) ->
    exists c binary lost, a_http10 c = a_http10 conf /\ a_keep c = a_keep conf /\
      py_sent host mars u c binary (hs0 ++ hs ++ callback) name args (fst o) lost) (pycalls ds) outs.
Proof.
  intros W message host ums mars cut callback pre post server via conf chunks major minor headers hs0 y w ds y' w' outs u HU HG HN HW H HF HR.
  assert (Y : x_url (y_proxy y) = u /\ x_headers (y_proxy y) = hs0 /\ x_once (y_proxy y) = [] /\ y_chunks y = chunks /\
              a_http10 (x_conf (y_proxy y)) = a_http10 conf /\ a_keep (x_conf (y_proxy y)) = a_keep conf).
  { unfold py_new in HN. rewrite HU in HN. destruct headers as [h|].
    - rewrite (given_spec _ _ HG) in HN. injection HN as <-. cbn. rewrite ?app_nil_r. repeat split.
    - inversion HG; subst. injection HN as <-. cbn. repeat split. }
  destruct Y as (Y1 & Y2 & Y3 & Y4 & Y5 & Y6).
  pose proof (history_fields message host ums mars cut callback pre post ds y w y' w' outs hs0 HW Y2 Y3 H HF HR) as X. rewrite Y1, Y4, Y5, Y6 in X. exact X.
Qed.
Print Assumptions C94_fields_partial.
Example C94_sample : let ds := [Py_call (py_net [PMethodResponse; PInt 5]) (str "one") [] x_id; Py_close; Py_call (py_net [PMethodResponse; PInt 6]) (str "two") [] None] in
  exists y y' w' outs, py_new msg_of (str "http://localhost:2424/RPC2") [] py_conf false 2 1 (Some (PyList [PyTuple [PyStr (ustr "X-Who"); PyStr (ustr "me")]])) = inl y /\
  py_after (py_calls true) y [] ds = (y', w', outs) /\ map snd outs = [Ret (PyInt 5); Ret (PyInt 6)] /\
  map (fun o => map (fun t => (contains (str "X-Who: me") t, contains (str "X-Id: 7") t)) (sends (fst o))) outs = [[(true, true)]; [(true, false)]].
Proof. do 4 eexists. split; [vm_compute; reflexivity|]. split; [vm_compute; reflexivity|]. split; vm_compute; reflexivity. Qed.

(** Header fields of which one is no pair of strings: TypeError, and nothing is sent. *)
Theorem C94_unusable : forall W message host ums mars cut callback (pre : option (W -> _)) post y w n name args l1 hs v l2 headers y' w' es r,
  Forall2 pair_of l1 hs -> no_pair v -> headers = PyList (l1 ++ v :: l2) \/ headers = PyTuple (l1 ++ v :: l2) ->
  py_call message host ums mars cut callback pre post y w n name args (Some headers) = (y', w', es, r) ->
  r = Ret_raise PE_Type /\ es = [] /\ w' = w /\ x_fd (y_proxy y') = x_fd (y_proxy y).
Proof.
  intros W message host ums mars cut callback pre post y w n name args l1 hs v l2 headers y' w' es r HF HN HH H.
  assert (NS : forall a, ~ a_str a -> get_string a = PyRaise PE_Type) by (intros [] X; try reflexivity; exfalso; apply X; eexists; reflexivity).
  assert (TWO : forall l : list py, List.length l <> 2%nat -> match l with [a; b] => False | _ => True end) by (intros [|? [|? [|? ?]]] X; try exact I; cbn in X; congruence).
  assert (U : unpack_pair v = PyRaise PE_Type).
  { unfold unpack_pair. destruct HN as [v X|l X|l X|v a b X Y|v u b X Y Z].
    - destruct v; try contradiction; reflexivity.
    - apply TWO in X. cbn [sequence_items]. destruct l as [|? [|? [|? ?]]]; try contradiction; reflexivity.
    - apply TWO in X. cbn [sequence_items]. destruct l as [|? [|? [|? ?]]]; try contradiction; reflexivity.
    - destruct X as [->| ->]; cbn [sequence_items]; rewrite (NS _ Y); reflexivity.
    - assert (E : get_string (PyStr u) = PyOk (flat_map utf8_char u)) by (cbn [get_string]; rewrite (encode_of (flat_map utf8_char u) u); [reflexivity|split; [exact Y|reflexivity]]).
      destruct X as [->| ->]; cbn [sequence_items]; rewrite E, (NS _ Z); reflexivity. }
  assert (F : exists fs, feed_fields (l1 ++ v :: l2) = (fs, PyRaise PE_Type)).
  { clear - HF U. induction HF as [|p f l fs HP HF IH]; [exists []; cbn; rewrite U; reflexivity|].
    assert (E : feed_headers (PyList [p]) = ([f], PyOk tt)) by (apply given_spec; constructor; repeat constructor; exact HP). unfold feed_headers in E. cbn [sequence_items feed_fields] in E.
    cbn. destruct (unpack_pair p); try discriminate. destruct IH as [fs' IH]. exists (a :: fs'). rewrite IH. reflexivity. }
  destruct F as [fs F]. unfold py_call in H. assert (FH : feed_headers headers = (fs, PyRaise PE_Type)) by (destruct HH as [->| ->]; exact F).
  rewrite FH in H. injection H as <- <- <- <-. auto.
Qed.
Print Assumptions C94_unusable.
Example C94_unusable_sample : no_pair (PyInt 1) /\ no_pair (PyTuple [PyStr (ustr "X-Id"); PyInt 7]).
Proof. split; [apply no_pair_other; exact I|]. eapply no_pair_second; [right; reflexivity|repeat constructor; vm_compute; intuition congruence|intros (u & X); discriminate]. Qed.
(** Header fields that cannot be used: those before them are sent with the next call, though their call failed; a text that has no UTF-8 form is undefined behaviour;
    a proxy made with such fields is a SystemError ("returned a result with an exception set"). *)
Theorem C94_left_over_refuted : exists n1 n2 h, let '(y, w, outs) := py_after (py_calls false) (py_proxy false) [] [Py_call n1 (str "one") [] (Some h); Py_call n2 (str "two") [] None] in
  map snd outs = [Ret_raise PE_Type; Ret (PyInt 5)] /\ map (fun o => map (fun t => contains (str "X-Id: 7") t) (sends (fst o))) outs = [[]; [true]].
Proof.
  exists (py_net []), (py_net [PMethodResponse; PInt 5]), (PyList [PyTuple [PyStr (ustr "X-Id"); PyStr (ustr "7")]; PyInt 1]). vm_compute. auto.
Qed.
Print Assumptions C94_left_over_refuted.
Theorem C94_surrogate_refuted : exists n h, let '(y, w, es, r) := py_calls false (py_proxy false) [] n (str "one") [] (Some h) in r = Ret_undef.
Proof. exists (py_net []), (PyList [PyTuple [PyStr (ustr "X-Id"); PyStr [55296]]]). vm_compute. reflexivity. Qed.
Print Assumptions C94_surrogate_refuted.
Theorem C94_new_refuted : exists h, py_new msg_of (str "http://localhost:2424/RPC2") [] py_conf false 2 1 (Some h) = inr (Ret_raise PE_System).
Proof. exists (PyInt 1). vm_compute. reflexivity. Qed.
Print Assumptions C94_new_refuted.

(** ** C95 *)
(** The status line of a response that is an error. *)
Definition error_head (http11 : bool) (code : Z) (reason : bytes) : bytes :=
  (if http11 then str "HTTP/1.1" else str "HTTP/1.0") ++ str " " ++ dec code ++ str " " ++ reason ++ crlf.
Lemma dec_word : forall n, 0 <= n -> word (dec n).
Proof.
  intros n H. destruct (dec_spec n H) as (A & B & _). split; [exact A|]. intros c I. rewrite Forall_forall in B. specialize (B c I). unfold is_digit in B.
  apply andb_true_iff in B as [B1 B2]. apply Z.leb_le in B1. apply Z.leb_le in B2. intros [X|X]; [subst c; cbn in *; lia|lia].
Qed.
Lemma read_dec_int_dec : forall n, 0 <= n <= 999 -> read_dec_int (dec n) = n.
Proof.
  intros n H. destruct (dec_prefix (dec n) n (dec_is_number n ltac:(lia))) as (H1 & H2 & H3 & H4). unfold read_dec_int. rewrite H1, H2.
  replace (blen (dec n) =? 0) with false by (symmetry; apply Z.eqb_neq; lia).
  replace (2 ^ 31 - 1 <? n) with false by (symmetry; apply Z.ltb_ge; lia). reflexivity.
Qed.
Lemma error_line : forall http11 code reason rest sees ending fuel, 100 <= code <= 999 -> code <> 200 -> one_line reason -> reason <> [] -> last reason x20 <> x0d ->
  let s := mkSock (error_head http11 code reason ++ rest) sees ending in
  (exists s', read_status (S fuel) s = (s', Err (HTTPError code))) /\ status_error (S fuel) s = reason.
Proof.
  intros http11 code reason rest sees ending fuel HC H2 HR1 HR2 HR3 s. set (v := if http11 then str "HTTP/1.1" else str "HTTP/1.0").
  assert (WV : word v) by (unfold v; destruct http11; (apply word_dec; [discriminate|reflexivity])). assert (WD : word (dec code)) by (apply dec_word; lia).
  destruct (read_first_line true false v (dec code) reason rest sees ending WV WD HR1 HR2 HR3) as (s1 & E).
  assert (E' : read_line_opt true (-1) false s = (mkSock rest s1 ending, Ok (v ++ [x20] ++ dec code ++ [x20] ++ reason))).
  { etransitivity; [|exact E]. f_equal. }
  assert (HN : v ++ [x20] ++ dec code ++ [x20] ++ reason <> []) by (unfold v; destruct http11; discriminate).
  assert (HV : bytes_eqb v (str "HTTP/1.0") || bytes_eqb v (str "HTTP/1.1") = true) by (unfold v; destruct http11; reflexivity).
  pose proof (split_three v (dec code) reason WV WD HR2) as SP. split.
  - cbn [read_status]. rewrite E'. cbn [sbind]. destruct (v ++ [x20] ++ dec code ++ [x20] ++ reason) as [|c l] eqn:EQ; [congruence|]. rewrite SP, HV. cbn [negb].
    rewrite read_dec_int_dec by lia. destruct (Z.eqb_spec code 200); [contradiction|]. cbn [negb]. eauto.
  - cbn [status_error]. rewrite E'. destruct (v ++ [x20] ++ dec code ++ [x20] ++ reason) as [|c l] eqn:EQ; [congruence|]. rewrite SP, HV. reflexivity.
Qed.

Section Arrivals.
  Variable message : exn -> bytes.
  Variable host : datetime -> datetime.
  Variable ums : bool -> pyum.
  Variable mars : bool -> version -> marshaller.
  Variable cut : bytes -> list bytes.
  Variable callback : list (bytes * bytes).
  Notation py_exchange := (py_exchange message host ums mars cut callback).
  Lemma send_writes_arrives : forall keep p c t a a' head l s, send_writes keep (mkNet p c t a) head l s = send_writes keep (mkNet p c t a') head l s.
  Proof. reflexivity. Qed.
  Lemma connect_clean : forall keep n fd rest es, fd = None \/ fd = Some [] -> connect_socket keep n fd = (Some rest, es, Ok tt) -> rest = [].
  Proof.
    intros keep n fd rest es HC E. unfold connect_socket in E. destruct HC as [->| ->].
    - destruct (n_connect n); inversion E; reflexivity.
    - destruct (negb keep); [|destruct (n_peek n)]; try (destruct (n_connect n)); inversion E; reflexivity.
  Qed.
  (** What arrives matters only when the response is read. *)
  Lemma exchange_arrives : forall y p c t name args, clean y ->
    (exists must fd es, (fd = None \/ fd = Some []) /\ forall a, py_exchange y (mkNet p c t a) name args = py_answer message ums (y_no_once y) (mkNet p c t a) must fd es) \/
    (exists x, forall a, py_exchange y (mkNet p c t a) name args = x /\ ~ got (snd x)).
  Proof.
    intros y p c t name args HY. set (a0 := mkSock [] [] Closed).
    unfold M_PyClient.py_exchange.
    change (use_binary (mkProxy (x_url (y_proxy y)) (x_conf (y_proxy y)) (x_protocols (y_proxy y)) (x_headers (y_proxy y)) [] (x_fd (y_proxy y)))) with (use_binary (y_proxy y)).
    cbn [x_conf x_url x_headers x_fd y_chunks y_proxy n_tries]. fold (no_once (y_proxy y)). fold (y_no_once y). fold (py_client callback y).
    set (m := mars (use_binary (y_proxy y)) (a_version (x_conf (y_proxy y)))) in *. set (keep := a_keep (x_conf (y_proxy y))) in *.
    set (k := py_client callback y) in *. cbn [fst snd].
    destruct (ma_run m (ma_init m) (PMethodCall (c_str name) :: fst (feed_args host args))) as [[o s] f] eqn:EM.
    set (start := mkSending _ _ _ _) in *. set (pieces := cut _).
    assert (L0 : linked keep (mkNet p c t a0) (x_fd (y_proxy y)) start) by (apply linked_idle; reflexivity).
    destruct (send_writes keep (mkNet p c t a0) (client_head k) pieces start) as [n1 g1] eqn:ES.
    assert (ESA : forall a, send_writes keep (mkNet p c t a) (client_head k) pieces start = (n1, g1)) by (intro a; rewrite (send_writes_arrives _ _ _ _ a a0); exact ES).
    pose proof (send_writes_spec keep (mkNet p c t a0) (client_head k) (x_fd (y_proxy y)) _ _ _ _ L0 ES) as HS.
    assert (NG : forall e, ~ got (of_exn e (message e))) by (intro e; apply of_exn_not).
    assert (FD : forall wire n2 g2, stopped keep (mkNet p c t a0) (x_fd (y_proxy y)) wire n2 g2 -> g2 = Go_read -> n_fd n2 = Some []).
    { intros wire n2 g2 ST E. destruct ST as [| |rest es bs lost A B C D|]; try discriminate. rewrite B. f_equal. eapply connect_clean; [exact HY|exact A]. }
    destruct g1 as [| |e| |].
    - destruct f as [[e|]|].
      + right. eexists. intro a. rewrite ESA. split; [reflexivity|]. apply NG.
      + right. eexists. intro a. rewrite ESA. split; [reflexivity|]. intros [].
      + destruct (snd (feed_args host args)) as [e|] eqn:EF.
        * right. eexists. intro a. rewrite ESA. split; [reflexivity|]. intros [].
        * destruct HS as [_ L1]. destruct (send_flush keep (mkNet p c t a0) (client_head k) n1) as [n2 g2] eqn:E2.
          assert (E2A : forall a, send_flush keep (mkNet p c t a) (client_head k) n1 = (n2, g2)) by (intro a; exact E2).
          unfold send_flush in E2. apply send_request_spec with (fd0 := x_fd (y_proxy y)) in E2; [|exact L1].
          destruct g2 as [| |e| |].
          -- left. exists false, (n_fd n2), (n_events n2). split; [|intro a; rewrite ESA, E2A; reflexivity].
             destruct E2 as [_ [A B C D|rest es bs A B C D F]]; rewrite C; [exact HY|]. right. f_equal. eapply connect_clean; [exact HY|exact B].
          -- left. exists true, (n_fd n2), (n_events n2). split; [right; eapply FD; [exact E2|reflexivity]|intro a; rewrite ESA, E2A; reflexivity].
          -- right. eexists. intro a. rewrite ESA, E2A. split; [reflexivity|]. apply NG.
          -- right. eexists. intro a. rewrite ESA, E2A. split; [reflexivity|]. intros [].
          -- right. eexists. intro a. rewrite ESA, E2A. split; [reflexivity|]. intros [].
    - left. exists true, (n_fd n1), (n_events n1). split; [right; eapply FD; [exact HS|reflexivity]|intro a; rewrite ESA; reflexivity].
    - right. eexists. intro a. rewrite ESA. split; [reflexivity|]. apply NG.
    - right. eexists. intro a. rewrite ESA. split; [reflexivity|]. intros [].
    - right. eexists. intro a. rewrite ESA. split; [reflexivity|]. intros [].
  Qed.
End Arrivals.

(** A call over a network over which it could get a response gets an error instead: ProtocolError is raised with the number and the text of the status line, the
    connection is closed, and what the proxy knows of the server stays. *)
Theorem C95_errors_partial : forall W message host ums mars cut callback (pre : option (W -> _)) post y w p c t a name args headers hs y' w' es r http11 code reason rest text,
  hooks_return pre post -> v_major (a_version (x_conf (y_proxy y))) <= 3 -> given_fields headers hs -> x_fd (y_proxy y) = None \/ x_fd (y_proxy y) = Some [] ->
  (exists a0 y0 w0 es0 r0, py_call message host ums mars cut callback pre post y w (mkNet p c t a0) name args headers = (y0, w0, es0, r0) /\ from_response r0) ->
  100 <= code <= 999 -> code <> 200 -> one_line reason -> reason <> [] -> last reason x20 <> x0d -> same_str reason text -> no_nul reason ->
  pending a = error_head http11 code reason ++ rest ->
  py_call message host ums mars cut callback pre post y w (mkNet p c t a) name args headers = (y', w', es, r) ->
  r = Ret_protocol code text /\ x_fd (y_proxy y') = None /\ a_version (x_conf (y_proxy y')) = a_version (x_conf (y_proxy y)) /\ x_protocols (y_proxy y') = x_protocols (y_proxy y).
Proof.
  intros W message host ums mars cut callback pre post y w p c t a name args headers hs y' w' es r http11 code reason rest text HH HV HG HC (a0 & y0 & w0 & es0 & r0 & H0 & F0) H1 H2 HR1 HR2 HR3 HT HZ HP H.
  apply (L_PyClient3.call_cases _ _ _ _ _ _ _ _ _ _ _ _ _ _ _ _ _ _ _ HG) in H. apply (L_PyClient3.call_cases _ _ _ _ _ _ _ _ _ _ _ _ _ _ _ _ _ _ _ HG) in H0.
  set (y1 := with_proxy (add_header_once hs (y_proxy y)) y) in *.
  apply operator_returns in H as (out & HE & ->); [|exact HH|exact HV]. apply operator_returns in H0 as (out0 & HE0 & ->); [|exact HH|exact HV].
  apply got_from in F0. destruct (exchange_arrives message host ums mars cut callback (named name y1) p c t name args HC) as [(must & fd & es1 & HF & HA)|(x & HX)].
  2:{ exfalso. destruct (HX a0) as [A B]. rewrite A in HE0. subst x. exact (B F0). }
  rewrite HA in HE. apply py_answer_spec in HE as (cc & fd2 & x & st & HR & _ & _ & _ & HFD & _ & HX).
  destruct (error_line http11 code reason rest (M_HttpIO.sees a) (fin a) (List.length (error_head http11 code reason ++ rest)) H1 H2 HR1 HR2 HR3) as [(s' & RS) SE].
  assert (XX : fd2 = None /\ x = Err (HTTPError code) /\ st = true /\ status_error (S (List.length (pending a))) a = reason).
  { assert (EA : a = mkSock (error_head http11 code reason ++ rest) (M_HttpIO.sees a) (fin a)) by (rewrite <- HP; destruct a; reflexivity).
    rewrite EA at 1 2. cbn [pending]. rewrite SE. unfold py_read_response in HR. clear HX HA HX HE0. destruct a as [pa sa fa]. cbn [pending M_HttpIO.sees fin] in *. subst pa.
    destruct HF as [->| ->]; (destruct (read_status _ _) as [s1 z] eqn:EZ in HR; assert (QZ : (s1, z) = (s', Err (HTTPError code))) by (etransitivity; [symmetry; exact EZ|exact RS]);
      injection QZ as -> ->; injection HR as _ <- <- <-; auto). }
  destruct XX as (-> & -> & -> & SE2).
  assert (YY : out = of_exn (HTTPError code) reason /\ x_conf (y_proxy y') = x_conf (y_proxy (y_no_once (named name y1))) /\ x_protocols (y_proxy y') = x_protocols (y_proxy (y_no_once (named name y1)))).
  { rewrite <- SE2. destruct a. destruct HF as [->| ->]; exact HX. }
  destruct YY as (-> & XC & XP).
  split; [|split; [rewrite HFD; reflexivity|split; [rewrite XC; reflexivity|rewrite XP; reflexivity]]].
  cbn [of_exn handler ret_of]. unfold text_of. rewrite (c_string_id _ HZ), (decode_same false _ _ HT). reflexivity.
Qed.
Print Assumptions C95_errors_partial.
Definition error_net (head : bytes) : net := good_net (head ++ crlf).
Example C95_sample : (exists y w es, py_calls true (py_proxy true) [] (py_net [PMethodResponse; PInt 5]) (str "one") [] None = (y, w, es, Ret (PyInt 5))) /\
  (exists y w es, py_calls true (py_proxy true) [] (error_net (error_head true 404 (str "Not Found"))) (str "one") [] None = (y, w, es, Ret_protocol 404 (ustr "Not Found"))) /\
  one_line (str "Not Found") /\ no_nul (str "Not Found") /\ same_str (str "Not Found") (ustr "Not Found").
Proof.
  split; [do 3 eexists; vm_compute; reflexivity|]. split; [do 3 eexists; vm_compute; reflexivity|].
  split; [intro Q; cbn in Q; repeat (destruct Q as [Q|Q]; [discriminate|]); exact Q|]. split; [intro Q; cbn in Q; repeat (destruct Q as [Q|Q]; [discriminate|]); exact Q|].
  split; [repeat constructor; vm_compute; intuition congruence|vm_compute; reflexivity].
Qed.
(** An error without a reason phrase (RFC 7230 allows it to be empty) is told by another number. *)
Theorem C95_no_reason_refuted : exists y w es t, py_calls true (py_proxy true) [] (error_net (error_head true 404 [])) (str "one") [] None = (y, w, es, Ret_protocol 3 t).
Proof. do 4 eexists. vm_compute. reflexivity. Qed.
Print Assumptions C95_no_reason_refuted.
(** A reason that is not UTF-8: another exception; which one depends on the hooks (C92). *)
Theorem C92_text_refuted : exists n, let r hooks := snd (py_calls hooks (py_proxy true) [] n (str "one") [] None) in r false = Ret_raise PE_Decode /\ r true = Ret_raise PE_System.
Proof. exists (error_net (error_head true 404 [xe9])). split; vm_compute; reflexivity. Qed.
Print Assumptions C92_text_refuted.
Example C92_sample : hooks_return (Some note_pre) (Some note_post) /\ given_fields x_id [(str "X-Id", str "7")] /\
  (let '(y, w, es, r) := py_calls true (py_proxy true) [] (error_net (error_head true 404 (str "No"))) (str "one") [PyInt 1] x_id in
   r = Ret_protocol 404 (ustr "No") /\ w = [Noted_pre (str "one") [PyInt 1]; Noted_post (str "one") [PyInt 1] (PyInt 7) (Some (E_protocol 404 (Some (ustr "No"))))]).
Proof.
  split; [split; intros f w name args; [|intros d e]; intro X; injection X as <-; cbn; discriminate|]. split.
  - apply given_list. constructor; [|constructor]. exists (ustr "X-Id"), (ustr "7"). split; [auto|]. split; (split; [repeat constructor; vm_compute; intuition congruence|reflexivity]).
  - vm_compute. auto.
Qed.
