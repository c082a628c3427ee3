(** Properties of the method registry of the Python binding (C84-C86). *)
From Coq Require Import Lia Permutation Sorted.
From Verif Require Import Base Value Unicode M_Marshal M_Registry M_Python M_PyRegistry S_Value S_Python S_Registry S_PyRegistry L_Base L_PyText L_PyRead L_Python L_PyRegistry L_PyRegister.

Section Registry.
  Context {W : Type}.
  Variable own : pyexn -> pystr.
  Implicit Types (g : pregistry (W:=W)) (w : W).

  (** ** C84: preprocessor, method, postprocessor *)
  Theorem C84_call_partial : forall g client w name u l, well_behaved g -> callable g name u -> is_object (PyTuple l) ->
    exists w' v, handled g client (system own g client) w name u l w' v /\ dispatch_call own g client w name (Params l) = (w', D_value v).
  Proof.
    intros g client w name u l WB C O. destruct (handled_exists own g client WB w name u l C O) as (w' & v & H). exists w', v. split; [exact H|].
    destruct C as (S & N & _). exact (dispatch_handled own g client w name u l w' v S N H).
  Qed.
  (** Whatever the specification allows is what happens. *)
  Theorem C84_only_partial : forall g client w name u l w' v, callable g name u -> handled g client (system own g client) w name u l w' v ->
    dispatch_call own g client w name (Params l) = (w', D_value v).
  Proof. intros g client w name u l w' v (S & N & _) H. exact (dispatch_handled own g client w name u l w' v S N H). Qed.
  (** Every call gets a result, whatever the method, whatever raises. *)
  Theorem C84_always_partial : forall g client w name l, well_behaved g -> is_text name \/ r_post g = None -> is_object (PyTuple l) ->
    exists w' v, dispatch_call own g client w name (Params l) = (w', D_value v).
  Proof.
    intros g client w name l WB N O. destruct (dispatch_safe own g client WB w name l N O) as [v V]. destruct (dispatch_call own g client w name (Params l)) as [w' d]. cbn [snd] in V. subst d. exists w', v. reflexivity.
  Qed.

  (** ** C85: multicall *)
  Theorem C85_entries_partial : forall g client w es, well_behaved g -> is_object (PyList es) -> Forall (callable_entry g) es ->
    exists w' rs, system own g client Sys_multicall w [PyList es] w' (Returned (PyList rs)) /\ entries_done g client (system own g client) w es w' rs /\ zlen rs = zlen es.
  Proof.
    intros g client w es WB O C. destruct (multicall_done own g client WB w es O C) as (w' & rs & S & D). exists w', rs. split; [exact S|]. split; [exact D|].
    unfold zlen. f_equal. clear - D. induction D; cbn [List.length]; congruence.
  Qed.
  (** Other parameters are refused. *)
  Theorem C85_params : forall g client w l w' x, (forall es, l <> [PyList es]) -> system own g client Sys_multicall w l w' x -> w' = w /\ exists t, x = Threw t /\ t_fault t = false.
  Proof.
    intros g client w l w' x N H. unfold system in H. cbn [call_kind] in H. unfold multicall_of in H.
    assert (E : (w, Threw (threw own PE_Type)) = (w', x)) by (destruct l as [|[| | | | | | | | |es| | | |] [|? ?]]; try exact H; exfalso; eapply N; reflexivity).
    inversion E; subst. split; [reflexivity|]. eexists. split; [reflexivity|reflexivity].
  Qed.

  (** ** C86: registering and introspection *)
  (** The method of a name is what was registered last; names never registered are unknown. *)
  Theorem C86_last_partial : forall pre post i rs g r, registers (new_pregistry pre post i) rs g -> Forall signature_object rs -> last_one rs r ->
    exists name m, same_str name (n_name r) /\ known g name m /\ m_kind m = n_kind r /\ signature_kept (n_signature r) (m_signature m) /\ help_kept (n_help r) (m_help m) /\ m_names m = n_names r.
  Proof.
    intros pre post i rs g r R O L. destruct (made_last pre post i rs g R O r L) as (name & m & S & K & B). exists name, m. destruct B as (_ & _ & B). split; [exact S|]. split; [exact K|]. exact B.
  Qed.
  Theorem C86_system : forall pre post i rs g s k sig, registers (new_pregistry pre post i) rs g -> Forall signature_object rs -> In (s, (k, sig)) new_methods -> ~ In (ustr s) (map n_name rs) ->
    exists m l, known g (str s) m /\ m_kind m = k /\ signature_words (str sig) l /\ m_signature m = words_object l.
  Proof. intros pre post i rs g s k sig R O. exact (made_system pre post i rs g R O s k sig). Qed.
  Theorem C86_unknown : forall pre post i rs g name u, registers (new_pregistry pre post i) rs g -> Forall signature_object rs -> same_str name u ->
    ~ In u (map n_name rs) -> ~ In name (map (fun x => str (fst x)) (new_methods (W:=W))) -> unknown g name.
  Proof. intros pre post i rs g name u R O. exact (made_unknown pre post i rs g R O name u). Qed.
  (** Texts of signatures: exactly those of the grammar are accepted. *)
  Theorem C86_signature_text : forall s u, same_str s u ->
    (forall l, signature_words s l -> signature_arg (PyStr u) = PyOk (words_object l)) /\ ((forall l, ~ signature_words s l) -> signature_arg (PyStr u) = PyRaise PE_Value).
  Proof.
    intros s u [U E]. assert (EN : py_encode u = Some s).
    { assert (IS : is_str u) by (unfold is_str; eapply Forall_impl; [|exact U]; intros a A; unfold uchar in A; lia). destruct (encode_str u IS) as [[_ X]|[X _]]; [rewrite X, E; reflexivity|contradiction]. }
    cbn [signature_arg]. rewrite EN. split.
    - intros l SW. assert (T : to_signature s = Some (words_object l)) by (apply to_signature_words; eauto). rewrite T. reflexivity.
    - intro N. destruct (to_signature s) eqn:T; [|reflexivity]. apply to_signature_words in T as (l & SW & _). exfalso. exact (N l SW).
  Qed.
  (** The list of methods: every name once; with a default list, its names too, in order. *)
  Theorem C86_list : forall pre post rs g client w l, registers (new_pregistry pre post true) rs g -> Forall signature_object rs ->
    exists names, system own g client Sys_list w l w (Returned (PyList (map PyStr names))) /\ NoDup names /\
      forall u, In u names <-> In u (map n_name rs) \/ In u (map (fun x => ustr (fst x)) (new_methods (W:=W))).
  Proof.
    intros pre post rs g client w l R O. destruct (made_names pre post true rs g R O) as (us & D & ND & I). exists us. split; [|split; assumption].
    destruct (registers_sets _ _ _ R O) as (ms & _ & _ & _ & _ & _ & RL & _ & _ & RI). unfold system. cbn [call_kind]. unfold list_of. rewrite RI, RL. cbn [r_introspection r_list new_pregistry with_method negb]. rewrite D. reflexivity.
  Qed.
  Lemma le_text : forall a b, str_le a b -> text_le a b.
  Proof.
    induction a as [|x a IH]; intros b H; [left; exists b; reflexivity|]. unfold str_le in *. destruct b as [|y b]; [discriminate|]. cbn [str_leb] in H. destruct (Z.ltb_spec x y) as [L|L].
    - right. exists [], x, y, a, b. auto.
    - destruct (Z.ltb_spec y x); [discriminate|]. assert (x = y) by lia. subst y. destruct (IH b H) as [[r ->]|(p & c & d & r & s & -> & -> & LT)]; [left; exists r; reflexivity|right; exists (x :: p), c, d, r, s; auto].
  Qed.
  Theorem C86_default_list : forall g client w l f w1 own_names names, r_introspection g = true -> r_list g = Some f -> f w = (w1, Returned (PyList (map PyStr own_names))) -> own_names <> [] ->
    decoded_names (map fst (r_methods g)) = Some (map PyStr names) ->
    exists all, system own g client Sys_list w l w1 (Returned (PyList (map PyStr all))) /\ Permutation (own_names ++ names) all /\ LocallySorted text_le all.
  Proof.
    intros g client w l f w1 own_names names RI RL F NE D. exists (sort_strs (own_names ++ names)). split; [|split; [apply sort_perm|]].
    - unfold system. cbn [call_kind]. unfold list_of. rewrite RI, RL, F, D. cbn [negb]. rewrite <- map_app, all_strs_map. destruct own_names; [congruence|reflexivity].
    - pose proof (sort_sorted (own_names ++ names)) as H. clear - H. induction H; constructor; try assumption. apply le_text; assumption.
  Qed.
  (** What was kept of a registration is told. *)
  Theorem C86_told : forall g client w name u m, r_introspection g = true -> same_str name u -> ~ In 0 u -> known g name m ->
    system own g client Sys_signature w [PyStr u] w (Returned (m_signature m)) /\ system own g client Sys_help w [PyStr u] w (Returned (m_help m)).
  Proof.
    intros g client w name u m RI S N K. assert (OS : one_string [PyStr u] = Some (u, name)).
    { destruct S as [U ->]. unfold one_string, method_arg. assert (IS : is_str u) by (unfold is_str; eapply Forall_impl; [|exact U]; intros a A; unfold uchar in A; lia).
      destruct (encode_str u IS) as [[_ X]|[X _]]; [rewrite X|contradiction]. destruct (existsb (fun c => c =? 0) u) eqn:E; [|reflexivity]. apply existsb_exists in E as (z & HI & HZ). apply Z.eqb_eq in HZ. subst. contradiction. }
    unfold system. cbn [call_kind]. unfold signature_of, help_of, about. rewrite OS, RI, K. split; reflexivity.
  Qed.
  Theorem C86_not_found : forall g client w name u, r_introspection g = true -> same_str name u -> ~ In 0 u -> blen name <= 491 -> unknown g name -> r_signature g = None -> r_help g = None ->
    forall k, k = Sys_signature \/ k = Sys_help -> system own g client k w [PyStr u] w (Returned (PyFault (PyInt (-502)) (PyStr (ustr "Method '" ++ u ++ ustr "' not found.")))).
  Proof.
    intros g client w name u RI S N L K RS RH k HK. assert (OS : one_string [PyStr u] = Some (u, name)).
    { destruct S as [U ->]. unfold one_string, method_arg. assert (IS : is_str u) by (unfold is_str; eapply Forall_impl; [|exact U]; intros a A; unfold uchar in A; lia).
      destruct (encode_str u IS) as [[_ X]|[X _]]; [rewrite X|contradiction]. destruct (existsb (fun c => c =? 0) u) eqn:E; [|reflexivity]. apply existsb_exists in E as (z & HI & HZ). apply Z.eqb_eq in HZ. subst. contradiction. }
    unfold system. destruct HK as [->| ->]; cbn [call_kind]; unfold signature_of, help_of, about; rewrite OS, RI, K, ?RS, ?RH; cbn [negb]; rewrite (not_found_text _ _ _ S N L); reflexivity.
  Qed.
  (** Introspection can be switched off. *)
  Theorem C86_disabled : forall g client w l k w' x, r_introspection g = false -> k = Sys_list \/ k = Sys_signature \/ k = Sys_help -> system own g client k w l w' x ->
    w' = w /\ exists c m, x = Returned (PyFault (PyInt c) m) /\ (c = -508 \/ c = -501).
  Proof.
    intros g client w l k w' x RI HK H. unfold system in H. destruct HK as [->|[->| ->]]; cbn [call_kind] in H.
    - unfold list_of in H. rewrite RI in H. cbn [negb] in H. inversion H; subst. split; [reflexivity|]. do 2 eexists. split; [reflexivity|left; reflexivity].
    - unfold signature_of, about in H. destruct (one_string l) as [[]|]; [rewrite RI in H; cbn [negb] in H|]; inversion H; subst; (split; [reflexivity|]); do 2 eexists; (split; [reflexivity|]); [left|right]; reflexivity.
    - unfold help_of, about in H. destruct (one_string l) as [[]|]; [rewrite RI in H; cbn [negb] in H|]; inversion H; subst; (split; [reflexivity|]); do 2 eexists; (split; [reflexivity|]); [left|right]; reflexivity.
  Qed.
End Registry.
Print Assumptions C84_call_partial.
Print Assumptions C84_only_partial.
Print Assumptions C84_always_partial.
Print Assumptions C85_entries_partial.
Print Assumptions C85_params.
Print Assumptions C86_last_partial.
Print Assumptions C86_system.
Print Assumptions C86_unknown.
Print Assumptions C86_signature_text.
Print Assumptions C86_list.
Print Assumptions C86_default_list.
Print Assumptions C86_told.
Print Assumptions C86_not_found.
Print Assumptions C86_disabled.

(** ** A server *)
(** The world: what was called, with which parameters. *)
Definition wld : Type := list (string * list py).
Definition ex_own (e : pyexn) : pystr := ustr "SystemError: ..".
Definition ex_pre (w : wld) (u : pystr) (c : py) (l : list py) (n : option (py * Z)) : wld * called :=
  if pystr_eqb u (ustr "secret") then (w ++ [("pre"%string, l)], Threw (mkThrown true (PyFault (PyInt 403) (PyStr (ustr "no"))) None)) else (w ++ [("pre"%string, l)], Returned PyNone).
Definition ex_post (w : wld) (u : pystr) (c : py) (l : list py) (r f : option py) (e : option thrown) : wld * called :=
  (w ++ [("post"%string, match r with Some x => [x] | None => [] end)], Returned PyNone).
Definition ex_add (w : wld) (l : list py) : wld * called :=
  (w ++ [("add"%string, l)], match l with [PyInt a; PyInt b] => Returned (PyInt (a + b)) | _ => Threw (mkThrown false PyOther (Some (ustr "TypeError: add"))) end).
Definition ex_regs : list (registration wld) :=
  [ mkRegn (ustr "add") (Plain (fun w _ => (w, Returned PyNone))) None None None;
    mkRegn (ustr "add") (Plain ex_add) (Some (PyStr (ustr "i:ii,s:ss"))) (Some (PyBytes (str "Adds."))) None;
    mkRegn (ustr "secret") (Plain ex_add) None None None ].
Definition ex_reg : pregistry (W:=wld) :=
  with_method (str "secret") (mkMethod (Plain ex_add) (PyTuple []) (PyStr []) None)
  (with_method (str "add") (mkMethod (Plain ex_add) (words_object [[str "int"; str "int"; str "int"]; [str "string"; str "string"; str "string"]]) (PyBytes (str "Adds.")) None)
  (with_method (str "add") (mkMethod (Plain (fun w _ => (w, Returned PyNone))) (PyTuple []) (PyStr []) None) (new_pregistry (Some ex_pre) (Some ex_post) true))).
Lemma ex_registers : registers (new_pregistry (Some ex_pre) (Some ex_post) true) ex_regs ex_reg.
Proof.
  assert (S : forall s, existsb (fun c => 128 <=? b2z c) (str s) = false -> is_str (ustr s)).
  { intros s H. apply ascii_text in H as [H _]. eapply Forall_impl; [|exact H]. intros a A. unfold uchar in A. lia. }
  unfold ex_reg. generalize (new_pregistry (Some ex_pre) (Some ex_post) true). intro g.
  econstructor; [apply S; reflexivity|reflexivity|]. econstructor; [apply S; reflexivity|reflexivity|]. econstructor; [apply S; reflexivity|reflexivity|]. constructor.
Qed.
Lemma ex_kinds : forall name m, map_get name (r_methods ex_reg) = Some m -> (forall f, m_kind m = Plain f -> f = ex_add) /\ (forall f, m_kind m <> With_context f).
Proof.
  intros name m H. unfold ex_reg, with_method in H. cbn [r_methods] in H. rewrite (start_new (Some ex_pre) (Some ex_post) true) in H.
  assert (G : forall S : list (bytes * pmethod (W:=wld)), increasing S -> forall k1 k2 k3 m1 m2 m3, map_get name (map_set k1 m1 (map_set k2 m2 (map_set k3 m3 S))) = if bytes_eqb name k1 then Some m1 else if bytes_eqb name k2 then Some m2 else if bytes_eqb name k3 then Some m3 else map_get name S).
  { intros S IS k1 k2 k3 m1 m2 m3. rewrite !L_Dup.map_get_set by (repeat apply L_Dup.map_set_increasing; exact IS). reflexivity. }
  rewrite (G _ start_increasing) in H. clear G.
  destruct (bytes_eqb name (str "secret")); [inversion H; subst; split; intros f F; [inversion F; reflexivity|discriminate F]|].
  destruct (bytes_eqb name (str "add")); [inversion H; subst; split; intros f F; [inversion F; reflexivity|discriminate F]|].
  assert (HI : In name (map fst (start_methods (W:=wld)))) by (apply L_Registry3.get_key; congruence). rewrite start_names in HI. apply in_map_iff in HI as ((s & k & sig) & <- & HN). cbn [fst] in H.
  destruct (start_get (W:=wld) s k sig HN) as (m' & l & E & K & _). rewrite E in H. inversion H; subst m'. rewrite K. destruct HN as [N|[N|[N|[N|[]]]]]; inversion N; subst; split; intros f F; discriminate F.
Qed.
Lemma ex_well : well_behaved ex_reg.
Proof.
  constructor; intros; try (match goal with H : _ ex_reg = Some _ |- _ => inversion H; subst end).
  - cbv beta delta [ex_pre]. destruct (pystr_eqb u (ustr "secret")); cbn; auto.
  - exact I.
  - destruct (ex_kinds _ _ H) as [K _]. rewrite (K _ H0). cbv beta delta [ex_add]. cbn [snd]. destruct l as [|[] [|[] [|]]]; cbn; auto; right; discriminate.
  - destruct (ex_kinds _ _ H) as [_ K]. elim (K _ H0).
Qed.
(** The call of a method: preprocessor, method, postprocessor, in this order; the sum is the result. *)
Example C84_example : callable ex_reg (str "add") (ustr "add") /\
  dispatch_call ex_own ex_reg PyNone [] (str "add") (Params [PyInt 2; PyInt 3]) =
    ([("pre"%string, [PyInt 2; PyInt 3]); ("add"%string, [PyInt 2; PyInt 3]); ("post"%string, [PyInt 5])], D_value (PyInt 5)).
Proof. split; [|reflexivity]. split; [apply same_ustr; reflexivity|]. split; [cbn; intuition discriminate|]. intros U. discriminate U. Qed.
(** Refused by the preprocessor; raising; unknown. *)
Example C84_example_refused : dispatch_call ex_own ex_reg PyNone [] (str "secret") (Params [PyInt 2]) =
  ([("pre"%string, [PyInt 2]); ("post"%string, [])], D_value (PyFault (PyInt 403) (PyStr (ustr "no")))).
Proof. reflexivity. Qed.
Example C84_example_raises : exists w, dispatch_call ex_own ex_reg PyNone [] (str "add") (Params []) = (w, D_value (PyFault (PyInt (-500)) (PyStr (ustr "Unhandled exception TypeError: add")))).
Proof. eexists. reflexivity. Qed.
Example C84_example_unknown : exists w, dispatch_call ex_own ex_reg PyNone [] (str "sub") (Params []) = (w, D_value (PyFault (PyInt (-506)) (PyStr (ustr "Method 'sub' not found.")))).
Proof. eexists. reflexivity. Qed.
Definition call_entry (name : string) (l : list py) : py := PyDict [(PyStr (ustr "methodName"), PyStr (ustr name)); (PyStr (ustr "params"), PyList l)].
Definition ex_entries : list py := [call_entry "add" [PyInt 1; PyInt 2]; PyInt 7; call_entry "secret" []; call_entry "add" []; call_entry "add" [PyInt 4; PyInt 4]].
Lemma ex_callable : Forall (callable_entry ex_reg) ex_entries.
Proof.
  assert (A : forall s l, (s = "add" \/ s = "secret")%string -> callable_entry ex_reg (call_entry s l)).
  { intros s l HS m n u E IT SS. inversion E; subst m. destruct IT as (b & a & EQ & _).
    assert (U : u = ustr s).
    { destruct b as [|x b]; [inversion EQ; reflexivity|]. destruct b as [|y b]; [inversion EQ as [[E1 E2 E3]]; destruct HS; subst; discriminate|]. destruct b; inversion EQ. }
    subst u. clear EQ. destruct HS; subst s.
    - assert (n = str "add") by (apply (same_str_inj _ _ _ SS), same_ustr; reflexivity). subst n. split; [exact SS|]. split; [cbn; intuition discriminate|]. intros X. discriminate X.
    - assert (n = str "secret") by (apply (same_str_inj _ _ _ SS), same_ustr; reflexivity). subst n. split; [exact SS|]. split; [cbn; intuition discriminate|]. intros X. discriminate X. }
  constructor; [apply A; tauto|]. constructor; [intros m n u E; discriminate E|]. constructor; [apply A; tauto|]. constructor; [apply A; tauto|]. constructor; [apply A; tauto|]. constructor.
Qed.
Example C85_example : exists w, system ex_own ex_reg PyNone Sys_multicall [] [PyList ex_entries] w (Returned (PyList
  [PyInt 3; fault_entry (-501) "Expected structure with method call."; fault_dict (PyInt 403) (PyStr (ustr "no")); fault_entry (-500) "Unhandled exception TypeError: add"; PyInt 8])).
Proof. eexists. unfold system. vm_compute. reflexivity. Qed.
Example C86_example : exists g m, registers (new_pregistry (Some ex_pre) (Some ex_post) true) ex_regs g /\ known g (str "add") m /\ m_help m = PyBytes (str "Adds.") /\
  m_signature m = words_object [[str "int"; str "int"; str "int"]; [str "string"; str "string"; str "string"]] /\
  exists w, dispatch_call ex_own g PyNone [] (str "system.listMethods") (Params []) = (w, D_value (PyList (map (fun s => PyStr (ustr s)) ["add"; "secret"; "system.listMethods"; "system.methodHelp"; "system.methodSignature"; "system.multicall"]%string))).
Proof. exists ex_reg. eexists. split; [exact ex_registers|]. split; [reflexivity|]. split; [reflexivity|]. split; [reflexivity|]. eexists. vm_compute. reflexivity. Qed.
Example C86_grammar : (exists l, signature_words (str "i:ii,s:ss,b") l) /\ signature_arg (PyStr (ustr "ii")) = PyRaise PE_Value /\ signature_arg (PyStr (ustr "i,s:s")) = PyRaise PE_Value.
Proof. split; [|split; reflexivity]. destruct (to_signature (str "i:ii,s:ss,b")) as [x|] eqn:E; [|vm_compute in E; discriminate E]. apply to_signature_words in E as (l & SW & _). exists l. exact SW. Qed.

(** ** Refuted *)
(** A preprocessor refuses a call by an exception without a text: the method runs. *)
Definition no_text : thrown := mkThrown false PyOther None.
Definition silent_pre (w : wld) (u : pystr) (c : py) (l : list py) (n : option (py * Z)) : wld * called := (w, Threw no_text).
Definition silent_reg : pregistry (W:=wld) := with_method (str "add") (mkMethod (Plain ex_add) PyNone PyNone None) (new_pregistry (Some silent_pre) None true).
Theorem C84_refused_refuted : exists (g : pregistry (W:=wld)) f client w name u l v, r_pre g = Some f /\ callable g name u /\ f w u client l None = (w, Threw no_text) /\
  dispatch_call ex_own g client w name (Params l) = (w ++ [("add"%string, l)], v).
Proof.
  exists silent_reg, silent_pre, PyNone, [], (str "add"), (ustr "add"), [PyInt 1; PyInt 2]. eexists. split; [reflexivity|]. split; [|split; [reflexivity|reflexivity]].
  split; [apply same_ustr; reflexivity|]. split; [cbn; intuition discriminate|]. intros X. discriminate X.
Qed.
(** A method raises such an exception: the registry has no result, the interpreter crashes in a multicall. *)
Definition silent_method : pregistry (W:=wld) := with_method (str "add") (mkMethod (Plain (fun w _ => (w, Threw no_text))) PyNone PyNone None) (new_pregistry None None true).
Theorem C84_no_text_refuted : exists (g : pregistry (W:=wld)) client w name u l, callable g name u /\ dispatch_call ex_own g client w name (Params l) = (w, D_null) /\
  dispatch_call ex_own g client w (str "system.multicall") (Params [PyList [call_entry "add" l]]) = (w, D_crash).
Proof.
  exists silent_method, PyNone, [], (str "add"), (ustr "add"), []. split; [|split; reflexivity].
  split; [apply same_ustr; reflexivity|]. split; [cbn; intuition discriminate|]. intros X. discriminate X.
Qed.
(** The fault of an unknown method with a long name is an internal error. *)
Definition long_name : bytes := repeat x61 502 ++ [xc3; xa9].
Theorem C84_long_name_refuted : exists (g : pregistry (W:=wld)) client w name u, same_str name u /\ ~ In 0 u /\ unknown g name /\ r_default g = None /\
  exists m, dispatch_call ex_own g client w name (Params []) = (w, D_value (PyFault (PyInt (-500)) m)).
Proof.
  exists (new_pregistry None None true), PyNone, [], long_name, (repeat 97 502 ++ [233]).
  assert (D : same_str long_name (repeat 97 502 ++ [233])) by (apply decode_inv; vm_compute; reflexivity). split; [exact D|]. split.
  - intro H. apply in_app_or in H as [H|[H|[]]]; [|discriminate]. apply repeat_spec in H. discriminate.
  - split; [vm_compute; reflexivity|]. split; [reflexivity|]. eexists. vm_compute. reflexivity.
Qed.
(** The help text of [system.multicall] promises single-item arrays. *)
Theorem C85_single_item_refuted : exists (g : pregistry (W:=wld)) m w w' v, known g (str "system.multicall") m /\ m_kind m = Sys_multicall /\
  m_help m = PyStr (ustr "Process an array of calls, and return an array of results. Calls should be structs of the form {'methodName': string, 'params': array}. Each result will either be a single-item array containg the result value, or a struct of the form {'faultCode': int, 'faultString': string}. This is useful when you need to make lots of small calls without lots of round trips.") /\
  system ex_own g PyNone (m_kind m) w [PyList [call_entry "add" [PyInt 1; PyInt 2]]] w' (Returned (PyList [v])) /\ v = PyInt 3.
Proof. exists ex_reg. eexists. exists []. do 2 eexists. split; [reflexivity|]. split; [reflexivity|]. split; [reflexivity|]. split; [unfold system; vm_compute; reflexivity|reflexivity]. Qed.
(** A help text that is a [str] is refused. *)
Theorem C86_doc_refuted : forall (g : pregistry (W:=wld)) name k signature u names, is_str name -> Forall uchar name -> ~ In 0 name -> pregister name k signature (Some (PyStr u)) names g = PyRaise PE_Type.
Proof.
  intros g name k signature u names IS U N. unfold pregister, method_arg. destruct (encode_str name IS) as [[_ X]|[X _]]; [rewrite X|contradiction].
  destruct (existsb (fun c => c =? 0) name) eqn:E; [apply existsb_exists in E as (z & HI & HZ); apply Z.eqb_eq in HZ; subst; contradiction|]. reflexivity.
Qed.
Print Assumptions C84_refused_refuted.
Print Assumptions C84_no_text_refuted.
Print Assumptions C84_long_name_refuted.
Print Assumptions C85_single_item_refuted.
Print Assumptions C86_doc_refuted.
