(** C79-C83: the Python binding and the C++ library. *)
From Coq Require Import Lia.
From Verif Require Import Base Value Unicode M_Marshal M_BinUnmarshal M_TreeBuilder S_Events S_Value S_Wire M_Python S_Python L_Base L_Bits L_RoundTrip L_Message L_Wire L_JsCall
  L_PyText L_PyBuild L_PyRead L_Python L_PyLoad L_PySafe.

(** ** C79: from Python to C++ *)
(** [dumps] makes a call exactly of a name and of objects the format has, otherwise it raises; the C++ library reads the
    name and the values. *)
Theorem C79_python_calls : forall host ver name params l,
  modern ver -> is_str name -> args_of params l -> Forall is_object l -> Forall (within host ver) l -> Forall no_large l ->
  let d := dumps host (v_major ver) (v_minor ver) (Some name) params in
  if_then_else (name_fits name /\ ~ In 0 name /\ Forall (py_sends ver) l)
    (exists wire vs, d = PyOk wire /\ Forall2 (means host) vs l /\
       forall req pieces, accepts req T_METHOD_CALL -> concat pieces = wire -> received_call None req pieces = Ok (flat_map utf8_char name, VArray vs))
    (exists e, d = PyRaise e).
Proof.
  intros host ver name params l HM SN PA O W N. cbv zeta. destruct (dumps_call host ver HM name params l SN PA (conj O (conj W N))) as [(OK & wire & D & S & WF)|[NO D]]; [left|right; auto].
  split; [exact OK|]. exists wire, (map (settled (fun d => d)) (map (value_of host) l)). split; [exact D|]. destruct OK as (NF & _ & PS). split.
  - clear - O PS HM. induction l as [|x l IL]; [constructor|]. inversion O; inversion PS; subst. cbn [map]. constructor; [eapply settled_means; eauto|auto].
  - intros req pieces HA EC. destruct (call_received None ver req (flat_map utf8_char name) (map (value_of host) l) HM (proj2 NF) WF HA) as (wire' & S' & R).
    rewrite S in S'. inversion S'; subst wire'. exact (R pieces EC).
Qed.
Print Assumptions C79_python_calls.

(** The same for a response. *)
Theorem C79_python_responses : forall host ver params x,
  modern ver -> args_of params [x] -> is_object x -> within host ver x -> no_large x ->
  let d := dumps host (v_major ver) (v_minor ver) None params in
  if_then_else (py_sends ver x)
    (exists wire v, d = PyOk wire /\ means host v x /\
       forall req pieces, accepts req T_METHOD_RESPONSE -> concat pieces = wire -> received_value None req pieces = Ok v)
    (exists e, d = PyRaise e).
Proof.
  intros host ver params x HM PA O W N. cbv zeta.
  destruct (dumps_response host ver HM params [] x PA) as [(OK & wire & D & S & WF)|[NO D]]; [repeat split; repeat constructor; auto|left|right; auto].
  split; [exact OK|]. exists wire, (settled (fun d => d) (value_of host x)). split; [exact D|]. split; [eapply settled_means; eauto|].
  intros req pieces HA EC. destruct (response_received None ver req (value_of host x) HM WF HA) as (wire' & S' & R). rewrite S in S'. inversion S'; subst wire'. exact (R pieces EC).
Qed.
Print Assumptions C79_python_responses.

(** A fault with a code of 32 bits and a message that is not empty. *)
Theorem C79_python_faults : forall host ver code m,
  modern ver -> in_s32 code -> Forall uchar m -> m <> [] -> blen (flat_map utf8_char m) < 2 ^ 30 ->
  exists wire, dumps host (v_major ver) (v_minor ver) None (PyFault (PyInt code) (PyStr m)) = PyOk wire /\
  forall req pieces, accepts req T_FAULT -> concat pieces = wire -> received_value None req pieces = Err (FaultExn code (flat_map utf8_char m)).
Proof.
  intros host ver code m HM HC U NE L. assert (S : small (blen (flat_map utf8_char m))).
  { unfold small. set (t := flat_map utf8_char m) in *. pose proof (zlen_nonneg _ t). rewrite (blen_zlen t) in *. lia. }
  destruct (dumps_fault host ver HM code m U) as (wire & D & SE); auto; [unfold in_s64, in_s32 in *; lia|]. exists wire. split; [exact D|].
  rewrite s32_id in SE by exact HC. intros req pieces HA EC. destruct (fault_wire None req ver HM code (flat_map utf8_char m) HC S) as (wire' & S' & R); auto.
  - destruct m as [|c m]; [congruence|]. cbn [flat_map]. unfold utf8_char at 1. repeat match goal with |- context [if ?b then _ else _] => destruct b end; discriminate.
  - rewrite SE in S'. inversion S'; subst wire'. exact (R pieces EC).
Qed.
Print Assumptions C79_python_faults.

(** A host in UTC that knows two seconds. *)
Definition utc_host (d : datetime) : datetime :=
  if dt_year d =? 2024 then mkDT 2024 2 29 23 59 58 4 1709251198 0 else mkDT 1970 1 1 0 0 0 4 0 0.
Definition py_params : list py :=
  [ PyDict [(PyStr [98], PyInt (-129)); (PyStr [97], PyTuple [PyNone; PyBool true; PyStr [97; 269; 8364; 128512]; PyList []]); (PyStr [269], PyStdDate (mkDT 2024 2 29 23 59 58 0 0 0))];
    PyBytes (str "abc"); PyFloat 4607182418800017408; PyBoolean false; PyInt (2 ^ 63 - 1); PyDate (mkDT 1970 1 1 0 0 0 4 (-1) 0) ].

Example py_params_sends : Forall is_object py_params /\ Forall (within utc_host (mkVer 2 1)) py_params /\ Forall no_large py_params /\ Forall (py_sends (mkVer 2 1)) py_params /\
  name_fits [109; 46; 110] /\ ~ In 0 [109; 46; 110] /\ Forall no_nul_keys py_params.
Proof.
  assert (K : forall c, c = 97 \/ c = 98 \/ c = 269 -> name_fits [c]).
  { intros c [->|[->| ->]]; (split; [repeat constructor; unfold uchar; lia|vm_compute; split; congruence]). }
  split; [|split; [|split; [|split; [|split; [|split]]]]].
  - unfold py_params. repeat constructor; cbn; try lia; try (unfold in_u64; lia); try (intuition congruence).
  - unfold py_params. repeat (apply Forall_cons; [cbn [within]|]); [| | | | | |apply Forall_nil]; try exact I; try (vm_compute; reflexivity).
    + split; [reflexivity|]. split; [exact I|]. split; [split; [reflexivity|]; repeat (split; [exact I|]); split; [vm_compute; reflexivity|]; split; [split; [reflexivity|exact I]|exact I]|]. split; [|exact I].
      unfold dt_ok, as_local, utc_host, unix_bits. cbn. repeat split; lia || (exists 0; lia) || idtac.
    + unfold dt_ok, unix_bits. cbn. repeat split; lia || (exists 0; lia) || idtac.
  - unfold py_params. repeat constructor; cbn; lia.
  - unfold py_params. repeat (apply Forall_cons; [cbn [py_sends]|]); [| | | | | |apply Forall_nil]; try exact I; try (unfold in_s64; lia).
    split; [exists [98]; auto|]. split; [unfold in_s64; lia|]. split; [exists [97]; auto|]. split; [|split; [exists [269]; auto|split; exact I]].
    split; [right; cbn; lia|]. split; [exact I|]. split; [repeat constructor; unfold uchar; lia|]. split; [exact I|exact I].
  - split; [repeat constructor; unfold uchar; lia|vm_compute; split; congruence].
  - cbn. lia.
  - unfold py_params. repeat constructor; cbn; try exact I; intros u X; inversion X; subst; cbn; lia.
Qed.

Example C79_sample : exists wire, dumps utc_host 2 1 (Some [109; 46; 110]) (PyTuple py_params) = PyOk wire /\
  received_call None T_METHOD_CALL [wire] =
  Ok (str "m.n",
      VArray [ VStruct [ (str "a", VArray [VNull; VBool true; VString (flat_map utf8_char [97; 269; 8364; 128512]); VArray []]); (str "b", VInt (-129));
                         (utf8_char 269, VDateTime (mkDT 2024 2 29 23 59 58 4 1709251198 0)) ];
               VBinary (str "abc"); VDouble 4607182418800017408; VBool false; VInt (2 ^ 63 - 1); VDateTime (mkDT 1970 1 1 0 0 0 4 (-1) 0) ]).
Proof. eexists. split; [vm_compute; reflexivity|vm_compute; reflexivity]. Qed.

(** Integers from 2^63 to 2^64 - 1 are not refused: they arrive as negative ones. *)
Theorem C79_large_refuted : forall host ver z, modern ver -> 2 ^ 63 <= z < 2 ^ 64 ->
  exists wire, dumps host (v_major ver) (v_minor ver) None (PyTuple [PyInt z]) = PyOk wire /\
  forall req pieces, accepts req T_METHOD_RESPONSE -> concat pieces = wire -> received_value None req pieces = Ok (VInt (z - 2 ^ 64)).
Proof.
  intros host ver z HM R. destruct (ver_given ver HM) as (V & V1 & V2 & y & V3).
  assert (W : wfu ver (VInt (z - 2 ^ 64))) by (cbn [wfu wf]; unfold in_s64; lia).
  destruct (response_received None ver TYPE_ANY _ HM W (or_introl eq_refl)) as (wire & E & _). exists wire. split.
  - unfold dumps. rewrite V, V1, V2, V3. cbn [orb feed_py]. rewrite as_int_large by auto. cbn [fst snd]. unfold sent, response_calls in E. cbn [feed app] in E. unfold written. cbn [fst snd].
    destruct (bin_run ver [PMethodResponse; PInt (z - 2 ^ 64)]) as [o [[e|]|]]; try discriminate E. inversion E; subst. reflexivity.
  - intros req pieces HA EC. destruct (response_received None ver req _ HM W HA) as (wire' & E' & RV). rewrite E in E'. inversion E'; subst wire'. exact (RV pieces EC).
Qed.
Print Assumptions C79_large_refuted.

(** The offset of an aware [datetime.datetime] is not looked at. *)
Theorem C79_aware_refuted : forall host major minor method d tz,
  dumps host major minor method (PyTuple [PyStdDate d]) =
  dumps host major minor method (PyTuple [PyStdDate (mkDT (dt_year d) (dt_month d) (dt_day d) (dt_hour d) (dt_min d) (dt_sec d) (dt_wday d) (dt_unix d) tz)]).
Proof. reflexivity. Qed.
Print Assumptions C79_aware_refuted.

(** Codes of faults are cut to 32 bits. *)
Theorem C79_code_refuted : forall host ver code m,
  modern ver -> in_s64 code -> Forall uchar m -> m <> [] -> blen (flat_map utf8_char m) < 2 ^ 30 ->
  dumps host (v_major ver) (v_minor ver) None (PyFault (PyInt code) (PyStr m)) = dumps host (v_major ver) (v_minor ver) None (PyFault (PyInt (s32 code)) (PyStr m)).
Proof.
  intros host ver code m HM HC U NE L. assert (S : small (blen (flat_map utf8_char m))).
  { unfold small. set (t := flat_map utf8_char m) in *. pose proof (zlen_nonneg _ t). rewrite (blen_zlen t) in *. lia. }
  assert (R : in_s32 (s32 code)) by (apply (signed_range 32); lia). unfold in_s32 in R.
  destruct (dumps_fault host ver HM code m U HC S) as (wire & D & SE). destruct (dumps_fault host ver HM (s32 code) m U ltac:(unfold in_s64; lia) S) as (wire' & D' & SE').
  rewrite (s32_id (s32 code)) in SE' by exact R. congruence.
Qed.
Print Assumptions C79_code_refuted.
Example C79_code_sample : s32 (2 ^ 32 + 1) = 1.
Proof. reflexivity. Qed.

(** Of the values of a response only the first is sent; without one the message has none. *)
Theorem C79_dropped_refuted : forall host major minor x l, dumps host major minor None (PyTuple (x :: l)) = dumps host major minor None (PyTuple [x]).
Proof. reflexivity. Qed.
Print Assumptions C79_dropped_refuted.

(** A protocol version above 3 terminates the interpreter. *)
Theorem C79_version_refuted : forall host major minor method params, 3 < major < 256 -> 0 <= minor < 256 ->
  (forall n, method = Some n -> Forall uchar n /\ ~ In 0 n) -> dumps host major minor method params = PyAbort.
Proof.
  intros host major minor method params MA MI NM.
  assert (V : bin_create (mkVer (u8 major) (u8 minor)) = Err (StreamError "Not supported protocol version") \/ exists e, bin_create (mkVer (u8 major) (u8 minor)) = Err e).
  { right. unfold bin_create. cbn [v_major]. replace (u8 major) with major by (unfold u8, unsigned; rewrite Z.mod_small; [reflexivity|change (2 ^ 8) with 256; lia]).
    destruct (Z.ltb_spec 3 major); [eauto|lia]. }
  assert (V' : exists e, bin_create (mkVer (u8 major) (u8 minor)) = Err e) by (destruct V; eauto). destruct V' as [e V'].
  unfold dumps. destruct method as [n|].
  - destruct (NM n eq_refl) as [U NZ]. destruct (method_name n) as [(-> & _)|(_ & X)]; [|destruct (Z.ltb_spec major 0); [lia|]; destruct (Z.ltb_spec minor 0); [lia|]; cbn [orb]; rewrite V'; reflexivity|tauto].
    unfold is_str. eapply Forall_impl; [|exact U]. intros c X. unfold uchar in X. lia.
  - destruct (Z.ltb_spec major 0); [lia|]. destruct (Z.ltb_spec minor 0); [lia|]. cbn [orb]. rewrite V'. reflexivity.
Qed.
Print Assumptions C79_version_refuted.

(** ** C80: from C++ to Python *)
(** A response: the object is the value, if its texts are UTF-8; otherwise UnicodeDecodeError. *)
Theorem C80_loads_responses_partial : forall host pass native ver v, modern ver -> wf ver v -> texts v -> no_nul_names v ->
  exists wire p, sent ver (response_calls v) = Ok wire /\ loads host pass native wire = PyOk (p, None) /\ reads host native v p.
Proof.
  intros host pass native ver v HM W T N. destruct (texts_read host native pass v T (wf_uniq ver v W) N) as (p & E & R).
  destruct (loads_response host pass native ver HM v (wf_wfu _ _ W)) as (wire & S & L). rewrite E in L. eauto.
Qed.
Print Assumptions C80_loads_responses_partial.
Theorem C80_not_text : forall host native ver v, modern ver -> wf ver v -> ~ texts v ->
  exists wire, sent ver (response_calls v) = Ok wire /\ loads host false native wire = PyRaise PE_Decode.
Proof.
  intros host native ver v HM W T. destruct (loads_response host false native ver HM v (wf_wfu _ _ W)) as (wire & S & L). exists wire. split; [exact S|].
  destruct (py_of host false native v) as [p|] eqn:E; [|exact L]. exfalso. apply T. eapply read_texts. exact E.
Qed.
Print Assumptions C80_not_text.

(** A call: the parameters in a [tuple], and the name. *)
Theorem C80_loads_calls_partial : forall host pass native ver name n ps, modern ver -> name_ok name -> same_str name n ->
  Forall (wf ver) ps -> Forall texts ps -> Forall no_nul_names ps ->
  exists wire l, sent ver (call_calls name ps) = Ok wire /\ loads host pass native wire = PyOk (PyTuple l, Some n) /\ Forall2 (reads host native) ps l.
Proof.
  intros host pass native ver name n ps HM NO NS W T N.
  assert (X : exists l, items_of host pass native ps = Some l /\ Forall2 (reads host native) ps l).
  { induction ps as [|x ps IH]; [exists []; split; [reflexivity|constructor]|]. inversion W; inversion T; inversion N; subst.
    destruct (texts_read host native pass x) as (p & E & R); auto; [eapply wf_uniq; eauto|]. destruct IH as (l & EL & RL); auto. exists (p :: l). cbn [items_of]. rewrite E, EL. split; [reflexivity|constructor; auto]. }
  destruct X as (l & E & R). destruct (loads_call host pass native ver HM name ps NO) as (wire & S & L).
  { eapply Forall_impl; [|exact W]. apply wf_wfu. }
  rewrite E, (decode_same false name n NS) in L. eauto.
Qed.
Print Assumptions C80_loads_calls_partial.

(** A fault is raised. *)
Theorem C80_loads_faults_partial : forall host pass native ver code msg m, modern ver -> in_s32 code -> small (blen msg) -> same_str msg m ->
  exists wire, sent ver [PFault code msg] = Ok wire /\ loads host pass native wire = PyRaise (PE_Fault (PyInt code) (PyStr m)).
Proof. intros. apply loads_fault; auto. apply decode_same. auto. Qed.
Print Assumptions C80_loads_faults_partial.

Definition cpp_value : value :=
  VStruct [ (str "a", VArray [VNull; VBool true; VString (flat_map utf8_char [97; 269; 8364; 128512]); VStringView []; VArray []; VSecret (VBinaryRef 3 [str "ab"; str "c"])]);
            (str "b", VInt (-129)); (utf8_char 269, VDateTime (mkDT 2024 2 29 23 59 58 4 (-1) 0)) ].
Example cpp_value_reads : wf (mkVer 2 1) cpp_value /\ texts cpp_value /\ no_nul_names cpp_value.
Proof.
  assert (TX : forall us, Forall uchar us -> is_text (flat_map utf8_char us)) by (intros us F; exists us; split; auto).
  split; [|split].
  - unfold cpp_value. cbn [wf]. split; [unfold small; vm_compute; split; congruence|]. split.
    { cbn. repeat split; try (intros k' x [X|[X|[]]]; inversion X; reflexivity); try (intros k' x [X|[]]; inversion X; reflexivity); intros k' x []. }
    repeat split; try (vm_compute; congruence); try (unfold small; vm_compute; split; congruence); try (right; cbn; lia); try (unfold in_s64; cbn; lia); try (cbn; lia); try (exists 0; cbn; lia).
  - unfold cpp_value. cbn [texts]. split; [apply (TX [97]); repeat constructor; unfold uchar; lia|]. split.
    { split; [exact I|]. split; [exact I|]. split; [apply TX; repeat constructor; unfold uchar; lia|]. split; [apply (TX []); constructor|]. repeat split; exact I. }
    split; [apply (TX [98]); repeat constructor; unfold uchar; lia|]. split; [exact I|]. split; [|split; exact I]. rewrite <- (app_nil_r (utf8_char 269)). apply (TX [269]). repeat constructor; unfold uchar; lia.
  - unfold cpp_value. cbn. repeat split; intuition congruence.
Qed.
Example C80_sample : exists wire, sent (mkVer 2 1) (response_calls cpp_value) = Ok wire /\
  loads utc_host false true wire = PyOk (PyDict
    [ (PyStr [97], PyList [PyNone; PyBool true; PyStr [97; 269; 8364; 128512]; PyStr []; PyList []; PyBytes (str "abc")]); (PyStr [98], PyInt (-129));
      (PyStr [269], PyDate (mkDT 2024 2 29 23 59 58 4 1709251198 0)) ], None).
Proof. eexists. split; [vm_compute; reflexivity|vm_compute; reflexivity]. Qed.

(** A member name with a NUL (and without 8-bit characters) is cut there: two members can become one. *)
Theorem C80_nul_refuted : forall host pass native,
  wf (mkVer 2 1) (VStruct [([x61; x00; x62], VInt 1); ([x61; x00; x63], VInt 2)]) /\ texts (VStruct [([x61; x00; x62], VInt 1); ([x61; x00; x63], VInt 2)]) /\
  exists wire, sent (mkVer 2 1) (response_calls (VStruct [([x61; x00; x62], VInt 1); ([x61; x00; x63], VInt 2)])) = Ok wire /\
  loads host pass native wire = PyOk (PyDict [(PyStr [97], PyInt 2)], None).
Proof.
  intros host pass native. split; [|split].
  - cbn [wf]. split; [unfold small; vm_compute; split; congruence|]. split.
    { cbn. repeat split; try (intros k' x [X|[]]; inversion X; reflexivity). intros k' x []. }
    repeat split; try (vm_compute; congruence); unfold in_s64; lia.
  - cbn [texts]. split; [apply key_text; eexists; reflexivity|]. split; [exact I|]. split; [apply key_text; eexists; reflexivity|]. split; exact I.
  - eexists. split; [vm_compute; reflexivity|vm_compute; reflexivity].
Qed.
Print Assumptions C80_nul_refuted.

(** The message of a fault that is not UTF-8: undefined behaviour. *)
Theorem C80_fault_refuted : forall host pass native,
  exists wire, sent (mkVer 2 1) [PFault 1 [xff]] = Ok wire /\ loads host pass native wire = PyUndef.
Proof. intros. eexists. split; [vm_compute; reflexivity|vm_compute; reflexivity]. Qed.
Print Assumptions C80_fault_refuted.

(** ** C81: from Python to Python *)
Theorem C81_round_trip : forall host pass native ver name params l,
  modern ver -> name_fits name -> ~ In 0 name -> args_of params l ->
  Forall is_object l -> Forall (within host ver) l -> Forall (py_sends ver) l -> Forall no_nul_keys l ->
  exists wire, dumps host (v_major ver) (v_minor ver) (Some name) params = PyOk wire /\
  loads host pass native wire = PyOk (PyTuple (map (seen host native) l), Some name).
Proof.
  intros host pass native ver name params l HM NF NZ PA O W S N.
  assert (NL : Forall no_large l) by (eapply Forall_impl; [|exact S]; apply sends_no_large).
  assert (SN : is_str name) by (unfold is_str; eapply Forall_impl; [|exact (proj1 NF)]; intros c X; unfold uchar in X; cbn beta; lia).
  destruct (dumps_call host ver HM name params l SN PA (conj O (conj W NL))) as [(_ & wire & D & SE & WF)|[NO _]]; [|tauto].
  exists wire. split; [exact D|]. destruct (loads_call host pass native ver HM (flat_map utf8_char name) (map (value_of host) l) (proj2 NF) WF) as (wire' & SE' & L).
  rewrite SE in SE'. inversion SE'; subst wire'. assert (SS : same_str (flat_map utf8_char name) name) by (split; [apply NF|reflexivity]).
  rewrite L, (seen_items host ver), (decode_same false _ name) by auto. reflexivity.
Qed.
Print Assumptions C81_round_trip.
Theorem C81_response_round_trip : forall host pass native ver params x,
  modern ver -> args_of params [x] -> is_object x -> within host ver x -> py_sends ver x -> no_nul_keys x ->
  exists wire, dumps host (v_major ver) (v_minor ver) None params = PyOk wire /\ loads host pass native wire = PyOk (seen host native x, None).
Proof.
  intros host pass native ver params x HM PA O W S N. pose proof (sends_no_large ver x S) as NL.
  destruct (dumps_response host ver HM params [] x PA) as [(_ & wire & D & SE & WF)|[NO _]]; [repeat split; repeat constructor; auto| |tauto].
  exists wire. split; [exact D|]. destruct (loads_response host pass native ver HM (value_of host x) WF) as (wire' & SE' & L).
  rewrite SE in SE'. inversion SE'; subst wire'. rewrite L, (seen_back host ver) by auto. reflexivity.
Qed.
Print Assumptions C81_response_round_trip.
Example C81_sample : exists wire, dumps utc_host 2 1 (Some [109; 46; 110]) (PyTuple py_params) = PyOk wire /\
  loads utc_host false true wire = PyOk (PyTuple
    [ PyDict [(PyStr [98], PyInt (-129)); (PyStr [97], PyList [PyNone; PyBool true; PyStr [97; 269; 8364; 128512]; PyList []]); (PyStr [269], PyDate (mkDT 2024 2 29 23 59 58 4 1709251198 0))];
      PyBytes (str "abc"); PyFloat 4607182418800017408; PyBool false; PyInt (2 ^ 63 - 1); PyDate (mkDT 1970 1 1 0 0 0 4 0 0) ], Some [109; 46; 110]).
Proof. eexists. split; [vm_compute; reflexivity|vm_compute; reflexivity]. Qed.

(** ** C82: messages that end too early *)
(** [loads] accepts every beginning of a message. *)
Theorem C82_cut_refuted : forall host pass native ver v a c, modern ver -> wf ver v -> texts v -> no_nul_names v ->
  sent ver (response_calls v) = Ok (a ++ c) -> exists q, loads host pass native a = PyOk (q, None).
Proof.
  intros host pass native ver v a c HM W T N S. destruct (texts_read host native pass v T (wf_uniq ver v W) N) as (p & E & _).
  eapply response_cut; eauto using wf_wfu.
Qed.
Print Assumptions C82_cut_refuted.
Theorem C82_cut_call_refuted : forall host pass native ver name n ps a c, modern ver -> name_ok name -> same_str name n ->
  Forall (wf ver) ps -> Forall texts ps -> Forall no_nul_names ps -> sent ver (call_calls name ps) = Ok (a ++ c) ->
  exists q, loads host pass native a = PyOk (q, None) \/ loads host pass native a = PyOk (q, Some n).
Proof.
  intros host pass native ver name n ps a c HM NO NS W T N S.
  assert (X : exists l, items_of host pass native ps = Some l).
  { clear S. induction ps as [|x ps IH]; [exists []; reflexivity|]. inversion W; inversion T; inversion N; subst.
    destruct (texts_read host native pass x) as (p & E & R); auto; [eapply wf_uniq; eauto|]. destruct IH as (l & EL); auto. exists (p :: l). cbn [items_of]. rewrite E, EL. reflexivity. }
  destruct X as (l & E). apply (call_cut host pass native ver HM name n ps l (a ++ c) a c NO (decode_same false name n NS)); auto.
  eapply Forall_impl; [|exact W]. apply wf_wfu.
Qed.
Print Assumptions C82_cut_call_refuted.
(** What comes of three elements when the last one is missing, of a text without its end, and of nothing. *)
Example C82_sample : exists w1 w2, sent (mkVer 2 1) (response_calls (VArray [VInt 1; VInt 2; VInt 3])) = Ok w1 /\ sent (mkVer 2 1) (response_calls (VString (str "abc"))) = Ok w2 /\
  loads utc_host false true (ztake (zlen w1 - 1) w1) = PyOk (PyList [PyInt 1; PyInt 2], None) /\
  loads utc_host false true (ztake (zlen w2 - 1) w2) = PyOk (PyNone, None) /\ loads utc_host false true [] = PyOk (PyNone, None).
Proof. do 2 eexists. split; [vm_compute; reflexivity|]. split; [vm_compute; reflexivity|]. repeat split; vm_compute; reflexivity. Qed.

(** ** C83: any data *)
(** [loads] returns an object or raises one of three exceptions; undefined behaviour comes only from the message of a fault that is
    not UTF-8, which is then the only call the builder got. *)
Theorem C83_any_data_partial : forall host pass native data,
  (exists v n, loads host pass native data = PyOk (v, n)) \/ loads host pass native data = PyRaise PE_Decode \/ loads host pass native data = PyRaise PE_Runtime \/
  (exists n m, loads host pass native data = PyRaise (PE_Fault (PyInt n) (PyStr m))) \/
  (loads host pass native data = PyUndef /\ exists n msg u b, ~ is_text msg /\
     unmarshall _ (traced (pb_step host pass native)) TYPE_ANY unm_init (pb_init, []) data = (u, (b, [EFault n msg]), Some Undef)).
Proof.
  intros host pass native data.
  destruct (unmarshall _ (traced (pb_step host pass native)) TYPE_ANY unm_init (pb_init, []) data) as [[u [b tr]] [f|]] eqn:E.
  - pose proof (unmarshall_safe host pass native data u b tr (Some f) E) as S. rewrite loads_traced, E. cbn beta iota in S. destruct S as [[m ->]|(-> & n & msg & -> & D)].
    + right. right. left. reflexivity.
    + do 4 right. split; [reflexivity|]. exists n, msg, u, b. split; [|reflexivity]. intro T. apply text_decode in T. destruct T as [w T]. congruence.
  - destruct (loads_outcome host pass native data u b tr E) as [(_ & q & n & O & _)|[(O & _)|(n & m & msg & O & _)]]; rewrite O; eauto 7.
Qed.
Print Assumptions C83_any_data_partial.
Example C83_sample : loads utc_host false true (str "hello") = PyRaise PE_Runtime /\ loads utc_host false true [xca; x11; x02; x01; x70; x20; x01; xff] = PyRaise PE_Decode.
Proof. split; vm_compute; reflexivity. Qed.
