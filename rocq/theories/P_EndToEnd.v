(** Properties of whole calls: C57. *)
From Coq Require Import Lia.
From Verif Require Import Base Value Text M_Marshal M_BinUnmarshal M_TreeBuilder M_Values M_Url M_Registry
  S_Value S_Events S_Wire S_Registry L_Base L_Wire L_Registry L_Call P_Registry.

Section EndToEnd.
  Context {W : Type}.
  Variable message : exn -> bytes.
  Implicit Types (g : registry (W:=W)) (w : W).

  (** A call written by the binary marshaller and given to the registry in any pieces runs the method once, with the
      parameters of the caller; the answer, in any pieces again, gives the caller the value ... *)
  Theorem C57_registry_value : forall val ver g w name params w' v,
    modern ver -> name_ok name -> Forall (wf ver) params -> wf ver v ->
    call_yields message g w name (map (plain (make_datetime val)) params) w' (Ok v) ->
    exists wire, sent ver (call_calls name params) = Ok wire /\
    forall pieces, concat pieces = wire ->
      let out := answer_read message (bin_um val T_METHOD_CALL) bin_ma g w pieces in
      o_world out = w' /\ o_flushed out = true /\ o_end out = Ok tt /\
      forall back, concat back = o_bytes out -> received_value val T_METHOD_RESPONSE back = Ok (plain (make_datetime val) v).
  Proof.
    intros val ver g w name params w' v HV HN HP HW HY. destruct (bin_um_call val ver name params HV HN HP) as (wire & HS & HR).
    exists wire. split; [assumption|]. intros pieces HC. destruct (HR pieces HC) as (s & H1 & H2 & H3 & H4 & H5 & H6). cbv zeta.
    unfold answer_read. rewrite H1, H3, H5, H6. cbn [bind as_array]. rewrite (process_yields message _ _ _ _ _ _ HY).
    destruct (response_wire val T_METHOD_RESPONSE ver HV v HW) as (wire2 & HS2 & HR2); [right; left; reflexivity|].
    pose proof HS2 as HB. apply bin_written in HB as (o & s2 & HRun & HE). rewrite HRun. cbn [o_world o_flushed o_end o_bytes].
    repeat split. intros back HBk. apply HR2. rewrite HBk, HE. reflexivity.
  Qed.
  (** ... or the fault. *)
  Theorem C57_registry_fault : forall val ver g w name params w' e code msg,
    modern ver -> name_ok name -> Forall (wf ver) params ->
    call_yields message g w name (map (plain (make_datetime val)) params) w' (Err e) ->
    documented message e code msg -> no_nul msg -> msg <> [] -> small (blen msg) -> in_s32 code ->
    exists wire, sent ver (call_calls name params) = Ok wire /\
    forall pieces, concat pieces = wire ->
      let out := answer_read message (bin_um val T_METHOD_CALL) bin_ma g w pieces in
      o_world out = w' /\ o_flushed out = true /\ o_end out = Ok tt /\
      forall back, concat back = o_bytes out -> received_value val T_METHOD_RESPONSE back = Err (FaultExn code msg).
  Proof.
    intros val ver g w name params w' e code msg HV HN HP HY HD HU HM HS HC. destruct (bin_um_call val ver name params HV HN HP) as (wire & HSe & HR).
    exists wire. split; [assumption|]. intros pieces HPc. destruct (HR pieces HPc) as (s & H1 & H2 & H3 & H4 & H5 & H6). cbv zeta.
    unfold answer_read. rewrite H1, H3, H5, H6. cbn [bind as_array]. rewrite (process_yields message _ _ _ _ _ _ HY), (as_fault_documented message _ _ _ HD).
    destruct (fault_wire val T_METHOD_RESPONSE ver HV code msg HC HS HM) as (wire2 & HS2 & HR2); [right; right; auto|].
    pose proof HS2 as HB. apply bin_written in HB as (o & s2 & HRun & HE). unfold answer_fault. rewrite (c_str_same _ HU), HRun. cbn [o_world o_flushed o_end o_bytes app].
    repeat split. intros back HBk. apply HR2. rewrite HBk, HE. reflexivity.
  Qed.
End EndToEnd.
Print Assumptions C57_registry_value.
Print Assumptions C57_registry_fault.

Example C57_sample : exists wire, sent (mkVer 2 1) (call_calls (str "echo") [VString (str "hello")]) = Ok wire /\
  let out := answer_read msg_of (bin_um None T_METHOD_CALL) bin_ma app 0 [ztake 7 wire; zdrop 7 wire] in
  o_world out = 1 /\ received_value None T_METHOD_RESPONSE [o_bytes out] = Ok (VString (str "hello")).
Proof. eexists. split; [vm_compute; reflexivity|]. vm_compute. auto. Qed.
