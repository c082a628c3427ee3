(** C50, C67: the logging of calls. *)
From Coq Require Import Lia.
From Verif Require Import Base Value Text M_Marshal M_Values M_Url M_Registry M_Proxy M_Log S_Log L_Base L_Http L_Registry S_Registry P_Registry.

Lemma structured_spec : forall name, structured_name name = true <-> structured name.
Proof. intros name. unfold structured_name, structured. rewrite orb_true_iff, !bytes_eqb_spec. tauto. Qed.

(** * C50 *)
(** Nothing outside the data is read if every struct describing a call has a member "params". *)
Theorem C50_partial : forall name params x, x <> UB ->
  (structured name -> forall calls, sub_calls params calls -> Forall has_params calls) ->
  snd (with_logger name params x) <> UB.
Proof.
  intros name params x X H. unfold with_logger. destruct x as [v|e|]; [|destruct e; cbn; congruence|congruence].
  unfold log_structured. destruct (structured_name name) eqn:E; [|cbn; discriminate]. apply structured_spec in E. specialize (H E).
  destruct params as [[|p ps]|]; try (cbn; discriminate). destruct p; try (cbn; discriminate). destruct v as [v|]; [|cbn; discriminate]. destruct v; try (cbn; discriminate).
  specialize (H l ltac:(exists ps; reflexivity)).
  assert (G : forall cs rs, Forall has_params cs -> snd (log_calls cs rs) <> UB).
  { induction cs as [|c cs IH]; intros rs F; [destruct rs; cbn; discriminate|]. destruct rs as [|r rs]; [cbn; discriminate|].
    inversion F as [|? ? F1 F2]; subst. cbn [log_calls].
    assert (R : snd (log_calls cs rs) <> UB) by (apply IH; assumption).
    destruct c; try assumption. destruct r; try assumption.
    unfold log_entry. specialize (F1 m eq_refl). destruct (struct_get (str "params") m) as [w|]; [|congruence].
    destruct w; cbn [as_array bind]; try (cbn; discriminate).
    destruct (struct_get (str "faultCode") m0) as [c|].
    - destruct c; cbn [as_int bind]; try (cbn; discriminate). destruct (struct_get_default (str "faultString") (VString []) m0); cbn [as_string bind]; try (cbn; discriminate).
      destruct (log_calls cs rs); cbn in *; assumption.
    - destruct (log_calls cs rs); cbn in *; assumption. }
  specialize (G l l0 H). destruct (log_calls l l0) as [es y]. cbn in G. destruct y as [[]|e|]; cbn; congruence.
Qed.
Print Assumptions C50_partial.

(** ** What does not hold *)
(** A multicall with a struct without "params": this library's server answers with a fault, and logging the call in the
    client reads outside the struct. *)
Theorem C50_refuted : exists params response,
  snd (process msg_of app 0 (str "system.multicall") params) = Ok response /\
  snd (with_logger (str "system.multicall") (Some params) (Ok (Some response))) = UB.
Proof. exists [VArray [VStruct [(str "methodName", VString (str "echo"))]]]. eexists. split; [vm_compute; reflexivity|vm_compute; reflexivity]. Qed.
Example C50_sample : has_params (VStruct [(str "methodName", VString (str "echo")); (str "params", VArray [VInt 1])]) /\
  with_logger (str "system.multicall") (Some [VArray [VStruct [(str "methodName", VString (str "fail")); (str "params", VArray [])]]])
    (Ok (Some (VArray [fault_struct 42 (str "no")]))) =
  ([Log_start (str "system.multicall") (Some [VArray [VStruct [(str "methodName", VString (str "fail")); (str "params", VArray [])]]]);
    Log_fault (Some (str "fail")) (Some []) 42 (str "no");
    Log_success (Some (str "system.multicall")) (Some [VArray [VStruct [(str "methodName", VString (str "fail")); (str "params", VArray [])]]]) (Some (VArray [fault_struct 42 (str "no")]))],
   Ok (Some (VArray [fault_struct 42 (str "no")]))).
Proof. split; [intros m H; injection H as <-; vm_compute; discriminate|vm_compute; reflexivity]. Qed.

(** * C67 *)
(** A call that is no structured call gives what it gives, and is logged by its start and its end. *)
Theorem C67_plain : forall name params x, ~ structured name -> x <> UB ->
  snd (with_logger name params x) = x /\ exists e, end_event name params x e /\ fst (with_logger name params x) = [Log_start name params; e].
Proof.
  intros name params x N X. unfold with_logger.
  assert (E : structured_name name = false) by (destruct (structured_name name) eqn:E; [apply structured_spec in E; tauto|reflexivity]).
  destruct x as [v|e|]; [|destruct e; cbn; split; try reflexivity; eexists; split; reflexivity|congruence].
  unfold log_structured. rewrite E. cbn. split; [reflexivity|]. eexists. split; reflexivity.
Qed.
(** So does a structured call whose structs are proper calls and whose results are proper; the calls within it are logged
    one by one, before its end. *)
Theorem C67_structured_partial : forall name params calls v, structured name -> sub_calls params calls -> Forall good_call calls ->
  (forall responses, v = Some (VArray responses) -> Forall good_result responses) ->
  snd (with_logger name params (Ok v)) = Ok v /\
  exists es e, end_event name params (Ok v) e /\ fst (with_logger name params (Ok v)) = Log_start name params :: es ++ [e] /\
    match v with Some (VArray responses) => entries_logged calls responses es | _ => es = [] end.
Proof.
  intros name params calls v S (rest & ->) C R. unfold with_logger, log_structured.
  apply structured_spec in S. rewrite S.
  assert (G : forall cs rs, Forall good_call cs -> Forall good_result rs -> exists es, log_calls cs rs = (es, Ok tt) /\ entries_logged cs rs es).
  { induction cs as [|c cs IH]; intros rs FC FR; [exists []; split; [destruct rs; reflexivity|constructor]|].
    destruct rs as [|r rs]; [exists []; split; [reflexivity|constructor]|]. inversion FC as [|? ? C1 C2]; inversion FR as [|? ? R1 R2]; subst.
    destruct (IH rs C2 R2) as (es & E & L). cbn [log_calls].
    destruct c; try (exists es; split; [exact E|apply logged_other; [intros ? ? (X & _); discriminate|exact L]]).
    destruct r; try (exists es; split; [exact E|apply logged_other; [intros ? ? (_ & X); discriminate|exact L]]).
    unfold log_entry. destruct (C1 m eq_refl) as (ps & P). rewrite P. cbn [as_array bind].
    set (nm := match struct_get (str "methodName") m with Some (VString s) => Some (c_str s) | _ => None end).
    assert (NM : forall s, ~ In x00 s -> struct_get (str "methodName") m = Some (VString s) -> nm = Some s).
    { intros s Z Y. unfold nm. rewrite Y. rewrite c_str_same by assumption. reflexivity. }
    destruct (struct_get (str "faultCode") m0) as [c|] eqn:F.
    - destruct (R1 m0 c eq_refl F) as ((z & ->) & FS). cbn [as_int bind].
      unfold struct_get_default. fold (struct_get (str "faultString") m0).
      assert (T : exists msg, match struct_get (str "faultString") m0 with Some w => w | None => VString [] end = VString msg /\
        forall s, struct_get (str "faultString") m0 = Some (VString s) -> msg = s).
      { destruct FS as [-> |(s & ->)]; eexists; split; try reflexivity; congruence. }
      destruct T as (msg & -> & MS). cbn [as_string bind]. rewrite E. eexists. split; [reflexivity|]. apply logged_call; [|exact L].
      exists nm, ps. split; [exact P|]. split; [exact NM|]. right. exists z, msg. split; [exact F|]. split; [|exact MS].
      intros I. unfold s32, signed. f_equal. unfold in_s32 in I. cbv zeta.
      destruct (Z.ltb_spec (z mod 2 ^ 32) (2 ^ (32 - 1))); [|].
      + destruct (Z.neg_nonneg_cases z) as [Y|Y]; [|apply Z.mod_small; lia].
        rewrite <- (Z.mod_add z 1 (2 ^ 32)) in H by lia. rewrite Z.mod_small in H by lia. change (2 ^ (32 - 1)) with (2 ^ 31) in H. lia.
      + destruct (Z.neg_nonneg_cases z) as [Y|Y]; [|rewrite Z.mod_small in H by lia; change (2 ^ (32 - 1)) with (2 ^ 31) in H; lia].
        rewrite <- (Z.mod_add z 1 (2 ^ 32)) by lia. rewrite Z.mod_small by lia. lia.
    - rewrite E. eexists. split; [reflexivity|]. apply logged_call; [|exact L].
      exists nm, ps. split; [exact P|]. split; [exact NM|]. left. split; [exact F|reflexivity]. }
  destruct v as [v|]; [|split; [reflexivity|]; exists []; eexists; split; [reflexivity|]; split; reflexivity].
  destruct v as [z|b| |z|s|s|s|z s|d|m|l|v]; try (split; [reflexivity|]; exists []; eexists; split; [reflexivity|]; split; reflexivity).
  destruct (G calls l C (R l eq_refl)) as (es & E & L). rewrite E. split; [reflexivity|]. exists es. eexists. split; [reflexivity|]. split; [reflexivity|exact L].
Qed.
Print Assumptions C67_structured_partial.
(** A call that ends with a fault or an exception is logged so, whatever it is. *)
Theorem C67_exception : forall name params e, snd (with_logger name params (Err e)) = Err e /\
  exists ev, end_event name params (Err e) ev /\ fst (with_logger name params (Err e)) = [Log_start name params; ev].
Proof. intros name params e. unfold with_logger. destruct e; cbn; split; try reflexivity; eexists; split; reflexivity. Qed.

(** ** What does not hold *)
(** Logging a multicall whose struct has other parameters than an array, or whose method returned a struct with a member
    "faultCode" that is no integer, throws: the results of the call are lost. *)
Theorem C67_refuted : exists response,
  let params := [VArray [VStruct [(str "methodName", VString (str "echo")); (str "params", VInt 5)]]] in
  snd (process msg_of app 0 (str "system.multicall") params) = Ok response /\
  snd (with_logger (str "system.multicall") (Some params) (Ok (Some response))) = Err TypeError.
Proof. eexists. cbv zeta. split; [vm_compute; reflexivity|vm_compute; reflexivity]. Qed.
Definition odd_result : value := VStruct [(str "faultCode", VString (str "none"))].
Theorem C67_result_refuted : 
  let params := [VArray [VStruct [(str "methodName", VString (str "echo")); (str "params", VArray [odd_result])]]] in
  snd (process msg_of app 0 (str "system.multicall") params) = Ok (VArray [odd_result]) /\
  snd (with_logger (str "system.multicall") (Some params) (Ok (Some (VArray [odd_result])))) = Err TypeError.
Proof. vm_compute. auto. Qed.

Example C67_sample : structured (str "system.multicall") /\
  Forall good_call [VStruct [(str "methodName", VString (str "fail")); (str "params", VArray [])]] /\
  Forall good_result [fault_struct 42 (str "no")] /\ ~ structured (str "echo").
Proof.
  repeat split.
  - left; reflexivity.
  - constructor; [|constructor]. intros m H. injection H as <-. exists []. reflexivity.
  - constructor; [|constructor]. intros m c H F. injection H as <-. vm_compute in F. injection F as <-. split; [eexists; reflexivity|].
    right. exists (str "no"). reflexivity.
  - intros [H|H]; vm_compute in H; discriminate.
Qed.
