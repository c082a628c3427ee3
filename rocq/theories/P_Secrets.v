(** Properties of secret marks: C19, C20. *)
From Coq Require Import Lia.
From Verif Require Import Base Value Text M_Marshal M_BinUnmarshal M_TreeBuilder M_Secrets S_Value S_Secrets S_Wire
  L_Base L_BinUnmarshal L_RoundTrip L_Message L_Wire L_Text L_Secrets L_ExtBuild.

(** ** C19 *)
(** A malformed segment: somewhere, read from the left, a '~' is not followed by 0, 1 or 2. *)
Inductive malformed : bytes -> Prop :=
| bad_end : malformed [x7e]
| bad_code : forall c r, c <> x30 -> c <> x31 -> c <> x32 -> malformed (x7e :: c :: r)
| bad_after_code : forall c r, malformed r -> malformed (x7e :: c :: r)
| bad_after_plain : forall c r, c <> x7e -> malformed r -> malformed (c :: r).

Theorem C19_escape_round_trip : forall s,
  unescape (escape s) = Ok s /\ ~ In x2f (escape s) /\ ~ In x2c (escape s).
Proof.
  intro s. split; [apply unescape_escape|]. split; intro I; apply escape_clean in I; cbn in I; lia.
Qed.
Print Assumptions C19_escape_round_trip.

Theorem C19_unescape_exact : forall s, unescape s = Err RuntimeError <-> malformed s.
Proof.
  intro s. split.
  - remember (length s) as n eqn:E. revert s E. induction n as [n IH] using lt_wf_ind. intros [|c s] E H; [discriminate|].
    cbn [unescape] in H. destruct (b2z c =? 126) eqn:EC.
    + apply Z.eqb_eq in EC. assert (c = x7e) by (apply b2z_inj; rewrite EC; reflexivity). subst c.
      destruct s as [|e r]; [constructor|].
      destruct (b2z e =? 48) eqn:E0; [|destruct (b2z e =? 49) eqn:E1; [|destruct (b2z e =? 50) eqn:E2]].
      1,2,3: apply bad_after_code; apply (IH (length r)); [subst n; cbn; lia|reflexivity|];
        destruct (unescape r); cbn in H; congruence.
      apply bad_code; intro X; subst e; discriminate.
    + apply bad_after_plain; [intro X; subst c; discriminate|]. apply (IH (length s)); [subst n; cbn; lia|reflexivity|].
      destruct (unescape s); cbn in H; congruence.
  - induction 1; cbn [unescape]; try reflexivity.
    + change (b2z x7e =? 126) with true. cbv iota.
      destruct (b2z c =? 48) eqn:E; [exfalso; apply Z.eqb_eq in E; apply H; apply b2z_inj; rewrite E; reflexivity|].
      destruct (b2z c =? 49) eqn:E1; [exfalso; apply Z.eqb_eq in E1; apply H0; apply b2z_inj; rewrite E1; reflexivity|].
      destruct (b2z c =? 50) eqn:E2; [exfalso; apply Z.eqb_eq in E2; apply H1; apply b2z_inj; rewrite E2; reflexivity|].
      reflexivity.
    + change (b2z x7e =? 126) with true. cbv iota. rewrite IHmalformed.
      destruct (b2z c =? 48), (b2z c =? 49), (b2z c =? 50); reflexivity.
    + destruct (b2z c =? 126) eqn:E; [exfalso; apply Z.eqb_eq in E; apply H; apply b2z_inj; rewrite E; reflexivity|].
      rewrite IHmalformed. reflexivity.
Qed.
Print Assumptions C19_unescape_exact.

Example C19_sample : escape (str "a/b~,c") = str "a~1b~0~2c" /\ malformed (str "ab~3") /\ malformed (str "~").
Proof.
  split; [vm_compute; reflexivity|]. split; [|constructor].
  do 2 (apply bad_after_plain; [discriminate|]). apply bad_code; discriminate.
Qed.

(** ** C20 *)
(** The receiver constructs an extended tree builder with the list of secret pointers, gets the message
    in pieces, and asks for the method call. *)
Definition received_secret_call (val : option mktime_t) (req : Z) (secrets : list bytes) (pieces : list bytes)
  : res (bytes * list value) :=
  bind (ext_init secrets) (fun x =>
    match unmarshall_all ext (ext_step val) req unm_init x pieces with
    | (u, x', None) => bind (unm_finish u) (fun _ => ext_method_call x')
    | (_, _, Some (Exn e)) => Err e
    | (_, _, Some Undef) => UB
    end).

Lemma secret_call_wire : forall val req ver name ps, modern ver -> name_ok name -> Forall (wf ver) ps ->
  accepts req T_METHOD_CALL ->
  exists wire, sent ver (call_calls name ps) = Ok wire /\
  forall pieces secrets tr, concat pieces = wire -> ext_init secrets = Ok (mkExt [] tr) ->
    received_secret_call val req secrets pieces =
    Ok (name, deco_items (make_datetime val) (Some tr) 0 ps).
Proof.
  intros val req ver name ps HM LN W HA. pose proof (modern_legal ver HM) as HL.
  pose proof (fun tr => ext_call_replay val ver name ps tr W) as ER.
  assert (G : forall tr, snd (bin_run ver (call_calls name ps)) = None /\
    lbig ext (ext_step val) req false core0 4 (mkExt [] tr) (fst (bin_run ver (call_calls name ps)) ++ []) =
    lbig ext (ext_step val) req false (idle ver 0 0) 1
      (mkExt [(XCall name (deco_items (make_datetime val) (Some tr) 0 ps), Some tr)] tr) []).
  { intro tr. specialize (ER tr). cbn [replay] in ER.
    destruct (ext_step val (mkExt [] tr) (EMethodCall name)) as [x1 f1] eqn:E1. destruct f1; [discriminate|].
    eapply call_decodes; eauto. }
  unfold sent. destruct (bin_run ver (call_calls name ps)) as [o f]. cbn [fst snd] in *.
  destruct (G (SNode [])) as [-> _]. exists o. split; [reflexivity|]. intros pieces secrets tr EC EX.
  unfold received_secret_call. rewrite EX. cbn [bind].
  erewrite all_of_lbig; [|exact EC| |exact (proj2 (G tr))]; [reflexivity|apply idle_cinv; lia].
Qed.

(** Full statement: the receiver sees [map (marked _) ps].  Missing: secrets inside secrets, and secrets
    under an array position that has a digit 0 (10, 20, 101, ...); both refuted below. *)
Theorem C20_secrets_arrive_partial : forall val req ver name ps,
  modern ver -> name_ok name -> wf ver (VArray ps) -> accepts req T_METHOD_CALL ->
  flat_secrets (VArray ps) -> reachable_secrets (VArray ps) ->
  exists wire, sent ver (call_calls name ps) = Ok wire /\
  forall pieces, concat pieces = wire ->
    received_secret_call val req (gather [] (VArray ps)) pieces =
    Ok (name, map (marked (make_datetime val)) ps).
Proof.
  intros val req ver name ps HM LN W HA FL RE. pose proof W as W'. apply wf_array in W'. destruct W' as [_ FW].
  destruct (secret_call_wire val req ver name ps HM LN FW HA) as (wire & E & G). exists wire. split; auto.
  intros pieces EC. rewrite (G pieces _ _ EC (gathered_tree ver ps W)), (call_marked _ ver) by auto. reflexivity.
Qed.
Print Assumptions C20_secrets_arrive_partial.

(** Whatever pointers the receiver was given (even wrong or hostile ones), they never change the content
    of the parameters, only the secret marks. *)
Theorem C20_content_untouched : forall val req ver name ps secrets x0,
  modern ver -> name_ok name -> wf ver (VArray ps) -> accepts req T_METHOD_CALL ->
  ext_init secrets = Ok x0 ->
  exists wire, sent ver (call_calls name ps) = Ok wire /\
  forall pieces, concat pieces = wire ->
  exists args, received_secret_call val req secrets pieces = Ok (name, args)
    /\ map (plain (fun d => d)) args = map (plain (make_datetime val)) ps.
Proof.
  intros val req ver name ps secrets x0 HM LN W HA EX. apply wf_array in W. destruct W as [_ FW].
  destruct (secret_call_wire val req ver name ps HM LN FW HA) as (wire & E & G). exists wire. split; auto.
  intros pieces EC. unfold ext_init in EX. destruct (build_secret_tree secrets (SNode [])) as [tr| |] eqn:EB; try discriminate.
  eexists. split; [apply G with (tr := tr); auto; unfold ext_init; rewrite EB; reflexivity|].
  generalize 0 as i. clear. induction ps as [|p ps IH]; intro i; [reflexivity|]. cbn [deco_items map].
  rewrite plain_wrap, plain_deco, IH. reflexivity.
Qed.
Print Assumptions C20_content_untouched.

(** A call whose second parameter is a struct with a secret password and a secret list item. *)
Definition secret_params : list value :=
  [VInt 1; VStruct [(str "a/b", VSecret (VString (str "pw"))); (str "list", VArray [VInt 5; VSecret (VArray [VInt 6])])]].

Example C20_sample : wf (mkVer 3 0) (VArray secret_params) /\ flat_secrets (VArray secret_params)
  /\ reachable_secrets (VArray secret_params)
  /\ gather [] (VArray secret_params) = [str "/1/a~1b"; str "/1/list/1"].
Proof.
  repeat split; try (vm_compute; lia); try (vm_compute; intuition congruence).
  - intros k' x [E|[]]. inversion E. reflexivity.
Qed.

(** Eleven parameters, the last one secret: it arrives unmarked. *)
Theorem C20_index_ten_refuted :
  let ps := repeat (VInt 0) 10 ++ [VSecret (VInt 7)] in
  exists wire, sent (mkVer 3 0) (call_calls (str "m") ps) = Ok wire /\
    gather [] (VArray ps) = [str "/10"] /\
    received_secret_call None TYPE_ANY (gather [] (VArray ps)) [wire] = Ok (str "m", repeat (VInt 0) 10 ++ [VInt 7]).
Proof. eexists. split; [vm_compute; reflexivity|]. split; vm_compute; reflexivity. Qed.
Print Assumptions C20_index_ten_refuted.

(** A secret struct with a secret member: the struct itself (and its other member) arrives unmarked. *)
Theorem C20_nested_refuted :
  let ps := [VSecret (VStruct [(str "a", VSecret (VInt 1)); (str "b", VInt 2)])] in
  exists wire, sent (mkVer 3 0) (call_calls (str "m") ps) = Ok wire /\
    received_secret_call None TYPE_ANY (gather [] (VArray ps)) [wire]
    = Ok (str "m", [VStruct [(str "a", VSecret (VInt 1)); (str "b", VInt 2)]]).
Proof. eexists. split; [vm_compute; reflexivity|]. vm_compute. reflexivity. Qed.
Print Assumptions C20_nested_refuted.
