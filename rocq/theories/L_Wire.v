(** From the loop to whole messages in pieces. *)
From Coq Require Import Lia.
From Verif Require Import Base Value M_Marshal M_BinUnmarshal M_TreeBuilder S_Value S_Wire L_Base
  L_BinUnmarshal L_RoundTrip L_TreeBuilder L_Message.

Lemma all_of_lbig : forall B bstep req (b b' : B) c wire pieces, concat pieces = wire ->
  cinv c 1 ->
  lbig B bstep req false core0 4 b (wire ++ []) = lbig B bstep req false c 1 b' [] ->
  unmarshall_all B bstep req unm_init b pieces = (mkUnm c [] 1, b', None).
Proof.
  intros B bstep req b b' c wire pieces E I H.
  destruct (unmarshall_all_concat B bstep req pieces unm_init b ready_init) as (u' & E1 & E2 & _).
  rewrite E in E1. rewrite unmarshall_lbig in E1 by exact ready_init.
  rewrite app_nil_r in H. cbn [unm_init u_core u_wanted u_buffer app] in E1.
  change (mkCore S_MAGIC [] 0 0 (mkVer 2 1)) with core0 in E1. rewrite H in E1.
  rewrite lbig_eq in E1 by auto. cbn in E1.
  destruct (unmarshall_all B bstep req unm_init b pieces) as [[u b1] f]. cbn [fst snd] in *.
  inversion E1; subst. rewrite <- E2 by reflexivity. reflexivity.
Qed.

Section Wire.
  Variable val : option mktime_t.
  Variable req : Z.
  Variable ver : version.
  Hypothesis HM : modern ver.
  Let HL : legal ver := modern_legal ver HM.

  Lemma response_wire : forall v, wf ver v -> accepts req T_METHOD_RESPONSE ->
    exists wire, sent ver (response_calls v) = Ok wire /\
    forall pieces, concat pieces = wire ->
      received_value val req pieces = Ok (plain (make_datetime val) v).
  Proof.
    intros v W HA.
    destruct (builds_root val ver v tb_init W eq_refl eq_refl eq_refl) as [m ER].
    destruct (response_decodes tb (tb_step val) req ver HL HM v tb_init tb_init _ [] W HA eq_refl ER) as [Q1 Q2].
    unfold sent. destruct (bin_run ver (response_calls v)) as [o f]. cbn [fst snd] in *. subst f.
    exists o. split; [reflexivity|]. intros pieces EC.
    unfold received_value, received.
    erewrite all_of_lbig; [|exact EC| |exact Q2]; [reflexivity|apply idle_cinv; lia].
  Qed.

  Lemma call_wire : forall name ps, 1 <= blen name <= 255 -> Forall (wf ver) ps -> accepts req T_METHOD_CALL ->
    exists wire, sent ver (call_calls name ps) = Ok wire /\
    forall pieces, concat pieces = wire ->
      received_call val req pieces = Ok (name, VArray (map (plain (make_datetime val)) ps)).
  Proof.
    intros name ps LN W HA.
    assert (FB : Forall (builds val) ps).
    { rewrite Forall_forall in *. intros x H. apply (builds_all val ver). auto. }
    destruct (builds_items1 val ps (fst (tb_step val tb_init (EMethodCall name))) [] [] FB eq_refl) as [m ER].
    destruct (call_decodes tb (tb_step val) req ver HL HM name ps tb_init _ _ [] LN W HA eq_refl ER) as [Q1 Q2].
    unfold sent. destruct (bin_run ver (call_calls name ps)) as [o f]. cbn [fst snd] in *. subst f.
    exists o. split; [reflexivity|]. intros pieces EC.
    unfold received_call, received.
    erewrite all_of_lbig; [|exact EC| |exact Q2]; [reflexivity|apply idle_cinv; lia].
  Qed.

  Lemma fault_wire : forall code msg, in_s32 code -> small (blen msg) -> msg <> [] -> accepts req T_FAULT ->
    exists wire, sent ver [PFault code msg] = Ok wire /\
    forall pieces, concat pieces = wire ->
      received_value val req pieces = Err (FaultExn code msg).
  Proof.
    intros code msg HC Sm NE HA.
    destruct (fault_decodes tb (tb_step val) req ver HL HM code msg tb_init _ [] HC Sm HA eq_refl) as [Q1 Q2].
    unfold sent. destruct (bin_run ver [PFault code msg]) as [o f]. cbn [fst snd] in *. subst f.
    exists o. split; [reflexivity|]. intros pieces EC.
    unfold received_value, received.
    erewrite all_of_lbig; [|exact EC| |exact Q2]; [|apply idle_cinv; lia].
    destruct msg; [congruence|reflexivity].
  Qed.

  Lemma empty_fault_wire : forall code, in_s32 code -> accepts req T_FAULT ->
    exists wire, sent ver [PFault code []] = Ok wire /\
    forall pieces, concat pieces = wire ->
      received_value val req pieces = Err (FaultExn code (str "No data unmarshalled")).
  Proof.
    intros code HC HA.
    destruct (fault_decodes tb (tb_step val) req ver HL HM code [] tb_init _ [] HC ltac:(vm_compute; split; congruence) HA eq_refl) as [Q1 Q2].
    unfold sent. destruct (bin_run ver [PFault code []]) as [o f]. cbn [fst snd] in *. subst f.
    exists o. split; [reflexivity|]. intros pieces EC.
    unfold received_value, received.
    erewrite all_of_lbig; [|exact EC| |exact Q2]; [|apply idle_cinv; lia]. reflexivity.
  Qed.

  (** The calls any other builder receives. *)
  Lemma response_trace : forall v, wf ver v -> accepts req T_METHOD_RESPONSE ->
    exists wire, sent ver (response_calls v) = Ok wire /\
    forall pieces, concat pieces = wire ->
      exists u, unmarshall_all _ record_step req unm_init [] pieces = (u, EMethodResponse :: events v, None)
                /\ unm_finish u = Ok tt.
  Proof.
    intros v W HA.
    assert (RR : forall es b, replay record_step b es = (b ++ es, None)).
    { induction es as [|e es IH]; intro b; cbn [replay record_step]; [rewrite app_nil_r; reflexivity|].
      rewrite IH, <- app_assoc. reflexivity. }
    destruct (response_decodes _ record_step req ver HL HM v [] _ _ [] W HA eq_refl (RR _ _)) as [Q1 Q2].
    unfold sent. destruct (bin_run ver (response_calls v)) as [o f]. cbn [fst snd] in *. subst f.
    exists o. split; [reflexivity|]. intros pieces EC. eexists.
    erewrite all_of_lbig; [|exact EC| |exact Q2]; [|apply idle_cinv; lia]. split; reflexivity.
  Qed.
End Wire.
