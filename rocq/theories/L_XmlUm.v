(** Lemmas about the XML unmarshaller behind [UnMarshaller_t]. *)
From Coq Require Import Lia.
From Verif Require Import Base Value Text M_Marshal M_BinUnmarshal M_TreeBuilder M_Base64 M_Dump M_Json M_Iso M_Url M_Http M_HttpIO M_HttpWriter M_Registry M_Server M_Xml M_XmlUm
  S_Value S_Events S_Iso S_Xml S_Wire S_Http S_Registry S_Server S_Client S_XmlUm L_Base L_Text L_RoundTrip L_TreeBuilder L_Json L_Xml L_Xml2 L_Xml3 L_Xml4 L_Xml5 L_Xml6 L_Xml7.

Section Um.
  Variable P : parser.
  Variable strtod : bytes -> option Z.
  Variable val : option mktime_t.
  Variable want : Z.
  Notation um := (xml_um P strtod false val want).

  Lemma um_pieces : forall pieces p u t batches p', reports P p pieces batches p' ->
    forall u' t', x_unmarshall_all (tb_step val) strtod false want u t (combine pieces batches) = (u', t', None) ->
    um_all um (p, u, t) pieces = ((p', u', t'), None).
  Proof.
    intros pieces p u t batches p' HR. revert u t. induction HR as [p|p d p1 batch pieces batches p2 HT HR IH]; intros u t u' t' H.
    - cbn in *. inversion H; subst. reflexivity.
    - cbn [combine x_unmarshall_all] in H. cbn [um_all xml_um um_take]. rewrite HT.
      destruct (x_unmarshall (tb_step val) strtod false want u t d batch 0) as [[u1 t1] [f|]]; [discriminate|]. apply IH. exact H.
  Qed.
  Lemma um_received : forall text doc, faithful P -> xml_doc text = Some doc -> forall pieces, arrives text pieces ->
    exists xpieces last s, map fst xpieces = pieces /\ delivery text xpieces last /\
      forall u t, x_receive (tb_step val) strtod false want tb_init xpieces last = (u, t, None) ->
      um_all um (um_init um) pieces = (s, None) /\ exists p, um_finish um s = ((p, u, t), Ok tt).
  Proof.
    intros text doc HF HD pieces HA. destruct (HF _ _ _ HD HA) as (batches & s & s' & last & HR & HT & HDE).
    destruct (x_unmarshall_all (tb_step val) strtod false want xun_init tb_init (combine pieces batches)) as [[u1 t1] f1] eqn:E.
    exists (combine pieces batches), last, (s, u1, t1). split; [|split; [exact HDE|]].
    - clear - HR. induction HR; cbn; congruence.
    - intros u t H. unfold x_receive in H. rewrite E in H. destruct f1; [discriminate|].
      split; [exact (um_pieces _ _ _ _ _ _ HR _ _ E)|]. exists s'. cbn [um_finish xml_um]. rewrite HT, H. reflexivity.
  Qed.
End Um.

(** What the XML marshaller writes. *)
Lemma xml_ma_run : forall fin ver cs s, ma_run (xml_ma fin ver) s cs = xml_calls fin ver s cs.
Proof.
  intros fin ver. induction cs as [|c cs IH]; intros s; [reflexivity|]. cbn [ma_run xml_calls ma_call xml_ma xseq].
  destruct (xml_call fin ver s c) as [[o s1] [f|]]; [reflexivity|]. cbn [xseq]. fold (xml_ma fin ver). rewrite IH. reflexivity.
Qed.
Lemma xml_written : forall fin ver cs out, v_major ver <= 3 -> xml_output fin ver cs = Ok out -> written (xml_ma fin ver) cs out.
Proof.
  intros fin ver cs out HV H. unfold xml_output in H. replace (3 <? v_major ver) with false in H by (symmetry; apply Z.ltb_ge; lia).
  unfold written. change (ma_init (xml_ma fin ver)) with xms_init. rewrite xml_ma_run.
  destruct (xml_calls fin ver xms_init cs) as [[o s] [[e|]|]]; inversion H; subst. exists o, s. split; reflexivity.
Qed.

(** Calls, responses and faults of version 2.1. *)
Notation v21 := (mkVer 2 1).
Lemma learned_21 : forall n, learned v21 n = v21.
Proof. intros n. unfold learned. destruct (46 <=? n); reflexivity. Qed.
Lemma xml_decodes : forall P fin strtod val name params, faithful P -> name_ok name -> xml_text name ->
  Forall (fun v => xml_wf (double_exact fin strtod) v /\ ordered v) params ->
  exists text, xml_output fin v21 (call_calls name params) = Ok text /\
    S_Server.decodes (xml_um P strtod false val T_METHOD_CALL) text v21 name (map (plain (fun d => make_datetime val (iso_fields d))) params).
Proof.
  intros P fin strtod val name params HF NK NT F.
  assert (M : 2 <= v_major v21 <= 3) by (cbn; lia).
  assert (FW : Forall (xml_wf (double_exact fin strtod)) params) by (eapply Forall_impl; [|exact F]; intros v [A _]; exact A).
  assert (FS : Forall shape params) by (eapply Forall_impl; [|exact F]; intros v [A B]; exact (xml_shape _ v A B)).
  exists (x_magic v21 ++ call_body fin name params). split; [exact (call_output fin _ v21 name params M NK FW)|].
  pose proof (call_doc_ok fin _ (exact_plain fin strtod) v21 name params NT FW) as DOC.
  intros pieces HA. destruct (um_received P strtod val T_METHOD_CALL _ _ HF DOC pieces HA) as (xp & last & s & EX & DL & HU).
  destruct (xml_items val params (fst (tb_step val tb_init (EMethodCall name))) [] FS eq_refl) as [m R].
  destruct (read_call (tb_step val) strtod fin T_METHOD_CALL name params tb_init _ _ FW (or_intror eq_refl) eq_refl R) as (u & S & D).
  destruct (delivery_steps _ (tb_step val) strtod T_METHOD_CALL v21 _ _ _ _ _ _ _ (proj1 M) DOC DL S D) as (vv & E & EV).
  destruct (HU _ _ E) as (U1 & p & U2). do 2 eexists. split; [exact U1|]. split; [exact U2|].
  cbn [um_version um_builder xml_um fst snd set_vc x_ver]. rewrite EV, learned_21. repeat split; reflexivity.
Qed.
Lemma xml_replies : forall P fin strtod val v, faithful P -> xml_wf (double_exact fin strtod) v -> ordered v ->
  exists text, xml_output fin v21 (response_calls v) = Ok text /\ text <> [] /\
    replies (xml_um P strtod false val T_METHOD_RESPONSE) text v21 (Ok (plain (fun d => make_datetime val (iso_fields d)) v)).
Proof.
  intros P fin strtod val v HF W O. assert (M : 2 <= v_major v21 <= 3) by (cbn; lia).
  exists (x_magic v21 ++ response_body fin v). split; [exact (response_output fin _ v21 v M W)|]. split; [discriminate|].
  pose proof (response_doc_ok fin _ (exact_plain fin strtod) v21 v W) as DOC.
  intros pieces HA. destruct (um_received P strtod val T_METHOD_RESPONSE _ _ HF DOC pieces HA) as (xp & last & s & EX & DL & HU).
  destruct (xml_root val v tb_init (xml_shape _ v W O) eq_refl eq_refl eq_refl) as [m R].
  destruct (read_response (tb_step val) strtod fin T_METHOD_RESPONSE v tb_init tb_init _ W (or_intror eq_refl) eq_refl R) as (u & S & D).
  destruct (delivery_steps _ (tb_step val) strtod T_METHOD_RESPONSE v21 _ _ _ _ _ _ _ (proj1 M) DOC DL S D) as (vv & E & EV).
  destruct (HU _ _ E) as (U1 & p & U2). do 2 eexists. split; [exact U1|]. split; [exact U2|].
  cbn [um_version um_builder xml_um fst snd set_vc x_ver]. rewrite EV, learned_21. repeat split; reflexivity.
Qed.
Lemma xml_fault_replies : forall P fin strtod val code msg, faithful P -> in_s32 code -> xml_text msg -> msg <> [] ->
  exists text, xml_output fin v21 [PFault code msg] = Ok text /\ text <> [] /\
    replies (xml_um P strtod false val T_METHOD_RESPONSE) text v21 (Err (FaultExn code msg)).
Proof.
  intros P fin strtod val code msg HF HC MT NE. assert (M : 2 <= v_major v21 <= 3) by (cbn; lia).
  assert (H : - 2 ^ 63 < code < 2 ^ 63) by (unfold in_s32 in HC; lia).
  exists (x_magic v21 ++ fault_body fin code msg). split; [exact (fault_output fin (double_exact fin strtod) (exact_plain fin strtod) v21 code msg M H)|]. split; [discriminate|].
  pose proof (fault_doc_ok fin _ (exact_plain fin strtod) v21 code msg H MT) as DOC.
  intros pieces HA. destruct (um_received P strtod val T_METHOD_RESPONSE _ _ HF DOC pieces HA) as (xp & last & s & EX & DL & HU).
  destruct (read_fault (tb_step val) strtod fin T_METHOD_RESPONSE code msg tb_init _ HC MT (or_intror eq_refl) eq_refl) as (u & S & D).
  destruct (delivery_steps _ (tb_step val) strtod T_METHOD_RESPONSE v21 _ _ _ _ _ _ _ (proj1 M) DOC DL S D) as (vv & E & EV).
  destruct (HU _ _ E) as (U1 & p & U2). do 2 eexists. split; [exact U1|]. split; [exact U2|].
  cbn [um_version um_builder xml_um fst snd set_vc x_ver]. rewrite EV, learned_21. split; [reflexivity|]. destruct msg; [congruence|reflexivity].
Qed.
