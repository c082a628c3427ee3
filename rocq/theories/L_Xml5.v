(** XML messages from writer to reader. *)
From Coq Require Import Lia.
From Verif Require Import Base Value Text M_Marshal M_BinUnmarshal M_TreeBuilder M_Base64 M_Dump M_Json M_Iso M_Url M_Xml
  S_Value S_Base64 S_Iso S_Xml S_Wire L_Base L_Text L_RoundTrip L_TreeBuilder L_Base64 L_Iso L_Json L_Xml L_Xml2 L_Xml3 L_Xml4.
Ltac Zify.zify_post_hook ::= Z.div_mod_to_equations.
Ltac tname := repeat split; vm_compute; reflexivity.
Ltac casc := apply asc_clean; vm_compute; reflexivity.
Ltac assoc_eq := repeat rewrite <- app_assoc; cbn [app]; repeat rewrite <- app_assoc; reflexivity.

(** ** Documents *)
Lemma magic_clean : forall ver, clean (x_magic ver) /\ drop_cr (x_magic ver) = x_magic ver.
Proof. intro ver. unfold x_magic. destruct (v_major ver <? 2); [|destruct ((v_major ver =? 2) && (v_minor ver =? 0))]; (split; [casc|reflexivity]). Qed.
Lemma doc_magic : forall ver body, clean body -> xml_doc (x_magic ver ++ body) = xtok [] false LText (drop_cr body).
Proof.
  intros ver body C. destruct (magic_clean ver) as [MC MD]. destruct (clean_app _ _ MC C) as [U K].
  unfold xml_doc. unfold xml_chars in U. rewrite U. rewrite eol_drop by auto. rewrite drop_cr_app, MD.
  unfold x_magic. destruct (v_major ver <? 2); [|destruct ((v_major ver =? 2) && (v_minor ver =? 0))]; reflexivity.
Qed.

Section Docs.
  Variable fin : Z -> bytes.
  Variable P : Z -> Prop.
  Notation show := (show_double fin).
  Hypothesis PS : forall d, P d -> forallb plain_char (show d) = true.
  Notation b64' := (fun cs => drop_cr (write_encode_base64 true cs)).
  Notation sx := (xsax b64' show).
  Notation tx := (xtext (write_encode_base64 true) show).

  Definition param_sax (v : value) : list sax := elem (str "param") ([snl] ++ sx v) ++ [snl].
  Definition response_doc (v : value) : list sax :=
    elem (str "methodResponse") ([snl] ++ elem (str "params") ([snl] ++ param_sax v) ++ [snl]).
  Definition call_doc (k : bytes) (l : list value) : list sax :=
    elem (str "methodCall") ([snl] ++ elem (str "methodName") (chars k) ++ [snl]
      ++ elem (str "params") ([snl] ++ flat_map param_sax l) ++ [snl]).
  Definition fault_value (n : Z) (msg : bytes) : value :=
    VStruct [(str "faultCode", VInt n); (str "faultString", VString msg)].
  Definition fault_doc (n : Z) (msg : bytes) : list sax :=
    elem (str "methodResponse") ([snl] ++ elem (str "fault") ([snl] ++ sx (fault_value n msg)) ++ [snl]).

  Lemma value_reads : forall v a stk r, xml_wf P v ->
    xtok (a :: stk) true LText (drop_cr (tx v) ++ r) = prep (sx v) (xtok (a :: stk) true LText r).
  Proof.
    intros v a stk r W. rewrite (xtext_drop _ P) by auto. apply reads_all.
    - intro cs. apply b64_drop_textual.
    - eapply xml_wf_shown; [exact PS|exact W].
  Qed.
  Lemma value_clean : forall v, xml_wf P v -> clean (tx v).
  Proof. intros v W. apply (xtext_clean _ P PS); auto. intro cs. apply b64_clean. Qed.

  Lemma drop_param : forall v, drop_cr (param_text fin v) = str "<param>" ++ nl ++ drop_cr (tx v) ++ str "</param>" ++ nl.
  Proof. intro v. unfold param_text. rewrite !drop_cr_app. reflexivity. Qed.
  Lemma param_clean : forall v, xml_wf P v -> clean (param_text fin v).
  Proof. intros v W. unfold param_text. repeat (apply clean_app; [first [apply value_clean; assumption|casc]|]). casc. Qed.
  Lemma param_reads : forall v a stk r, xml_wf P v ->
    xtok (a :: stk) true LText (drop_cr (param_text fin v) ++ r) = prep (param_sax v) (xtok (a :: stk) true LText r).
  Proof.
    intros v a stk r W. rewrite drop_param.
    match goal with |- xtok _ _ _ ?t = _ =>
      replace t with (x3c :: str "param" ++ x3e :: (nl ++ (drop_cr (tx v) ++ (x3c :: x2f :: str "param" ++ x3e :: (nl ++ r)))))
        by (repeat rewrite <- app_assoc; reflexivity) end.
    rewrite tok_open by tname. rewrite (tok_text nl) by reflexivity. rewrite value_reads by auto. rewrite tok_close by tname.
    rewrite (tok_text nl) by reflexivity. rewrite !prep_app. unfold param_sax, elem. f_equal; cbn [app chars map nl]; assoc_eq.
  Qed.
  Lemma params_reads : forall l a stk r, Forall (xml_wf P) l ->
    xtok (a :: stk) true LText (drop_cr (flat_map (param_text fin) l) ++ r)
    = prep (flat_map param_sax l) (xtok (a :: stk) true LText r).
  Proof.
    intros l a stk r F. revert r. induction F as [|v l W F IH]; intro r; [symmetry; apply prep_nil|]. cbn [flat_map].
    rewrite drop_cr_app, <- app_assoc, param_reads by auto. rewrite IH, prep_app. reflexivity.
  Qed.

  Definition response_body (v : value) : bytes :=
    str "<methodResponse>" ++ nl ++ str "<params>" ++ nl ++ param_text fin v ++ str "</params>" ++ nl ++ str "</methodResponse>" ++ nl.
  Lemma response_doc_ok : forall ver v, xml_wf P v -> xml_doc (x_magic ver ++ response_body v) = Some (response_doc v).
  Proof.
    intros ver v W. unfold response_body. rewrite doc_magic.
    2:{ repeat (apply clean_app; [first [apply param_clean; assumption|casc]|]). casc. }
    rewrite !drop_cr_app.
    match goal with |- xtok _ _ _ ?t = _ =>
      replace t with (x3c :: str "methodResponse" ++ x3e :: (nl ++ (x3c :: str "params" ++ x3e :: (nl ++ (drop_cr (param_text fin v) ++
        (x3c :: x2f :: str "params" ++ x3e :: (nl ++ (x3c :: x2f :: str "methodResponse" ++ x3e :: nl))))))))
        by (repeat rewrite <- app_assoc; reflexivity) end.
    rewrite tok_root by tname. rewrite (tok_text nl) by reflexivity. rewrite tok_open by tname. rewrite (tok_text nl) by reflexivity.
    rewrite param_reads by auto. rewrite tok_close by tname. rewrite (tok_text nl) by reflexivity. rewrite tok_close by tname.
    change (xtok [] true LText nl) with (Some (@nil sax)). rewrite !prep_app. unfold prep, option_map, response_doc, elem.
    f_equal; cbn [app chars map nl]; assoc_eq.
  Qed.

  Definition call_body (k : bytes) (l : list value) : bytes :=
    str "<methodCall>" ++ nl ++ str "<methodName>" ++ xquote k ++ str "</methodName>" ++ nl ++ str "<params>" ++ nl
      ++ flat_map (param_text fin) l ++ str "</params>" ++ nl ++ str "</methodCall>" ++ nl.
  Lemma call_doc_ok : forall ver k l, xml_text k -> Forall (xml_wf P) l -> xml_doc (x_magic ver ++ call_body k l) = Some (call_doc k l).
  Proof.
    intros ver k l K F. unfold call_body. rewrite doc_magic.
    2:{ repeat (apply clean_app; [first [apply clean_xquote; assumption|
          apply clean_flat_map; rewrite Forall_forall in *; intros x I; apply param_clean; auto|casc]|]). casc. }
    rewrite !drop_cr_app. rewrite (drop_quoted k) by auto.
    match goal with |- xtok _ _ _ ?t = _ =>
      replace t with (x3c :: str "methodCall" ++ x3e :: (nl ++ (x3c :: str "methodName" ++ x3e :: (xquote k ++ (x3c :: x2f :: str "methodName" ++ x3e :: (nl
        ++ (x3c :: str "params" ++ x3e :: (nl ++ (drop_cr (flat_map (param_text fin) l) ++
        (x3c :: x2f :: str "params" ++ x3e :: (nl ++ (x3c :: x2f :: str "methodCall" ++ x3e :: nl))))))))))))
        by (repeat rewrite <- app_assoc; reflexivity) end.
    rewrite tok_root by tname. rewrite (tok_text nl) by reflexivity. rewrite tok_open by tname. rewrite tok_quoted. rewrite tok_close by tname.
    rewrite (tok_text nl) by reflexivity. rewrite tok_open by tname. rewrite (tok_text nl) by reflexivity.
    rewrite params_reads by auto. rewrite tok_close by tname. rewrite (tok_text nl) by reflexivity. rewrite tok_close by tname.
    change (xtok [] true LText nl) with (Some (@nil sax)). rewrite !prep_app. unfold prep, option_map, call_doc, elem.
    f_equal; cbn [app chars map nl]; assoc_eq.
  Qed.

  Definition fault_body (n : Z) (msg : bytes) : bytes :=
    str "<methodResponse>" ++ nl ++ str "<fault>" ++ nl ++ tx (fault_value n msg) ++ str "</fault>" ++ nl ++ str "</methodResponse>" ++ nl.
  Lemma text_const : forall s, forallb asc s = true -> xml_text s.
  Proof. intros s H. split; [apply asc_chars; auto|apply asc_no_cr; auto]. Qed.
  Lemma fault_wf : forall n msg, - 2 ^ 63 < n < 2 ^ 63 -> xml_text msg -> xml_wf P (fault_value n msg).
  Proof.
    intros n msg H T. unfold fault_value. apply xml_wf_struct. split; [vm_compute; reflexivity|].
    constructor; [|constructor; [|constructor]]; cbn [fst snd].
    - split; [vm_compute; split; discriminate|]. split; [apply text_const; vm_compute; reflexivity|]. cbn [xml_wf]. exact H.
    - split; [vm_compute; split; discriminate|]. split; [apply text_const; vm_compute; reflexivity|]. exact T.
  Qed.
  Lemma fault_doc_ok : forall ver n msg, - 2 ^ 63 < n < 2 ^ 63 -> xml_text msg ->
    xml_doc (x_magic ver ++ fault_body n msg) = Some (fault_doc n msg).
  Proof.
    intros ver n msg H T. pose proof (fault_wf n msg H T) as W. unfold fault_body. rewrite doc_magic.
    2:{ repeat (apply clean_app; [first [apply value_clean; assumption|casc]|]). casc. }
    rewrite !drop_cr_app.
    match goal with |- xtok _ _ _ ?t = _ =>
      replace t with (x3c :: str "methodResponse" ++ x3e :: (nl ++ (x3c :: str "fault" ++ x3e :: (nl ++ (drop_cr (tx (fault_value n msg)) ++
        (x3c :: x2f :: str "fault" ++ x3e :: (nl ++ (x3c :: x2f :: str "methodResponse" ++ x3e :: nl))))))))
        by (repeat rewrite <- app_assoc; reflexivity) end.
    rewrite tok_root by tname. rewrite (tok_text nl) by reflexivity. rewrite tok_open by tname. rewrite (tok_text nl) by reflexivity.
    rewrite value_reads by auto. rewrite tok_close by tname. rewrite (tok_text nl) by reflexivity. rewrite tok_close by tname.
    change (xtok [] true LText nl) with (Some (@nil sax)). rewrite !prep_app. unfold prep, option_map, fault_doc, elem.
    f_equal; cbn [app chars map nl]; assoc_eq.
  Qed.

  (** ** What the marshaller writes *)
  Lemma response_output : forall ver v, 2 <= v_major ver <= 3 -> xml_wf P v ->
    xml_output fin ver (response_calls v) = Ok (x_magic ver ++ response_body v).
  Proof.
    intros ver v M W. unfold xml_output, response_calls. replace (3 <? v_major ver) with false by lia.
    cbn [xml_calls xml_call xseq xms_init xm_stack]. pose proof (xwrites_params fin ver ltac:(lia) P [v] XM_response) as X.
    cbn [flat_map] in X. rewrite !app_nil_r in X. rewrite X by (constructor; auto). cbn [xml_flush xm_main].
    f_equal. unfold response_body. assoc_eq.
  Qed.
  Lemma call_output : forall ver k l, 2 <= v_major ver <= 3 -> name_ok k -> Forall (xml_wf P) l ->
    xml_output fin ver (call_calls k l) = Ok (x_magic ver ++ call_body k l).
  Proof.
    intros ver k l M K F. unfold xml_output, call_calls. replace (3 <? v_major ver) with false by lia.
    cbn [xml_calls xml_call]. unfold name_ok in K. replace ((255 <? blen k) || (blen k =? 0)) with false by lia.
    cbn [xseq xms_init xm_stack]. rewrite (xwrites_params fin ver ltac:(lia) P l XM_call F). cbn [xml_flush xm_main].
    f_equal. unfold call_body. assoc_eq.
  Qed.
  Lemma fault_output : forall ver n msg, 2 <= v_major ver <= 3 -> - 2 ^ 63 < n < 2 ^ 63 ->
    xml_output fin ver [PFault n msg] = Ok (x_magic ver ++ fault_body n msg).
  Proof.
    intros ver n msg M H. unfold xml_output. replace (3 <? v_major ver) with false by lia.
    assert (IV : forall s, x_int ver n s = xvalue (tx (VInt n)) s).
    { intro s. unfold x_int. replace (n =? - 2 ^ 63) with false by lia. cbn [xtext]. unfold int_tag.
      destruct (Z.land (if n <? 0 then - n else n) (mask 31) =? 0); [reflexivity|]. replace (v_major ver <? 2) with false by lia. reflexivity. }
    cbn [xml_calls xml_call xms_init xm_stack xm_main]. cbn [xseq]. unfold x_container at 1. change (2 =? 0) with false. cbv iota. cbn [xseq xm_stack xm_main].
    unfold x_member at 1. change ((255 <? blen (str "faultCode")) || (blen (str "faultCode") =? 0)) with false. cbv iota. cbn [xseq].
    rewrite IV, xvalue_eq. cbn [xdec]. change (u32 (2 - 1) =? 0) with false. cbv iota. cbn [xseq fst snd].
    unfold x_member at 1. change ((255 <? blen (str "faultString")) || (blen (str "faultString") =? 0)) with false. cbv iota. cbn [xseq].
    rewrite xvalue_eq. cbn [xdec]. change (u32 (u32 (2 - 1) - 1) =? 0) with true. change (u32 (0 - 1) =? 0) with false. cbv iota. cbn [xseq fst snd xm_stack].
    cbn [xml_flush xm_main]. f_equal. unfold fault_body, fault_value. cbn [xtext flat_map fst snd x_member_end x_param_begin x_param_end x_close].
    unfold member_begin. change (xquote (str "faultCode")) with (str "faultCode"). change (xquote (str "faultString")) with (str "faultString").
    rewrite ?app_nil_r. repeat rewrite <- app_assoc. cbn [app]. repeat rewrite <- app_assoc. cbn [app]. reflexivity.
  Qed.
End Docs.
