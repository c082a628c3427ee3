(** The marshallers and unmarshallers of the library do nothing undefined when serving. *)
From Coq Require Import Lia Arith.
From Verif Require Import Base Value Text M_Marshal M_BinUnmarshal M_TreeBuilder M_Base64 M_Json M_Xml M_Url M_Http M_HttpIO M_HttpWriter M_Registry M_Server
  S_Http S_Registry S_Server L_Base L_Call L_Server3 L_Server4 P_Decode.

Ltac no_fault H := first [discriminate H | inversion H; subst; eexists; split; [reflexivity|discriminate]].

Lemma pack_safe : forall ver c o f, calm c -> bin_pack ver c = (o, Some f) -> exists e, f = Exn e /\ forall code msg, e <> FaultExn code msg.
Proof.
  intros ver c o f HC H. destruct c; cbn [bin_pack] in H; try discriminate H;
    try (match type of H with context [if ?b then _ else _] => destruct b end; no_fault H).
  unfold pack_datetime in H. cbn [calm] in HC. destruct (2 <? v_major ver); [discriminate H|]. destruct (Z.eqb_spec (dt_unix d) (- 2 ^ 63)); [contradiction|discriminate H].
Qed.
Lemma bin_ma_safe : forall ver, ma_safe (bin_ma ver).
Proof.
  intros ver s c f HC H. cbn [ma_call bin_ma] in H. destruct (bin_pack ver c) as [o f'] eqn:E. cbn [snd] in H. subst f'. eapply pack_safe; eassumption.
Qed.
Lemma b64_ma_safe : forall ver, ma_safe (b64_ma ver).
Proof.
  intros ver s c f HC H. cbn [ma_call b64_ma] in H. destruct (bin_pack ver c) as [o f'] eqn:E. destruct (b64w_write s o) as [t s']. cbn [snd] in H. subst f'. eapply pack_safe; eassumption.
Qed.
Lemma json_ma_safe : forall fin, ma_safe (json_ma fin).
Proof.
  intros fin s c f HC H. cbn [ma_call json_ma] in H.
  assert (HJ : forall o, exists x, jvalue o s = Ok x) by (intro o; unfold jvalue; destruct (jdec s); eauto).
  destruct c; cbn [json_call] in H; try (match type of H with context [if ?b then _ else _] => destruct b end);
    try (match type of H with context [jvalue ?o s] => let x := fresh in let s2 := fresh in destruct (HJ o) as ([x s2] & E); rewrite E in H end); cbn in H; no_fault H.
Qed.

Lemma xvalue_safe : forall o s, snd (xvalue o s) = None.
Proof. intros. unfold xvalue. repeat match goal with |- context [let '(_, _) := ?x in _] => destruct x end. reflexivity. Qed.
Definition x_fine (x : xout) : Prop := forall f, snd x = Some f -> exists e, f = Exn e /\ forall code msg, e <> FaultExn code msg.
Lemma xvalue_fine : forall o s, x_fine (xvalue o s).
Proof. intros o s f H. rewrite xvalue_safe in H. discriminate. Qed.
Lemma xint_fine : forall ver z s, z <> - 2 ^ 63 -> x_fine (x_int ver z s).
Proof.
  intros ver z s HZ f H. unfold x_int in H. destruct (Z.eqb_spec z (- 2 ^ 63)); [contradiction|].
  destruct (_ =? 0); [rewrite xvalue_safe in H; discriminate|]. destruct (v_major ver <? 2); [no_fault H|rewrite xvalue_safe in H; discriminate].
Qed.
Lemma xseq_fine : forall a k, x_fine a -> (forall s, x_fine (k s)) -> x_fine (xseq a k).
Proof.
  intros [[o s] f] k HA HK. unfold xseq. destruct f; [exact HA|]. specialize (HK s). destruct (k s) as [[o' s'] e]. exact HK.
Qed.
Lemma xcontainer_fine : forall k b n s, x_fine (x_container k b n s).
Proof. intros. unfold x_container. destruct (n =? 0); [apply xvalue_fine|intros f H; discriminate H]. Qed.
Lemma xmember_fine : forall k s, x_fine (x_member k s).
Proof. intros k s f H. unfold x_member in H. destruct (_ || _); no_fault H. Qed.
Lemma xml_ma_safe : forall fin ver, ma_safe (xml_ma fin ver).
Proof.
  intros fin ver s c f HC H. cbn [ma_call xml_ma] in H. revert f H. change (x_fine (xml_call fin ver s c)).
  destruct c; cbn [xml_call calm] in *; try (apply xvalue_fine); try apply xcontainer_fine; try apply xmember_fine; try (apply xint_fine; assumption);
    try (intros f H; discriminate H).
  - destruct (_ || _); intros f H; no_fault H.
  - unfold in_s32 in HC. repeat (apply xseq_fine; [first [apply xcontainer_fine|apply xmember_fine|apply xvalue_fine|apply xint_fine; lia|intros f H; discriminate H]|intro]).
    intros f H; discriminate H.
Qed.

Lemma bin_um_safe : forall val, um_safe (bin_um val T_METHOD_CALL).
Proof.
  intros val pieces s f H. destruct s as [u t]. change (um_init (bin_um val T_METHOD_CALL)) with (unm_init, tb_init) in H. rewrite bin_um_all in H.
  destruct (unmarshall_all tb (tb_step val) T_METHOD_CALL unm_init tb_init pieces) as [[u' t'] f'] eqn:E.
  apply C09_tree_no_bad_read in E as [H1 H2]. inversion H; subst. split; [assumption|]. intros _. cbn. split; [|intros _; assumption].
  unfold unm_finish. destruct (_ || _); discriminate.
Qed.
Lemma b64_um_all : forall val pieces q s s' f, um_all (b64_um val T_METHOD_CALL) (q, s) pieces = (s', f) ->
  exists ps, um_all (bin_um val T_METHOD_CALL) s ps = (snd s', f).
Proof.
  induction pieces as [|d ps IH]; intros q s s' f H.
  - exists []. inversion H; subst. reflexivity.
  - cbn [um_all] in H. change (um_take (b64_um val T_METHOD_CALL) (q, s) d) with
      (let '(o, q') := b64_process q d in match o with [] => ((q', s), None) | _ => let '(s', f) := um_take (bin_um val T_METHOD_CALL) s o in ((q', s'), f) end) in H.
    destruct (b64_process q d) as [o q']. destruct o as [|o0 o].
    + apply IH in H as (ps' & E). exists ps'. exact E.
    + destruct (um_take (bin_um val T_METHOD_CALL) s (o0 :: o)) as [s1 [f1|]] eqn:ET.
      * inversion H; subst. exists [o0 :: o]. cbn [um_all]. rewrite ET. reflexivity.
      * apply IH in H as (ps' & E). exists ((o0 :: o) :: ps'). cbn [um_all]. rewrite ET. exact E.
Qed.
Lemma b64_um_safe : forall val, um_safe (b64_um val T_METHOD_CALL).
Proof.
  intros val pieces s f H. destruct (b64_um_all val pieces _ _ _ _ H) as (ps & E). pose proof (bin_um_safe val ps (snd s) f E) as (H1 & H2).
  split; [assumption|]. intros HF. destruct (H2 HF) as (H3 & H4).
  change (um_finish (b64_um val T_METHOD_CALL) s) with (let '(s', x) := um_finish (bin_um val T_METHOD_CALL) (snd s) in ((fst s, s'), x)).
  destruct (um_finish (bin_um val T_METHOD_CALL) (snd s)) as [s' x]. cbn [fst snd] in *. auto.
Qed.

(** The registered formats, given an XML and a URL unmarshaller. *)
Definition formats (val : option mktime_t) (xml : unmarshaller) (url : bytes -> unmarshaller) (k : in_type) : unmarshaller :=
  match k with In_binary => bin_um val T_METHOD_CALL | In_xml => xml | In_url p => url p | In_base64 => b64_um val T_METHOD_CALL end.
(** [Marshaller_t::create] (frpcmarshaller.cc): which marshaller writes the answer. *)
Definition writers (fin : Z -> bytes) (o : out_type) (ver : version) : marshaller :=
  match o with Out_xml => xml_ma fin ver | Out_binary => bin_ma ver | Out_json => json_ma fin | Out_base64 => b64_ma ver end.
Lemma writers_safe : forall fin o ver, ma_safe (writers fin o ver).
Proof. intros fin [] ver; [apply xml_ma_safe|apply bin_ma_safe|apply json_ma_safe|apply b64_ma_safe] || (destruct o; auto using xml_ma_safe, bin_ma_safe, json_ma_safe, b64_ma_safe). Qed.
