(** Properties of XML responses at the client: C56, C64. *)
From Coq Require Import Lia.
From Verif Require Import Base Value Text M_Marshal M_BinUnmarshal M_TreeBuilder M_Base64 M_Json M_Xml M_Url M_Http M_HttpIO M_HttpWriter M_Registry M_Server M_Client
  M_Iso M_XmlUm S_Value S_Http S_Events S_Wire S_Xml S_XmlUm S_Registry S_Server S_Client S_EndToEnd L_Base L_Http L_Text L_Xml L_Xml2 L_XmlUm L_XmlParser L_XmlSafe2 L_Server5 L_Client2 L_Client3
  P_Registry P_Server P_Client P_Xml.

(** ** C56 *)
(** The XML unmarshaller with its tree builder, reading whatever it is told to want, cut into any pieces, does nothing
    undefined as long as a fault is the last thing in what its parser reports. *)
Theorem C56_responses_partial : forall P strtod erange val want, orderly P -> plain_faults P -> um_safe (xml_um P strtod erange val want).
Proof. exact xml_um_safe_any. Qed.
Print Assumptions C56_responses_partial.

(** ** C64 *)
Theorem C64_xml_partial : forall P strtod erange val fin cut callback p n name params p' es e,
  writes_all cut -> orderly P -> plain_faults P -> Forall tame params ->
  call (client_formats val (xml_um P strtod erange val T_METHOD_RESPONSE)) (client_writers fin) cut callback p n name params = (p', es, e) ->
  e <> Returned UB /\ forall h t, e = Returned (Ok (h, t)) -> tb_data t <> UB.
Proof.
  intros P strtod erange val fin cut callback p n name params p' es e HC HO HP HT H.
  exact (C64_any_response_partial _ _ _ _ _ _ _ _ _ _ _ _ HC (xml_um_safe_any _ _ _ _ _ HO HP) HT H).
Qed.
Print Assumptions C64_xml_partial.

(** A parser that finds an error in documents where something follows a fault: the hypotheses can be met. *)
Definition is_start (name : string) (e : sax) : bool := match e with SStart n => bytes_eqb n (str name) | _ => false end.
Fixpoint fault_lastb (named : bool) (l : list sax) : bool :=
  match l with
  | [] => true
  | e :: l => (negb (is_start "fault" e) || (negb named && negb (existsb (is_start "methodName") l) && negb (existsb (is_start "methodCall") l) &&
               negb (existsb (is_start "methodResponse") l))) && fault_lastb (named || is_start "methodName" e) l
  end.
Definition picky : parser :=
  mkParser (bytes * bool) ([], false)
    (fun s d => let '(s', batch, code) := ps_take at_once s d in if fault_lastb false batch then (s', batch, code) else ((fst s', true), [], 1)).

Lemma is_start_spec : forall name e, is_start name e = true <-> e = SStart (str name).
Proof. intros name [n|n|n]; cbn [is_start]; try (split; discriminate). rewrite bytes_eqb_eq. split; congruence. Qed.
Lemma no_start : forall name l, existsb (is_start name) l = false -> ~ In (SStart (str name)) l.
Proof.
  intros name l H HI. assert (existsb (is_start name) l = true) by (apply existsb_exists; eexists; split; [exact HI|apply is_start_spec; reflexivity]). congruence.
Qed.
Lemma fault_lastb_spec : forall l named, fault_lastb named l = true -> forall a b, l = a ++ SStart (str "fault") :: b ->
  named = false /\ ~ In (SStart (str "methodName")) (a ++ b) /\ ~ In (SStart (str "methodCall")) b /\ ~ In (SStart (str "methodResponse")) b.
Proof.
  induction l as [|e l IH]; intros named H a b E; [destruct a; discriminate|]. cbn [fault_lastb] in H.
  apply andb_true_iff in H as [H1 H2]. destruct a as [|x a]; cbn [app] in E; inversion E; subst.
  - assert (F : is_start "fault" (SStart (str "fault")) = true) by (apply is_start_spec; reflexivity). rewrite F in H1. cbn [negb orb] in H1.
    rewrite !andb_true_iff, !negb_true_iff in H1. destruct H1 as (((N & A) & B) & C).
    split; [exact N|]. repeat split; apply no_start; assumption.
  - destruct (IH _ H2 a b eq_refl) as (N & A & B & C). apply orb_false_iff in N as [N1 N2]. split; [exact N1|]. split; [|split; assumption].
    cbn [app]. intros [Q|Q]; [|auto]. apply is_start_spec in Q. congruence.
Qed.

(** Its reports are those of [at_once], with less. *)
Lemma picky_once : forall s d s' batch code, ps_take picky s d = (s', batch, code) ->
  (code < 102 \/ 816 <= code) /\ nested_sax [] batch /\ fault_last batch /\ (snd s = true -> batch = [] /\ snd s' = true) /\ (batch <> [] -> snd s' = true).
Proof.
  assert (ONE : forall s d s' batch code, ps_take at_once s d = (s', batch, code) ->
            (code < 102 \/ 816 <= code) /\ nested_sax [] batch /\ (snd s = true -> batch = [] /\ snd s' = true) /\ (batch <> [] -> snd s' = true)).
  { intros s d s' batch code H. cbn [at_once ps_take] in H. destruct d as [|c d].
    - inversion H; subst. split; [destruct (snd s'); lia|]. split; [exact I|]. split; [auto|congruence].
    - destruct (snd s) eqn:ES; [inversion H; subst; split; [lia|]; split; [exact I|]; split; [auto|congruence]|].
      destruct (xml_doc (fst s ++ c :: d)) as [doc|] eqn:ED; inversion H; subst; (split; [lia|]).
      + split; [eapply doc_nested; exact ED|]. split; [discriminate|reflexivity].
      + split; [exact I|]. split; [discriminate|congruence]. }
  intros s d s' batch code H. unfold picky in H. cbn [ps_take] in H. destruct (ps_take at_once s d) as [[s1 b1] c1] eqn:E.
  destruct (ONE _ _ _ _ _ E) as (A & B & C & D). destruct (fault_lastb false b1) eqn:F; inversion H; subst.
  - split; [exact A|]. split; [exact B|]. split; [|auto]. intros a b Q. apply (fault_lastb_spec _ _ F a b Q).
  - split; [lia|]. split; [exact I|]. split; [intros [|? ?] ? Q; discriminate Q|]. split; [auto|congruence].
Qed.
Lemma picky_all : forall s pieces batches s', reports picky s pieces batches s' ->
  nested_sax [] (concat batches) /\ fault_last (concat batches) /\ (snd s = true -> concat batches = [] /\ snd s' = true) /\ (snd s = false -> concat batches <> [] -> snd s' = true).
Proof.
  intros s pieces batches s' H. induction H as [s|s d s1 batch pieces batches s2 HT HR IH].
  - split; [exact I|]. split; [intros [|? ?] ? Q; discriminate Q|]. split; [auto|]. intros _ Q. exfalso. apply Q. reflexivity.
  - destruct (picky_once _ _ _ _ _ HT) as (_ & N & L & A & B). destruct IH as (N2 & L2 & A2 & B2). cbn [concat]. destruct (snd s1) eqn:E1.
    + destruct (A2 eq_refl) as [E2 E3]. rewrite E2, app_nil_r. split; [exact N|]. split; [exact L|]. split; [|auto]. intro Q. destruct (A Q). auto.
    + assert (EB : batch = []) by (destruct batch; [reflexivity|discriminate (B ltac:(discriminate))]). subst batch. cbn [app].
      split; [exact N2|]. split; [exact L2|]. split; [intro Q; destruct (A Q); congruence|]. intros _. auto.
Qed.
Lemma picky_both : forall pieces batches s d s' batch code, reports picky (ps_init picky) pieces batches s -> ps_take picky s d = (s', batch, code) ->
  (code < 102 \/ 816 <= code) /\ nested_sax [] (concat batches ++ batch) /\ fault_last (concat batches ++ batch).
Proof.
  intros pieces batches s d s' batch code HR HT. destruct (picky_all _ _ _ _ HR) as (N & L & _ & B). destruct (picky_once _ _ _ _ _ HT) as (C & N2 & L2 & A2 & _).
  split; [exact C|]. destruct (concat batches) as [|e b] eqn:EB; [auto|].
  destruct (A2 (B eq_refl ltac:(discriminate))) as [-> _]. rewrite app_nil_r. auto.
Qed.
Lemma picky_orderly : orderly picky.
Proof. intros pieces batches s d s' batch code HR HT. destruct (picky_both _ _ _ _ _ _ _ HR HT) as (A & B & _). auto. Qed.
Lemma picky_plain : plain_faults picky.
Proof. intros pieces batches s d s' batch code HR HT. destruct (picky_both _ _ _ _ _ _ _ HR HT) as (_ & _ & C). exact C. Qed.

(** An XML response: the head and this body. *)
Definition xml_reply (body : bytes) : bytes :=
  str "HTTP/1.1 200 OK" ++ crlf ++ str "Content-Type: text/xml" ++ crlf ++ str "Content-Length: " ++ dec (zlen body) ++ crlf ++ crlf ++ body.
Definition xml_call (P : parser) (body : bytes) :=
  call (client_formats None (xml_um P no_strtod false None T_METHOD_RESPONSE)) (client_writers no_double) by_bytes [] (new_proxy here (pconf_of NEVER)) (good_net (xml_reply body)) (str "one") [].
Definition plain_fault : bytes :=
  str "<methodResponse><fault><value><struct><member><name>faultCode</name><value><int>4</int></value></member><member><name>faultString</name><value><string>no</string></value></member></struct></value></fault></methodResponse>".
Example C56_C64_xml_sample : orderly picky /\ plain_faults picky /\
  res_of (snd (xml_call picky plain_fault)) = Err (FaultExn 4 (str "no")) /\
  (exists m, res_of (snd (xml_call picky bad_fault)) = Err (StreamError m)).
Proof. split; [exact picky_orderly|]. split; [exact picky_plain|]. split; [vm_compute; reflexivity|]. eexists. vm_compute. reflexivity. Qed.

(** With a parser that reports whatever is well formed, a server can send a response that makes the client close a container
    it never opened. *)
Theorem C64_xml_refuted : orderly at_once /\ faithful at_once /\ snd (xml_call at_once bad_fault) = Returned UB.
Proof. split; [apply at_once_orderly|]. split; [apply at_once_faithful|]. vm_compute. reflexivity. Qed.
Print Assumptions C64_xml_refuted.
