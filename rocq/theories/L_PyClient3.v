(** Lemmas about the Python client: what calls send, the sockets, whose response a call gets. *)
From Coq Require Import Lia.
From Verif Require Import Base Value Text Unicode M_Marshal M_BinUnmarshal M_TreeBuilder M_Base64 M_Iso M_Url M_Http M_HttpIO M_HttpWriter M_Registry M_Server M_Client
  M_Python M_PyRegistry M_PyServer M_PyClient
  S_Value S_Http S_Registry S_Server S_Client S_Python S_PyRegistry S_PyServer S_PyClient L_Base L_Http L_HttpIO L_HttpIO2 L_HttpIO3 L_HttpIO4 L_HttpIO5 L_HttpWriter L_Registry P_HttpIO P_HttpWriter
  L_Server L_Server2 L_Server4 L_Client L_Client2 L_Client3 L_Python L_PyText L_PyRegistry L_PyServer L_PyClient L_PyClient2.

(** * Header fields *)
Lemma given_spec : forall h fs, given_fields (Some h) fs -> feed_headers h = (fs, PyOk tt).
Proof.
  assert (X : forall l fs, Forall2 pair_of l fs -> feed_fields l = (fs, PyOk tt)).
  { induction 1 as [|p f l fs HP HF IH]; [reflexivity|]. destruct HP as (a & b & HP & HA & HB). cbn [feed_fields].
    assert (E : unpack_pair p = PyOk f).
    { unfold unpack_pair. destruct HP as [->| ->]; cbn [sequence_items get_string]; rewrite (encode_of _ _ HA), (encode_of _ _ HB); destruct f; reflexivity. }
    rewrite E, IH. reflexivity. }
  intros h fs H. inversion H; subst; unfold feed_headers; cbn [sequence_items]; apply X; assumption.
Qed.

(** * Events *)
Lemma sends_map : forall bs, sends (map Ev_send bs) = bs.
Proof. induction bs as [|b r IH]; [reflexivity|]. cbn. f_equal. exact IH. Qed.
Lemma opened_map : forall bs, opened (map Ev_send bs) = 0.
Proof. induction bs as [|b r IH]; [reflexivity|]. exact IH. Qed.
Lemma closed_map : forall bs, closed (map Ev_send bs) = 0.
Proof. induction bs as [|b r IH]; [reflexivity|]. exact IH. Qed.

(** * Requests *)
Lemma py_req_text : forall k cut body, writes_well cut -> (k_chunks k = true -> no_value (str "Content-Length") (k_custom k)) -> body <> [] -> zlen body < 2 ^ 32 ->
  request_text (call_req k body) (w_wire (wr_message (client_head k) (k_chunks k) (cut body))).
Proof.
  intros k cut body HC HX HN HB. destruct (HC body) as [HE HP]. destruct (k_chunks k) eqn:EK.
  - specialize (HX eq_refl). destruct (HP HN) as (e & first & rest & EC & HF & HZ). destruct (pieces_start e first rest HF HZ) as [P1 P2]. rewrite EC in *.
    destruct (wr_message_chunked (client_head k) _ P1 P2) as (t & wire & -> & HW). rewrite HE in HW. exists wire. split.
    + eapply framed_chunked with (v := str "chunked"); [| |reflexivity|exact HW]; cbn [call_req q_fields].
      * unfold client_fields. rewrite EK. apply Forall_app. split; [destruct (k_http10 k); repeat constructor; apply other_name; reflexivity|].
        apply Forall_app. split; [|exact HX]. repeat (apply Forall_cons; [apply other_name; reflexivity|]). apply Forall_nil.
      * eapply (client_field k _ _ _ [_; _; _] _); [unfold client_fields; rewrite EK; cbn [app]; reflexivity|reflexivity|]. destruct (k_binary k), (k_keep k); reflexivity.
    + f_equal. unfold client_head, request_head, header_text, call_req, http_version, client_fields. cbn [q_path q_http11 q_fields]. rewrite EK. destruct (k_http10 k); reflexivity.
  - rewrite wr_message_plain, HE. apply call_req_text; assumption.
Qed.
Lemma py_req_asks : forall k c body, k_http10 k = a_http10 c -> k_keep k = a_keep c -> py_asks (k_url k) c (k_binary k) (k_custom k) body (call_req k body).
Proof.
  intros k c body HH HK. constructor; cbn [call_req q_path q_http11 q_body q_fields].
  - reflexivity.
  - rewrite HH. reflexivity.
  - reflexivity.
  - eapply (client_field k _ _ _ [] _); [unfold client_fields; cbn [app]; reflexivity|reflexivity|reflexivity].
  - eapply (client_field k _ _ _ [_] _); [unfold client_fields; cbn [app]; reflexivity|reflexivity|]. destruct (k_binary k); reflexivity.
  - rewrite <- HK. eapply (client_field k _ _ _ [_; _] _); [unfold client_fields; cbn [app]; reflexivity|reflexivity|]. destruct (k_binary k); reflexivity.
  - unfold client_fields. rewrite app_assoc. eexists. split; [reflexivity|]. apply Forall_app. split.
    + destruct (k_http10 k); [constructor|]. constructor; [cbn [fst In]; tauto|constructor].
    + destruct (k_chunks k); repeat (apply Forall_cons; [cbn [fst In]; tauto|]); apply Forall_nil.
Qed.

(** * Responses *)
(** What does not change in a call. *)
Record same_settings (y y' : pyproxy) : Prop := mkSame {
  same_url : x_url (y_proxy y') = x_url (y_proxy y);
  same_mode : a_mode (x_conf (y_proxy y')) = a_mode (x_conf (y_proxy y));
  same_http10 : a_http10 (x_conf (y_proxy y')) = a_http10 (x_conf (y_proxy y));
  same_keep : a_keep (x_conf (y_proxy y')) = a_keep (x_conf (y_proxy y));
  same_headers : x_headers (y_proxy y') = x_headers (y_proxy y);
  same_chunks : y_chunks y' = y_chunks y
}.
Lemma same_refl : forall y, same_settings y y. Proof. intro y. constructor; reflexivity. Qed.
Lemma same_trans : forall a b c, same_settings a b -> same_settings b c -> same_settings a c.
Proof. intros a b c [] []. constructor; congruence. Qed.
Definition out_of_data (x : pyres py) : outcome :=
  match x with
  | PyOk (PyFault code msg) => Out_error (E_fault code msg)
  | PyOk v => Out_value v
  | PyRaise _ => Out_error frpc_runtime
  | PyAbort => Out_abort
  | PyUndef => Out_undef
  end.
Section Answers.
  Variable message : exn -> bytes.
  Variable ums : bool -> pyum.

  Lemma py_answer_spec : forall y n must fd es y' es' out, py_answer message ums y n must fd es = (y', es', out) ->
    let s := mkSock ((match fd with Some l => l | None => [] end) ++ pending (n_arrives n)) (M_HttpIO.sees (n_arrives n)) (fin (n_arrives n)) in
    exists c fd2 x of_status, py_read_response ums (a_keep (x_conf (y_proxy y))) must s = (c, fd2, x, of_status) /\
      same_settings y y' /\ x_once (y_proxy y') = x_once (y_proxy y) /\ y_last y' = y_last y /\
      x_fd (y_proxy y') = option_map pending fd2 /\
      es' = es ++ match fd2 with None => [Ev_close] | Some _ => [] end /\
      match x with
      | Ok b => out = out_of_data (pb_data b) /\ a_version (x_conf (y_proxy y')) = snd c /\ x_protocols (y_proxy y') = fst c
      | Err e => out = of_exn e (if of_status : bool then status_error (S (List.length (pending s))) s else message e) /\ x_conf (y_proxy y') = x_conf (y_proxy y) /\ x_protocols (y_proxy y') = x_protocols (y_proxy y)
      | UB => out = Out_undef
      end.
  Proof.
    intros y n must fd es y' es' out H s. unfold py_answer in H. fold s in H.
    destruct (py_read_response ums (a_keep (x_conf (y_proxy y))) must s) as [[[c fd2] x] st] eqn:E. exists c, fd2, x, st. split; [reflexivity|].
    destruct x as [b|e|]; inversion H; subst; cbn.
    - split; [constructor; reflexivity|]. do 5 (split; [reflexivity|]). split; reflexivity.
    - split; [constructor; reflexivity|]. do 5 (split; [reflexivity|]). split; reflexivity.
    - split; [constructor; reflexivity|]. do 4 (split; [reflexivity|]). reflexivity.
  Qed.
End Answers.

Ltac count := unfold opened, closed, held_sockets in *; cbn [y_with_fd y_no_once no_once with_proxy with_fd y_proxy x_fd filter app zlen List.length option_map] in *;
    repeat match goal with |- context [zlen (?x :: ?l)] => change (zlen (x :: l)) with 1 in * | |- context [zlen []] => change (zlen []) with 0 in * end.

Section Calls.
  Variable message : exn -> bytes.
  Variable host : datetime -> datetime.
  Variable ums : bool -> pyum.
  Variable mars : bool -> version -> marshaller.
  Variable cut : bytes -> list bytes.
  Variable callback : list (bytes * bytes).
  Notation py_exchange := (py_exchange message host ums mars cut callback).
  Notation py_client := (py_client callback).

  (** The arguments can be written. *)
  Definition writable (y : pyproxy) (name : bytes) (args : list py) (body : bytes) : Prop :=
    exists cs, feed_args host args = (cs, None) /\ written (mars (use_binary (y_proxy y)) (a_version (x_conf (y_proxy y)))) (PMethodCall (c_str name) :: cs) body.
  Lemma writable_not : forall y name args body out, writable y name args body -> ~ unwritable message host mars y name args out.
  Proof.
    intros y name args body out (cs & HF & o & s & HR & ->) HU. destruct HU as [o' s' e E|o' s' E|e E].
    - cbn in E. unfold calls_of in E. rewrite HF in E. cbn in E. pose proof (eq_trans (eq_sym HR) E) as X. discriminate X.
    - cbn in E. unfold calls_of in E. rewrite HF in E. cbn in E. pose proof (eq_trans (eq_sym HR) E) as X. discriminate X.
    - rewrite HF in E. discriminate.
  Qed.

  Definition got (out : outcome) : Prop := match out with Out_value _ | Out_error (E_fault _ _) => True | _ => False end.

  Lemma exchange_facts : forall y n name args y' es out, py_exchange y n name args = (y', es, out) ->
    same_settings y y' /\ x_once (y_proxy y') = [] /\ y_last y' = y_last y /\
    opened es <= 1 /\ held_sockets (x_fd (y_proxy y)) + opened es = held_sockets (x_fd (y_proxy y')) + closed es /\
    exists wire, (forall body, writable y name args body -> wire = w_wire (wr_message (client_head (py_client y)) (k_chunks (py_client y)) (cut body))) /\
      (unwritable message host mars y name args out \/
       exists lost, wire = concat (sends es) ++ lost /\
         (x_fd (y_proxy y') <> None -> out = Out_wait \/ a_keep (x_conf (y_proxy y)) = true /\ lost = [] /\ exists x, out = out_of_data x)).
  Proof.
    intros y n name args y' es out H. apply exchange_cases in H as (wire & HC & HW).
    assert (HW2 : forall body, writable y name args body -> wire = w_wire (wr_message (client_head (py_client y)) (k_chunks (py_client y)) (cut body)))
      by (intros body (cs & A & B); eapply HW; eauto).
    destruct HC as [n1 out wire HU HL HS|es c wire HC|rest es bs lost c wire HC HE|rest es bs lost wire HC HE|must rest es0 bs lost wire y' es out HC HE HM HA].
    - split; [constructor; reflexivity|]. do 2 (split; [reflexivity|]).
      destruct HL as [A B C D|rest es bs A B C D E].
      + rewrite D. cbn [y_with_fd with_proxy with_fd y_proxy x_fd]. rewrite C. split; [count; lia|]. split; [count; lia|]. eauto 6.
      + rewrite D. cbn [y_with_fd with_proxy with_fd y_proxy x_fd]. rewrite C. apply connect_spec in B as (S1 & S2 & S3 & _).
        rewrite opened_app, closed_app, opened_map, closed_map. split; [lia|]. split; [lia|]. eauto 6.
    - split; [constructor; reflexivity|]. do 2 (split; [reflexivity|]). apply connect_spec in HC as (S1 & S2 & S3 & _). split; [lia|]. split; [exact S2|].
      exists wire. split; [exact HW2|]. right. exists wire. rewrite S1. split; [reflexivity|]. cbn. congruence.
    - split; [constructor; reflexivity|]. do 2 (split; [reflexivity|]). apply connect_spec in HC as (S1 & S2 & S3 & _).
      rewrite !opened_app, !closed_app, opened_map, closed_map. split; [count; lia|]. split; [count; lia|].
      exists wire. split; [exact HW2|]. right. exists lost. rewrite !sends_app, S1, sends_map. cbn [sends flat_map app]. rewrite app_nil_r. split; [exact HE|]. cbn. congruence.
    - split; [constructor; reflexivity|]. do 2 (split; [reflexivity|]). apply connect_spec in HC as (S1 & S2 & S3 & _).
      rewrite !opened_app, !closed_app, opened_map, closed_map. split; [count; lia|]. split; [count; lia|].
      exists wire. split; [exact HW2|]. right. exists lost. rewrite !sends_app, S1, sends_map. cbn [app]. split; [exact HE|]. auto.
    - apply py_answer_spec in HA as (c & fd2 & x & st & HR & HSS & HO & HL & HFD & -> & HX).
      split; [apply same_trans with (y_no_once y); [constructor; reflexivity|exact HSS]|]. split; [exact HO|]. split; [exact HL|].
      apply connect_spec in HC as (S1 & S2 & S3 & _).
      rewrite !opened_app, !closed_app, opened_map, closed_map, HFD. split; [destruct fd2; count; lia|]. split; [destruct fd2; count; lia|].
      exists wire. split; [exact HW2|]. right. exists lost. split.
      + rewrite !sends_app, S1, sends_map. cbn [app]. destruct fd2; cbn [sends flat_map]; rewrite app_nil_r; exact HE.
      + intro HF. destruct fd2 as [s2|]; [|cbn in HF; congruence]. destruct (py_response_fd _ _ _ _ _ _ _ _ HR ltac:(discriminate)) as (A & B & t & ->).
        right. split; [exact A|]. split; [apply HM; exact B|]. destruct HX as [-> _]. eauto.
  Qed.

  (** Arguments that cannot be written, not chunked. *)
  Lemma exchange_unwritable : forall y n name args out0, k_chunks (py_client y) = false -> unwritable message host mars y name args out0 ->
    exists out, py_exchange y n name args = (y_with_fd (x_fd (y_proxy y)) (y_no_once y), [], out) /\ unwritable message host mars y name args out.
  Proof.
    intros y n name args out0 HK HU. unfold M_PyClient.py_exchange.
    change (use_binary (mkProxy (x_url (y_proxy y)) (x_conf (y_proxy y)) (x_protocols (y_proxy y)) (x_headers (y_proxy y)) [] (x_fd (y_proxy y)))) with (use_binary (y_proxy y)).
    cbn [x_conf x_url x_headers x_fd y_chunks y_proxy]. fold (no_once (y_proxy y)). fold (y_no_once y). fold (py_client y).
    set (m := mars (use_binary (y_proxy y)) (a_version (x_conf (y_proxy y)))) in *. set (k := py_client y) in *. cbn [fst snd].
    destruct (ma_run m (ma_init m) (PMethodCall (c_str name) :: fst (feed_args host args))) as [[o s] f] eqn:EM.
    set (start := mkSending _ _ _ _) in *.
    match goal with |- context [send_writes ?a ?b ?c ?d start] => destruct (send_writes a b c d start) as [n1 g1] eqn:ES end.
    assert (X : g1 = Go /\ w_sent (n_wr n1) = false) by (eapply send_writes_unsent; [| |exact ES]; [exact HK|reflexivity]). destruct X as [-> HS].
    apply send_writes_spec with (fd0 := x_fd (y_proxy y)) in ES; [|apply linked_idle; reflexivity]. destruct ES as [_ [A B C D|? ? ? A]]; [|congruence].
    rewrite C, D. destruct f as [[e|]|].
    - eexists. split; [reflexivity|]. eapply unwritable_fails. exact EM.
    - eexists. split; [reflexivity|]. eapply unwritable_undef. exact EM.
    - destruct (snd (feed_args host args)) as [e|] eqn:EF.
      + eexists. split; [reflexivity|]. eapply unwritable_raises. exact EF.
      + exfalso. destruct HU as [o' s' e E|o' s' E|e E].
        * unfold calls_of in E. cbn [fst] in E. pose proof (eq_trans (eq_sym EM) E). discriminate.
        * unfold calls_of in E. cbn [fst] in E. pose proof (eq_trans (eq_sym EM) E). discriminate.
        * congruence.
  Qed.
  Lemma writable_or_not : forall y name args, (exists body, writable y name args body) \/ exists out, unwritable message host mars y name args out.
  Proof.
    intros y name args. set (m := mars (use_binary (y_proxy y)) (a_version (x_conf (y_proxy y)))).
    destruct (ma_run m (ma_init m) (PMethodCall (c_str name) :: fst (feed_args host args))) as [[o s] f] eqn:EM.
    destruct f as [[e|]|].
    - right. eexists. eapply unwritable_fails. exact EM.
    - right. eexists. eapply unwritable_undef. exact EM.
    - destruct (feed_args host args) as [cs [e|]] eqn:EF.
      + right. eexists. eapply unwritable_raises with (e := e). rewrite EF. reflexivity.
      + left. eexists. exists cs. split; [exact EF|]. exists o, s. split; [exact EM|reflexivity].
  Qed.

  Definition clean (y : pyproxy) : Prop := x_fd (y_proxy y) = None \/ x_fd (y_proxy y) = Some [].
  Lemma of_exn_not : forall e t, ~ got (of_exn e t).
  Proof. intros e t. unfold of_exn, handler. destruct e; cbn; auto. Qed.
  Lemma exchange_own : forall y n name args y' es out ex, py_exchange y n name args = (y', es, out) -> clean y -> out <> Out_abort -> out <> Out_undef ->
    (got out \/ (exists x, out = out_of_data x) /\ kept_open es /\ (exists cs, feed_args host args = (cs, None)) -> py_answered_by ums n ex) ->
    clean y' /\ (got out -> out = out_of_data (pe_value ex)).
  Proof.
    intros y n name args y' es out ex H HC NA NU HA. apply exchange_cases in H as (wire & HX & _).
    assert (CR : forall es rest, connect_socket (a_keep (x_conf (y_proxy y))) n (x_fd (y_proxy y)) = (Some rest, es, Ok tt) -> rest = []).
    { intros es0 rest E. apply connect_spec in E as (_ & _ & _ & [(_ & r & E1 & [(E2 & _)|E2])|(c & X & _)]); [|congruence|discriminate].
      inversion E1; subst. destruct HC as [HC|HC]; congruence. }
    destruct HX as [n1 out wire HU HL HS|es c wire HS|rest es bs lost c wire HS HE|rest es bs lost wire HS HE|must rest es0 bs lost wire y' es out HS HE HM HP].
    - split.
      + unfold clean. cbn. destruct HL as [A B C D|rest es bs A B C D E]; rewrite C; [exact HC|]. rewrite (CR _ _ B). auto.
      + intro G. exfalso. destruct HU; try exact G. exact (of_exn_not _ _ G).
    - split; [left; reflexivity|]. intro G. destruct (of_exn_not _ _ G).
    - split; [left; reflexivity|]. intro G. destruct (of_exn_not _ _ G).
    - split; [right; cbn; rewrite (CR _ _ HS); reflexivity|intros []].
    - rewrite (CR _ _ HS) in HP. apply py_answer_spec in HP as (c & fd2 & x & st & HR & HSS & HO & HL & HFD & -> & HX). cbn [app] in HR.
      assert (GO : py_answered_by ums n ex -> clean y' /\ (got out -> out = out_of_data (pe_value ex))).
      { intros (A1 & A2 & A3 & A4).
        destruct (py_response_good ums (a_keep (x_conf (y_proxy (y_no_once y)))) must _ _ _ _ _ _ _ (M_HttpIO.sees (n_arrives n)) A1 A2 A3 A4) as (fd' & t & R1 & R2 & R3 & _).
        rewrite R1 in HR. injection HR as <- <- <- <-. destruct HX as [-> _]. split; [|rewrite R2; auto].
        unfold clean. rewrite HFD. destruct R3 as [->|(v & ->)]; [left|right]; reflexivity. }
      destruct fd2 as [s2|].
      + destruct (py_response_fd _ _ _ _ _ _ _ _ HR ltac:(discriminate)) as (A & B & t & ->). destruct HX as [EX _]. apply GO. apply HA. right.
        split; [eauto|]. split.
        * intros es1 E. rewrite app_nil_r in E. assert (RC : bs = [] \/ exists bs' b, bs = bs' ++ [b]) by (destruct bs as [|b0 r0]; [left; reflexivity|right; destruct (exists_last (l := b0 :: r0) ltac:(discriminate)) as (u & v & ->); eauto]). destruct RC as [->|(bs' & b & ->)].
          { cbn [map] in E. rewrite app_nil_r in E. destruct es0 as [|] eqn:EE; [destruct es1; discriminate|]. exfalso.
            clear - HS E. unfold connect_socket in HS. destruct (x_fd (y_proxy y)); [destruct (a_keep _); [destruct (n_peek n)|]|]; cbn [negb] in HS;
              try (destruct (n_connect n)); inversion HS; subst; apply (f_equal (@rev _)) in E; cbn in E; rewrite rev_app_distr in E; discriminate. }
          rewrite map_app in E. cbn in E. rewrite app_assoc in E. apply app_inj_tail in E as [_ E]. discriminate.
        * destruct (HM B) as [_ HF]. destruct (feed_args host args) as [cs [e|]]; [discriminate|eauto].
      + split; [left; exact HFD|]. intro G. apply GO; [|exact G]. apply HA. left. exact G.
  Qed.

  Section Hooks.
  Context {W : Type}.
  Variable pre : option (W -> bytes -> list py -> W * called).
  Variable post : option (W -> bytes -> list py -> py -> option pyerr -> W * called).
  Notation py_operator := (py_operator message host ums mars cut callback pre post).
  Notation py_call := (py_call message host ums mars cut callback pre post).
  Definition named (name : bytes) (y : pyproxy) : pyproxy := mkPyProxy (y_proxy y) (y_chunks y) name.
  Definition ret_of (out : outcome) : pyret :=
    match out with
    | Out_value v => Ret v
    | Out_error e => raised post e
    | Out_abort => Ret_abort
    | Out_undef => Ret_undef
    | Out_wait => Ret_waiting
    end.
  Lemma operator_cases : forall y w n name args y' w' es r, py_operator y w n name args = (y', w', es, r) ->
    (y' = named name y /\ es = [] /\ (r = Ret_abort \/ r = Ret_undef)) \/
    exists out, py_exchange (named name y) n name args = (y', es, out) /\ (r = ret_of out \/ r = Ret_undef) /\ v_major (a_version (x_conf (y_proxy y))) <= 3.
  Proof.
    intros y w n name args y' w' es r H. unfold M_PyClient.py_operator in H. fold (named name y) in H. cbn [named y_proxy] in H.
    destruct (3 <? _) eqn:EV; [inversion H; subst; left; auto|]. apply Z.ltb_ge in EV.
    destruct (match pre with Some f => _ | None => _ end) as [w1 [d|]]; [|inversion H; subst; left; auto].
    destruct (py_exchange (named name y) n name args) as [[y1 es1] out] eqn:E. right. exists out.
    destruct out; try (inversion H; subst; auto; fail).
    - destruct post as [f|]; [destruct (f w1 name args d None) as [w2 []]|]; inversion H; subst; auto.
    - destruct post as [f|] eqn:EP; [destruct (f w1 name args d (Some e)) as [w2 []]|]; inversion H; subst; cbn [ret_of]; rewrite ?EP; auto.
  Qed.
  Lemma got_from : forall out, from_response (ret_of out) <-> got out.
  Proof. intros [v|[c m|n [t|]|[t|]|[t|]|[t|]]| | |]; cbn; tauto. Qed.
  Lemma operator_own : forall y w n name args y' w' es r ex, py_operator y w n name args = (y', w', es, r) -> clean y -> r <> Ret_abort -> r <> Ret_undef ->
    (from_response r \/ r = Ret_raise PE_Runtime /\ kept_open es /\ (exists cs, feed_args host args = (cs, None)) -> py_answered_by ums n ex) ->
    clean y' /\ (from_response r -> caller_gets (pe_value ex) r).
  Proof.
    intros y w n name args y' w' es r ex H HC NA NU HA. apply operator_cases in H as [(-> & -> & [->| ->])|(out & HE & [->|X] & _)]; try congruence.
    destruct (exchange_own _ _ _ _ _ _ _ ex HE HC) as [HC' HG].
    - intros ->. apply NA. reflexivity.
    - intros ->. apply NU. reflexivity.
    - intros [G|((x & X) & K & F)]; apply HA; [left; apply got_from; exact G|].
      destruct x as [v|e| |].
      + left. apply got_from. subst. destruct v; exact I.
      + right. subst. auto.
      + subst. destruct (NA eq_refl).
      + subst. destruct (NU eq_refl).
    - split; [exact HC'|]. intro F. apply got_from in F. specialize (HG F). rewrite HG in *. destruct (pe_value ex) as [v|e| |]; try contradiction.
      destruct v; try (apply gets_value; congruence). apply gets_fault.
  Qed.
  Lemma call_cases : forall y w n name args headers hs y' w' es r, given_fields headers hs -> py_call y w n name args headers = (y', w', es, r) ->
    py_operator (with_proxy (add_header_once hs (y_proxy y)) y) w n name args = (y', w', es, r).
  Proof.
    intros y w n name args headers hs y' w' es r HG H. unfold M_PyClient.py_call in H. destruct headers as [h|].
    - rewrite (given_spec _ _ HG) in H. exact H.
    - inversion HG. subst. rewrite <- H. f_equal. unfold add_header_once, with_proxy. rewrite app_nil_r. destruct y as [[] ? ?]; reflexivity.
  Qed.
  Lemma call_own : forall y w n name args headers y' w' es r ex, py_call y w n name args headers = (y', w', es, r) -> clean y -> r <> Ret_abort -> r <> Ret_undef ->
    (from_response r \/ r = Ret_raise PE_Runtime /\ kept_open es /\ (exists cs, feed_args host args = (cs, None)) -> py_answered_by ums n ex) ->
    clean y' /\ (from_response r -> caller_gets (pe_value ex) r).
  Proof.
    intros y w n name args headers y' w' es r ex H HC NA NU HA. unfold M_PyClient.py_call in H. destruct headers as [h|]; [|eapply operator_own; eauto].
    destruct (feed_headers h) as [hs [[]|e| |]]; try (eapply operator_own; eauto; fail); inversion H; subst; try congruence.
    split; [exact HC|]. intros [].
  Qed.
  Lemma after_own : forall ds y w y' w' outs exs, py_after py_call y w ds = (y', w', outs) -> clean y -> py_answered host ums ds outs exs ->
    Forall2 (fun o ex => from_response (snd o) -> caller_gets (pe_value ex) (snd o)) outs exs /\ clean y'.
  Proof.
    induction ds as [|d ds IH]; intros y w y' w' outs exs H HC HA.
    - cbn in H. inversion H; subst. inversion HA. subst. split; [constructor|exact HC].
    - destruct d as [n name args headers|]; cbn [py_after] in H.
      + destruct (py_call y w n name args headers) as [[[y1 w1] es] r] eqn:E. destruct (py_after py_call y1 w1 ds) as [[y2 w2] l] eqn:E2. inversion H; subst.
        inversion HA; subst. destruct (call_own _ _ _ _ _ _ _ _ _ _ ex E HC) as [C1 C2]; auto. destruct (IH _ _ _ _ _ _ E2 C1 ltac:(eassumption)) as [F C]. split; [constructor; auto|exact C].
      + inversion HA; subst. eapply IH; eauto. left. reflexivity.
  Qed.
  End Hooks.
End Calls.
