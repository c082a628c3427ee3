(** Lemmas about sending answers and serving whole connections. *)
From Coq Require Import Lia.
From Verif Require Import Base Value Text M_Marshal M_BinUnmarshal M_TreeBuilder M_Base64 M_Iso M_Url M_Http M_HttpIO M_HttpWriter M_Registry M_Server
  S_Http S_Registry S_Server L_Base L_Http L_HttpIO L_HttpIO2 L_HttpIO3 L_HttpIO4 L_HttpIO5 L_HttpWriter L_Registry P_HttpIO P_HttpWriter P_Registry L_Server.

(** * Fields that can be read back *)
Definition field_okb (f : bytes * bytes) : bool :=
  negb (blen (fst f) =? 0) && forallb (fun c => negb (byte_eqb c x3a) && negb (is_space c)) (fst f) &&
  forallb (fun c => negb (byte_eqb c x0a)) (snd f) &&
  match snd f with [] => true | c :: _ => negb (is_space c) && negb (is_space (last (snd f) x00)) end.
Lemma field_okb_ok : forall f, field_okb f = true -> field_ok f.
Proof.
  intros [n v] H. unfold field_okb in H. cbn [fst snd] in H. rewrite !andb_true_iff in H. destruct H as [[[H1 H2] H3] H4].
  rewrite forallb_forall in H2, H3. unfold field_ok. cbn [fst snd]. split; [|split; [|split; [|split]]].
  - intro E. subst n. discriminate.
  - intros c HC. specialize (H2 c HC). apply andb_true_iff in H2 as [A B]. rewrite negb_true_iff in A, B. split.
    + intro E. subst c. rewrite byte_eqb_refl in A. discriminate.
    + intro E. apply space_spec in E. congruence.
  - intro HI. specialize (H3 _ HI). rewrite byte_eqb_refl in H3. discriminate.
  - intros c r E HS. apply space_spec in HS. rewrite E in H4. rewrite HS in H4. discriminate.
  - intros c r E HS. apply space_spec in HS. destruct v as [|x v]; [destruct r; discriminate|]. rewrite E in H4.
    rewrite last_last, HS, andb_false_r in H4. destruct (r ++ [c]); discriminate.
Qed.
Lemma digit_not_space : forall c d, b2z c = 48 + d -> 0 <= d <= 9 -> ~ ascii_space c /\ c <> x0a.
Proof.
  intros c d H1 H2. split.
  - intros [->|HS]; [change (b2z x20) with 32 in H1|]; lia.
  - intros ->. change (b2z x0a) with 10 in H1. lia.
Qed.
Lemma dec_chars : forall s n, dec_number s n -> s <> [] /\ forall c, In c s -> ~ ascii_space c /\ c <> x0a.
Proof.
  induction 1 as [c d H1 H2|s n c d H IH H1 H2].
  - split; [discriminate|]. intros x [<-|[]]. eapply digit_not_space; eauto.
  - split; [destruct s; discriminate|]. intros x HX. apply in_app_or in HX as [HX|[<-|[]]]; [apply IH; assumption|]. eapply digit_not_space; eauto.
Qed.
Lemma field_ok_length : forall n, 0 <= n -> field_ok (str "Content-Length", dec n).
Proof.
  intros n HN. destruct (dec_chars _ _ (dec_is_number n HN)) as [_ HC].
  pose proof (field_okb_ok (str "Content-Length", str "0") eq_refl) as (A & B & _). unfold field_ok. cbn [fst snd] in *.
  split; [exact A|]. split; [exact B|]. split; [|split].
  - intro HI. destruct (HC _ HI) as [_ HX]. congruence.
  - intros c r E. apply HC. rewrite E. left. reflexivity.
  - intros c r E. apply HC. rewrite E. apply in_or_app. right. left. reflexivity.
Qed.
Lemma server_fields_ok : forall o b keep chunks extra n, 0 <= n -> Forall field_ok extra -> Forall field_ok (server_fields o b keep chunks extra n).
Proof.
  intros o b keep chunks extra n HN HE. unfold server_fields. apply Forall_app. split; [|assumption].
  constructor; [apply field_okb_ok; destruct o; reflexivity|].
  constructor; [apply field_okb_ok; destruct b; reflexivity|].
  constructor; [apply field_okb_ok; destruct keep; reflexivity|].
  constructor; [destruct chunks; [apply field_okb_ok; reflexivity|apply field_ok_length; assumption]|].
  constructor; [apply field_okb_ok; reflexivity|constructor].
Qed.

Lemma server_accept : forall o b keep chunks extra n, exists accept,
  first_value (str "Accept") (server_fields o b keep chunks extra n) accept /\ occurs (str "text/xml") accept /\
  (occurs (str "application/x-frpc") accept <-> b = true).
Proof.
  intros. eexists. split.
  - unfold first_value, server_fields. eexists [_], (str "Accept"), _. split; [reflexivity|]. split; [reflexivity|]. repeat constructor; apply other_name; reflexivity.
  - split; [exists []; destruct b; eexists; reflexivity|]. split; [|intros ->; exists (str "text/xml, "); eexists; reflexivity].
    intro X. apply contains_spec in X. destruct b; [reflexivity|discriminate].
Qed.
(** An answer as the client sees it. *)
Lemma server_response : forall v o b keep chunks extra cut body, sendable (v, o, extra, body) -> (v = false -> chunks = false) -> writes_well cut ->
  response_text b v o keep extra body (server_message o b keep chunks extra (cut body)).
Proof.
  intros v o b keep chunks extra cut body (HN & HS & HE & HX) HV HW. destruct (HW body) as [HC HST]. destruct (HST HN) as (e & first & rest & EC & HF & HZ).
  unfold response_text. rewrite EC. destruct chunks.
  - destruct (C33_server_partial o b keep extra e first rest HF HZ) as (w & E & HCH). rewrite <- EC, HC in HCH.
    exists (server_fields o b keep true extra 0), w. split; [|split; [|split; [|split; [|split; [|split]]]]].
    + rewrite E. unfold server_head. rewrite <- !app_assoc. reflexivity.
    + apply server_fields_ok; [lia|assumption].
    + eapply framed_chunked; [| | |exact HCH].
      * unfold no_value, server_fields. apply Forall_app. split; [|assumption]. repeat constructor; apply other_name; reflexivity.
      * unfold first_value, server_fields. eexists [_; _; _], (str "Transfer-Encoding"), _. split; [reflexivity|]. split; [reflexivity|]. repeat constructor; apply other_name; reflexivity.
      * reflexivity.
    + unfold first_value, server_fields. eexists [], (str "Content-Type"), _. split; [reflexivity|]. split; [reflexivity|constructor].
    + unfold first_value, server_fields. eexists [_; _], (str "Connection"), _. split; [reflexivity|]. split; [reflexivity|]. repeat constructor; apply other_name; reflexivity.
    + exact (server_accept o b keep _ extra _).
    + split; [intro X; discriminate (HV X)|]. eexists. reflexivity.
  - unfold server_message. rewrite wr_message_plain, <- EC, HC. pose proof (blen_nonneg body). rewrite <- blen_zlen in HS. rewrite u32_id by (unfold in_u32; lia).
    exists (server_fields o b keep false extra (blen body)), body. split; [|split; [|split; [|split; [|split; [|split]]]]].
    + unfold server_head. rewrite <- !app_assoc. reflexivity.
    + apply server_fields_ok; [lia|assumption].
    + eapply framed_length; [apply server_length|]. replace (zlen body) with (blen body) by apply blen_zlen. apply dec_is_number. lia.
    + unfold first_value, server_fields. eexists [], (str "Content-Type"), _. split; [reflexivity|]. split; [reflexivity|constructor].
    + unfold first_value, server_fields. eexists [_; _], (str "Connection"), _. split; [reflexivity|]. split; [reflexivity|]. repeat constructor; apply other_name; reflexivity.
    + exact (server_accept o b keep _ extra _).
    + split; [intros _; eexists; apply server_length|]. eexists. reflexivity.
Qed.

Lemma send_answer_sent : forall W cfg cut (added : W -> header) st w data, s_extra st = This_header ->
  send_answer cfg cut added st w data true =
  (mkSrv (s_out st) (s_chunks st) (s_ver st) (s_close st) (s_head st) No_header,
   server_message (s_out st) (f_binary cfg) (f_keep cfg) (s_chunks st) (added w) (cut data), Ok tt).
Proof.
  intros W cfg cut added st w data HX. unfold send_answer, server_message, wr_message. rewrite HX.
  set (wr0 := fold_left _ _ _). assert (HS : forall hd x, w_sent (wr_flush hd x) = true) by (intros; unfold wr_flush, wr_send; destruct (w_chunks x); reflexivity).
  rewrite HS. reflexivity.
Qed.

Section Serving.
  Context {W : Type}.
  Variable message : exn -> bytes.
  Variable cfg : config.
  Variable ums : in_type -> unmarshaller.
  Variable mars : out_type -> version -> marshaller.
  Variable reason : Z -> bytes.
  Variable cut : bytes -> list bytes.
  Variable added : W -> header.
  Variable g : registry (W:=W).
  Hypothesis CUT : writes_well cut.

  Notation serve_one := (serve_one message cfg ums mars reason cut added g).
  Notation serve_loop := (serve_loop message cfg ums mars reason cut added g).

  (** What the registry writes for a request. *)
  Lemma answers_outcome : forall w q w' o body, answers message cfg ums mars g w q w' o body ->
    exists k ver name params, request_type q k /\ answer_type (f_binary cfg) q o /\ decodes (ums k) (q_body q) ver name params /\ v_major ver <= 3 /\
      let out := answer message (mars o ver) g w name params in
      o_world out = w' /\ o_bytes out = body /\ o_flushed out = true /\ o_end out = Ok tt.
  Proof.
    intros w q w' o body [k ver name params v H1 H2 H3 HV H4 H5|k ver name params e code msg H1 H2 H3 HV H4 H5 H6 H7];
      exists k, ver, name, params; (split; [assumption|]); (split; [assumption|]); (split; [assumption|]); (split; [assumption|]).
    - destruct (C40_response_partial message (mars o ver) g w name params w' v H4) as (HW & HO & HF & HE); [exists body; assumption|].
      cbv zeta. split; [exact HO|]. split; [|auto]. destruct H5 as (o1 & s1 & R1 & ->), HW as (o2 & s2 & R2 & ->). congruence.
    - cbv zeta. unfold answer. rewrite (process_yields message _ _ _ _ _ _ H4), (as_fault_documented message _ _ _ H5). unfold answer_error, answer_fault.
      rewrite (c_str_same _ H6). destruct H7 as (o1 & s1 & R1 & ->). rewrite R1. cbn. auto.
  Qed.

  Lemma serve_one_good : forall st q w w' o body wire rest sees ending log out,
    well_formed q -> framed (q_fields q) (q_body q) wire -> answers message cfg ums mars g w q w' o body -> sendable (q_http11 q, o, added w', body) ->
    exists st' sees' log' text,
      serve_one (mkConn st (mkSock (request_head q ++ wire ++ rest) sees ending) w log out)
        = (mkConn st' (mkSock rest sees' ending) w' log' (out ++ text), Next true) /\
      response_text (f_binary cfg) (q_http11 q) o (f_keep cfg) (added w') body text /\ (s_close st' = false <-> keeps_open q) /\ s_extra st' = No_header.
  Proof.
    intros st q w w' o body wire rest sees ending log out HQ HF HA HS.
    destruct (answers_outcome _ _ _ _ _ HA) as (k & ver & name & params & HK & HO & HD & HVER & EW & EB & EFl & EE).
    destruct (read_request_good cfg ums st q k o ver name params wire rest sees ending HQ HF HK HO HD) as (chunks & close & sees' & t & E & HC & HN & HT & H10).
    unfold M_Server.serve_one. cbn [c_srv c_sock c_world c_log c_wire]. rewrite E. cbn [s_head s_out s_ver s_close s_chunks].
    assert (HR : tb_root t <> RNone) by (intro X; unfold tb_data in HT; rewrite X in HT; discriminate).
    rewrite HT, HN. cbn [bind as_array]. replace (3 <? v_major ver) with false by (symmetry; apply Z.ltb_ge; lia). unfold after_answer.
    rewrite EFl, (send_answer_sent W cfg cut added) by reflexivity. cbn [s_out s_chunks s_ver s_close s_head]. rewrite EE, EB, EW.
    do 4 eexists. split; [destruct (tb_root t); [congruence|reflexivity|reflexivity]|]. split; [apply server_response; assumption|]. split; [exact HC|reflexivity].
  Qed.

  (** The end of the connection before a request. *)
  Lemma serve_one_idle : forall st w sees ending log out, ending = Closed \/ ending = TimedOut ->
    exists st', serve_one (mkConn st (mkSock [] sees ending) w log out) = (mkConn st' (mkSock [] sees ending) w log out, Stop).
  Proof. intros st w sees ending log out [->| ->]; eexists; reflexivity. Qed.

  Definition answer_text (a : bool * out_type * list (bytes * bytes) * bytes) (t : bytes) : Prop :=
    let '(v, o, extra, body) := a in response_text (f_binary cfg) v o (f_keep cfg) extra body t.

  Lemma serve_loop_connection : forall n w qs w' outs left, connection message cfg ums mars added g n w qs w' outs left ->
    f_max cfg < 2 ^ 32 -> n = 0 \/ 0 <= n < f_max cfg -> Forall well_formed qs -> Forall sendable outs ->
    forall texts, Forall2 request_text qs texts -> forall fuel st sees ending log out, (List.length (concat texts) < fuel)%nat -> ending = Closed \/ ending = TimedOut ->
    exists c replies before after, serve_loop fuel n (mkConn st (mkSock (concat texts) sees ending) w log out) = (c, Ok tt) /\
      c_world c = w' /\ c_wire c = out ++ concat replies /\ Forall2 answer_text outs replies /\
      texts = before ++ after /\ List.length before = List.length outs /\ pending (c_sock c) = concat after.
  Proof.
    intros n w qs w' outs left HC HM. induction HC as [n w|n w q rest w' o body HA HG|n w q rest w' o body w2 outs left HA HG HC IH];
      intros HN HQ HS texts HT fuel st sees ending log out HF HE.
    - inversion HT; subst. destruct fuel as [|fuel]; [lia|]. cbn [M_Server.serve_loop concat].
      destruct (serve_one_idle st w sees ending log out HE) as (st' & ->). exists (mkConn st' (mkSock [] sees ending) w log out), [], [], [].
      cbn. rewrite app_nil_r. repeat split; constructor.
    - inversion HT as [|? t ? texts' (wire & HFR & ET) HT']; subst. inversion HQ; subst. inversion HS; subst.
      destruct fuel as [|fuel]; [lia|]. cbn [M_Server.serve_loop concat]. rewrite <- app_assoc.
      destruct (serve_one_good st q w w' o body wire (concat texts') sees ending log out) as (st' & sees' & log' & text & E & HR & HCL & _); try assumption.
      rewrite E. cbn [c_srv]. unfold goes_on in HG.
      assert (EX : s_close st' || negb (f_keep cfg) || (f_max cfg <=? u32 (n + 1)) = true).
      { destruct (s_close st'); [reflexivity|]. destruct (f_keep cfg); [|reflexivity]. cbn [orb negb].
        assert (HK : keeps_open q) by (apply HCL; reflexivity). assert (f_max cfg <= n + 1).
        { destruct (Z.lt_ge_cases (n + 1) (f_max cfg)); [|lia]. exfalso. apply HG. auto. }
        rewrite u32_id by (unfold in_u32; lia). apply Z.leb_le. assumption. }
      rewrite EX. exists (mkConn st' (mkSock (concat texts') sees' ending) w' log' (out ++ text)), [text], [request_head q ++ wire], texts'.
      cbn [c_world c_wire c_sock pending concat]. rewrite app_nil_r. repeat split; repeat constructor. exact HR.
    - inversion HT as [|? t ? texts' (wire & HFR & ET) HT']; subst. inversion HQ; subst. inversion HS; subst.
      destruct fuel as [|fuel]; [lia|]. cbn [M_Server.serve_loop concat]. rewrite <- app_assoc.
      destruct (serve_one_good st q w w' o body wire (concat texts') sees ending log out) as (st' & sees' & log' & text & E & HR & HCL & _); try assumption.
      rewrite E. cbn [c_srv]. destruct HG as (HG1 & HG2 & HG3). apply HCL in HG2. rewrite HG2, HG1. cbn [orb negb].
      rewrite u32_id by (unfold in_u32; lia). replace (f_max cfg <=? n + 1) with false by (symmetry; apply Z.leb_gt; lia).
      destruct (IH ltac:(lia) ltac:(assumption) ltac:(assumption) texts' HT' fuel st' sees' ending log' (out ++ text)) as (c & replies & before & after & E2 & E3 & E4 & E5 & E6 & E7 & E8).
      + rewrite concat_cons, app_length in HF. unfold request_head in HF. rewrite !app_length in HF. cbn in HF. lia.
      + assumption.
      + exists c, (text :: replies), ((request_head q ++ wire) :: before), after. split; [exact E2|]. split; [exact E3|]. split; [rewrite E4, <- app_assoc; reflexivity|].
        split; [constructor; assumption|]. split; [rewrite E6; reflexivity|]. split; [cbn; congruence|exact E8].
  Qed.
End Serving.
