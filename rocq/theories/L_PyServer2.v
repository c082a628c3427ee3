(** Lemmas about the Python server: whole connections. *)
From Coq Require Import Lia.
From Verif Require Import Base Value Text Unicode M_Marshal M_BinUnmarshal M_TreeBuilder M_Base64 M_Iso M_Url M_Http M_HttpIO M_HttpWriter M_Registry M_Server M_Python M_PyRegistry M_PyServer
  S_Value S_Http S_Registry S_Server S_Python S_PyRegistry S_PyServer L_Base L_Http L_HttpIO L_HttpIO2 L_HttpIO3 L_HttpIO4 L_HttpIO5 L_HttpWriter L_Registry P_HttpIO P_HttpWriter P_Registry
  L_Server L_Server2 L_Python L_PyText L_PyRegistry L_PyServer.

(** * Requests *)
Lemma skip_blanks : forall blank, Forall (fun x => x = crlf \/ x = [x0a]) blank -> forall line rest t sees ending fuel,
  (forall sees, exists sees', read_line_opt true (-1) false (mkSock (line ++ rest) sees ending) = (mkSock rest sees' ending, Ok t)) -> t <> [] ->
  (List.length (concat blank ++ line ++ rest) < fuel)%nat ->
  exists sees', first_line fuel (mkSock (concat blank ++ line ++ rest) sees ending) = (mkSock rest sees' ending, Ok t).
Proof.
  intros blank HB line rest t sees ending fuel HR HT. revert sees fuel. induction HB as [|x blank HX HB IH]; intros sees fuel HF; (destruct fuel as [|fuel]; [cbn in HF; lia|]); cbn [first_line concat app].
  - destruct (HR sees) as (sees' & E). exists sees'. change ([] ++ line ++ rest) with (line ++ rest). rewrite E. destruct t; [congruence|reflexivity].
  - assert (HL : exists l, x = l ++ [x0a] /\ one_line l /\ without_cr l []).
    { destruct HX as [->| ->].
      - exists [x0d]. split; [reflexivity|]. split; [intro H; cbn in H; intuition discriminate|]. exists 1%nat. split; [reflexivity|discriminate].
      - exists []. split; [reflexivity|]. split; [intros []|]. exists O. split; [reflexivity|discriminate]. }
    destruct HL as (l & -> & HL1 & HL2). 
    match goal with |- context [mkSock ?p sees ending] => replace p with (l ++ x0a :: concat blank ++ line ++ rest) by (rewrite <- !app_assoc; reflexivity) end.
    destruct (C35_line true (-1) false l [] (concat blank ++ line ++ rest) sees ending HL1 HL2 ltac:(right; left; lia)) as (s1 & E). rewrite E.
    apply IH. cbn [concat] in HF. rewrite <- !app_assoc, app_length in HF. cbn [app] in HF. rewrite app_length in HF. cbn [Datatypes.length] in HF. lia.
Qed.

Lemma py_choose_in : forall q k, request_type q k -> choose_in (get_or_empty (str "Content-Type") (map as_read (q_fields q))) [] = Some (py_type k).
Proof.
  intros q k HK. pose proof (choose_in_spec q k HK) as H. unfold choose_in in *. destruct (contains _ _); [inversion H; reflexivity|].
  destruct (contains _ _); [inversion H; reflexivity|]. destruct (contains _ _); [inversion H; reflexivity|]. destruct (contains _ _); inversion H; reflexivity.
Qed.
Lemma py_choose_out_spec : forall W (cfg : pconfig W) q o, answer_type (pf_binary cfg) q o ->
  fst (py_choose_out cfg (header_get (str "Accept") 0 (map as_read (q_fields q)))) = o.
Proof.
  intros W cfg q o H. rewrite <- (choose_out_spec (mkConf (pf_keep cfg) (pf_binary cfg) (pf_max cfg)) q o H). reflexivity.
Qed.

Section Requests.
  Context {W : Type}.
  Variable cfg : pconfig W.
  Variable ums : in_type -> pyum.

  Lemma py_read_request_good : forall st q k o ver name params blank wire rest sees ending,
    well_formed q -> Forall (fun x => x = crlf \/ x = [x0a]) blank -> framed (q_fields q) (q_body q) wire -> request_type q k -> answer_type (pf_binary cfg) q o ->
    py_decodes (ums (py_type k)) (q_body q) ver name params ->
    exists chunks close sees' t,
      py_read_request cfg ums st (mkSock (concat blank ++ request_head q ++ wire ++ rest) sees ending)
        = (mkPSrv o chunks (version_of k ver) close false (ps_own st), mkSock rest sees' ending, Ok t) /\
      (close = false <-> keeps_open q) /\ pb_method t = Some name /\ pb_data t = PyOk (PyTuple params) /\ (q_http11 q = false -> chunks = false).
  Proof.
    intros st q k o ver name params blank wire rest sees ending (HP & HF & HS) HB HFR HK HO HD. unfold py_read_request.
    destruct (version_ok q) as (V1 & V2 & V3 & V4 & V5).
    set (more := flat_map field_text (q_fields q) ++ crlf ++ wire ++ rest).
    assert (HR : forall sees, exists sees', read_line_opt true (-1) false (mkSock ((str "POST" ++ [x20] ++ q_path q ++ [x20] ++ http_version q ++ crlf) ++ more) sees ending)
                  = (mkSock more sees' ending, Ok (str "POST" ++ [x20] ++ q_path q ++ [x20] ++ http_version q))).
    { intro v. apply (read_first_line true false); auto using word_post. }
    replace (request_head q ++ wire ++ rest) with ((str "POST" ++ [x20] ++ q_path q ++ [x20] ++ http_version q ++ crlf) ++ more)
      by (unfold more, request_head; rewrite <- !app_assoc; reflexivity).
    destruct (skip_blanks blank HB _ more _ sees ending (S (List.length (pending (mkSock (concat blank ++ (str "POST" ++ [x20] ++ q_path q ++ [x20] ++ http_version q ++ crlf) ++ more) sees ending)))) HR) as (s1 & E1);
      [discriminate|cbn [pending]; lia|].
    rewrite E1, (split_three _ _ _ word_post HP V2), V4. cbn [negb].
    unfold more. destruct (read_head (q_fields q) (wire ++ rest) s1 ending HF) as (s2 & E2). rewrite E2.
    change (bytes_eqb (str "POST") (str "POST")) with true. cbn [negb].
    pose proof (py_choose_out_spec W cfg q o HO) as EO. destruct (py_choose_out cfg _) as [o' chunks]. cbn [fst] in EO. subst o'.
    rewrite (py_choose_in _ _ HK).
    destruct (read_framed _ (pu_take (ums (py_type k))) (pu_init (ums (py_type k))) true (q_fields q) (q_body q) wire rest s2 ending HFR HS) as (ps & EP & HM).
    destruct (HD ps EP) as (u1 & u2 & HA & HFI & HV & HN & HT). rewrite HA in HM.
    destruct HM as (s3 & n & ->). cbn [r_sink r_sock]. rewrite HFI, V5, HV.
    eexists (if q_http11 q then chunks else false), _, s3, _. split; [destruct k; reflexivity|]. split; [apply choose_close_spec|]. split; [exact HN|]. split; [exact HT|]. intros ->. reflexivity.
  Qed.
End Requests.

(** * Connections *)
Section Serving.
  Context {W : Type}.
  Variable message : exn -> bytes.
  Variable own : pyexn -> pystr.
  Variable host : datetime -> datetime.
  Variable cfg : pconfig W.
  Variable ums : in_type -> pyum.
  Variable mars : out_type -> version -> marshaller.
  Variable reason : Z -> bytes.
  Variable cut : bytes -> list bytes.
  Variable added : W -> header.
  Variable g : pregistry (W:=W).
  Variable client : py.
  Hypothesis CUT : writes_well cut.

  Notation serve_one := (py_serve_one message own host cfg ums mars reason cut added g client).
  Notation serve_loop := (py_serve_loop message own host cfg ums mars reason cut added g client).
  Notation answers := (py_answers own host cfg ums mars g client).

  Lemma before_next : forall w w1, reads_next cfg w w1 -> py_before cfg w = (w1, None).
  Proof. intros w w1 [H|f w2 v H E]; unfold py_before; rewrite H; [reflexivity|]. rewrite E. reflexivity. Qed.

  Lemma py_send_sent : forall st data, py_send cfg cut st data true =
    (mkPSrv (ps_out st) (ps_chunks st) (ps_ver st) (ps_close st) (ps_is_head st) [],
     w_wire (pw_message (py_head (ps_out st) (pf_binary cfg) (pf_keep cfg) (ps_chunks st) (ps_own st)) (ps_chunks st) (cut data))).
  Proof.
    intros st data. unfold py_send, pw_message. set (wr0 := fold_left _ _ _).
    assert (HS : forall hd x, w_sent (wr_flush hd x) = true) by (intros; unfold wr_flush, wr_send; destruct (w_chunks x); reflexivity).
    rewrite HS. reflexivity.
  Qed.

  Lemma py_serve_one_good : forall st q w w1 w' o body blank wire rest sees ending out,
    ps_own st = [] -> well_formed q -> Forall (fun x => x = crlf \/ x = [x0a]) blank -> framed (q_fields q) (q_body q) wire ->
    reads_next cfg w w1 -> answers w1 q w' o body -> py_sendable (q_http11 q, o, added w', body) ->
    exists st' sees' text,
      serve_one (mkPConn st (mkSock (concat blank ++ request_head q ++ wire ++ rest) sees ending) w out)
        = (mkPConn st' (mkSock rest sees' ending) w' (out ++ text), Pnext true) /\
      py_response_text (pf_binary cfg) (q_http11 q) o (pf_keep cfg) (added w') body text /\ (ps_close st' = false <-> keeps_open q) /\ ps_own st' = [].
  Proof.
    intros st q w w1 w' o body blank wire rest sees ending out HOWN HQ HB HF HN HA HS.
    destruct HA as [k ver name u params v cs HK HO HD HV (HCS & HCN & _) HH HM HW].
    destruct (py_read_request_good cfg ums st q k o ver name params blank wire rest sees ending HQ HB HF HK HO HD) as (chunks & close & sees' & t & E & HC & HNM & HT & H10).
    unfold py_serve_one. cbn [pc_srv pc_sock pc_world pc_wire]. rewrite (before_next _ _ HN), E. unfold py_handle. cbn [ps_is_head ps_out ps_ver ps_close ps_chunks ps_own].
    replace (3 <? v_major (version_of k ver)) with false by (symmetry; apply Z.ltb_ge; lia).
    assert (HP : py_params own t = Params params) by (unfold py_params; rewrite HT; reflexivity).
    rewrite HNM, HP. rewrite (same_no_nul _ _ HCS HCN). rewrite (dispatch_handled own g client w1 name u params w' v HCS HCN HH).
    rewrite (result_message_calls _ _ _ HM), (marshal_written _ _ _ HW). cbn [done]. rewrite py_send_sent. cbn [ps_is_head ps_out ps_ver ps_close ps_chunks ps_own]. rewrite HOWN. cbn [app].
    exists (mkPSrv o chunks (version_of k ver) close false []), sees'. eexists. split.
    - unfold pb_data in HT. rewrite HNM in HT. destruct (pb_object t) as [p|]; [|reflexivity]. destruct p; try reflexivity. discriminate HT.
    - split; [apply py_response; assumption|]. split; [exact HC|reflexivity].
  Qed.

  Lemma py_serve_one_idle : forall st w w1 sees ending out, ending = Closed \/ ending = TimedOut -> reads_next cfg w w1 ->
    exists st', serve_one (mkPConn st (mkSock [] sees ending) w out) = (mkPConn st' (mkSock [] sees ending) w1 out, Pend (Sv_protocol (match ending with TimedOut => 0 | _ => 2 end))) /\ ps_own st' = ps_own st.
  Proof.
    intros st w w1 sees ending out HE HN. unfold py_serve_one. cbn [pc_srv pc_sock pc_world pc_wire]. rewrite (before_next _ _ HN).
    destruct HE as [-> | ->]; eexists; (split; [reflexivity|reflexivity]).
  Qed.

  Definition py_answer_text (a : bool * out_type * list (bytes * bytes) * bytes) (t : bytes) : Prop :=
    let '(v, o, extra, body) := a in py_response_text (pf_binary cfg) v o (pf_keep cfg) extra body t.

  Lemma py_serve_loop_connection : forall n w qs w' outs ends, py_connection own host cfg ums mars added g client n w qs w' outs ends ->
    Forall well_formed qs -> Forall py_sendable outs ->
    forall texts, Forall2 py_request_text qs texts -> forall fuel st sees ending out, ps_own st = [] -> (List.length (concat texts) < fuel)%nat -> ending = Closed \/ ending = TimedOut ->
    exists c x replies before after, serve_loop fuel n (mkPConn st (mkSock (concat texts) sees ending) w out) = (c, x) /\
      pc_world c = w' /\ pc_wire c = out ++ concat replies /\ Forall2 py_answer_text outs replies /\
      texts = before ++ after /\ List.length before = List.length outs /\ pending (pc_sock c) = concat after /\
      x = (if ends then Sv_none else Sv_protocol (match ending with TimedOut => 0 | _ => 2 end)) /\ ps_own (pc_srv c) = [].
  Proof.
    intros n w qs w' outs ends HC. induction HC as [n w w1 HN|n w w1 q rest w' o body HN HA HG|n w w1 q rest w' o body w2 outs ends HN HA HG HC IH];
      intros HQ HS texts HT fuel st sees ending out HOWN HF HE.
    - inversion HT; subst. destruct fuel as [|fuel]; [lia|]. cbn [py_serve_loop concat].
      destruct (py_serve_one_idle st w w1 sees ending out HE HN) as (st' & -> & HO). eexists (mkPConn st' (mkSock [] sees ending) w1 out), _, [], [], [].
      cbn. rewrite app_nil_r, HO. repeat split; try constructor; eauto.
    - inversion HT as [|? t ? texts' (blank & tx & HB & (wire & HFR & ETX) & ET) HT']; subst. inversion HQ; subst. inversion HS; subst.
      destruct fuel as [|fuel]; [lia|]. cbn [py_serve_loop concat]. rewrite <- !app_assoc.
      destruct (py_serve_one_good st q w w1 w' o body blank wire (concat texts') sees ending out) as (st' & sees' & text & E & HR & HCL & HO); try assumption.
      rewrite E. cbn [pc_srv]. unfold py_goes_on in HG.
      assert (EX : ps_close st' || negb (pf_keep cfg) || (pf_max cfg <=? n + 1) = true).
      { destruct (ps_close st'); [reflexivity|]. destruct (pf_keep cfg); [|reflexivity]. cbn [orb negb].
        assert (HK : keeps_open q) by (apply HCL; reflexivity). assert (pf_max cfg <= n + 1).
        { destruct (Z.lt_ge_cases (n + 1) (pf_max cfg)); [|lia]. exfalso. apply HG. auto. }
        apply Z.leb_le. assumption. }
      rewrite EX. exists (mkPConn st' (mkSock (concat texts') sees' ending) w' (out ++ text)), Sv_none, [text], [concat blank ++ request_head q ++ wire], texts'.
      cbn [pc_world pc_wire pc_sock pc_srv pending concat]. rewrite app_nil_r. repeat split; repeat constructor; [exact HR|exact HO].
    - inversion HT as [|? t ? texts' (blank & tx & HB & (wire & HFR & ETX) & ET) HT']; subst. inversion HQ; subst. inversion HS; subst.
      destruct fuel as [|fuel]; [lia|]. cbn [py_serve_loop concat]. rewrite <- !app_assoc.
      destruct (py_serve_one_good st q w w1 w' o body blank wire (concat texts') sees ending out) as (st' & sees' & text & E & HR & HCL & HO); try assumption.
      rewrite E. cbn [pc_srv]. destruct HG as (HG1 & HG2 & HG3). apply HCL in HG2. rewrite HG2, HG1. cbn [orb negb].
      replace (pf_max cfg <=? n + 1) with false by (symmetry; apply Z.leb_gt; lia).
      destruct (IH ltac:(assumption) ltac:(assumption) texts' HT' fuel st' sees' ending (out ++ text) HO) as (c & x & replies & before & after & E2 & E3 & E4 & E5 & E6 & E7 & E8 & E9).
      + rewrite concat_cons, !app_length in HF. unfold request_head in HF. rewrite !app_length in HF. cbn in HF. lia.
      + assumption.
      + exists c, x, (text :: replies), ((concat blank ++ request_head q ++ wire) :: before), after. split; [exact E2|]. split; [exact E3|]. split; [rewrite E4, <- app_assoc; reflexivity|].
        split; [constructor; assumption|]. split; [rewrite E6; reflexivity|]. split; [cbn; congruence|]. split; [exact E8|]. exact E9.
  Qed.
End Serving.
