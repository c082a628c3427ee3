(** Requests whose body is only the beginning of a call (C43). *)
From Coq Require Import Lia.
From Verif Require Import Base Value Text M_Marshal M_BinUnmarshal M_TreeBuilder M_Base64 M_Url M_Http M_HttpIO M_HttpWriter M_Registry M_Server
  S_Events S_Value S_Wire S_Http S_Registry S_Server S_Refuse L_Base L_BinUnmarshal L_RoundTrip L_TreeBuilder L_Message L_Wire L_Http L_HttpIO L_HttpIO2 L_HttpIO3 L_HttpIO4 L_HttpIO5 L_Registry L_Server L_Server2 L_CutCall L_Server3 L_Server4 L_Server5 P_Refuse P_Registry P_Server.

(** The unmarshaller takes the body, however it arrives, and finds at its end that something is missing. *)
Definition incomplete (u : unmarshaller) (body : bytes) (e : exn) : Prop :=
  forall pieces, arrives body pieces -> exists s s', um_all u (um_init u) pieces = (s, None) /\ um_finish u s = (s', Err e).

(** The beginning of the body of a call, ending anywhere but between two parameters or before the first one. *)
Definition beginning (ver : version) (name : bytes) (ps : list value) (part : bytes) : Prop :=
  (exists lost, sent ver (call_calls name ps) = Ok (part ++ lost)) /\
  forall k, (k <= List.length ps)%nat -> sent ver (call_calls name (firstn k ps)) <> Ok part.

Theorem C43_inside_partial : forall val ver name ps part, modern ver -> name_ok name -> Forall (wf ver) ps -> beginning ver name ps part ->
  incomplete (bin_um val T_METHOD_CALL) part (StreamError "Stream not complete").
Proof.
  intros val ver name ps part HM NO W [[lost HS] HK] pieces [EC _].
  assert (FB : Forall (builds val) ps) by (rewrite Forall_forall in *; intros x H; apply (builds_all val ver); auto).
  destruct (builds_items1 val ps (fst (tb_step val tb_init (EMethodCall name))) [] [] FB eq_refl) as [m ER].
  destruct (call_incomplete tb (tb_step val) T_METHOD_CALL ver HM name ps tb_init _ _ part lost pieces NO
    ltac:(eapply Forall_impl; [|exact W]; apply wf_wfu) (or_intror (or_introl eq_refl)) eq_refl ER HS HK EC) as (u & t & E & F).
  exists (u, t), (u, t). split.
  - rewrite <- hand_over_um. clear - E. assert (G : forall pieces u t, hand_over (um_take (bin_um val T_METHOD_CALL)) (u, t) pieces = let '(u', t', f) := unmarshall_all tb (tb_step val) T_METHOD_CALL u t pieces in ((u', t'), f)).
    { clear. induction pieces as [|d r IH]; intros u t; [reflexivity|]. cbn [hand_over um_take bin_um unmarshall_all fst snd].
      destruct (unmarshall tb (tb_step val) T_METHOD_CALL u t d) as [[u' t'] [f|]]; [reflexivity|]. apply IH. }
    cbn [um_init bin_um]. rewrite G, E. reflexivity.
  - cbn [um_finish bin_um fst]. rewrite F. reflexivity.
Qed.
Print Assumptions C43_inside_partial.

Section Serving.
  Context {W : Type}.
  Variable message : exn -> bytes.
  Variable cfg : config.
  Variable ums : in_type -> unmarshaller.
  Variable mars : out_type -> version -> marshaller.
  Variable reason : Z -> bytes.
  Variable cut : bytes -> list bytes.
  Variable added : W -> header.
  Variable g : registry (W:=W).
  Hypothesis CUT : writes_well cut.

  Lemma serve_one_broken : forall st q k o m w wire rest sees ending log out body, well_formed q -> framed (q_fields q) (q_body q) wire -> request_type q k ->
    answer_type (f_binary cfg) q o -> incomplete (ums k) (q_body q) (StreamError m) ->
    written (mars o (mkVer 2 1)) [PFault (-503) (c_str (message (StreamError m)))] body -> sendable (true, o, [], body) -> s_extra st = No_header ->
    exists st' sees' text,
      serve_one message cfg ums mars reason cut added g (mkConn st (mkSock (request_head q ++ wire ++ rest) sees ending) w log out)
        = (mkConn st' (mkSock rest sees' ending) w (log ++ []) (out ++ text), Next false) /\
      response_text (f_binary cfg) true o (f_keep cfg) [] body text /\ s_close st' = false /\ s_extra st' = No_header.
  Proof.
    intros st q k o m w wire rest sees ending log out body (HP & HF & HS) HFR HK HO HI HW HSE HX.
    destruct (version_ok q) as (V1 & V2 & V3 & V4 & V5).
    assert (R : exists chunks sees', read_request cfg ums st (mkSock (request_head q ++ wire ++ rest) sees ending)
      = (mkSrv o chunks (s_ver st) false false (s_extra st), mkSock rest sees' ending, Err (StreamError m))).
    { unfold read_request.
      destruct (read_first_line true true (str "POST") (q_path q) (http_version q) (flat_map field_text (q_fields q) ++ crlf ++ wire ++ rest) sees ending
                  word_post HP V1 V2 V3) as (s1 & E1).
      replace (request_head q ++ wire ++ rest) with
        ((str "POST" ++ [x20] ++ q_path q ++ [x20] ++ http_version q ++ crlf) ++ flat_map field_text (q_fields q) ++ crlf ++ wire ++ rest)
        by (unfold request_head; rewrite <- !app_assoc; reflexivity).
      rewrite E1. change (str "POST" ++ [x20] ++ q_path q ++ [x20] ++ http_version q) with (x50 :: str "OST" ++ [x20] ++ q_path q ++ [x20] ++ http_version q).
      cbv iota. change (x50 :: str "OST" ++ [x20] ++ q_path q ++ [x20] ++ http_version q) with (str "POST" ++ [x20] ++ q_path q ++ [x20] ++ http_version q).
      rewrite (split_three _ _ _ word_post HP V2), V4. cbn [negb].
      destruct (read_head (q_fields q) (wire ++ rest) s1 ending HF) as (s2 & E2). rewrite E2.
      change (bytes_eqb (str "POST") (str "POST")) with true. cbn [negb].
      pose proof (choose_out_spec cfg q o HO) as EO. destruct (choose_out cfg _) as [o' chunks]. cbn [fst] in EO. subst o'.
      rewrite (choose_in_spec _ _ HK).
      destruct (read_framed _ (um_take (ums k)) (um_init (ums k)) true (q_fields q) (q_body q) wire rest s2 ending HFR HS) as (ps & EP & HM).
      rewrite hand_over_um in HM. destruct (HI ps EP) as (u1 & u2 & HA & HFI). rewrite HA in HM.
      destruct HM as (s3 & n & ->). cbn [r_sink r_sock]. rewrite HFI. exists chunks, s3. reflexivity. }
    destruct R as (chunks & sees' & R). unfold M_Server.serve_one. cbn [c_srv c_sock c_world c_log c_wire]. rewrite R. cbn [s_out].
    unfold answer_fault. destruct HW as (o1 & s1 & R1 & ->). change FRPC_PARSE_ERROR with (-503). rewrite R1. unfold after_answer. cbn [o_world o_bytes o_flushed o_end o_log app].
    unfold send_answer. cbn [s_extra s_out s_chunks s_ver s_close s_head]. rewrite HX.
    set (wr0 := fold_left _ _ _). assert (HSN : forall hd x, w_sent (wr_flush hd x) = true) by (intros; unfold wr_flush, wr_send; destruct (w_chunks x); reflexivity).
    rewrite HSN. do 3 eexists. split; [reflexivity|]. split; [|split; reflexivity]. subst wr0.
    apply (server_response true o (f_binary cfg) (f_keep cfg) chunks [] cut _ HSE ltac:(discriminate) CUT).
  Qed.
End Serving.

(** After any number of requests answered on a connection, a request whose body is incomplete: nothing is executed, it is answered by one
    parse error, and the server goes on (also if the request asked for closing the connection). *)
Theorem C43_body_partial : forall W message cfg ums mars reason cut (added : W -> header) g w qs w' outs m q k o what body,
  so_far message cfg ums mars added g 0 w qs w' outs m -> writes_well cut -> f_keep cfg = true -> f_max cfg < 2 ^ 32 -> 0 < f_max cfg -> Forall well_formed qs -> Forall sendable outs ->
  well_formed q -> request_type q k -> answer_type (f_binary cfg) q o -> incomplete (ums k) (q_body q) (StreamError what) ->
  written (mars o (mkVer 2 1)) [PFault (-503) (c_str (message (StreamError what)))] body -> sendable (true, o, [], body) ->
  forall texts text st sees ending, s_extra st = No_header -> Forall2 request_text qs texts -> request_text q text -> ending = Closed \/ ending = TimedOut ->
  exists c replies fault,
    serve message cfg ums mars reason cut added g st (mkSock (concat texts ++ text) sees ending) w = (c, Ok tt) /\
    c_world c = w' /\ c_wire c = concat replies ++ fault /\
    Forall2 (fun a t => let '(v, o, extra, body) := a in response_text (f_binary cfg) v o (f_keep cfg) extra body t) outs replies /\
    response_text (f_binary cfg) true o (f_keep cfg) [] body fault.
Proof.
  intros W message cfg ums mars reason cut added g w qs w' outs m q k o what body SF HW HKE HM HMP HQ HS WQ HK HO HI HWR HSE texts text st sees ending HX HT (wire & HFR & ->) HE.
  unfold serve. cbn [pending]. set (st0 := mkSrv _ _ _ _ _ _). assert (HX0 : s_extra st0 = No_header) by (unfold st0; cbn [s_extra]; rewrite HX; reflexivity). clearbody st0.
  destruct (serve_loop_then message cfg ums mars reason cut added g HW 0 w qs w' outs m SF HM (or_introl eq_refl) HQ HS texts (request_head q ++ wire) HT (S (List.length (concat texts ++ request_head q ++ wire))) st0 sees ending [] [] (le_n _))
    as (fuel' & st' & sees' & log' & replies & E & F & L & X). rewrite E.
  destruct fuel' as [|fuel']; [lia|]. cbn [serve_loop].
  destruct (serve_one_broken message cfg ums mars reason cut added g HW st' q k o what w' wire [] sees' ending log' ([] ++ concat replies) body WQ HFR HK HO HI HWR HSE (X HX0)) as (st2 & s2 & t & E2 & RT & CL & _).
  rewrite app_nil_r in E2. rewrite E2. cbn [c_srv]. rewrite CL. replace (negb (f_keep cfg)) with false by (rewrite HKE; reflexivity). cbn [orb].
  destruct (f_max cfg <=? m).
  - eexists _, replies, t. split; [reflexivity|]. split; [reflexivity|]. split; [reflexivity|]. split; [exact F|exact RT].
  - destruct fuel' as [|fuel']; [unfold request_head in L; rewrite !app_length in L; cbn in L; lia|]. cbn [serve_loop].
    destruct (serve_one_idle message cfg ums mars reason cut added g st2 w' s2 ending (log' ++ []) (([] ++ concat replies) ++ t) HE) as (st3 & ->).
    eexists _, replies, t. split; [reflexivity|]. split; [reflexivity|]. split; [reflexivity|]. split; [exact F|exact RT].
Qed.
Print Assumptions C43_body_partial.

(** Hypotheses met: a call, then one cut inside its second parameter. *)
Definition half : bytes := ztake 14 (call_body "echo" [VInt 1; VInt 300]).
Definition qh : request :=
  mkReq (str "/RPC2") true [accept; (str "Content-Type", str "application/x-frpc"); (str "Content-Length", dec (zlen half))] half.
Definition half_fault : bytes := fst (bin_run (mkVer 2 1) [PFault (-503) (c_str (msg_of (StreamError "Stream not complete")))]).
Example C43_body_sample : beginning (mkVer 2 1) (str "echo") [VInt 1; VInt 300] half /\ modern (mkVer 2 1) /\ name_ok (str "echo") /\ Forall (wf (mkVer 2 1)) [VInt 1; VInt 300] /\
  so_far msg_of ten sample_ums (writers no_double) (fun _ => []) app 0 0 [q1] 1 [(true, Out_binary, [], echo_answer)] 1 /\
  well_formed qh /\ request_type qh In_binary /\ answer_type true qh Out_binary /\ request_text qh (request_head qh ++ half) /\
  written (writers no_double Out_binary (mkVer 2 1)) [PFault (-503) (c_str (msg_of (StreamError "Stream not complete")))] half_fault /\
  sendable (true, Out_binary, [], half_fault).
Proof.
  split; [|split; [|split; [|split; [|split; [|split; [|split; [|split; [|split; [|split]]]]]]]]].
  - split; [eexists; vm_compute; reflexivity|]. intros k HK. cbn [List.length] in HK. destruct k as [|[|[|k]]]; [vm_compute; discriminate..|lia].
  - split; cbn; lia.
  - unfold name_ok. cbn. lia.
  - repeat constructor; cbn; unfold in_s64; lia.
  - eapply far_more with (w' := 1) (added := fun _ : Z => []); [apply echo_answers; auto| |constructor].
    split; [reflexivity|]. split; [apply choose_close_spec; vm_compute; reflexivity|reflexivity].
  - split; [apply (echo_well_formed q1); auto|]. split; [|vm_compute; reflexivity]. repeat (constructor; [apply field_okb_ok; vm_compute; reflexivity|]). constructor.
  - exists (str "application/x-frpc"). split; [eapply first_in; vm_compute; reflexivity|]. exists [], (str "application/x-frpc"). eexists. split; [reflexivity|].
    split; [exists [], []; reflexivity|]. split; [constructor|]. split; [reflexivity|discriminate].
  - eapply (type_binary true qh); [eapply first_in; vm_compute; reflexivity|apply contains_spec; vm_compute; reflexivity].
  - exists half. split; [|reflexivity]. eapply framed_length; [eapply first_in; vm_compute; reflexivity|]. replace (zlen _) with 14 by (vm_compute; reflexivity).
    apply (S_Http.dec_more [x31] 1 x34 4); [apply (S_Http.dec_one x31 1)|..]; first [reflexivity|lia].
  - do 2 eexists. split; [vm_compute; reflexivity|vm_compute; reflexivity].
  - split; [discriminate|]. split; [vm_compute; reflexivity|]. split; constructor.
Qed.
Example C43_body_run : let '(c, x) := sample_serve srv_init (mkSock (request_head q1 ++ echo_body ++ request_head qh ++ half ++ request_head q1 ++ echo_body) [] Closed) 0 in
  x = Ok tt /\ c_world c = 2.
Proof. vm_compute. auto. Qed.

(** C52: a client of HTTP/1.0 is sent chunks if its request was broken. *)
Theorem C52_http10_refuted : exists q, well_formed q /\ q_http11 q = false /\ request_text q (request_head q ++ q_body q) /\
  let '(c, x) := sample_serve srv_init (mkSock (request_head q ++ q_body q) [] Closed) 0 in
  x = Ok tt /\ occurs (str "Transfer-Encoding: chunked" ++ crlf) (c_wire c).
Proof.
  exists (mkReq (q_path qh) false (q_fields qh) half). split; [|split; [reflexivity|split]].
  - split; [apply (echo_well_formed q1); auto|]. split; [|vm_compute; reflexivity]. repeat (constructor; [apply field_okb_ok; vm_compute; reflexivity|]). constructor.
  - exists half. split; [|reflexivity]. eapply framed_length; [eapply first_in; vm_compute; reflexivity|]. replace (zlen _) with 14 by (vm_compute; reflexivity).
    apply (S_Http.dec_more [x31] 1 x34 4); [apply (S_Http.dec_one x31 1)|..]; first [reflexivity|lia].
  - set (r := sample_serve _ _ _). vm_compute in r. subst r. cbv iota zeta. split; [reflexivity|]. apply contains_spec. vm_compute. reflexivity.
Qed.
Print Assumptions C52_http10_refuted.
