(** Properties of calls from a client to a server over connections: C57. *)
From Coq Require Import Lia.
From Verif Require Import Base Value Text M_Marshal M_BinUnmarshal M_TreeBuilder M_Base64 M_Json M_Xml M_Url M_Http M_HttpIO M_HttpWriter M_Registry M_Server M_Client
  M_Iso M_XmlUm S_Value S_Http S_Events S_Wire S_Xml S_XmlUm S_Registry S_Server S_Client S_EndToEnd L_Base L_Http L_Text L_Xml L_Xml2 L_XmlUm L_XmlParser L_Server5 L_Client2 L_Client3 L_EndToEnd P_Registry P_Server P_Client.

(** ** C57 *)
(** Calls made one after another through a proxy that uses the binary format and keeps its connection.  There are texts,
    the requests sent, such that a server that gets them, cut by the network in any way, executes the calls, each once and in
    order, and sends answers; and a client whose calls get these answers, cut in any way, over a network that takes
    enough bytes, sends exactly these texts and gets the value or fault of every call. *)
Theorem C57_session_partial : forall W message cfg xml url fin reason scut (added : W -> list (bytes * bytes)) g val cxml cut callback p w calls w' ys,
  executed message val g (wf (a_version (x_conf p))) binary_text (binary_fits (a_version (x_conf p))) w calls w' ys ->
  modern (a_version (x_conf p)) -> a_mode (x_conf p) = ALWAYS -> a_keep (x_conf p) = true -> x_fd p = None -> url_fine (x_url p) ->
  Forall field_ok (x_headers p ++ x_once p ++ callback) ->
  f_binary cfg = true -> f_keep cfg = true -> zlen calls <= f_max cfg < 2 ^ 32 ->
  (forall w, Forall field_ok (added w) /\ no_value (str "Content-Length") (added w)) -> writes_well scut -> writes_all cut ->
  exists texts, forall st sees ending, ending = Closed \/ ending = TimedOut ->
  exists conn answers rounds,
    serve message cfg (formats val xml url) (writers fin) reason scut added g st (mkSock (concat texts) sees ending) w = (conn, Ok tt) /\
    c_world conn = w' /\ c_wire conn = concat answers /\ List.length answers = List.length calls /\
    forall nets, Forall2 (fun n a => patient rounds n /\ pending (n_arrives n) = a) nets answers ->
    exists p' results, after (client_formats val cxml) (client_writers fin) cut callback p (make_calls nets calls) = (p', results) /\
      Forall2 (fun r t => sends (fst r) = [t]) results texts /\
      Forall2 (fun r y => exists h t, snd r = Returned (Ok (h, t)) /\ tb_data t = y) results ys.
Proof.
  intros W message cfg xml url fin reason scut added g val cxml cut callback p w calls w' ys HE HV HMO HKE HFD HURL HFI HB HK HM HAD HSC HC.
  set (ver := a_version (x_conf p)) in *.
  assert (HF2 : Forall field_ok (x_headers p ++ callback)).
  { apply Forall_app in HFI as [F1 F2]. apply Forall_app in F2 as [_ F2]. apply Forall_app. auto. }
  assert (NE : forall reply y, replies (client_formats val cxml true) reply ver y -> reply <> []).
  { intros reply y HR ->. destruct (HR []) as (s & s' & X & Y & _); [split; [reflexivity|constructor]|]. cbn in X. inversion X; subst. cbn in Y. discriminate. }
  destruct (session message cfg (formats val xml url) (writers fin) added g (client_formats val cxml) (client_writers fin) cut callback val (x_url p) (x_conf p) (x_headers p)
              (wf ver) binary_text (binary_fits ver) (fun b => b = true)) with (w := w) (calls := calls) (w' := w') (ys := ys) (n := 0) (once := x_once p) (b := use_binary p)
    as (qs & texts & outs & HCO & HWF & HSE & HTX & HCL); try assumption; try lia.
  { destruct HV. unfold ver in *. lia. }
  { intros b name params -> HN _ HP HF. destruct (call_decodes_to val ver name params HV HN HP) as (body & HS & HD). exists body. split; [apply bin_written; exact HS|]. split; [exact (HF _ HS)|exact HD]. }
  { rewrite HB. intros v HW HF. destruct (response_replies val ver v HV HW) as (reply & HR & HRR). exists reply. split; [apply bin_written; exact HR|]. split; [exact (HF _ HR)|]. split; [exact (NE _ _ HRR)|exact HRR]. }
  { rewrite HB. intros code msg HCO HS HN _ HF. destruct (fault_replies val ver code msg HV HCO HS HN) as (reply & HR & HRR). exists reply. split; [apply bin_written; exact HR|]. split; [exact (HF _ HR)|]. split; [exact (NE _ _ HRR)|exact HRR]. }
  { auto. }
  { unfold next_format. rewrite HMO. reflexivity. }
  { unfold use_binary. rewrite HMO. reflexivity. }
  exists texts. intros st sees ending HEN.
  destruct (C52_connection _ message cfg (formats val xml url) (writers fin) reason scut added g w qs w' outs [] HCO HSC ltac:(lia) HWF HSE texts st sees ending HTX HEN)
    as (conn & answers & before & after_ & S1 & S2 & S3 & S4 & _).
  destruct (HCL _ S4) as (HLEN & K & HK2). exists conn, answers, K. repeat split; auto. intros nets HN.
  apply HK2; [|reflexivity|exact HN]. repeat split; auto. left. exact HFD.
Qed.
Print Assumptions C57_session_partial.

(** The same for every transfer mode of the proxy, whether the server answers in binary or in XML, for version 2.1 and
    values and texts both formats carry: the requests may be in different formats, as the proxy learns what the server
    takes. *)
Theorem C57_formats_partial : forall W message cfg sP cP url fin strtod reason scut (added : W -> list (bytes * bytes)) g mk cut callback p w calls w' ys,
  executed message (Some mk) g (both_carry fin strtod) xml_text (both_fit fin) w calls w' ys ->
  faithful sP -> faithful cP ->
  a_version (x_conf p) = mkVer 2 1 -> a_keep (x_conf p) = true -> x_fd p = None -> url_fine (x_url p) ->
  Forall field_ok (x_headers p ++ x_once p ++ callback) ->
  f_keep cfg = true -> zlen calls <= f_max cfg < 2 ^ 32 ->
  (forall w, Forall field_ok (added w) /\ no_value (str "Content-Length") (added w)) -> writes_well scut -> writes_all cut ->
  exists texts, forall st sees ending, ending = Closed \/ ending = TimedOut ->
  exists conn answers rounds,
    serve message cfg (formats (Some mk) (xml_um sP strtod false (Some mk) T_METHOD_CALL) url) (writers fin) reason scut added g st
      (mkSock (concat texts) sees ending) w = (conn, Ok tt) /\
    c_world conn = w' /\ c_wire conn = concat answers /\ List.length answers = List.length calls /\
    forall nets, Forall2 (fun n a => patient rounds n /\ pending (n_arrives n) = a) nets answers ->
    exists p' results, after (client_formats (Some mk) (xml_um cP strtod false (Some mk) T_METHOD_RESPONSE)) (client_writers fin) cut callback p (make_calls nets calls)
                         = (p', results) /\
      Forall2 (fun r t => sends (fst r) = [t]) results texts /\
      Forall2 (fun r y => exists h t, snd r = Returned (Ok (h, t)) /\ tb_data t = y) results ys.
Proof.
  intros W message cfg sP cP url fin strtod reason scut added g mk cut callback p w calls w' ys HE HSP HCP HV HKE HFD HURL HFI HK HM HAD HSC HC.
  set (sxml := xml_um sP strtod false (Some mk) T_METHOD_CALL). set (cxml := xml_um cP strtod false (Some mk) T_METHOD_RESPONSE).
  assert (HF2 : Forall field_ok (x_headers p ++ callback)).
  { apply Forall_app in HFI as [F1 F2]. apply Forall_app in F2 as [_ F2]. apply Forall_app. auto. }
  assert (HMV : modern (mkVer 2 1)) by (split; cbn; lia).
  assert (NE : forall reply y, replies (client_formats (Some mk) cxml true) reply (mkVer 2 1) y -> reply <> []).
  { intros reply y HR ->. destruct (HR []) as (s & s' & X & Y & _); [split; [reflexivity|constructor]|]. cbn in X. inversion X; subst. cbn in Y. discriminate. }
  destruct (session message cfg (formats (Some mk) sxml url) (writers fin) added g (client_formats (Some mk) cxml) (client_writers fin) cut callback (Some mk) (x_url p) (x_conf p) (x_headers p)
              (both_carry fin strtod) xml_text (both_fit fin) (fun _ => True)) with (w := w) (calls := calls) (w' := w') (ys := ys) (n := 0) (once := x_once p) (b := use_binary p)
    as (qs & texts & outs & HCO & HWF & HSE & HTX & HCL); try assumption; try lia; try exact I; try (rewrite HV).
  { cbn. lia. }
  { intros b name params _ HN HT HP HF. destruct b.
    - destruct (call_decodes_to (Some mk) (mkVer 2 1) name params HMV HN) as (body & HS & HD); [eapply Forall_impl; [|exact HP]; intros v X; apply X|].
      exists body. split; [apply bin_written; exact HS|]. split; [exact (proj1 HF _ HS)|exact HD].
    - destruct (xml_decodes sP fin strtod (Some mk) name params HSP HN HT) as (body & HS & HD); [eapply Forall_impl; [|exact HP]; intros v X; apply X|].
      exists body. split; [apply xml_written; [cbn; lia|exact HS]|]. split; [exact (proj2 HF _ HS)|exact HD]. }
  { intros v (HW1 & HW2 & HW3) HF. destruct (f_binary cfg).
    - destruct (response_replies (Some mk) (mkVer 2 1) v HMV HW1) as (reply & HR & HRR). exists reply. split; [apply bin_written; exact HR|]. split; [exact (proj1 HF _ HR)|].
      split; [exact (NE _ _ HRR)|exact HRR].
    - destruct (xml_replies cP fin strtod (Some mk) v HCP HW2 HW3) as (reply & HR & HNE & HRR). exists reply. split; [apply xml_written; [cbn; lia|exact HR]|]. split; [exact (proj2 HF _ HR)|].
      split; [exact HNE|exact HRR]. }
  { intros code msg HCO HS HN HT HF. destruct (f_binary cfg).
    - destruct (fault_replies (Some mk) (mkVer 2 1) code msg HMV HCO HS HN) as (reply & HR & HRR). exists reply. split; [apply bin_written; exact HR|]. split; [exact (proj1 HF _ HR)|].
      split; [exact (NE _ _ HRR)|exact HRR].
    - destruct (xml_fault_replies cP fin strtod (Some mk) code msg HCP HCO HT HN) as (reply & HR & HNE & HRR). exists reply. split; [apply xml_written; [cbn; lia|exact HR]|]. split; [exact (proj2 HF _ HR)|].
      split; [exact HNE|exact HRR]. }
  { auto. }
  exists texts. intros st sees ending HEN.
  destruct (C52_connection _ message cfg (formats (Some mk) sxml url) (writers fin) reason scut added g w qs w' outs [] HCO HSC ltac:(lia) HWF HSE texts st sees ending HTX HEN)
    as (conn & answers & before & after_ & S1 & S2 & S3 & S4 & _).
  destruct (HCL _ S4) as (HLEN & K & HK2). exists conn, answers, K. repeat split; auto. intros nets HN.
  apply HK2; [|reflexivity|exact HN]. repeat split; auto. left. exact HFD.
Qed.
Print Assumptions C57_formats_partial.

(** Two calls of the sample application, the second ending with a fault, and a run of them. *)
Definition sample_calls : list (bytes * list value) := [(str "echo", [VInt 7]); (str "nothing", [])].
Ltac small_text := let X := fresh in intro X; vm_compute in X; repeat (destruct X as [X|X]; [discriminate|]); exact X.
Ltac short_text := intros wire H; vm_compute in H; inversion H; vm_compute; reflexivity.
Lemma sample_executed : forall val (carried : value -> Prop) (legible : bytes -> Prop) (fits : list mcall -> Prop),
  carried (VInt 7) -> legible (str "echo") -> legible (str "nothing") -> legible (str "Method nothing not found") ->
  fits (call_calls (str "echo") [VInt 7]) -> fits (response_calls (VInt 7)) -> fits (call_calls (str "nothing") []) -> fits [PFault (-506) (str "Method nothing not found")] ->
  executed msg_of val app carried legible fits 0 sample_calls 1 [Ok (VInt 7); Err (FaultExn (-506) (str "Method nothing not found"))].
Proof.
  intros val carried legible fits C L1 L2 L3 F1 F2 F3 F4. eapply executed_call with (x := Ok (VInt 7)); auto.
  - vm_compute. split; discriminate.
  - small_text.
  - constructor. econstructor 1; [vm_compute; reflexivity|reflexivity].
  - apply (gets_value msg_of val carried legible fits (VInt 7)); assumption.
  - eapply executed_call; auto.
    + vm_compute. split; discriminate.
    + small_text.
    + apply yields_unknown; [vm_compute; reflexivity|reflexivity|reflexivity|reflexivity].
    + apply (gets_fault msg_of val carried legible fits); auto.
      * constructor.
      * small_text.
      * discriminate.
      * vm_compute. split; [discriminate|reflexivity].
      * unfold in_s32. lia.
    + constructor.
Qed.
Example C57_session_sample : exists w' ys, executed msg_of None app (wf (mkVer 2 1)) binary_text (binary_fits (mkVer 2 1)) 0 sample_calls w' ys /\ List.length ys = 2%nat.
Proof.
  do 2 eexists. split; [apply sample_executed|reflexivity]; try exact I; try short_text; try reflexivity. repeat constructor; cbn; lia.
Qed.
Definition no_number (s : bytes) : option Z := None.
Definition at_zero : mktime_t := fun _ _ _ _ _ _ => (0, 4).
Example C57_formats_sample : exists w' ys,
  executed msg_of (Some at_zero) app (both_carry no_double no_number) xml_text (both_fit no_double) 0 sample_calls w' ys /\ List.length ys = 2%nat.
Proof.
  assert (T : forall s, forallb asc s = true -> xml_text s) by (intros s H; split; [apply asc_chars; exact H|apply asc_no_cr; exact H]).
  do 2 eexists. split; [apply sample_executed|reflexivity]; try (apply T; reflexivity); try (split; short_text); try reflexivity.
  split; [repeat constructor; cbn; lia|]. split; [cbn; lia|exact I].
Qed.
Definition sample_proxy : proxy := new_proxy here (pconf_of ALWAYS).
Example C57_sample_config : modern (a_version (x_conf sample_proxy)) /\ x_fd sample_proxy = None /\ url_fine (x_url sample_proxy) /\ Forall field_ok (x_headers sample_proxy ++ x_once sample_proxy ++ []).
Proof.
  split; [split; cbn; lia|]. split; [reflexivity|]. split; [|constructor]. split; [|cbn; lia]. intros _. split; apply L_Client.word_dec; try discriminate; reflexivity.
Qed.
Example C57_run :
  let texts := flat_map (fun c => flat_map (fun o => sends (fst o)) (snd (sample_after sample_proxy [Do_call (good_net []) (fst c) (snd c)]))) sample_calls in
  let '(conn, x) := sample_serve srv_init (mkSock (concat texts) [7; 1; 30] TimedOut) 0 in
  x = Ok tt /\ c_world conn = 1 /\
  let '(p, outs) := sample_after sample_proxy [Do_call (good_net (c_wire conn)) (str "echo") [VInt 7]; Do_call (good_net []) (str "nothing") []] in
  map (fun o => res_of (snd o)) outs = [Ok (VInt 7); Err (FaultExn (-506) (str "Method nothing not found"))].
Proof. vm_compute. auto. Qed.

(** The same with a proxy that starts with XML and goes on in binary, as the server takes it. *)
Definition mixed_ums : in_type -> unmarshaller := formats (Some at_zero) (xml_um at_once no_number false (Some at_zero) T_METHOD_CALL) (url_um no_strtod false (Some at_zero)).
Definition mixed_serve (s : sock) := serve msg_of ten mixed_ums (writers no_double) no_reason by_bytes (fun _ => []) app srv_init s 0.
Definition mixed_after (p : proxy) (ds : list deed) :=
  after (client_formats (Some at_zero) (xml_um at_once no_number false (Some at_zero) T_METHOD_RESPONSE)) (client_writers no_double) by_bytes [] p ds.
Example C57_formats_run :
  let p := new_proxy here (pconf_of ON_SUPPORT) in
  let text p name params := flat_map (fun o => sends (fst o)) (snd (mixed_after p [Do_call (good_net []) name params])) in
  let first := text p (str "echo") [VInt 7] in
  let second := text (mkProxy here (pconf_of ON_SUPPORT) 3 [] [] None) (str "nothing") [] in
  let '(conn, x) := mixed_serve (mkSock (concat (first ++ second)) [7; 1; 30] TimedOut) in
  x = Ok tt /\ c_world conn = 1 /\ occurs (str "Content-Type: text/xml") (concat first) /\ occurs (str "Content-Type: application/x-frpc") (concat second) /\
  let '(p, outs) := mixed_after p [Do_call (good_net (c_wire conn)) (str "echo") [VInt 7]; Do_call (good_net []) (str "nothing") []] in
  map (fun o => sends (fst o)) outs = [first; second] /\
  map (fun o => res_of (snd o)) outs = [Ok (VInt 7); Err (FaultExn (-506) (str "Method nothing not found"))].
Proof.
  cbv zeta. match goal with |- let '(_, _) := ?a in _ => let v := eval vm_compute in a in change a with v end.
  cbv beta iota. split; [reflexivity|]. split; [reflexivity|]. split; [apply L_Server.contains_spec; vm_compute; reflexivity|].
  split; [apply L_Server.contains_spec; vm_compute; reflexivity|]. vm_compute. auto.
Qed.
