(** Lemmas for calls from client to server. *)
From Coq Require Import Lia Arith.
From Verif Require Import Base Value Text M_Marshal M_BinUnmarshal M_TreeBuilder M_Base64 M_Iso M_Url M_Http M_HttpIO M_HttpWriter M_Registry M_Server M_Client
  S_Value S_Wire S_Http S_Registry S_Server S_Client S_EndToEnd L_Base L_Text L_UrlText L_BinUnmarshal L_RoundTrip L_TreeBuilder L_Message L_Wire L_Call
  L_Http L_HttpIO L_HttpIO2 L_HttpIO3 L_HttpIO4 L_HttpIO5 L_HttpWriter L_Registry L_Server L_Server2 L_Server3 L_Client L_Client2 L_Client3 P_HttpIO P_Registry.

(** The client's reading of a response body. *)
Lemma response_replies : forall val ver v, modern ver -> wf ver v ->
  exists wire, sent ver (response_calls v) = Ok wire /\ replies (bin_um val T_METHOD_RESPONSE) wire ver (Ok (plain (make_datetime val) v)).
Proof.
  intros val ver v HM HW. pose proof (modern_legal ver HM) as HL. destruct (builds_root val ver v tb_init HW eq_refl eq_refl eq_refl) as [m ER].
  destruct (response_decodes tb (tb_step val) T_METHOD_RESPONSE ver HL HM v tb_init tb_init _ [] HW ltac:(right; left; reflexivity) eq_refl ER) as [Q1 Q2].
  unfold sent. destruct (bin_run ver (response_calls v)) as [o f]. cbn [fst snd] in *. subst f. exists o. split; [reflexivity|].
  intros pieces [EC _]. change (um_init (bin_um val T_METHOD_RESPONSE)) with (unm_init, tb_init). rewrite bin_um_all.
  erewrite all_of_lbig; [|exact EC| |exact Q2]; [|apply idle_cinv; lia]. do 2 eexists. repeat split; reflexivity.
Qed.
Lemma fault_replies : forall val ver code msg, modern ver -> in_s32 code -> small (blen msg) -> msg <> [] ->
  exists wire, sent ver [PFault code msg] = Ok wire /\ replies (bin_um val T_METHOD_RESPONSE) wire ver (Err (FaultExn code msg)).
Proof.
  intros val ver code msg HM HC HS HN. pose proof (modern_legal ver HM) as HL.
  destruct (fault_decodes tb (tb_step val) T_METHOD_RESPONSE ver HL HM code msg tb_init _ [] HC HS ltac:(right; right; auto) eq_refl) as [Q1 Q2].
  unfold sent. destruct (bin_run ver [PFault code msg]) as [o f]. cbn [fst snd] in *. subst f. exists o. split; [reflexivity|].
  intros pieces [EC _]. change (um_init (bin_um val T_METHOD_RESPONSE)) with (unm_init, tb_init). rewrite bin_um_all.
  erewrite all_of_lbig; [|exact EC| |exact Q2]; [|apply idle_cinv; lia]. do 2 eexists. repeat split; try reflexivity.
  cbn. destruct msg; [congruence|reflexivity].
Qed.
Lemma num_short : forall v tag t n, (List.length (pack_num v tag t n) <= 9)%nat.
Proof.
  intros. unfold pack_num. cbn [List.length]. rewrite le_bytes_length.
  assert (0 <= get_number_size v (get_number_type v t) <= 8); [|lia].
  unfold get_number_size, get_number_type. destruct (v_major v <? 2); repeat (match goal with |- context [if ?b then _ else _] => destruct b end); lia.
Qed.
Lemma int_short : forall v n, (List.length (pack_int v n) <= 9)%nat.
Proof. intros. unfold pack_int. repeat (match goal with |- context [if ?b then _ else _] => destruct b end); apply num_short. Qed.
Lemma fault_short : forall ver code msg wire, small (blen msg) -> sent ver [PFault code msg] = Ok wire -> zlen wire < 2 ^ 32.
Proof.
  intros ver code msg wire HS H. unfold sent in H. cbn [bin_run bin_pack] in H. inversion H; subst. rewrite app_nil_r. unfold pack_string.
  pose proof (int_short ver code). pose proof (num_short ver T_STRING (Z.of_nat (List.length msg)) (Z.of_nat (List.length msg))).
  unfold small, blen, zlen, bytes in *. cbn [List.length]. rewrite !app_length. lia.
Qed.
Lemma call_decodes_to : forall val ver name ps, modern ver -> name_ok name -> Forall (wf ver) ps ->
  exists wire, sent ver (call_calls name ps) = Ok wire /\ S_Server.decodes (bin_um val T_METHOD_CALL) wire ver name (map (plain (make_datetime val)) ps).
Proof.
  intros val ver name ps HM HN HP. destruct (bin_um_call val ver name ps HM HN HP) as (wire & HS & HR). exists wire. split; [exact HS|].
  intros pieces [HC _]. destruct (HR pieces HC) as (s & H1 & H2 & H3 & H4 & H5 & H6). exists s, s. split; [exact H1|]. split; [|auto].
  destruct (um_finish (bin_um val T_METHOD_CALL) s) as [s' x]. cbn [fst snd] in *. congruence.
Qed.

(** A response of the server as the client reads it. *)
Definition out_of (binary : bool) : out_type := if binary then Out_binary else Out_xml.
Lemma response_complete : forall sb v b keep extra body t ending, response_text sb v (out_of b) keep extra body t -> zlen body < 2 ^ 63 ->
  exists r, complete r ending [] t /\ response_ok r /\ response_type r b /\ p_body r = body /\ (keep = true -> stays_open r) /\
    forall before after, advertises r before after -> after = (true, sb).
Proof.
  intros sb v0 b keep extra body t ending (fields & wire & -> & HF & HFR & HT & HC & (accept & HA & HA1 & HA2) & _) HB.
  exists (mkResp true (str "OK") fields body). split; [|split; [|split; [|split; [|split]]]].
  - rewrite <- (app_nil_r wire). replace (str "HTTP/1.1 200 OK" ++ crlf ++ flat_map field_text fields ++ crlf ++ wire ++ []) with
      (response_head (mkResp true (str "OK") fields body) ++ wire ++ []).
    + constructor. exact HFR.
    + unfold response_head. cbn [p_http11 p_reason p_fields]. rewrite <- !app_assoc. reflexivity.
  - split; [|split; [|split; [|split]]]; cbn [p_reason p_fields p_body]; try assumption; try discriminate.
    intro X. cbn in X. destruct X as [X|[X|[]]]; discriminate.
  - eexists. split; [exact HT|]. destruct b; [split; [exists [], []; reflexivity|]|exists [], []; reflexivity].
    intro X. apply contains_spec in X. vm_compute in X. discriminate.
  - reflexivity.
  - intros ->. unfold stays_open, keeps_open. cbn [q_http11 q_fields p_http11 p_fields]. intros v HV. pose proof (first_value_unique _ _ _ _ HV HC). subst v.
    intro X. apply upper_name in X. discriminate.
  - cbn [p_fields]. intros before [ax ab] [[HN _]|(a & HV & X1 & X2)]; cbn [p_fields] in *.
    + exfalso. destruct HA as (f1 & n & f2 & -> & HSN & _). unfold no_value in HN. rewrite Forall_app in HN. destruct HN as [_ HN].
      inversion HN as [|? ? HX _]; subst. exact (HX HSN).
    + pose proof (first_value_unique _ _ _ _ HV HA). subst a. cbn [fst snd] in *. f_equal.
      * apply X1. exact HA1.
      * destruct ab, sb; try reflexivity; [symmetry; apply HA2, X2; reflexivity|apply X2, HA2; reflexivity].
Qed.

(** Sending over a patient network. *)
Lemma send_good : forall watch data tries, Forall (fun t => exists k, t = Try_ready false (Some k) false /\ 1 <= k) tries ->
  (List.length data <= List.length tries)%nat -> send_data watch data tries = (data, Sent_all).
Proof.
  intros watch data tries HT HL.
  assert (H : exists o, send_data watch data tries = (o, Sent_all)).
  { unfold send_data. destruct data as [|c data]; [eauto|].
    assert (HG : forall tries data, Forall (fun t => exists k, t = Try_ready false (Some k) false /\ 1 <= k) tries ->
               (List.length data <= List.length tries)%nat -> data <> [] -> exists o, send_loop watch data tries = (o, Sent_all)).
    { clear. induction tries as [|t tries IH]; intros data HT HL HD; [destruct data; [congruence|cbn in HL; lia]|].
      inversion HT as [|? ? (n & -> & HN) HT2]; subst. cbn [send_loop]. rewrite andb_false_r. pose proof (blen_pos _ HD).
      set (m := Z.max 0 (Z.min n (Z.min HTTP_BUFF_LENGTH (blen data)))).
      assert (HM : 1 <= m <= blen data) by (unfold m, HTTP_BUFF_LENGTH; lia).
      replace (m =? 0) with false by (symmetry; apply Z.eqb_neq; lia). destruct (Z.eqb_spec (blen data - m) 0); [eauto|].
      destruct (IH (zdrop m data) HT2) as (o & E).
      - unfold zdrop, blen, bytes in *. rewrite skipn_length. cbn [List.length] in HL. lia.
      - intro E. apply (f_equal blen) in E. unfold zdrop, blen, bytes in *. rewrite skipn_length in E. cbn in E. lia.
      - rewrite E. eauto. }
    apply HG; [assumption|assumption|discriminate]. }
  destruct H as (o & H). destruct (C36_send _ _ _ _ _ H) as [_ HE]. rewrite (HE eq_refl) in H. exact H.
Qed.
Lemma send_pieces_good : forall pieces K tries, (List.length pieces <= List.length tries)%nat ->
  Forall (fun ts => (K <= List.length ts)%nat /\ Forall (fun t => exists k, t = Try_ready false (Some k) false /\ 1 <= k) ts) tries ->
  Forall (fun pd => (List.length (snd pd) <= K)%nat) pieces -> send_pieces pieces tries = (concat (map snd pieces), Sent_all).
Proof.
  induction pieces as [|[w d] pieces IH]; intros K tries HL HT HP; [reflexivity|]. destruct tries as [|ts tries]; [cbn in HL; lia|].
  inversion HT as [|? ? [T1 T2] T3]; subst. inversion HP; subst. cbn [send_pieces hd tl map concat snd] in *. rewrite send_good; [|assumption|lia].
  rewrite (IH K); [reflexivity|cbn in HL; lia|assumption|assumption].
Qed.
Lemma patient_less : forall K K' n, patient K' n -> (K <= K')%nat -> patient K n.
Proof.
  intros K K' n (A & B & C) HL. split; [assumption|]. split; [lia|]. eapply Forall_impl; [|exact C]. intros ts [X Y]. split; [lia|assumption].
Qed.

Section Good.
  Variable ums : bool -> unmarshaller.
  Variable mars : bool -> version -> marshaller.
  Variable cut : bytes -> list bytes.
  Variable callback : list (bytes * bytes).
  Hypothesis CUT : forall b, concat (cut b) = b.
  Notation call := (call ums mars cut callback).

  Lemma call_good : forall k body, exists K, forall p n name params ex,
    call_client callback p (use_binary p) = k -> written (mars (use_binary p) (a_version (x_conf p))) (call_calls (c_str name) params) body ->
    v_major (a_version (x_conf p)) <= 3 -> clean p -> patient K n -> answered_by ums n ex ->
    exists p' es t, call p n name params = (p', es, Returned (Ok (map as_read (p_fields (e_response ex)), t))) /\
      sends es = [client_head k (u32 (blen body)) ++ body] /\ tb_data t = e_value ex /\ clean p' /\
      x_url p' = x_url p /\ x_conf p' = with_version (e_version ex) (x_conf p) /\ x_headers p' = x_headers p /\ x_once p' = [] /\
      (a_keep (x_conf p) = true -> stays_open (e_response ex) -> x_fd p' = Some []).
  Proof.
    intros k body.
    destruct (plain_inv (client_head k) (cut body) (mkWr [] [] false false 0 []) eq_refl eq_refl eq_refl eq_refl) as (A & B & C & D & F).
    set (w := fold_left _ _ _) in *. cbn [w_front w_back concat app] in D. rewrite CUT in D. rewrite D in F.
    set (pieces := to_send (client_head k (w_total w)) (w_front w) (w_back w)). assert (HT : concat (map snd pieces) = client_head k (u32 (blen body)) ++ body).
    { unfold pieces. rewrite to_send_text, D, F. reflexivity. }
    exists (List.length pieces + list_max (map (fun pd => List.length (snd pd)) pieces))%nat. intros p n name params ex HK HW HV HC HP HA.
    destruct (call p n name params) as [[p' es] e] eqn:E. pose proof E as E2. unfold M_Client.call in E2.
    replace (3 <? v_major (a_version (x_conf p))) with false in E2 by (symmetry; apply Z.ltb_ge; lia).
    destruct HW as (o & s & HR & HB). rewrite HR in E2. rewrite HK, <- HB in E2. fold w in E2. fold pieces in E2.
    destruct HP as (P1 & P2 & P3).
    assert (EC : exists es1, connect_socket (a_keep (x_conf p)) n (x_fd p) = (Some [], es1, Ok tt)).
    { unfold connect_socket. rewrite P1. destruct HC as [->| ->]; [eauto|]. destruct (a_keep (x_conf p)), (n_peek n); cbn; eauto. }
    destruct EC as (es1 & EC). rewrite EC in E2.
    assert (SP : send_pieces pieces (n_tries n) = (client_head k (u32 (blen body)) ++ body, Sent_all)).
    { rewrite <- HT. apply (send_pieces_good pieces (list_max (map (fun pd => List.length (snd pd)) pieces))).
      - eapply Nat.le_trans; [apply Nat.le_add_r|exact P2].
      - eapply Forall_impl; [|exact P3]. intros ts [X Y]. split; [eapply Nat.le_trans; [|exact X]; rewrite Nat.add_comm; apply Nat.le_add_r|assumption].
      - pose proof (proj1 (list_max_le (map (fun pd : bool * bytes => List.length (snd pd)) pieces) _) (le_n _)) as HX. rewrite Forall_map in HX. exact HX. }
    rewrite SP in E2. cbv zeta beta iota in E2. change ([] ++ pending (n_arrives n)) with (pending (n_arrives n)) in E2.
    destruct HA as (A1 & A2 & A3 & A4).
    destruct (read_response_good ums (a_keep (x_conf p)) (mkCl P_XML (mkVer 2 1) false Held_none) _ _ _ _ _ _ _ (M_HttpIO.sees (n_arrives n)) A1 A2 A3 ltac:(discriminate) A4)
      as (c' & fd' & t & R1 & R2 & R3 & R4 & R5 & R6 & R7 & R8 & R9).
    rewrite R1 in E2. inversion E2; subst p' es e. exists (mkProxy (x_url p) (with_version (l_version c') (x_conf p)) (l_protocols c') (x_headers p) [] (option_map pending fd')).
    eexists. exists t. split; [reflexivity|]. apply connect_spec in EC as (S1 & _). split.
    { rewrite !sends_app, S1. destruct fd'; reflexivity. }
    split; [exact R2|]. split; [unfold clean; cbn; destruct R8 as [->|(v & ->)]; [left|right]; reflexivity|]. cbn [x_url x_conf x_headers x_once x_fd]. rewrite R3.
    do 4 (split; [reflexivity|]). intros HKA HST. destruct R8 as [->|(v & ->)]; [|reflexivity]. exfalso. apply R9; auto.
  Qed.
End Good.

Lemma as_array_calls : forall (calls : list (bytes * list value)) nets, List.length nets = List.length calls -> forall n name params,
  make_calls (n :: nets) ((name, params) :: calls) = Do_call n name params :: make_calls nets calls.
Proof. reflexivity. Qed.

Section Session.
  Context {W : Type}.
  Variable message : exn -> bytes.
  Variable cfg : config.
  Variable sums : in_type -> unmarshaller.
  Variable smars : out_type -> version -> marshaller.
  Variable added : W -> list (bytes * bytes).
  Variable g : registry (W:=W).
  Variable cums : bool -> unmarshaller.
  Variable cmars : bool -> version -> marshaller.
  Variable cut : bytes -> list bytes.
  Variable callback : list (bytes * bytes).
  Variable val : option mktime_t.
  Variable u : url.
  Variable c : pconf.
  Notation ver := (a_version c).
  Variable hs : list (bytes * bytes).
  Variable carried : value -> Prop.
  Variable legible : bytes -> Prop.
  Variable fits : list mcall -> Prop.
  (** Formats of requests that occur. *)
  Variable occurring : bool -> Prop.
  Hypothesis CUT : forall b, concat (cut b) = b.
  Hypothesis VER : v_major ver <= 3.
  Hypothesis REQUEST : forall b name params, occurring b -> name_ok name -> legible name -> Forall carried params -> fits (call_calls name params) ->
    exists body, written (cmars b ver) (call_calls name params) body /\ zlen body < 2 ^ 32 /\
      S_Server.decodes (sums (if b then In_binary else In_xml)) body ver name (map (plain (make_datetime val)) params).
  Hypothesis RESPONSE : forall v, carried v -> fits (response_calls v) ->
    exists reply, written (smars (out_of (f_binary cfg)) ver) (response_calls v) reply /\ zlen reply < 2 ^ 32 /\ reply <> [] /\
      replies (cums (f_binary cfg)) reply ver (Ok (plain (make_datetime val) v)).
  Hypothesis FAULT : forall code msg, in_s32 code -> small (blen msg) -> msg <> [] -> legible msg -> fits [PFault code msg] ->
    exists reply, written (smars (out_of (f_binary cfg)) ver) [PFault code msg] reply /\ zlen reply < 2 ^ 32 /\ reply <> [] /\
      replies (cums (f_binary cfg)) reply ver (Err (FaultExn code msg)).
  Hypothesis KEEP : f_keep cfg = true /\ a_keep c = true.
  Hypothesis URL : url_fine u.
  Hypothesis ADDED : forall w, Forall field_ok (added w) /\ no_value (str "Content-Length") (added w).
  (** The format of the requests after an answer of this server. *)
  Definition next_format : bool :=
    if a_mode c =? ON_SUPPORT then f_binary cfg else if a_mode c =? NEVER then false else if a_mode c =? ALWAYS then true else false.
  Hypothesis NEXT : occurring next_format.
  Notation connection := (connection message cfg sums smars added g).
  Notation executed := (executed message val g carried legible fits).

  Definition caller (p : proxy) (once : list (bytes * bytes)) : Prop := x_url p = u /\ x_conf p = c /\ x_headers p = hs /\ x_once p = once /\ clean p.
  Definition the_client (b : bool) (once : list (bytes * bytes)) : client := mkClient u (a_http10 c) b false (a_keep c) (hs ++ once ++ callback).
  Lemma caller_client : forall p once, caller p once -> call_client callback p (use_binary p) = the_client (use_binary p) once.
  Proof. intros p once HC. destruct HC as (A & B & C & D & _). unfold call_client, the_client. rewrite A, B, C, D. reflexivity. Qed.
  Lemma next_use : forall p once, caller p once -> formats_of (x_protocols p) = (true, f_binary cfg) -> use_binary p = next_format.
  Proof.
    intros p once (_ & E & _) HF. unfold formats_of in HF. apply pair_equal_spec in HF as [H1 H2]. unfold use_binary, next_format. rewrite E.
    change P_BINARY with 2. rewrite land_two. rewrite H2. destruct (a_mode c =? ON_SUPPORT); [reflexivity|]. destruct (a_mode c =? NEVER); [reflexivity|].
    destruct (a_mode c =? ALWAYS); [reflexivity|]. replace (Z.land (x_protocols p) P_XML =? P_XML) with true; [reflexivity|]. symmetry. apply Z.eqb_eq.
    unfold P_XML. apply Z.bits_inj'. intros n HN. rewrite Z.land_spec. destruct (Z.eq_dec n 0) as [->|NE]; [rewrite H1; reflexivity|].
    change 1 with (2 ^ 0). rewrite Z.pow2_bits_false by lia. apply andb_false_r.
  Qed.

  Lemma answer_of_call : forall b w name params w1 x y once body, occurring b ->
    S_Server.decodes (sums (if b then In_binary else In_xml)) body ver name (map (plain (make_datetime val)) params) ->
    call_yields message g w name (map (plain (make_datetime val)) params) w1 x -> caller_gets message val carried legible fits x y ->
    exists reply, answers message cfg sums smars g w (call_req (the_client b once) body) w1 (out_of (f_binary cfg)) reply /\ zlen reply < 2 ^ 32 /\ reply <> [] /\
      replies (cums (f_binary cfg)) reply ver y.
  Proof.
    intros b w name params w1 x y once body HO HD HY HG.
    assert (HRT : request_type (call_req (the_client b once) body) (if b then In_binary else In_xml)).
    { eexists. split; [exact (asks_type _ _ _ _ _ _ (call_req_asks (the_client b once) c body eq_refl eq_refl eq_refl))|]. cbn [k_binary the_client]. destruct b.
      - exists [], (str "application/x-frpc"), (tl types). repeat split; [|constructor|discriminate]. exists [], []. reflexivity.
      - exists [str "application/x-frpc"], (str "text/xml"), (tl (tl types)). repeat split; [| |discriminate].
        + exists [], []. reflexivity.
        + constructor; [|constructor]. intro X. apply contains_spec in X. vm_compute in X. discriminate. }
    assert (HAT : answer_type (f_binary cfg) (call_req (the_client b once) body) (out_of (f_binary cfg))).
    { eapply type_binary.
      - exact (asks_accept _ _ _ _ _ _ (call_req_asks (the_client b once) c body eq_refl eq_refl eq_refl)).
      - exists (str "text/xml, "), []. reflexivity. }
    destruct HG as [v HW HFI|e code msg HDO HNU HNE HSM HCO HLE HFI].
    - destruct (RESPONSE v HW HFI) as (reply & HR & HZ & HN & HRR). exists reply. split; [|split; [|split]]; auto. eapply answers_value; eauto.
    - destruct (FAULT code msg HCO HSM HNE HLE HFI) as (reply & HR & HZ & HN & HRR). exists reply. split; [|split; [|split]]; auto. eapply answers_fault; eauto.
  Qed.

  Lemma session : forall w calls w' ys, executed w calls w' ys ->
    forall n once b, occurring b -> Forall field_ok (hs ++ once ++ callback) -> Forall field_ok (hs ++ callback) -> 0 <= n -> n + zlen calls <= f_max cfg ->
    exists qs texts outs, connection n w qs w' outs [] /\ Forall well_formed qs /\ Forall S_Server.sendable outs /\ Forall2 request_text qs texts /\
      forall answers, Forall2 (fun a t => let '(v, o, extra, body) := a in response_text (f_binary cfg) v o (f_keep cfg) extra body t) outs answers ->
      List.length answers = List.length calls /\
      exists K, forall p nets, caller p once -> use_binary p = b -> Forall2 (fun m t => patient K m /\ pending (n_arrives m) = t) nets answers ->
      exists p' results, after cums cmars cut callback p (make_calls nets calls) = (p', results) /\
        Forall2 (fun r t => sends (fst r) = [t]) results texts /\
        Forall2 (fun r y => exists h t, snd r = Returned (Ok (h, t)) /\ tb_data t = y) results ys.
  Proof.
    intros w calls w' ys HE. induction HE as [w|w name params w1 x y calls w2 ys HN HU HL HP HFI HY HG HE IH]; intros n once b HO HF HF2 H0 HM.
    - exists [], [], []. split; [constructor|]. do 3 (split; [constructor|]). intros ans HA. inversion HA; subst. split; [reflexivity|]. exists O. intros p nets HC HB HT.
      inversion HT; subst. exists p, []. repeat split; constructor.
    - destruct (REQUEST b name params HO HN HL HP HFI) as (body & HS & HB & HD).
      destruct (answer_of_call b w name params w1 x y once body HO HD HY HG) as (reply & HA & HR1 & HR2 & HR3).
      set (q := call_req (the_client b once) body) in *.
      assert (WQ : well_formed q) by (apply call_req_well_formed; [exact URL|exact HF|lia|reflexivity]).
      assert (SO : S_Server.sendable (q_http11 q, out_of (f_binary cfg), added w1, reply)) by (destruct (ADDED w1); repeat split; assumption).
      assert (TX : request_text q (client_head (the_client b once) (u32 (blen body)) ++ body)) by (apply call_req_text; [reflexivity|exact HB]).
      assert (KO : keeps_open q).
      { pose proof (asks_connection _ _ _ _ _ _ (call_req_asks (the_client b once) c body eq_refl eq_refl eq_refl)) as HCN. fold q in HCN. rewrite (proj2 KEEP) in HCN.
        unfold keeps_open. destruct (q_http11 q).
        - intros v HV. pose proof (first_value_unique _ _ _ _ HV HCN). subst v. intro X. apply upper_name in X. discriminate.
        - exists (str "keep-alive"). split; [exact HCN|reflexivity]. }
      assert (HZ : zlen ((name, params) :: calls) = 1 + zlen calls) by (unfold zlen; cbn [List.length]; lia). rewrite HZ in HM.
      (* the calls after this one *)
      assert (REST : exists qs texts outs, (qs = [] /\ outs = [] /\ calls = [] /\ w1 = w2 \/ goes_on cfg (n + 1) q /\ connection (n + 1) w1 qs w2 outs []) /\ Forall well_formed qs /\ Forall S_Server.sendable outs /\ Forall2 request_text qs texts /\
        forall answers, Forall2 (fun a t => let '(v, o, extra, body) := a in response_text (f_binary cfg) v o (f_keep cfg) extra body t) outs answers ->
        List.length answers = List.length calls /\
        exists K, forall p nets, caller p [] -> use_binary p = next_format -> Forall2 (fun m t => patient K m /\ pending (n_arrives m) = t) nets answers ->
        exists p' results, after cums cmars cut callback p (make_calls nets calls) = (p', results) /\
          Forall2 (fun r t => sends (fst r) = [t]) results texts /\
          Forall2 (fun r y => exists h t, snd r = Returned (Ok (h, t)) /\ tb_data t = y) results ys).
      { assert (0 <= zlen calls) by (unfold zlen; lia). destruct (Z_lt_dec (n + 1) (f_max cfg)) as [L|L].
        - destruct (IH (n + 1) [] next_format NEXT HF2 HF2 ltac:(lia) ltac:(lia)) as (qs & texts & outs & C1 & C2). exists qs, texts, outs. split; [right; split; [|exact C1]|exact C2].
          split; [apply KEEP|]. split; [exact KO|exact L].
        - assert (calls = []) by (destruct calls; [reflexivity|unfold zlen in *; cbn [List.length] in *; lia]). subst calls. inversion HE; subst.
          exists [], [], []. split; [left; auto|]. do 3 (split; [constructor|]). intros ans HAN. inversion HAN; subst. split; [reflexivity|]. exists O. intros p nets HC HB2 HT.
          inversion HT; subst. exists p, []. repeat split; constructor. }
      destruct REST as (qs & texts & outs & HCO & HWQ & HSO & HTX & HRE).
      exists (q :: qs), ((client_head (the_client b once) (u32 (blen body)) ++ body) :: texts), ((q_http11 q, out_of (f_binary cfg), added w1, reply) :: outs).
      split; [|split; [constructor; assumption|split; [constructor; assumption|split; [constructor; assumption|]]]].
      { destruct HCO as [(-> & -> & -> & ->)|(GO & HCO)].
        - destruct (Z_lt_dec (n + 1) (f_max cfg)) as [L|L].
          + eapply connection_more; [exact HA|split; [apply KEEP|split; [exact KO|exact L]]|constructor].
          + apply connection_last; [exact HA|]. intros (_ & _ & X). lia.
        - eapply connection_more; eassumption. }
      intros ans HAN. inversion HAN as [|a1 t1 outs1 ans1 HT1 HAN1]; subst. destruct (HRE _ HAN1) as (HLEN & K2 & HK2). split; [cbn [List.length]; congruence|].
      destruct (call_good cums cmars cut callback CUT (the_client b once) body) as (K1 & HK1). exists (Nat.max K1 K2). intros p nets HCA HUB HNE.
      inversion HNE as [|m t nets1 ans2 [HPA HPE] HNE1]; subst. unfold make_calls. cbn [combine map fst snd]. fold (make_calls nets1 calls). cbn [after].
      pose proof HCA as (CA1 & CA2 & CA3 & CA4 & CA5).
      destruct (response_complete (f_binary cfg) (q_http11 q) (f_binary cfg) (f_keep cfg) (added w1) reply (pending (n_arrives m)) (fin (n_arrives m)) HT1 ltac:(lia)) as (r & R1 & R2 & R3 & R4 & R5 & R6).
      assert (ANS : answered_by cums m (mkEx r (f_binary cfg) (a_version c) y)).
      { repeat split; cbn [e_response e_binary e_version e_value]; try assumption; try apply R2. rewrite R4. exact HR3. }
      destruct (HK1 p m name params (mkEx r (f_binary cfg) (a_version c) y)) as (p1 & es & t & E1 & E2 & E3 & E4 & E5 & E6 & E7 & E8 & E9).
      + exact (caller_client _ _ HCA).
      + rewrite CA2, (c_str_same _ HU). exact HS.
      + rewrite CA2. exact VER.
      + exact CA5.
      + eapply patient_less; [exact HPA|lia].
      + exact ANS.
      + rewrite E1. assert (CA : caller p1 []).
        { split; [congruence|]. split; [|split; [congruence|split; [exact E8|exact E4]]]. cbn [e_version] in E6. rewrite E6, CA2. destruct c; reflexivity. }
        destruct (call_own cums cmars cut callback CUT _ _ _ _ _ _ _ _ E1 CA5 (fun _ => ANS)) as (_ & OWN). destruct (OWN _ eq_refl) as (_ & _ & _ & _ & ADV & _).
        destruct (HK2 p1 nets1) as (p2 & results & F1 & F2 & F3).
        * exact CA.
        * apply (next_use _ _ CA). exact (R6 _ _ ADV).
        * clear - HNE1. induction HNE1 as [|a b l l2 [X Y] HNE1 IH]; constructor; [|exact IH]. split; [eapply patient_less; [exact X|lia]|exact Y].
        * rewrite F1. exists p2, ((es, Returned (Ok (map as_read (p_fields r), t))) :: results). split; [reflexivity|]. split; constructor; cbn [fst snd]; auto. exists (map as_read (p_fields r)), t. auto.
  Qed.
End Session.
