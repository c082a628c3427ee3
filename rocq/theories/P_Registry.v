(** Properties of dispatching calls: C40, C41, C42, C43 (calls read by the registry), C58, C59. *)
From Coq Require Import Lia.
From Verif Require Import Base Value Text M_Marshal M_BinUnmarshal M_TreeBuilder M_Values M_Base64 M_Json M_Iso M_Url M_Xml M_Registry
  S_Value S_Events S_Wire S_Registry L_Base L_Dup L_Wire L_HttpIO L_Registry L_Registry2 L_Registry3.

(** ** Samples *)
(** An application whose state counts the calls. *)
Definition app_echo : umethod (W:=Z) := fun w ps => (w + 1, match ps with [v] => Ok v | _ => Err LenError end).
Definition app_fail : umethod (W:=Z) := fun w ps => (w + 1, Err (FaultExn 42 (str "no"))).
Definition app_nul : umethod (W:=Z) := fun w ps => (w + 1, Err (FaultExn 42 (x61 :: x00 :: [x62]))).
Definition app_stream : umethod (W:=Z) := fun w ps => (w + 1, Err (StreamError "bad")).
Definition app_http : umethod (W:=Z) := fun w ps => (w + 1, Err (ProtocolError 7)).
Definition app : registry (W:=Z) :=
  with_methods [ (str "echo", mkEntry (User app_echo) (str "S:ib,A:s") (str "Echo"));
                 (str "fail", mkEntry (User app_fail) (str "") (str ""));
                 (str "nul", mkEntry (User app_nul) (str "") (str ""));
                 (str "stream", mkEntry (User app_stream) (str "") (str ""));
                 (str "http", mkEntry (User app_http) (str "") (str "")) ].
Definition msg_of (e : exn) : bytes := match e with TypeError => str "type" | KeyError => str "key" | LenError => str "len" | _ => str "text" end.

Lemma c_str_length s : blen (c_str s) <= blen s.
Proof.
  unfold c_str. induction s as [|c s IH]; [reflexivity|]. cbn [break_at]. destruct (is_char 0 c).
  - cbn [fst]. change (blen []) with 0. apply blen_nonneg.
  - destruct (break_at 0 s) as [a b]. cbn [fst] in *. rewrite !blen_cons. lia.
Qed.
Lemma c_str_small s : small (blen s) -> small (blen (c_str s)).
Proof. pose proof (c_str_length s). pose proof (blen_nonneg (c_str s)). unfold small. lia. Qed.
Lemma printf1_small a s b : small (blen (printf1 a s b)).
Proof. unfold printf1. rewrite blen_ztake by lia. pose proof (blen_nonneg (a ++ c_str s ++ b)). unfold small. lia. Qed.

Lemma bin_written ver cs out : written (bin_ma ver) cs out <-> sent ver cs = Ok out.
Proof.
  unfold written, sent. setoid_rewrite bin_ma_run. destruct (bin_run ver cs) as [o f]. cbn [fst snd ma_flush bin_ma]. split.
  - intros (o1 & s & E & ->). inversion E; subst. rewrite app_nil_r. reflexivity.
  - destruct f as [[e|]|]; intro E; inversion E; subst. exists out, tt. rewrite app_nil_r. auto.
Qed.

Section Registry.
  Context {W : Type}.
  Variable message : exn -> bytes.
  Implicit Types (g : registry (W:=W)) (w : W).

  Lemma process_runs g w name params w' x : method_runs message g w name params w' x ->
    process message g w name params =
    match x with
    | Ok v => (w', [Pre_process name; Post_value name v], Ok v)
    | Err e => (w', [Pre_process name], Err (as_fault message e))
    | UB => (w', [Pre_process name], UB)
    end.
  Proof.
    intros [e HR HC|d HR HD HC]; unfold process.
    - rewrite HR, HC. reflexivity.
    - rewrite HR, HD, HC. reflexivity.
  Qed.
  Lemma runs_method g w name params w' x : runs g w name params w' x -> method_runs message g w name params w' x.
  Proof. intros [f sig help HR HC|d HR HD HC]; [econstructor 1; [exact HR|exact HC]|econstructor 2; eassumption]. Qed.
  Lemma as_fault_documented e code msg : documented message e code msg -> as_fault message e = FaultExn code msg.
  Proof. intros []; reflexivity. Qed.

  Lemma process_yields g w name params w' x : call_yields message g w name params w' x ->
    process message g w name params =
    match x with
    | Ok v => (w', [Pre_process name; Post_value name v], Ok v)
    | Err e => (w', [Pre_process name], Err (as_fault message e))
    | UB => (w', [Pre_process name], UB)
    end.
  Proof.
    intros [H|HR HD -> ->]; [apply process_runs; assumption|]. unfold process. rewrite HR, HD. reflexivity.
  Qed.
  Lemma as_fault_transport e : ~ transport_error e -> ~ transport_error (as_fault message e).
  Proof. intros H (c & HC). apply H. exists c. destruct e; destruct HC as [HC|HC]; cbn in HC; inversion HC; subst; auto. Qed.
  Lemma as_fault_fault e c t : as_fault message e = FaultExn c t -> e = FaultExn c t \/ in_s32 c /\ exists x, t = message x.
  Proof.
    destruct e; cbn; intro H; inversion H; subst; auto; right; (split; [unfold in_s32, FRPC_TYPE_ERROR, FRPC_INDEX_ERROR, FRPC_PARSE_ERROR; lia|eauto]).
  Qed.

  Lemma answer_err m g w name params w' log e : process message g w name params = (w', log, Err e) -> ~ transport_error e ->
    exists log2 code msg, answer message m g w name params = answer_fault m (ma_init m) w' log2 [] code msg /\
      ((exists c t, e = FaultExn c t /\ code = c /\ msg = t) \/
       in_s32 code /\ ((forall x, small (blen (message x))) -> small (blen msg))).
  Proof.
    intros H HT. unfold answer. rewrite H.
    destruct e; cbn [answer_error]; try (elim HT; eexists; eauto; fail);
      (do 3 eexists; split; [reflexivity|]); try (left; eauto; fail);
      right; (split; [unfold in_s32, FRPC_PARSE_ERROR, FRPC_INTERNAL_ERROR; lia|]); intro HM; try apply printf1_small; try apply HM.
    clear. vm_compute. split; congruence.
  Qed.

  (** ** C40 *)
  (** The answer is exactly one response with the value of the method, and the writer is flushed ... *)
  Theorem C40_response_partial : forall m g w name params w' v,
    call_yields message g w name params w' (Ok v) -> accepts_calls m (response_calls v) ->
    let out := answer message m g w name params in
    written m (response_calls v) (o_bytes out) /\ o_world out = w' /\ o_flushed out = true /\ o_end out = Ok tt.
  Proof.
    intros m g w name params w' v H (b & o & s & HR & HB). unfold answer. rewrite (process_yields _ _ _ _ _ _ H), HR. cbn. repeat split. exists o, s. auto.
  Qed.

  (** ... or exactly one fault if the method throws, whatever it throws. *)
  Theorem C40_fault_partial : forall m g w name params w' e,
    call_yields message g w name params w' (Err e) -> ~ transport_error e ->
    exists code msg, no_nul msg /\
    (accepts_calls m [PFault code msg] ->
     let out := answer message m g w name params in
     written m [PFault code msg] (o_bytes out) /\ o_world out = w' /\ o_flushed out = true /\ o_end out = Ok tt).
  Proof.
    intros m g w name params w' e H HT. apply process_yields in H.
    destruct (answer_err m _ _ _ _ _ _ _ H (as_fault_transport _ HT)) as (log2 & code & msg & HA & _). exists code, (c_str msg). split; [apply c_str_no_nul|].
    intros (b & o & s & HR & HB). cbv zeta. rewrite HA. unfold answer_fault. rewrite HR. cbn. repeat split. exists o, s. auto.
  Qed.

  (** For the binary format: the caller receives the value, or a fault. *)
  Theorem C40_binary_partial : forall val ver g w name params w' x,
    modern ver -> (forall e, small (blen (message e))) ->
    call_yields message g w name params w' x ->
    match x with
    | Ok v => wf ver v
    | Err (FaultExn code msg) => in_s32 code /\ small (blen msg)
    | Err e => ~ transport_error e
    | UB => False
    end ->
    let out := answer message (bin_ma ver) g w name params in
    o_world out = w' /\ o_flushed out = true /\ o_end out = Ok tt /\
    forall pieces, concat pieces = o_bytes out ->
      match x with
      | Ok v => received_value val T_METHOD_RESPONSE pieces = Ok (plain (make_datetime val) v)
      | _ => exists code msg, received_value val T_METHOD_RESPONSE pieces = Err (FaultExn code msg)
      end.
  Proof.
    intros val ver g w name params w' x HV HM HY HX. pose proof (process_yields _ _ _ _ _ _ HY) as HP.
    destruct x as [v|e|]; [| |contradiction].
    - destruct (response_wire val T_METHOD_RESPONSE ver HV v HX) as (wire & HS & HR); [right; left; reflexivity|].
      destruct (C40_response_partial (bin_ma ver) _ _ _ _ _ _ HY) as (HW & H1 & H2 & H3); [exists wire; apply bin_written; assumption|].
      repeat split; auto. intros pieces HC. apply HR. apply bin_written in HW. congruence.
    - assert (HT : ~ transport_error e) by (destruct e; try exact HX; intros (c & [HE|HE]); discriminate).
      destruct (answer_err (bin_ma ver) _ _ _ _ _ _ _ HP (as_fault_transport _ HT)) as (log2 & code & msg & HA & HD).
      assert (HB : in_s32 code /\ small (blen msg)).
      { destruct HD as [(c & t & HE & -> & ->)|[HC HS]]; [|auto]. apply as_fault_fault in HE as [HE|[HC (x & ->)]]; [|auto]. subst e. exact HX. }
      destruct HB as [HC HS]. apply c_str_small in HS.
      assert (HF : exists wire code' msg', sent ver [PFault code (c_str msg)] = Ok wire /\
                 forall pieces, concat pieces = wire -> received_value val T_METHOD_RESPONSE pieces = Err (FaultExn code' msg')).
      { destruct (c_str msg) as [|b t] eqn:ET.
        - destruct (empty_fault_wire val T_METHOD_RESPONSE ver HV code HC) as (wire & HW & HR); [right; right; auto|]. exists wire, code. eexists. eauto.
        - destruct (fault_wire val T_METHOD_RESPONSE ver HV code (b :: t) HC HS) as (wire & HW & HR); [discriminate|right; right; auto|]. exists wire, code, (b :: t). auto. }
      destruct HF as (wire & code' & msg' & HW & HR). apply bin_written in HW as (o & s & HRun & HE).
      cbv zeta. rewrite HA. unfold answer_fault. rewrite HRun. cbn [o_world o_flushed o_end o_bytes app]. repeat split; auto.
      intros pieces HP2. exists code', msg'. apply HR. rewrite HP2, HE. reflexivity.
  Qed.

  (** ** C41 *)
  (** A documented exception, with the writer and without. *)
  Theorem C41_documented_partial : forall m g w name params w' e code msg,
    call_yields message g w name params w' (Err e) -> documented message e code msg -> no_nul msg -> accepts_calls m [PFault code msg] ->
    let out := answer message m g w name params in
    written m [PFault code msg] (o_bytes out) /\ o_flushed out = true /\ o_end out = Ok tt.
  Proof.
    intros m g w name params w' e code msg HY HD HN (b & o & s & HR & HB). cbv zeta.
    unfold answer. rewrite (process_yields _ _ _ _ _ _ HY), (as_fault_documented _ _ _ HD). cbn [answer_error].
    unfold answer_fault. rewrite (c_str_same _ HN), HR. cbn. repeat split. exists o, s. auto.
  Qed.
  Theorem C41_documented_value : forall g w name params w' e code msg,
    call_yields message g w name params w' (Err e) -> documented message e code msg ->
    exists log, process message g w name params = (w', log, Err (FaultExn code msg)).
  Proof.
    intros g w name params w' e code msg HY HD. rewrite (process_yields _ _ _ _ _ _ HY), (as_fault_documented _ _ _ HD). eauto.
  Qed.
  (** Other exceptions of the application end as faults with code -500. *)
  Theorem C41_internal : forall m g w name params w' e,
    call_yields message g w name params w' (Err e) -> ~ transport_error e -> (forall code msg, ~ documented message e code msg) ->
    exists msg, accepts_calls m [PFault (-500) msg] ->
    let out := answer message m g w name params in
    written m [PFault (-500) msg] (o_bytes out) /\ o_flushed out = true /\ o_end out = Ok tt.
  Proof.
    intros m g w name params w' e HY HT HD. apply process_yields in HY.
    assert (HA : exists log msg, answer message m g w name params = answer_fault m (ma_init m) w' log [] (-500) msg).
    { unfold answer. rewrite HY. destruct e; cbn [as_fault answer_error]; eauto; try (elim (HD _ _ ltac:(constructor)); fail); elim HT; eexists; eauto. }
    destruct HA as (log & msg & HA). exists (c_str msg). intros (b & o & s & HR & HB). cbv zeta. rewrite HA. unfold answer_fault. rewrite HR.
    cbn. repeat split. exists o, s. auto.
  Qed.
  (** Unknown methods: the default method gets the call, without one there is a fault with code -506. *)
  Theorem C41_unknown : forall g w name params, not_registered g name -> g_default g = None -> no_nul name -> blen name <= 1006 ->
    exists log, process message g w name params = (w, log, Err (FaultExn (-506) (str "Method " ++ name ++ str " not found"))).
  Proof.
    intros g w name params HN HD HU HL.
    assert (HY : call_yields message g w name params w (Err (FaultExn (-506) (ztake 1023 (str "Method " ++ fst (break_at 0 name) ++ str " not found"))))) by (apply yields_unknown; auto).
    destruct (C41_documented_value _ _ _ _ _ _ _ _ HY (doc_fault _ _ _)) as (log & ->). exists log. change (fst (break_at 0 name)) with (c_str name). rewrite (c_str_same _ HU), ztake_all; [reflexivity|].
    rewrite <- blen_zlen, !blen_app. change (blen (str "Method ")) with 7. change (blen (str " not found")) with 10. lia.
  Qed.
  Theorem C41_default : forall g w name params d, not_registered g name -> g_default g = Some d ->
    forall w' v, d w name params = (w', Ok v) -> exists log, process message g w name params = (w', log, Ok v).
  Proof.
    intros g w name params d HN HD w' v HC.
    assert (HY : call_yields message g w name params w' (Ok v)) by (apply yields_method; econstructor 2; eassumption).
    rewrite (process_yields _ _ _ _ _ _ HY). eauto.
  Qed.

  (** What the caller receives, in the binary format. *)
  Theorem C41_binary_partial : forall val ver g w name params w' e code msg,
    modern ver -> call_yields message g w name params w' (Err e) -> documented message e code msg ->
    no_nul msg -> msg <> [] -> small (blen msg) -> in_s32 code ->
    forall pieces, concat pieces = o_bytes (answer message (bin_ma ver) g w name params) ->
      received_value val T_METHOD_RESPONSE pieces = Err (FaultExn code msg).
  Proof.
    intros val ver g w name params w' e code msg HV HY HD HN HE HS HC pieces HP.
    destruct (fault_wire val T_METHOD_RESPONSE ver HV code msg HC HS HE) as (wire & HW & HR); [right; right; auto|]. apply HR.
    destruct (C41_documented_partial (bin_ma ver) _ _ _ _ _ _ _ _ HY HD HN) as (HO & _); [exists wire; apply bin_written; assumption|].
    apply bin_written in HO. congruence.
  Qed.

  (** ** C42 *)
  (** The results are what each entry shows, in order, each entry running after the ones before it. *)
  Theorem C42_entries_partial : forall g w es w' vs sig help,
    registered g (str "system.multicall") (mkEntry Multicall sig help) -> all_show message g w es w' vs ->
    exists log, process message g w (str "system.multicall") [VArray es] = (w', log, Ok (VArray vs)).
  Proof.
    intros g w es w' vs sig help HR HA. eexists. unfold process. rewrite HR. cbn [e_handler]. rewrite call_multicall, multicall_array, (all_show_loop _ _ _ _ _ _ HA). reflexivity.
  Qed.
  (** They exist whenever the methods of the application return values or throw documented exceptions other than stream
      errors. *)
  Theorem C42_total_partial : forall g w es, 
    (forall name w1 ps w2 x, runs g w1 name ps w2 x -> exists v, shown message x v) ->
    exists w' vs, all_show message g w es w' vs /\ zlen vs = zlen es.
  Proof.
    intros g w es HC. destruct (all_total message g (methods_contained message g HC) es w) as (w' & vs & HA). exists w', vs. split; [assumption|].
    clear HC. induction HA; [reflexivity|]. unfold zlen in *. cbn [length]. lia.
  Qed.

  (** ** C58 *)
  (** Around every call answered as in C40 the callbacks are invoked once before and once after, with what is answered. *)
  Theorem C58_value_partial : forall m g w name params w' v,
    call_yields message g w name params w' (Ok v) -> accepts_calls m (response_calls v) ->
    o_log (answer message m g w name params) = [Pre_process name; Post_value name v].
  Proof.
    intros m g w name params w' v HY (b & o & s & HR & HB). unfold answer. rewrite (process_yields _ _ _ _ _ _ HY), HR. reflexivity.
  Qed.
  Theorem C58_fault_partial : forall m g w name params w' e code msg,
    call_yields message g w name params w' (Err e) -> documented message e code msg ->
    o_log (answer message m g w name params) = [Pre_process name; Post_fault name code msg].
  Proof.
    intros m g w name params w' e code msg HY HD. unfold answer. rewrite (process_yields _ _ _ _ _ _ HY), (as_fault_documented _ _ _ HD). cbn [answer_error].
    unfold answer_fault. destruct (ma_run m _ _) as [[o s] [[x|]|]]; reflexivity.
  Qed.
  Theorem C58_internal_partial : forall m g w name params w' e,
    call_yields message g w name params w' (Err e) -> ~ transport_error e -> (forall code msg, ~ documented message e code msg) ->
    exists msg, o_log (answer message m g w name params) = [Pre_process name; Post_fault name (-500) msg].
  Proof.
    intros m g w name params w' e HY HT HD. apply process_yields in HY.
    assert (HA : exists msg, answer message m g w name params = answer_fault m (ma_init m) w' [Pre_process name; Post_fault name (-500) msg] [] (-500) msg).
    { unfold answer. rewrite HY. destruct e; cbn [as_fault answer_error app]; try (eexists; reflexivity); try (elim (HD _ _ ltac:(constructor)); fail); elim HT; eexists; eauto. }
    destruct HA as (msg & ->). exists msg. unfold answer_fault. destruct (ma_run m _ _) as [[o s] [[x|]|]]; reflexivity.
  Qed.

  (** ** C59 *)
  (** The list of methods: every name once, sorted; with no other parameters. *)
  Theorem C59_list : forall regs w, ~ In (str "system.listMethods") (map fst regs) ->
    exists log names, process message (with_methods (W:=W) regs) w (str "system.listMethods") [] = (w, log, Ok (VArray (map VString names))) /\
      (forall name, In name names <-> In name (map fst system_methods) \/ In name (map fst regs)) /\
      increasing (map (fun n => (n, tt)) names).
  Proof.
    intros regs w HN.
    pose proof (builtin_registered regs (str "system.listMethods") _ (or_introl eq_refl) HN) as HR. red in HR.
    exists [Pre_process (str "system.listMethods"); Post_value (str "system.listMethods") (VArray (map VString (map fst (g_methods (with_methods regs)))))],
      (map fst (g_methods (with_methods regs))). unfold process. rewrite HR. cbn [e_handler]. unfold call_registered. cbn [call_method list_methods].
    rewrite map_map. split; [reflexivity|]. split; [apply names_complete|].
    pose proof (names_with regs) as HI. clear HR. induction (g_methods (with_methods regs)) as [|[k e] l IH]; [exact I|]. destruct HI as [H1 H2]. cbn [map fst]. split; [|auto].
    intros k' x H. apply in_map_iff in H as (n & HE & H). inversion HE; subst. apply in_map_iff in H as ([k2 e2] & <- & H). eapply H1. exact H.
  Qed.
  (** Help texts and signatures are those of the last registration. *)
  Theorem C59_help : forall regs w name sig help, ~ In (str "system.methodHelp") (map fst regs) -> described regs name sig help ->
    exists log, process message (with_methods (W:=W) regs) w (str "system.methodHelp") [VString name] = (w, log, Ok (VString help)).
  Proof.
    intros regs w name sig help HN HD. apply described_get in HD as (h & HD). red in HD.
    pose proof (builtin_registered regs (str "system.methodHelp") _ (or_intror (or_introl eq_refl)) HN) as HR. red in HR.
    eexists. unfold process. rewrite HR. cbn [e_handler]. unfold call_registered. cbn [call_method]. unfold method_help.
    assert (HA : asked (with_methods regs) [VString name] = Ok (mkEntry h sig help)) by (unfold asked; cbn; rewrite HD; reflexivity). rewrite HA. reflexivity.
  Qed.
  Theorem C59_signature : forall regs w name sig help parts words, ~ In (str "system.methodSignature") (map fst regs) -> described regs name sig help ->
    comma_parts sig parts -> Forall2 letter_words parts words ->
    exists log, process message (with_methods (W:=W) regs) w (str "system.methodSignature") [VString name]
                = (w, log, Ok (VArray (map (fun ws => VArray (map VString ws)) words))).
  Proof.
    intros regs w name sig help parts words HN HD HP HW. apply described_get in HD as (h & HD). red in HD.
    pose proof (builtin_registered regs (str "system.methodSignature") _ (or_intror (or_intror (or_introl eq_refl))) HN) as HR. red in HR.
    eexists. unfold process. rewrite HR. cbn [e_handler]. unfold call_registered. cbn [call_method]. unfold method_signature.
    assert (HA : asked (with_methods regs) [VString name] = Ok (mkEntry h sig help)) by (unfold asked; cbn; rewrite HD; reflexivity). rewrite HA.
    cbn [bind e_signature]. rewrite (signature_parts _ _ HP _ HW). reflexivity.
  Qed.
  (** Every signature has such parts and words. *)
  Theorem C59_signature_total : forall sig, exists parts words, comma_parts sig parts /\ Forall2 letter_words parts words.
  Proof.
    intro sig. destruct (parts_total sig) as (parts & HP). exists parts. assert (HW : exists words, Forall2 letter_words parts words).
    { clear HP. induction parts as [|p parts (words & IH)]; [eexists; constructor|]. destruct (words_total p) as (w & HW). exists (w :: words). constructor; assumption. }
    destruct HW as (words & HW). exists words. auto.
  Qed.
  (** Names that were never registered. *)
  Theorem C59_unknown : forall regs w name, ~ In (str "system.methodHelp") (map fst regs) ->
    ~ In name (map fst system_methods) -> ~ In name (map fst regs) ->
    exists log msg, process message (with_methods (W:=W) regs) w (str "system.methodHelp") [VString name] = (w, log, Err (FaultExn (-506) msg)).
  Proof.
    intros regs w name HN H1 H2.
    pose proof (builtin_registered regs (str "system.methodHelp") _ (or_intror (or_introl eq_refl)) HN) as HR. red in HR.
    assert (HG : map_get name (g_methods (with_methods regs)) = None).
    { destruct (map_get name (g_methods (with_methods regs))) eqn:E; [|reflexivity]. exfalso.
      assert (HI : In name (map fst (g_methods (with_methods regs)))) by (apply get_key; congruence). apply names_complete in HI. tauto. }
    eexists. eexists. unfold process. rewrite HR. cbn [e_handler]. unfold call_registered. cbn [call_method]. unfold method_help.
    assert (HA : asked (with_methods regs) [VString name] = Err (not_found name)) by (unfold asked; cbn; rewrite HG; reflexivity). rewrite HA. reflexivity.
  Qed.
End Registry.
Print Assumptions C40_response_partial.
Print Assumptions C40_fault_partial.
Print Assumptions C40_binary_partial.
Print Assumptions C41_documented_partial.
Print Assumptions C41_documented_value.
Print Assumptions C41_internal.
Print Assumptions C41_unknown.
Print Assumptions C41_default.
Print Assumptions C41_binary_partial.
Print Assumptions C42_entries_partial.
Print Assumptions C42_total_partial.
Print Assumptions C58_value_partial.
Print Assumptions C58_fault_partial.
Print Assumptions C58_internal_partial.
Print Assumptions C59_list.
Print Assumptions C59_help.
Print Assumptions C59_signature.
Print Assumptions C59_signature_total.
Print Assumptions C59_unknown.

(** ** Refuted parts and examples *)
(** C40: a value the marshaller refuses half-way leaves the beginning of a response before the fault; the caller gets
    neither.  Here protocol 2.0 has no null. *)
Theorem C40_refused_value_refuted : exists g w name params w' v,
  call_yields msg_of (W:=Z) g w name params w' (Ok v) /\
  let out := answer msg_of (bin_ma (mkVer 2 0)) g w name params in
  o_flushed out = true /\ o_end out = Ok tt /\ received_value None T_METHOD_RESPONSE [o_bytes out] = Err (StreamError "Unknown value type").
Proof.
  exists app, 0, (str "echo"), [VArray [VInt 1; VNull]], 1, (VArray [VInt 1; VNull]). split; [|vm_compute; auto].
  apply yields_method. econstructor 1 with (e := mkEntry (User app_echo) (str "S:ib,A:s") (str "Echo")); vm_compute; reflexivity.
Qed.
(** A method that throws an error of the transport, such as one calling another server, leaves the call unanswered. *)
Theorem C40_transport_error_refuted : exists g w name params w' e,
  call_yields msg_of (W:=Z) g w name params w' (Err e) /\
  forall m, o_bytes (answer msg_of m g w name params) = [] /\ o_end (answer msg_of m g w name params) = Err e.
Proof.
  exists app, 0, (str "http"), [], 1, (ProtocolError 7). split; [|intro m; vm_compute; auto].
  apply yields_method. econstructor 1 with (e := mkEntry (User app_http) (str "") (str "")); vm_compute; reflexivity.
Qed.
Example C40_sample : call_yields msg_of app 0 (str "echo") [VInt 5] 1 (Ok (VInt 5)) /\
  received_value None T_METHOD_RESPONSE [o_bytes (answer msg_of (bin_ma (mkVer 2 1)) app 0 (str "echo") [VInt 5])] = Ok (VInt 5).
Proof.
  split; [|vm_compute; reflexivity]. apply yields_method. econstructor 1 with (e := mkEntry (User app_echo) (str "S:ib,A:s") (str "Echo")); vm_compute; reflexivity.
Qed.

(** C41: a NUL cuts the message. *)
Theorem C41_nul_refuted : exists g w name params w' code msg,
  call_yields msg_of (W:=Z) g w name params w' (Err (FaultExn code msg)) /\
  received_value None T_METHOD_RESPONSE [o_bytes (answer msg_of (bin_ma (mkVer 2 1)) g w name params)] <> Err (FaultExn code msg).
Proof.
  exists app, 0, (str "nul"), [], 1, 42, (x61 :: x00 :: [x62]). split; [|vm_compute; discriminate].
  apply yields_method. econstructor 1 with (e := mkEntry (User app_nul) (str "") (str "")); vm_compute; reflexivity.
Qed.
Example C41_sample : received_value None T_METHOD_RESPONSE [o_bytes (answer msg_of (bin_ma (mkVer 3 0)) app 0 (str "fail") [])] = Err (FaultExn 42 (str "no"))
  /\ received_value None T_METHOD_RESPONSE [o_bytes (answer msg_of (bin_ma (mkVer 3 0)) app 0 (str "echo") [])] = Err (FaultExn (-501) (str "len"))
  /\ received_value None T_METHOD_RESPONSE [o_bytes (answer msg_of (bin_ma (mkVer 3 0)) app 0 (str "other") [])] = Err (FaultExn (-506) (str "Method other not found")).
Proof. vm_compute. auto. Qed.

(** C42: an entry whose method throws a stream error takes the results of all others with it. *)
Definition multi (name : bytes) (params : list value) : value := VStruct [(str "methodName", VString name); (str "params", VArray params)].
Theorem C42_stream_error_refuted : exists g w es w' log msg,
  process msg_of (W:=Z) g w (str "system.multicall") [VArray es] = (w', log, Err (FaultExn (-503) msg)) /\
  In (multi (str "echo") [VInt 1]) es.
Proof.
  exists app, 0, [multi (str "echo") [VInt 1]; multi (str "stream") []; multi (str "echo") [VInt 2]], 2, [Pre_process (str "system.multicall")], (str "text").
  split; [vm_compute; reflexivity|left; reflexivity].
Qed.
(** Nested multicalls, failures and malformed entries. *)
Example C42_sample : process msg_of app 0 (str "system.multicall")
    [VArray [multi (str "echo") [VInt 1]; multi (str "fail") []; VInt 3; VStruct []; multi (str "system.multicall") [VArray [multi (str "echo") [VInt 2]; multi (str "none") []]]]]
  = (3, [Pre_process (str "system.multicall");
         Post_value (str "system.multicall")
          (VArray [VInt 1; fault_value 42 (str "no"); fault_value (-501) (str "Parameter must be struct"); fault_value (-502) (str "key");
                   VArray [VInt 2; fault_value (-506) (str "Method none not found")]])],
     Ok (VArray [VInt 1; fault_value 42 (str "no"); fault_value (-501) (str "Parameter must be struct"); fault_value (-502) (str "key");
                 VArray [VInt 2; fault_value (-506) (str "Method none not found")]])).
Proof. vm_compute. reflexivity. Qed.

(** C43: the registry's own reading of calls does not ask whether the call is complete; a method runs with what arrived
    of its parameter. *)
Theorem C43_reader_refuted : exists g w wire n w' log,
  sent (mkVer 2 1) (call_calls (str "echo") [VArray [VInt 1; VInt 2]]) = Ok wire /\ n < blen wire /\
  process_read msg_of (W:=Z) (bin_um None T_METHOD_CALL) g w [ztake n wire] = (w', log, Ok (VArray [VInt 1])) /\ w' <> w.
Proof.
  exists app, 0. eexists. exists 15, 1. eexists. split; [vm_compute; reflexivity|]. split; [vm_compute; reflexivity|].
  split; [vm_compute; reflexivity|discriminate].
Qed.

(** C58: the callbacks are told twice that the call ended, or never. *)
Theorem C58_twice_refuted : exists g w name params v code msg,
  o_log (answer msg_of (W:=Z) (bin_ma (mkVer 2 0)) g w name params) = [Pre_process name; Post_value name v; Post_fault name code msg].
Proof. exists app, 0, (str "echo"), [VNull], VNull, (-503), (str "text"). vm_compute. reflexivity. Qed.
Theorem C58_never_refuted : exists g w name params,
  o_log (answer msg_of (W:=Z) (bin_ma (mkVer 2 1)) g w name params) = [Pre_process name].
Proof. exists app, 0, (str "http"), []. vm_compute. reflexivity. Qed.
Example C58_sample : o_log (answer msg_of (bin_ma (mkVer 2 1)) app 0 (str "fail") []) = [Pre_process (str "fail"); Post_fault (str "fail") 42 (str "no")].
Proof. vm_compute. reflexivity. Qed.

Example C59_sample :
  process msg_of app 0 (str "system.listMethods") [] =
    (0, [Pre_process (str "system.listMethods");
         Post_value (str "system.listMethods") (VArray (map VString [str "echo"; str "fail"; str "http"; str "nul"; str "stream"; str "system.listMethods"; str "system.methodHelp"; str "system.methodSignature"; str "system.multicall"]))],
     Ok (VArray (map VString [str "echo"; str "fail"; str "http"; str "nul"; str "stream"; str "system.listMethods"; str "system.methodHelp"; str "system.methodSignature"; str "system.multicall"])))
  /\ snd (process msg_of app 0 (str "system.methodSignature") [VString (str "echo")])
     = Ok (VArray [VArray (map VString [str "struct"; str "int"; str "bool"]); VArray (map VString [str "array"; str "string"])])
  /\ snd (process msg_of app 0 (str "system.methodHelp") [VString (str "echo")]) = Ok (VString (str "Echo")).
Proof. vm_compute. auto. Qed.
Example C59_described : described (W:=Z) [(str "f", mkEntry (User app_fail) (str "a") (str "b")); (str "f", mkEntry (User app_echo) (str "i:s") (str "help"))] (str "f") (str "i:s") (str "help").
Proof. exists (system_methods ++ [(str "f", (str "a", str "b"))]), []. split; [reflexivity|intros []]. Qed.
