(** The statements about XML messages. *)
From Coq Require Import Lia.
From Verif Require Import Base Value Text M_Marshal M_BinUnmarshal M_TreeBuilder M_Base64 M_Dump M_Json M_Iso M_Url M_Xml
  S_Value S_Events S_Base64 S_Iso S_Xml S_Wire L_Base L_Text L_RoundTrip L_TreeBuilder L_Message L_Wire L_Base64 L_Iso L_Json L_Xml L_Xml2 L_Xml3 L_Xml4 L_Xml5 L_Xml6 L_Inject.
Ltac Zify.zify_post_hook ::= Z.div_mod_to_equations.

(** ** Escaping *)
Lemma xquote_escaped : forall s, xml_escaped (xquote s) s.
Proof.
  induction s as [|c s IH]; [constructor|]. cbn [xquote flat_map]. fold (xquote s). unfold xquote_char, is_char.
  destruct (b2z c =? 60) eqn:E1; [apply Z.eqb_eq in E1; change 60 with (b2z x3c) in E1; apply b2z_inj in E1; subst; exact (esc_entity (str "lt") _ _ _ eq_refl IH)|].
  destruct (b2z c =? 62) eqn:E2; [apply Z.eqb_eq in E2; change 62 with (b2z x3e) in E2; apply b2z_inj in E2; subst; exact (esc_entity (str "gt") _ _ _ eq_refl IH)|].
  destruct (b2z c =? 34) eqn:E3; [apply Z.eqb_eq in E3; change 34 with (b2z x22) in E3; apply b2z_inj in E3; subst; exact (esc_entity (str "quot") _ _ _ eq_refl IH)|].
  destruct (b2z c =? 38) eqn:E4; [apply Z.eqb_eq in E4; change 38 with (b2z x26) in E4; apply b2z_inj in E4; subst; exact (esc_entity (str "amp") _ _ _ eq_refl IH)|].
  cbn [app]. constructor; auto; intro; subst c; discriminate.
Qed.
Lemma entity_name : forall n c, entity n = Some c ->
  n = str "lt" \/ n = str "gt" \/ n = str "quot" \/ n = str "amp" \/ n = str "apos".
Proof.
  intros n c. unfold entity.
  destruct (bytes_eqb n (str "lt")) eqn:E1; [apply bytes_eqb_eq in E1; auto|].
  destruct (bytes_eqb n (str "gt")) eqn:E2; [apply bytes_eqb_eq in E2; auto|].
  destruct (bytes_eqb n (str "quot")) eqn:E3; [apply bytes_eqb_eq in E3; auto|].
  destruct (bytes_eqb n (str "amp")) eqn:E4; [apply bytes_eqb_eq in E4; auto|].
  destruct (bytes_eqb n (str "apos")) eqn:E5; [apply bytes_eqb_eq in E5; tauto|discriminate].
Qed.
Lemma escaped_no_markup : forall t s, xml_escaped t s -> forall c, In c t -> c <> x3c /\ c <> x3e /\ c <> x22.
Proof.
  intros t s H. induction H as [|c t s A1 A2 A3 A4 H IH|n c t s E H IH]; intros x I; [contradiction| |].
  - destruct I as [<-|I]; auto.
  - destruct I as [<-|I]; [repeat split; discriminate|]. apply in_app_or in I. destruct I as [I|[<-|I]]; [|repeat split; discriminate|auto].
    apply entity_name in E. destruct E as [->|[->|[->|[->| ->]]]]; cbn in I;
      repeat (destruct I as [<-|I]; [repeat split; discriminate|]); contradiction.
Qed.
Lemma escaped_fun : forall t s1 s2, xml_escaped t s1 -> xml_escaped t s2 -> s1 = s2.
Proof.
  intros t s1 s2 H. revert s2. induction H as [|c t s A1 A2 A3 A4 H IH|n c t s E H IH]; intros s2 H2.
  - inversion H2. reflexivity.
  - inversion H2; subst; [f_equal; auto|congruence].
  - inversion H2 as [|c' t' s' B1 B2 B3 B4 H'|n' c' t' s' E' H' Q]; subst; [congruence|].
    assert (NN : n = n' /\ t = t').
    { apply entity_name in E. apply entity_name in E'. 
      destruct E as [->|[->|[->|[->| ->]]]]; destruct E' as [->|[->|[->|[->| ->]]]]; cbn in Q; inversion Q; auto. }
    destruct NN; subst. rewrite E in E'. inversion E'; subst. f_equal. auto.
Qed.

(** ** Messages *)
Lemma dbl_exact : forall fin strtod, dbl strtod (show_double fin) = double_exact fin strtod.
Proof. reflexivity. Qed.

Lemma first_sniff : forall ver body chunk batch pieces last, 2 <= v_major ver ->
  delivery (x_magic ver ++ body) ((chunk, batch) :: pieces) last ->
  x_sniff xun_init chunk = (set_vc (learned ver (blen chunk)) false xun_init, None).
Proof.
  intros ver body chunk batch pieces last M (C & N & _). cbn [map concat fst] in C.
  eapply sniff_magic; [exact M|symmetry; exact C|]. apply (N (chunk, batch)). left. reflexivity.
Qed.

Lemma delivery_steps : forall B (bstep : B -> event -> B * option fail) strtod want ver body doc b b' u pieces last,
  2 <= v_major ver -> xml_doc (x_magic ver ++ body) = Some doc -> delivery (x_magic ver ++ body) pieces last ->
  sax_steps bstep strtod false want xun_init b doc = (u, b') -> done u ->
  exists v, x_receive bstep strtod false want b pieces last = (set_vc v false u, b', None)
    /\ v = learned ver (blen (fst (hd ([], []) pieces))).
Proof.
  intros B bstep strtod want ver body doc b b' u pieces last M D DL S [X T].
  pose proof DL as (C & N & (doc' & D' & J) & L1 & L2 & L3). rewrite D in D'. inversion D'; subst doc'.
  destruct pieces as [|[chunk batch] pieces].
  - cbn [map concat] in C. exfalso. unfold x_magic in C. discriminate.
  - eexists. split; [|reflexivity]. apply receive_steps with (w := want); auto; try discriminate.
    + cbn [hd fst]. eapply first_sniff; eauto.
    + intros [n|n|s] I MS; try contradiction. cbn [main_start] in MS. destruct MS as [->|[->| ->]]; auto.
    + rewrite <- steps_join. unfold bytes in *. rewrite J, steps_join. exact S.
Qed.

Lemma welcome_of : forall want ty, want = TYPE_ANY \/ want = ty -> welcome want ty.
Proof. auto. Qed.

Lemma exact_plain : forall fin strtod d, double_exact fin strtod d -> forallb plain_char (show_double fin d) = true.
Proof. intros fin strtod d [_ H]. exact H. Qed.

Lemma xml_response : forall fin strtod val want ver v,
  2 <= v_major ver <= 3 -> xml_wf (double_exact fin strtod) v -> ordered v ->
  want = TYPE_ANY \/ want = T_METHOD_RESPONSE ->
  exists text doc, xml_output fin ver (response_calls v) = Ok text /\ xml_doc text = Some doc /\
  forall pieces last, delivery text pieces last ->
    bind (xml_received val strtod false want pieces last) tb_data = Ok (plain (fun d => make_datetime val (iso_fields d)) v).
Proof.
  intros fin strtod val want ver v M W O WE.
  exists (x_magic ver ++ response_body fin v), (response_doc fin v).
  split; [exact (response_output fin _ ver v M W)|].
  pose proof (response_doc_ok fin _ (exact_plain fin strtod) ver v W) as DOC. split; [exact DOC|].
  intros pieces last DL.
  destruct (xml_root val v tb_init (xml_shape _ v W O) eq_refl eq_refl eq_refl) as [m R].
  destruct (read_response (tb_step val) strtod fin want v tb_init tb_init _ W (welcome_of _ _ WE) eq_refl R) as (u & S & D).
  destruct (delivery_steps _ (tb_step val) strtod want ver _ _ _ _ _ _ _ (proj1 M) DOC DL S D) as (vv & E & _).
  unfold xml_received. rewrite E. reflexivity.
Qed.

Lemma xml_trace : forall fin strtod want ver v,
  2 <= v_major ver <= 3 -> xml_wf (double_exact fin strtod) v -> want = TYPE_ANY \/ want = T_METHOD_RESPONSE ->
  exists text doc, xml_output fin ver (response_calls v) = Ok text /\ xml_doc text = Some doc /\
  forall pieces last, delivery text pieces last ->
    exists u, x_receive record_step strtod false want [] pieces last = (u, EMethodResponse :: map xml_event (events v), None).
Proof.
  intros fin strtod want ver v M W WE.
  exists (x_magic ver ++ response_body fin v), (response_doc fin v).
  split; [exact (response_output fin _ ver v M W)|].
  pose proof (response_doc_ok fin _ (exact_plain fin strtod) ver v W) as DOC. split; [exact DOC|].
  intros pieces last DL.
  assert (RR : forall es b, replay record_step b es = (b ++ es, None)).
  { induction es as [|e es IH]; intro b; cbn [replay record_step]; [rewrite app_nil_r; reflexivity|].
    rewrite IH, <- app_assoc. reflexivity. }
  destruct (read_response record_step strtod fin want v [] _ _ W (welcome_of _ _ WE) eq_refl (RR _ _)) as (u & S & D).
  destruct (delivery_steps _ record_step strtod want ver _ _ _ _ _ _ _ (proj1 M) DOC DL S D) as (vv & E & _).
  eexists. rewrite E. reflexivity.
Qed.

Lemma xml_version : forall fin strtod want ver v chunk batch pieces last text,
  2 <= v_major ver <= 3 -> xml_wf (double_exact fin strtod) v -> want = TYPE_ANY \/ want = T_METHOD_RESPONSE ->
  xml_output fin ver (response_calls v) = Ok text -> delivery text ((chunk, batch) :: pieces) last ->
  exists u b, x_receive record_step strtod false want [] ((chunk, batch) :: pieces) last = (u, b, None) /\
    x_ver u = (if 46 <=? blen chunk then (if (v_major ver =? 2) && (v_minor ver =? 0) then mkVer 2 0 else mkVer 2 1) else mkVer 2 1).
Proof.
  intros fin strtod want ver v chunk batch pieces last text M W WE TX DL.
  rewrite (response_output fin _ ver v M W) in TX. inversion TX; subst text. clear TX.
  pose proof (response_doc_ok fin _ (exact_plain fin strtod) ver v W) as DOC.
  assert (RR : forall es b, replay record_step b es = (b ++ es, None)).
  { induction es as [|e es IH]; intro b; cbn [replay record_step]; [rewrite app_nil_r; reflexivity|].
    rewrite IH, <- app_assoc. reflexivity. }
  destruct (read_response record_step strtod fin want v [] _ _ W (welcome_of _ _ WE) eq_refl (RR _ _)) as (u & S & D).
  destruct (delivery_steps _ record_step strtod want ver _ _ _ _ _ _ _ (proj1 M) DOC DL S D) as (vv & E & V).
  eexists. eexists. split; [exact E|]. cbn [set_vc x_ver]. rewrite V. reflexivity.
Qed.

Lemma xml_like_binary : forall fin strtod mk want ver v wire pieces,
  modern ver -> wf ver v -> xml_wf (double_exact fin strtod) v -> ordered v ->
  want = TYPE_ANY \/ want = T_METHOD_RESPONSE ->
  sent ver (response_calls v) = Ok wire -> concat pieces = wire ->
  exists text doc, xml_output fin ver (response_calls v) = Ok text /\ xml_doc text = Some doc /\
  forall xpieces last, delivery text xpieces last ->
    bind (xml_received (Some mk) strtod false want xpieces last) tb_data = received_value (Some mk) want pieces.
Proof.
  intros fin strtod mk want ver v wire pieces M WF W O WE SN C.
  destruct (response_wire (Some mk) want ver M v WF) as (wire' & S1 & R1); [unfold accepts; tauto|].
  rewrite SN in S1. inversion S1; subst wire'. rewrite (R1 pieces C).
  destruct (xml_response fin strtod (Some mk) want ver v) as (text & doc & T & D & R2); auto.
  { destruct M as [H _]. lia. }
  exists text, doc. split; [exact T|]. split; [exact D|]. intros xp last DL. rewrite (R2 xp last DL). f_equal.
Qed.

Lemma xml_call_ok : forall fin strtod val want ver name params,
  2 <= v_major ver <= 3 -> name_ok name -> xml_text name ->
  Forall (fun v => xml_wf (double_exact fin strtod) v /\ ordered v) params ->
  want = TYPE_ANY \/ want = T_METHOD_CALL ->
  exists text doc, xml_output fin ver (call_calls name params) = Ok text /\ xml_doc text = Some doc /\
  forall pieces last, delivery text pieces last ->
    bind (xml_received val strtod false want pieces last) (fun t => bind (tb_data t) (fun v => Ok (tb_method t, v)))
    = Ok (name, VArray (map (plain (fun d => make_datetime val (iso_fields d))) params)).
Proof.
  intros fin strtod val want ver name params M NK NT F WE.
  assert (FW : Forall (xml_wf (double_exact fin strtod)) params) by (eapply Forall_impl; [|exact F]; intros v [A _]; exact A).
  assert (FS : Forall shape params) by (eapply Forall_impl; [|exact F]; intros v [A B]; exact (xml_shape _ v A B)).
  exists (x_magic ver ++ call_body fin name params), (call_doc fin name params).
  split; [exact (call_output fin _ ver name params M NK FW)|].
  pose proof (call_doc_ok fin _ (exact_plain fin strtod) ver name params NT FW) as DOC. split; [exact DOC|].
  intros pieces last DL.
  destruct (xml_items val params (fst (tb_step val tb_init (EMethodCall name))) [] FS eq_refl) as [m R].
  destruct (read_call (tb_step val) strtod fin want name params tb_init _ _ FW (welcome_of _ _ WE) eq_refl R) as (u & S & D).
  destruct (delivery_steps _ (tb_step val) strtod want ver _ _ _ _ _ _ _ (proj1 M) DOC DL S D) as (vv & E & _).
  unfold xml_received. rewrite E. reflexivity.
Qed.

Lemma xml_fault_ok : forall fin strtod val want ver code msg,
  2 <= v_major ver <= 3 -> in_s32 code -> xml_text msg -> msg <> [] ->
  want = TYPE_ANY \/ want = T_METHOD_RESPONSE ->
  exists text doc, xml_output fin ver [PFault code msg] = Ok text /\ xml_doc text = Some doc /\
  forall pieces last, delivery text pieces last ->
    bind (xml_received val strtod false want pieces last) tb_data = Err (FaultExn code msg).
Proof.
  intros fin strtod val want ver code msg M HC MT NE WE.
  assert (H : - 2 ^ 63 < code < 2 ^ 63) by (unfold in_s32 in HC; lia).
  exists (x_magic ver ++ fault_body fin code msg), (fault_doc fin code msg).
  split; [exact (fault_output fin (double_exact fin strtod) (exact_plain fin strtod) ver code msg M H)|].
  pose proof (fault_doc_ok fin _ (exact_plain fin strtod) ver code msg H MT) as DOC. split; [exact DOC|].
  intros pieces last DL.
  destruct (read_fault (tb_step val) strtod fin want code msg tb_init _ HC MT (welcome_of _ _ WE) eq_refl) as (u & S & D).
  destruct (delivery_steps _ (tb_step val) strtod want ver _ _ _ _ _ _ _ (proj1 M) DOC DL S D) as (vv & E & _).
  unfold xml_received. rewrite E. destruct msg; [congruence|reflexivity].
Qed.

(** ** Balance *)
Definition kind_of_name (n : bytes) : list kind :=
  match get_value_type n with X_STRUCT => [KStruct] | X_ARRAY => [KArray] | _ => [] end.
Definition containers (stk : list bytes) : list kind := flat_map kind_of_name stk.

(** Where a balanced trace ends. *)
Fixpoint bal_run (stk : list kind) (es : list event) : option (list kind) :=
  match es with
  | [] => Some stk
  | EOpenStruct _ :: r => bal_run (KStruct :: stk) r
  | EOpenArray _ :: r => bal_run (KArray :: stk) r
  | ECloseStruct :: r => match stk with KStruct :: stk' => bal_run stk' r | _ => None end
  | ECloseArray :: r => match stk with KArray :: stk' => bal_run stk' r | _ => None end
  | _ :: r => bal_run stk r
  end.
Lemma bal_run_balanced : forall es stk, bal_run stk es <> None -> balanced stk es.
Proof.
  induction es as [|e es IH]; intros stk H; [exact I|]. destruct e; cbn [bal_run balanced] in *; auto;
    destruct stk as [|[|] stk]; auto; congruence.
Qed.
Lemma bal_run_app : forall a b stk, bal_run stk (a ++ b) = match bal_run stk a with Some s => bal_run s b | None => None end.
Proof.
  induction a as [|e a IH]; intros b stk; [reflexivity|]. destruct e; cbn [app bal_run]; auto;
    destruct stk as [|[|] stk]; auto.
Qed.

Section Balance.
  Context {B : Type}.
  Variable bstep : B -> event -> B * option fail.
  Variable strtod : bytes -> option Z.
  Variable erange : bool.
  Variable want : Z.
  Variable allowed : sax -> Prop.
  (** Start tags of a fault either do not come or are refused. *)
  Hypothesis FAULT : forall n, allowed (SStart n) -> get_value_type n = X_FAULT -> want = T_METHOD_CALL.
  Notation tr := (traced bstep).

  Definition binv (stk : list bytes) (u : xun) (s : B * list event) : Prop :=
    match x_exc u with
    | None => bal_run [] (snd s) = Some (containers stk) /\ x_main u <> X_FAULT
    | Some _ => bal_run [] (snd s) <> None
    end.

  (** One builder call. *)
  Lemma emit_trace : forall u s e k, @x_emit (B * list event) tr u s e k =
    match bstep (fst s) e with (b', None) => k (b', snd s ++ [e]) | (b', Some f) => (u, (b', snd s ++ [e]), Some f) end.
  Proof. intros u s e k. unfold x_emit, traced. destruct (bstep (fst s) e) as [b' [f|]]; reflexivity. Qed.

  Definition good (r : xun * (B * list event) * option fail) (stk : list bytes) : Prop :=
    let '(u, s, f) := r in
    x_exc u = None /\
    match f with
    | None => bal_run [] (snd s) = Some (containers stk) /\ x_main u <> X_FAULT
    | Some _ => bal_run [] (snd s) <> None
    end.
  Lemma good_caught : forall r stk, good r stk -> let '(u, s) := x_caught r in binv stk u s.
  Proof.
    intros [[u s] [[e|]|]] stk [X G]; unfold x_caught; [destruct e|..]; unfold binv; cbn [x_set_exc x_exc]; auto. rewrite X. exact G.
  Qed.

  Lemma bal_one : forall es st e, bal_run [] es = Some st -> (match e with EOpenStruct _ | EOpenArray _ | ECloseStruct | ECloseArray => False | _ => True end) ->
    bal_run [] (es ++ [e]) = Some st.
  Proof. intros es st e H N. rewrite bal_run_app, H. destruct e; try contradiction; reflexivity. Qed.

  Lemma cont_none : forall n stk, (get_value_type n = X_STRUCT -> False) -> (get_value_type n = X_ARRAY -> False) -> containers (n :: stk) = containers stk.
  Proof. intros n stk A1 A2. unfold containers. cbn [flat_map]. unfold kind_of_name at 1. destruct (get_value_type n); try reflexivity; exfalso; auto. Qed.

  Lemma response_good : forall u s n stk (k : xun -> B * list event -> xres),
    x_exc u = None -> x_main u <> X_FAULT -> bal_run [] (snd s) = Some (containers stk) ->
    (forall u s, x_exc u = None -> x_main u <> X_FAULT -> bal_run [] (snd s) = Some (containers stk) -> good (k u s) (n :: stk)) ->
    good (x_response tr u s k) (n :: stk).
  Proof.
    intros u s n stk k X M H K. unfold x_response. destruct (xtype_eqb (x_main u) X_METHOD_RESPONSE); [|apply K; auto].
    pose proof (bal_one _ _ EMethodResponse H I) as H1.
    rewrite emit_trace. destruct (bstep (fst s) EMethodResponse) as [b' [f|]].
    - split; [exact X|]. cbn [snd]. rewrite H1. discriminate.
    - apply K; [exact X|discriminate|exact H1].
  Qed.

  Lemma svt_good : forall u s n stk, allowed (SStart n) -> x_exc u = None -> x_main u <> X_FAULT -> bal_run [] (snd s) = Some (containers stk) ->
    good (set_value_type tr want u s n) (n :: stk).
  Proof.
    intros u s n stk AL X M H. unfold set_value_type. pose proof (cont_none n stk) as CN.
    destruct (get_value_type n) eqn:G;
      try (apply response_good; auto; intros u1 s1 X1 M1 H1; split; [exact X1|]; split; [rewrite CN by discriminate; exact H1|exact M1]).
    - apply response_good; auto. intros u1 s1 X1 M1 H1.
      assert (NF : xtype_eqb (x_main u1) X_FAULT = false) by (destruct (x_main u1); try reflexivity; congruence).
      rewrite NF. rewrite emit_trace.
      assert (E : bal_run [] (snd s1 ++ [EOpenStruct 0]) = Some (containers (n :: stk))).
      { rewrite bal_run_app, H1. unfold containers at 2. cbn [flat_map]. unfold kind_of_name at 1. rewrite G. reflexivity. }
      destruct (bstep (fst s1) (EOpenStruct 0)) as [b' [f|]]; (split; [exact X1|]); cbn [snd]; [rewrite E; discriminate|split; [exact E|exact M1]].
    - apply response_good; auto. intros u1 s1 X1 M1 H1. rewrite emit_trace.
      assert (E : bal_run [] (snd s1 ++ [EOpenArray 0]) = Some (containers (n :: stk))).
      { rewrite bal_run_app, H1. unfold containers at 2. cbn [flat_map]. unfold kind_of_name at 1. rewrite G. reflexivity. }
      destruct (bstep (fst s1) (EOpenArray 0)) as [b' [f|]]; (split; [exact X1|]); cbn [snd]; [rewrite E; discriminate|split; [exact E|exact M1]].
    - cbv zeta. destruct (_ && _ && _); (split; [exact X|]).
      + rewrite H. discriminate.
      + split; [rewrite CN by discriminate; exact H|discriminate].
    - cbv zeta. destruct (_ && _ && _); (split; [exact X|]).
      + rewrite H. discriminate.
      + split; [rewrite CN by discriminate; exact H|discriminate].
    - cbv zeta. rewrite (FAULT n AL G). change (negb (main_code X_FAULT =? T_METHOD_CALL) && negb (T_METHOD_CALL =? TYPE_ANY)
        && (negb (xtype_eqb X_FAULT X_FAULT) || negb (T_METHOD_CALL =? T_METHOD_RESPONSE))) with true. cbv iota.
      split; [exact X|]. rewrite H. discriminate.
  Qed.

  Lemma emit_plain : forall u s e (k : B * list event -> xres) stk, x_exc u = None -> bal_run [] (snd s) = Some (containers stk) ->
    (match e with EOpenStruct _ | EOpenArray _ | ECloseStruct | ECloseArray => False | _ => True end) ->
    (forall b', bal_run [] (snd s ++ [e]) = Some (containers stk) -> good (k (b', snd s ++ [e])) stk) ->
    good (x_emit tr u s e k) stk.
  Proof.
    intros u s e k stk X H N K. pose proof (bal_one _ _ _ H N) as H1. rewrite emit_trace. destruct (bstep (fst s) e) as [b' [f|]]; [|auto].
    split; [exact X|]. cbn [snd]. rewrite H1. discriminate.
  Qed.

  Lemma svd_good : forall u s data stk, x_exc u = None -> x_main u <> X_FAULT -> bal_run [] (snd s) = Some (containers stk) ->
    good (set_value_data tr strtod erange u s data) stk.
  Proof.
    intros u s data stk X M H. unfold set_value_data.
    assert (NF : xtype_eqb (x_main u) X_FAULT = false) by (destruct (x_main u); try reflexivity; congruence).
    assert (TH : forall m, good (x_throw u s m) stk) by (intro m; unfold x_throw; split; [exact X|rewrite H; discriminate]).
    assert (NO : forall s0, bal_run [] (snd s0) = Some (containers stk) -> good (x_none u, s0, None) stk) by (intros s0 H0; split; [exact X|]; split; auto).
    rewrite NF.
    destruct (x_type u);
      try (split; [exact X|split; assumption]);
      try (apply emit_plain; auto; intros b' H'; first [apply NO; exact H' | split; [exact X|split; [exact H'|discriminate]]]).
    - destruct (strtol_all data) as [z|]; [|apply TH]. cbv zeta. destruct (_ && _); [apply TH|].
      apply emit_plain; auto.
    - destruct (strtod (c_str data)); [|apply TH]. apply emit_plain; auto.
    - destruct (parse_iso data) as [d|e|]; [apply emit_plain; auto|split; [exact X|rewrite H; discriminate]..].
  Qed.

  Lemma ce_good : forall u s n stk, x_exc u = None -> x_main u <> X_FAULT -> bal_run [] (snd s) = Some (containers (n :: stk)) ->
    good (close_entity tr u s n) stk.
  Proof.
    intros u s n stk X M H. unfold close_entity. change (x_main (x_none u)) with (x_main u).
    assert (NF : xtype_eqb (x_main u) X_FAULT = false) by (destruct (x_main u); try reflexivity; congruence). rewrite NF.
    unfold containers in H. cbn [flat_map] in H. unfold kind_of_name at 1 in H.
    destruct (get_value_type n); cbn [app] in H; try (split; [exact X|split; assumption]).
    - rewrite emit_trace. destruct (bstep (fst s) ECloseStruct) as [b' [f|]]; cbn [good snd x_none x_with x_exc x_main]; (split; [exact X|]);
        rewrite bal_run_app, H; cbn [bal_run]; [discriminate|split; [reflexivity|exact M]].
    - rewrite emit_trace. destruct (bstep (fst s) ECloseArray) as [b' [f|]]; cbn [good snd x_none x_with x_exc x_main]; (split; [exact X|]);
        rewrite bal_run_app, H; cbn [bal_run]; [discriminate|split; [reflexivity|exact M]].
  Qed.

  Lemma balance_steps : forall l stk u s, (forall e, In e l -> allowed e) -> nested_sax stk l -> binv stk u s ->
    bal_run [] (snd (snd (sax_steps tr strtod erange want u s l))) <> None.
  Proof.
    induction l as [|e l IH]; intros stk u s AL N I.
    - cbn [sax_steps snd]. unfold binv in I. destruct (x_exc u); auto. destruct I as [I _]. rewrite I. discriminate.
    - cbn [sax_steps]. assert (AL' : forall e, In e l -> allowed e) by (intros; apply AL; right; auto).
      unfold sax_step. unfold binv in I. destruct (x_exc u) as [f|] eqn:X.
      + assert (Q : sax_steps tr strtod erange want u s l = (u, s)) by (apply steps_exc; congruence). rewrite Q. exact I.
      + destruct I as [I M]. destruct e as [n|n|c]; cbn [nested_sax] in N.
        * pose proof (svt_good u s n stk (AL _ (or_introl eq_refl)) X M I) as G.
          destruct (set_value_type tr want u s n) as [[u1 s1] [f|]].
          -- pose proof (good_caught _ _ G) as C. destruct (x_caught (u1, s1, Some f)) as [u2 s2]. eapply IH; eauto.
          -- assert (G2 : good (x_set_buf [] u1, s1, None) (n :: stk)) by exact G.
             pose proof (good_caught _ _ G2) as C. destruct (x_caught (x_set_buf [] u1, s1, None)) as [u2 s2]. eapply IH; eauto.
        * destruct stk as [|m stk]; [contradiction|]. destruct N as [<- N].
          pose proof (svd_good u s (x_buf u) (n :: stk) X M I) as G.
          destruct (set_value_data tr strtod erange u s (x_buf u)) as [[u1 s1] [f|]].
          -- destruct G as [X1 G].
             assert (G2 : good (u1, s1, Some f) stk) by (split; assumption).
             pose proof (good_caught _ _ G2) as C. destruct (x_caught (u1, s1, Some f)) as [u2 s2]. eapply IH; eauto.
          -- destruct G as [X1 [G1 M1]]. pose proof (ce_good u1 s1 n stk X1 M1 G1) as G2.
             pose proof (good_caught _ _ G2) as C. destruct (x_caught (close_entity tr u1 s1 n)) as [u2 s2]. eapply IH; eauto.
        * eapply IH; eauto. unfold binv. cbn [x_set_buf x_exc x_main]. rewrite X. auto.
  Qed.
End Balance.

Lemma server_balanced : forall B (bstep : B -> event -> B * option fail) strtod erange b l,
  nested_sax [] l ->
  balanced [] (snd (snd (sax_steps (traced bstep) strtod erange T_METHOD_CALL xun_init (b, []) l))).
Proof.
  intros B bstep strtod erange b l N. apply bal_run_balanced.
  apply (balance_steps bstep strtod erange T_METHOD_CALL (fun _ => True)) with (stk := []); auto.
  unfold binv. cbn. split; [reflexivity|discriminate].
Qed.
Lemma lookup_in : forall n l t, t <> X_NONE -> lookup_name n l = t -> In (n, t) l.
Proof.
  intros n l t NT. induction l as [|[k x] l IH]; cbn [lookup_name]; intro H; [congruence|].
  destruct (bytes_eqb n k) eqn:E; [apply bytes_eqb_eq in E; subst; left; reflexivity|right; auto].
Qed.
Lemma fault_name : forall n, get_value_type n = X_FAULT -> n = str "fault".
Proof.
  intros n H. apply lookup_in in H; [|discriminate]. unfold xnames in H. cbn [In] in H.
  repeat (destruct H as [H|H]; [inversion H; reflexivity|]). contradiction.
Qed.
Lemma no_fault_balanced : forall B (bstep : B -> event -> B * option fail) strtod erange want b l,
  nested_sax [] l -> ~ In (SStart (str "fault")) l ->
  balanced [] (snd (snd (sax_steps (traced bstep) strtod erange want xun_init (b, []) l))).
Proof.
  intros B bstep strtod erange want b l N NF. apply bal_run_balanced.
  apply (balance_steps bstep strtod erange want (fun e => In e l)) with (stk := []); auto.
  - intros n I G. apply fault_name in G. subst n. contradiction.
  - unfold binv. cbn. split; [reflexivity|discriminate].
Qed.
