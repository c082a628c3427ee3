(** Any XML response and the Python client. *)
From Coq Require Import Lia.
From Verif Require Import Base Value Text Unicode M_Marshal M_BinUnmarshal M_TreeBuilder M_Base64 M_Iso M_Url M_Http M_HttpIO M_Registry M_Server M_Xml M_XmlUm M_Python M_PyRegistry M_PyServer M_PyClient
  S_Value S_Xml S_XmlUm S_Http S_Server S_Python S_PyServer S_PyClient L_Base L_Xml3 L_Xml4 L_Xml7 L_XmlSafe L_XmlSafe2 L_ReadAny L_PyText L_PyServer3 L_PyXml.

Lemma is_text_nil : is_text [].
Proof. exists []. split; [constructor|reflexivity]. Qed.
Lemma is_text_app : forall a b, is_text a -> is_text b -> is_text (a ++ b).
Proof.
  intros a b (u & HU & ->) (w & HW & ->). exists (u ++ w). split; [apply Forall_app; auto|]. symmetry. apply flat_map_app.
Qed.

Section Responses.
  Variable host : datetime -> datetime.
  Variable pass native : bool.
  Variable strtod : bytes -> option Z.
  Variable erange : bool.
  Notation step := (pb_step host pass native).
  Variable want : Z.
  Notation MN := (SStart (str "methodName")).
  Notation FA := (SStart (str "fault")).

  Definition rmin (seen : list sax) (u : xun) (b : pb) : Prop :=
    is_text (x_buf u) /\ is_text (x_fmsg u) /\ (x_type u = X_METHOD_NAME -> In MN seen) /\
    ((x_main u <> X_FAULT /\ pinv (List.length (containers (tags [] seen))) b) \/ (x_main u = X_FAULT /\ In FA seen)).
  Definition rinv (seen : list sax) (u : xun) (b : pb) : Prop :=
    match x_exc u with
    | None => rmin seen u b
    | Some (Exn (StreamError _)) => True
    | _ => False
    end.
  Definition rfine (seen : list sax) (r : xun * pb * option fail) : Prop :=
    let '(u, b, f) := r in
    x_exc u = None /\ match f with
                      | None => rmin seen u b
                      | Some (Exn (StreamError _)) => True
                      | _ => False
                      end.
  Lemma rfine_caught : forall r seen, rfine seen r -> let '(u, b) := x_caught r in rinv seen u b.
  Proof. intros [[u b] [[e|]|]] seen (X & G); unfold x_caught; [destruct e; try contradiction; exact I|contradiction|]. unfold rinv. rewrite X. exact G. Qed.

  Lemma type_keeps : forall u b n u' b' f, set_value_type step want u b n = (u', b', f) -> x_buf u' = x_buf u /\ x_fmsg u' = x_fmsg u.
  Proof.
    intros u b n u' b' f H. unfold set_value_type, x_response, x_emit, x_throw in H.
    repeat match type of H with context [match ?x with _ => _ end] => destruct x eqn:? end; inversion H; subst; split; reflexivity.
  Qed.
  Lemma data_keeps : forall u b d u' b' f, set_value_data step strtod erange u b d = (u', b', f) -> x_buf u' = x_buf u /\ (x_fmsg u' = x_fmsg u \/ x_fmsg u' = d).
  Proof.
    intros u b d u' b' f H. unfold set_value_data, x_emit, x_throw in H.
    repeat match type of H with context [match ?x with _ => _ end] => destruct x eqn:? end; inversion H; subst; (split; [reflexivity|]); cbn [x_none x_set_fault x_with x_fmsg]; auto.
  Qed.
  Lemma close_keeps : forall u b n u' b' f, close_entity step u b n = (u', b', f) -> x_buf u' = x_buf u /\ (x_fmsg u' = x_fmsg u \/ x_fmsg u' = []).
  Proof.
    intros u b n u' b' f H. unfold close_entity, x_emit in H.
    repeat match type of H with context [match ?x with _ => _ end] => destruct x eqn:? end; inversion H; subst; (split; [reflexivity|]); cbn [x_none x_set_fault x_with x_fmsg]; auto.
  Qed.
  Lemma start_types : forall u t n u' t', set_value_type step want u t n = (u', t', None) -> x_type u' = X_METHOD_NAME ->
    x_type u = X_METHOD_NAME \/ get_value_type n = X_METHOD_NAME.
  Proof.
    intros u t n u' t' H T. unfold set_value_type, x_response, x_emit, x_throw in H.
    repeat match type of H with context [match ?x with _ => _ end] => destruct x eqn:? end; inversion H; subst; cbn [x_type x_with] in T; try discriminate; auto.
  Qed.
  Lemma close_types : forall u t n u' t', close_entity step u t n = (u', t', None) -> x_type u' = X_NONE.
  Proof.
    intros u t n u' t' H. unfold close_entity, x_emit in H.
    repeat match type of H with context [match ?x with _ => _ end] => destruct x eqn:? end; inversion H; subst; reflexivity.
  Qed.

  (** In a fault. *)
  Definition binside (r : xun * pb * option fail) : Prop :=
    let '(u, b, f) := r in
    x_exc u = None /\ match f with
                      | None => x_main u = X_FAULT /\ x_type u <> X_METHOD_NAME
                      | Some (Exn (StreamError _)) => True
                      | _ => False
                      end.
  Lemma emit_binside : forall u b e k, x_exc u = None -> match e with EOpenStruct _ | ECloseStruct | ECloseArray | EFault _ _ => False | _ => True end ->
    (forall b', binside (k b')) -> binside (x_emit step u b e k).
  Proof.
    intros u b e k X N K. assert (A : snd (step b e) = None).
    { assert (P0 : pinv 0 b) by (right; lia). destruct e; try contradiction; try reflexivity. cbn [pb_step]. destruct (py_decode pass s); reflexivity. }
    unfold x_emit. destruct (step b e) as [b' f]; cbn [snd] in A. subst f. apply K.
  Qed.
  Lemma start_binside : forall u b n, x_exc u = None -> x_main u = X_FAULT -> x_type u <> X_METHOD_NAME ->
    get_value_type n <> X_METHOD_NAME -> get_value_type n <> X_METHOD_CALL -> get_value_type n <> X_METHOD_RESPONSE ->
    binside (set_value_type step want u b n).
  Proof.
    intros u t n X M T N1 N2 N3. unfold set_value_type, x_response. rewrite M. cbn [xtype_eqb].
    assert (G : forall ty, ty <> X_METHOD_NAME -> binside (x_with ty X_FAULT u, t, None)).
    { intros ty NT. split; [exact X|]. split; [reflexivity|exact NT]. }
    destruct (get_value_type n) eqn:E; try congruence; try (apply G; discriminate).
    - split; [exact X|]. auto.
    - cbv zeta. destruct (_ && _ && _); (split; [exact X|]); [exact I|]. split; [reflexivity|exact T].
  Qed.
  Lemma data_binside : forall u t data, x_exc u = None -> x_main u = X_FAULT -> x_type u <> X_METHOD_NAME -> binside (set_value_data step strtod erange u t data).
  Proof.
    intros u t data X M T. unfold set_value_data. rewrite M. cbn [xtype_eqb].
    assert (TH : forall m, binside (x_throw u t m)) by (intro m; split; [exact X|exact I]).
    assert (PL : forall u', x_exc u' = None -> x_main u' = X_FAULT -> x_type u' <> X_METHOD_NAME -> binside (u', t, None)) by (intros u' A B C; split; [exact A|]; auto).
    assert (NO : forall e, match e with EOpenStruct _ | ECloseStruct | ECloseArray | EFault _ _ => False | _ => True end -> binside (x_emit step u t e (fun b => (x_none u, b, None)))).
    { intros e N. apply emit_binside; [exact X|exact N|]. intros t'. split; [exact X|]. split; [exact M|discriminate]. }
    destruct (x_type u) eqn:TY; try congruence; try (apply NO; exact I); try (apply PL; [exact X|exact M|try discriminate; congruence]).
    - destruct (strtol_all data) as [z|]; [|apply TH]. cbv zeta. destruct (_ && _); [apply TH|]. apply PL; [exact X|exact M|discriminate].
    - destruct (strtod (c_str data)); [apply NO; exact I|apply TH].
    - pose proof (parse_iso_ub data). pose proof (iso_errors data) as IE. destruct (parse_iso data) as [d|e|]; [apply NO; exact I| |congruence].
      destruct (IE e eq_refl) as [m ->]. split; [exact X|exact I].
  Qed.
  Lemma close_binside : forall u b n, x_exc u = None -> x_main u = X_FAULT -> is_text (x_fmsg u) -> binside (close_entity step u b n).
  Proof.
    intros u b n X M H. unfold close_entity. change (x_main (x_none u)) with (x_main u). rewrite M. cbn [xtype_eqb].
    assert (PL : forall u' b', x_exc u' = None -> x_main u' = X_FAULT -> x_type u' = X_NONE -> binside (u', b', None)) by (intros u' b' A B C; split; [exact A|]; split; [exact B|congruence]).
    destruct (get_value_type n); try (apply PL; [exact X|exact M|reflexivity]). unfold x_emit. cbn [pb_step].
    destruct (pb_error b); [apply PL; [exact X|exact M|reflexivity]|]. change (x_fmsg (x_none u)) with (x_fmsg u). apply text_decode in H as [w ->].
    apply PL; [exact X|exact M|reflexivity].
  Qed.

  Lemma step_rinv : forall seen e u b, nested_sax [] (seen ++ [e]) -> fault_last (seen ++ [e]) -> utf8_texts (seen ++ [e]) -> rinv seen u b ->
    let '(u', b') := sax_step step strtod erange want u b e in rinv (seen ++ [e]) u' b'.
  Proof.
    intros seen e u b N F TX I1. unfold sax_step. unfold rinv in I1. destruct (x_exc u) as [f|] eqn:X; [unfold rinv; rewrite X; destruct f as [[]|]; auto|].
    destruct I1 as (TB & TF & T & I3). destruct e as [n|n|c].
    - assert (OK : rfine (seen ++ [SStart n]) (set_value_type step want u b n)).
      { destruct (set_value_type step want u b n) as [[u1 b1] f1] eqn:E. destruct (type_keeps _ _ _ _ _ _ E) as [K4 K5].
        assert (TT : f1 = None -> x_type u1 = X_METHOD_NAME -> In MN (seen ++ [SStart n])).
        { intros -> T1. rewrite in_app_iff. destruct (start_types _ _ _ _ _ E T1) as [G|G]; [left; auto|right; left]. rewrite (proj1 (name_of n) G). reflexivity. }
        destruct I3 as [(M & H)|(M & FI)].
        - destruct (get_value_type n) eqn:G; try (
            pose proof (type_g host pass native strtod want u b n (tags [] seen) (fun Q => ltac:(congruence)) X M H) as K; rewrite E in K; destruct K as (K1 & K2);
            split; [exact K1|]; destruct f1 as [f1|]; [exact K2|]; unfold rmin; rewrite K4, K5, tags_snoc_start; split; [exact TB|]; split; [exact TF|]; split; [auto|]; left; exact K2).
          unfold set_value_type in E. rewrite G in E. cbv zeta in E.
          destruct (_ && _ && _) in E; inversion E; subst; (split; [exact X|]); [exact I|].
          unfold rmin. rewrite K4, K5. split; [exact TB|]. split; [exact TF|]. split; [auto|]. right. split; [reflexivity|]. rewrite in_app_iff. right. left. rewrite (fault_name n G). reflexivity.
        - destruct (last_fault seen _ F FI) as (A & B & C). destruct (name_of n) as (N1 & N2 & N3).
          assert (TN : x_type u <> X_METHOD_NAME) by (intro Q; apply (no_name_both seen (fault_last_front _ _ F) FI); auto).
          pose proof (start_binside u b n X M TN ltac:(intro Q; apply A; rewrite (N1 Q); reflexivity) ltac:(intro Q; apply B; rewrite (N2 Q); reflexivity)
                        ltac:(intro Q; apply C; rewrite (N3 Q); reflexivity)) as K.
          rewrite E in K. destruct K as (K1 & K2). split; [exact K1|]. destruct f1 as [f1|]; [exact K2|]. destruct K2 as [K2 K3].
          unfold rmin. rewrite K4, K5. split; [exact TB|]. split; [exact TF|]. split; [auto|]. right. split; [exact K2|]. rewrite in_app_iff. auto. }
      destruct (set_value_type step want u b n) as [[u1 b1] [f1|]].
      + exact (rfine_caught _ _ OK).
      + assert (O2 : rfine (seen ++ [SStart n]) (x_set_buf [] u1, b1, None)).
        { destruct OK as (A & B & C). split; [exact A|]. split; [exact is_text_nil|exact C]. }
        exact (rfine_caught _ _ O2).
    - assert (OK : rfine (seen ++ [SEnd n]) (match set_value_data step strtod erange u b (x_buf u) with (u, b, None) => close_entity step u b n | r => r end)).
      { apply nested_app in N as [_ N]. cbn [nested_sax] in N. destruct (tags [] seen) as [|m stk] eqn:TG; [contradiction|]. destruct N as [<- _].
        destruct (set_value_data step strtod erange u b (x_buf u)) as [[u1 b1] f1] eqn:ED. destruct (data_keeps _ _ _ _ _ _ ED) as [D1 D2].
        assert (TF1 : is_text (x_fmsg u1)) by (destruct D2 as [-> | ->]; assumption).
        assert (CL : forall u2 b2 f2, close_entity step u1 b1 n = (u2, b2, f2) -> is_text (x_buf u2) /\ is_text (x_fmsg u2)).
        { intros u2 b2 f2 EC. destruct (close_keeps _ _ _ _ _ _ EC) as [C1 C2]. rewrite C1, D1. split; [exact TB|]. destruct C2 as [-> | ->]; [exact TF1|exact is_text_nil]. }
        destruct I3 as [(M & H)|(M & FI)].
        - pose proof (data_g host pass native strtod erange u b (x_buf u) (n :: stk) X M H) as K. rewrite ED in K. destruct K as (K1 & K2). destruct f1 as [f1|]; [split; [exact K1|exact K2]|].
          destruct K2 as [M1 H1]. pose proof (close_g host pass native u1 b1 n stk K1 M1 H1) as L.
          pose proof (close_types u1 b1 n) as CT. destruct (close_entity step u1 b1 n) as [[u2 b2] f2]. destruct L as (L1 & L2). destruct (CL _ _ _ eq_refl) as [CA CB].
          split; [exact L1|]. destruct f2 as [f2|]; [exact L2|]. specialize (CT _ _ eq_refl). split; [exact CA|]. split; [exact CB|]. split; [rewrite CT; discriminate|]. left. rewrite tags_app, TG. exact L2.
        - assert (TN : x_type u <> X_METHOD_NAME) by (intro Q; apply (no_name_both seen (fault_last_front _ _ F) FI); auto).
          pose proof (data_binside u b (x_buf u) X M TN) as K. rewrite ED in K. destruct K as (K1 & K2). destruct f1 as [f1|]; [split; [exact K1|exact K2]|].
          destruct K2 as [M1 _]. pose proof (close_binside u1 b1 n K1 M1 TF1) as L.
          pose proof (close_types u1 b1 n) as CT. destruct (close_entity step u1 b1 n) as [[u2 b2] f2]. destruct L as (L1 & L2). destruct (CL _ _ _ eq_refl) as [CA CB].
          split; [exact L1|]. destruct f2 as [f2|]; [exact L2|]. specialize (CT _ _ eq_refl). split; [exact CA|]. split; [exact CB|]. split; [rewrite CT; discriminate|]. right. destruct L2 as [Q1 _].
          split; [exact Q1|]. rewrite in_app_iff; auto. }
      exact (rfine_caught _ _ OK).
    - unfold rinv. cbn [x_set_buf x_exc]. rewrite X. split; cbn [x_buf].
      { apply is_text_app; [exact TB|]. apply TX. rewrite in_app_iff. right. left. reflexivity. }
      split; [exact TF|]. split; [intro Q; rewrite in_app_iff; auto|].
      destruct I3 as [(M & H)|(M & FI)]; [left|right]; (split; [exact M|]); [rewrite tags_app; exact H|rewrite in_app_iff; auto].
  Qed.
  Lemma utf8_front : forall a b, utf8_texts (a ++ b) -> utf8_texts a.
  Proof. intros a b H t I. apply H. rewrite in_app_iff. auto. Qed.
  Lemma steps_rinv : forall l seen u b, nested_sax [] (seen ++ l) -> fault_last (seen ++ l) -> utf8_texts (seen ++ l) -> rinv seen u b ->
    let '(u', b') := sax_steps step strtod erange want u b l in rinv (seen ++ l) u' b'.
  Proof.
    induction l as [|e l IH]; intros seen u t N F TX I; [rewrite app_nil_r; exact I|]. cbn [sax_steps].
    replace (seen ++ e :: l) with ((seen ++ [e]) ++ l) in * by (rewrite <- app_assoc; reflexivity).
    pose proof (step_rinv seen e u t (proj1 (proj1 (nested_app _ _ _) N)) (fault_last_front _ _ F) (utf8_front _ _ TX) I) as K.
    destruct (sax_step step strtod erange want u t e) as [u1 t1]. apply IH; assumption.
  Qed.
End Responses.

Section Documents.
  Variable host : datetime -> datetime.
  Variable pass native : bool.
  Variable P : parser.
  Variable strtod : bytes -> option Z.
  Variable erange : bool.
  Hypothesis ORD : orderly P.
  Notation step := (pb_step host pass native).
  Notation um := (pxml_um step P strtod erange T_METHOD_RESPONSE).

  Definition rgood (prior : list bytes) (l : list sax) (u : xun) (b : pb) : Prop := x_exc u = None /\ rinv l u b /\ vinv prior u.
  Lemma unmarshall_r : forall want prior l u b d batch code u' b' f,
    nested_sax [] (l ++ batch) -> fault_last (l ++ batch) -> utf8_texts (l ++ batch) -> (code < 102 \/ 816 <= code) -> rgood prior l u b ->
    x_unmarshall step strtod erange want u b d batch code = (u', b', f) ->
    match f with
    | None => code = 0 /\ rgood (prior ++ [d]) (l ++ batch) u' b'
    | Some (Exn (StreamError _)) => True
    | Some _ => bad_declaration (first_text (prior ++ [d]))
    end.
  Proof.
    intros want prior l u b d batch code u' b' f HN HL HT HC (HX & HG & HV) H. unfold x_unmarshall in H.
    destruct (x_sniff u d) as [u1 f1] eqn:ES. destruct (x_sniff_exc _ _ _ _ ES) as (EX & EM & EU). pose proof (sniff_rest _ _ _ _ ES) as ET. pose proof (sniff_vinv _ _ _ _ _ HV ES) as V1.
    destruct f1 as [f1|]; [injection H as <- <- <-; destruct f1 as [[]|]; auto; exact V1|].
    assert (EB : x_buf u1 = x_buf u /\ x_fmsg u1 = x_fmsg u) by (unfold x_sniff in ES; repeat match type of ES with context [match ?x with _ => _ end] => destruct x end; inversion ES; subst; split; reflexivity).
    assert (G1 : rinv l u1 b). { unfold rinv, rmin in *. destruct EB as [-> ->]. rewrite EX, EM, ET. exact HG. }
    pose proof (steps_rinv host pass native strtod erange want batch l u1 b HN HL HT G1) as G.
    pose proof (steps_ver host pass native strtod erange want batch u1 b) as [SV SC].
    destruct (sax_steps step strtod erange want u1 b batch) as [u2 b2]. cbn [fst] in SV, SC.
    rewrite known_text in H by exact HC.
    assert (HF : (if code =? 0 then (u2, b2, x_exc u2) else (u2, b2, Some (Exn (StreamError "Parser error")))) = (u', b', f)).
    { unfold rinv in G. destruct (x_exc u2) as [[e|]|]; [exact H|contradiction|exact H]. }
    destruct (Z.eqb_spec code 0) as [EC|EC]; inversion HF; subst; [|exact I].
    pose proof G as G0. unfold rinv in G. destruct (x_exc u') as [[e|]|] eqn:X; [destruct e; try contradiction; exact I|contradiction|].
    split; [reflexivity|]. split; [exact X|]. split; [exact G0|]. unfold vinv in *; rewrite SV, SC; exact V1.
  Qed.
  Variable pieces : list bytes.
  Hypothesis FINE : forall l, told_of P pieces l -> fault_last l /\ utf8_texts l.
  Lemma pieces_r : forall rest prior batches p u b s f, pieces = prior ++ rest ->
    reports P (ps_init P) prior batches p -> rgood prior (concat batches) u b ->
    hand_over (pu_take um) (p, u, b) rest = (s, f) ->
    match f with
    | None => exists batches' p' u' b', s = (p', u', b') /\ reports P (ps_init P) pieces batches' p' /\ rgood pieces (concat batches') u' b'
    | Some (Exn (StreamError _)) => True
    | Some _ => bad_declaration (first_text pieces)
    end.
  Proof.
    induction rest as [|d rest IH]; intros prior batches p u b s f HP HR HG H.
    - rewrite app_nil_r in HP. inversion H; subst. eauto 10.
    - cbn [hand_over] in H. cbn [pu_take pxml_um] in H. destruct (ps_take P p d) as [[p1 batch] code] eqn:ET.
      destruct (ORD _ _ _ _ _ _ _ HR ET) as [HN HC].
      destruct (FINE (concat batches ++ batch)) as [HL HT].
      { exists prior, d, (rest ++ [[]]), batches, p, p1, batch, code. rewrite HP, <- app_assoc. auto. }
      destruct (x_unmarshall step strtod erange T_METHOD_RESPONSE u b d batch code) as [[u1 b1] f1] eqn:EU.
      pose proof (unmarshall_r _ _ _ _ _ _ _ _ _ _ _ HN HL HT HC HG EU) as F1.
      destruct f1 as [f1|].
      + injection H as <- <-. destruct f1 as [[]|]; auto.
        all: replace pieces with ((prior ++ [d]) ++ rest) by (rewrite HP, <- app_assoc; reflexivity); rewrite first_text_kept; [exact F1|].
        all: intro Z0; unfold bytes in *; rewrite Z0 in F1; destruct F1 as (a & m & x & y & r & E & _); destruct a; discriminate.
      + destruct F1 as [-> G1]. eapply (IH (prior ++ [d])); [rewrite <- app_assoc; exact HP|eapply reports_snoc; eassumption| |exact H]. rewrite concat_app. cbn [concat]. rewrite app_nil_r. exact G1.
  Qed.
  (** The only trouble is the version. *)
  Lemma xml_response_fine : py_troubles um pieces -> bad_declaration (first_text pieces).
  Proof.
    intros T.
    assert (START : rgood [] (concat []) xun_init pb_init).
    { split; [reflexivity|]. split; [|split; reflexivity]. split; [exact is_text_nil|]. split; [exact is_text_nil|]. split; [discriminate|]. left. split; [discriminate|right; cbn; lia]. }
    pose proof (fun s f => pieces_r pieces [] [] (ps_init P) xun_init pb_init s f eq_refl (reports_nil P _) START) as XP.
    assert (FN : first_text (pieces ++ [[]]) = first_text pieces).
    { destruct (first_text pieces) eqn:FE; [rewrite first_text_app by exact FE; reflexivity|rewrite first_text_kept by congruence; exact FE]. }
    assert (FIN : forall s s' x, hand_over (pu_take um) (pu_init um) pieces = (s, None) -> pu_finish um s = (s', x) ->
      (exists p1 u1 b1, x = Ok tt /\ s' = (p1, u1, b1) /\ vinv (pieces ++ [[]]) u1) \/ (exists m, x = Err (StreamError m)) \/ bad_declaration (first_text pieces)).
    { intros s s' x HO HF. destruct (XP _ _ HO) as (batches & p & u & b & -> & HR & HG). cbn [pu_finish pxml_um] in HF. destruct (ps_take P p []) as [[p1 last] code] eqn:ET.
      destruct (ORD _ _ _ _ _ _ _ HR ET) as [HN HC]. destruct (FINE (concat batches ++ last)) as [HL HT].
      { exists pieces, [], [], batches, p, p1, last, code. auto. }
      unfold x_finish in HF. destruct (x_unmarshall step strtod erange 0 u b [] last code) as [[u1 b1] f1] eqn:EU. pose proof (unmarshall_r _ _ _ _ _ _ _ _ _ _ _ HN HL HT HC HG EU) as F1.
      destruct f1 as [[e|]|].
      - inversion HF; subst. destruct e; try (right; right; rewrite <- FN; exact F1). right. left. eauto.
      - right. right. rewrite <- FN. exact F1.
      - destruct F1 as [-> (_ & _ & V)]. destruct (xtype_eqb (x_type u1) X_NONE); inversion HF; subst; [left; eauto 10|right; left; eauto]. }
    destruct T as [s f HO U|s s' x f HO HF X U|s s' HO HF X].
    - pose proof (XP _ _ HO) as Y. destruct f as [[]|]; try exact Y. destruct U.
    - destruct (FIN _ _ _ HO HF) as [(p1 & u1 & b1 & -> & _)|[[m ->]|B]]; [|exfalso|exact B].
      + exfalso. destruct X as [[X _]|(e & X & _)]; discriminate.
      + destruct X as [[X _]|(e & X & ->)]; [discriminate|]. injection X as <-. exact U.
    - destruct (FIN _ _ _ HO HF) as [(p1 & u1 & b1 & _ & -> & V)|[[m Y]|B]]; [|discriminate|exact B].
      cbn [pu_version pxml_um fst snd] in X. unfold vinv in V. destruct (x_check u1); [destruct V as [_ V]; rewrite V in X; cbn in X; lia|].
      destruct V as [_ V]. rewrite <- FN. apply V. exact X.
  Qed.
End Documents.
