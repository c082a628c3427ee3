(** The XML unmarshaller with the tree builder does nothing undefined when faults come last, whatever it reads. *)
From Coq Require Import Lia.
From Verif Require Import Base Value Text M_Marshal M_BinUnmarshal M_TreeBuilder M_Base64 M_Iso M_Url M_Registry M_Xml M_XmlUm
  S_Value S_Xml S_XmlUm S_Server L_Base L_Origin L_Xml4 L_Xml7 L_XmlSafe.

Lemma type_name : forall n t s, get_value_type n = t -> In (s, t) xnames -> t <> X_NONE -> (forall k, In (k, t) xnames -> k = s) -> n = s.
Proof. intros n t s H _ N U. apply lookup_in in H; [|exact N]. apply U. exact H. Qed.
Lemma name_of : forall n, (get_value_type n = X_METHOD_NAME -> n = str "methodName") /\ (get_value_type n = X_METHOD_CALL -> n = str "methodCall")
  /\ (get_value_type n = X_METHOD_RESPONSE -> n = str "methodResponse").
Proof.
  intro n. repeat split; intro H; (apply lookup_in in H; [|discriminate]); unfold xnames in H; cbn [In] in H;
    repeat (destruct H as [H|H]; [inversion H; try reflexivity|]); contradiction.
Qed.

Section Safe.
  Variable val : option mktime_t.
  Variable strtod : bytes -> option Z.
  Variable erange : bool.
  Notation step := (tb_step val).
  Variable want : Z.
  Notation MN := (SStart (str "methodName")).
  Notation FA := (SStart (str "fault")).

  (** Outside of a fault the open containers are open in the builder; inside nothing is closed. *)
  Definition minv (seen : list sax) (u : xun) (t : tb) : Prop :=
    (x_type u = X_METHOD_NAME -> In MN seen) /\
    ((x_main u <> X_FAULT /\ tinv (containers (tags [] seen)) t) \/ (x_main u = X_FAULT /\ In FA seen /\ tinv [] t)).
  Definition hinv (seen : list sax) (u : xun) (t : tb) : Prop :=
    x_exc u <> Some Undef /\ (x_exc u = None -> minv seen u t).
  Definition okay (seen : list sax) (r : xun * tb * option fail) : Prop :=
    let '(u, t, f) := r in x_exc u = None /\ f <> Some Undef /\ (f = None -> minv seen u t).
  Lemma okay_caught : forall r seen, okay seen r -> let '(u, t) := x_caught r in hinv seen u t.
  Proof.
    intros [[u t] [[e|]|]] seen (X & U & G); unfold x_caught.
    - destruct e; (split; [cbn; discriminate|cbn; discriminate]).
    - congruence.
    - split; [congruence|]. intros _. auto.
  Qed.

  (** In a fault. *)
  Definition inside (r : xun * tb * option fail) : Prop :=
    let '(u, t, f) := r in x_exc u = None /\ f <> Some Undef /\ (f = None -> x_main u = X_FAULT /\ x_type u <> X_METHOD_NAME /\ tinv [] t).
  Lemma emit_inside : forall u t e k, x_exc u = None -> tinv [] t -> match e with ECloseStruct | ECloseArray => False | _ => True end ->
    (forall t', tinv [] t' -> inside (k t')) -> inside (x_emit step u t e k).
  Proof.
    intros u t e k X H N K. pose proof (tinv_step val [] t e H N) as [A B]. unfold x_emit. destruct (step t e) as [t' [f|]]; cbn [fst snd] in *; [|apply K; exact B].
    split; [exact X|]. split; [exact A|discriminate].
  Qed.
  Lemma start_inside : forall u t n, x_exc u = None -> x_main u = X_FAULT -> x_type u <> X_METHOD_NAME -> tinv [] t ->
    get_value_type n <> X_METHOD_NAME -> get_value_type n <> X_METHOD_CALL -> get_value_type n <> X_METHOD_RESPONSE ->
    inside (set_value_type step want u t n).
  Proof.
    intros u t n X M T H N1 N2 N3. unfold set_value_type, x_response. rewrite M. cbn [xtype_eqb].
    assert (G : forall ty, ty <> X_METHOD_NAME -> inside (x_with ty X_FAULT u, t, None)).
    { intros ty NT. split; [exact X|]. split; [discriminate|]. intros _. split; [reflexivity|]. split; [exact NT|exact H]. }
    destruct (get_value_type n) eqn:E; try congruence; try (apply G; discriminate).
    - split; [exact X|]. split; [discriminate|]. auto.
    - apply emit_inside; [exact X|exact H|exact I|]. intros t' H'. split; [exact X|]. split; [discriminate|]. intros _. split; [cbn; assumption || reflexivity|]. split; [discriminate|exact H'].
    - cbv zeta. destruct (_ && _ && _); (split; [exact X|]); (split; [discriminate|]); [discriminate|]. intros _. split; [reflexivity|]. split; [exact T|exact H].
  Qed.
  Lemma data_inside : forall u t data, x_exc u = None -> x_main u = X_FAULT -> x_type u <> X_METHOD_NAME -> tinv [] t ->
    inside (set_value_data step strtod erange u t data).
  Proof.
    intros u t data X M T H. unfold set_value_data. rewrite M. cbn [xtype_eqb].
    assert (TH : forall m, inside (x_throw u t m)) by (intro m; split; [exact X|split; discriminate]).
    assert (PL : forall u', x_exc u' = None -> x_main u' = X_FAULT -> x_type u' <> X_METHOD_NAME -> inside (u', t, None)) by (intros u' A B C; split; [exact A|]; split; [discriminate|]; auto).
    assert (NO : forall e, match e with ECloseStruct | ECloseArray => False | _ => True end -> inside (x_emit step u t e (fun b => (x_none u, b, None)))).
    { intros e N. apply emit_inside; [exact X|exact H|exact N|]. intros t' H'. split; [exact X|]. split; [discriminate|]. intros _. split; [exact M|]. split; [discriminate|exact H']. }
    destruct (x_type u) eqn:TY; try congruence; try (apply NO; exact I); try (apply PL; [exact X|exact M|try discriminate; congruence]).
    - destruct (strtol_all data) as [z|]; [|apply TH]. cbv zeta. destruct (_ && _); [apply TH|]. apply PL; [exact X|exact M|discriminate].
    - destruct (strtod (c_str data)); [apply NO; exact I|apply TH].
    - pose proof (parse_iso_ub data). destruct (parse_iso data) as [d|e|]; [apply NO; exact I| |congruence]. split; [exact X|split; discriminate].
  Qed.
  Lemma close_inside : forall u t n, x_exc u = None -> x_main u = X_FAULT -> tinv [] t -> inside (close_entity step u t n).
  Proof.
    intros u t n X M H. unfold close_entity. change (x_main (x_none u)) with (x_main u). rewrite M. cbn [xtype_eqb].
    assert (PL : inside (x_none u, t, None)) by (split; [exact X|]; split; [discriminate|]; intros _; split; [exact M|]; split; [discriminate|exact H]).
    destruct (get_value_type n); try exact PL. apply emit_inside; [exact X|exact H|exact I|]. intros t' H'. split; [exact X|]. split; [discriminate|].
    intros _. split; [exact M|]. split; [discriminate|exact H'].
  Qed.

  (** What the type is after a start tag, and after an end tag. *)
  Lemma start_type : forall u t n u' t', set_value_type step want u t n = (u', t', None) -> x_type u' = X_METHOD_NAME ->
    x_type u = X_METHOD_NAME \/ get_value_type n = X_METHOD_NAME.
  Proof.
    intros u t n u' t' H T. unfold set_value_type, x_response, x_emit, x_throw in H.
    repeat match type of H with context [match ?x with _ => _ end] => destruct x eqn:? end; inversion H; subst; cbn [x_type x_with] in T; try discriminate; auto.
  Qed.
  Lemma close_type : forall u t n u' t', close_entity step u t n = (u', t', None) -> x_type u' = X_NONE.
  Proof.
    intros u t n u' t' H. unfold close_entity, x_emit in H.
    repeat match type of H with context [match ?x with _ => _ end] => destruct x eqn:? end; inversion H; subst; reflexivity.
  Qed.
  Lemma data_main : forall u t d u' t', set_value_data step strtod erange u t d = (u', t', None) -> x_main u <> X_FAULT -> x_main u' <> X_FAULT.
  Proof.
    intros u t d u' t' H M. unfold set_value_data, x_emit, x_throw in H.
    repeat match type of H with context [match ?x with _ => _ end] => destruct x eqn:? end; inversion H; subst; cbn [x_main x_none x_with]; try discriminate; auto.
  Qed.

  Lemma last_fault : forall a e, fault_last (a ++ [e]) -> In FA a -> e <> MN /\ e <> SStart (str "methodCall") /\ e <> SStart (str "methodResponse").
  Proof.
    intros a e F I. apply in_split in I as (x & y & ->). destruct (F x (y ++ [e])) as (A & B & C); [rewrite <- app_assoc; reflexivity|].
    repeat split; intros ->; [apply A|apply B|apply C]; rewrite ?in_app_iff; cbn; auto.
  Qed.
  Lemma name_first : forall a, fault_last (a ++ [FA]) -> ~ In MN a.
  Proof. intros a F I. destruct (F a []) as (A & _); [reflexivity|]. apply A. rewrite app_nil_r. exact I. Qed.
  Lemma fault_last_front : forall a b, fault_last (a ++ b) -> fault_last a.
  Proof.
    intros a b F x y ->. destruct (F x (y ++ b)) as (A & B & C); [rewrite <- app_assoc; reflexivity|].
    repeat split; intro Q; [apply A|apply B|apply C]; rewrite ?in_app_iff in *; tauto.
  Qed.
  Lemma no_name_both : forall seen, fault_last seen -> In FA seen -> ~ In MN seen.
  Proof.
    intros seen F I J. apply in_split in I as (x & y & ->). destruct (F x y eq_refl) as (A & _). apply A. rewrite in_app_iff in *. cbn in J. destruct J as [J|[J|J]]; [auto|discriminate|auto].
  Qed.

  Lemma tags_snoc_start : forall seen n, tags [] (seen ++ [SStart n]) = n :: tags [] seen.
  Proof. intros. rewrite tags_app. reflexivity. Qed.
  Lemma step_fine : forall seen e u t, nested_sax [] (seen ++ [e]) -> fault_last (seen ++ [e]) -> hinv seen u t ->
    let '(u', t') := sax_step step strtod erange want u t e in hinv (seen ++ [e]) u' t'.
  Proof.
    intros seen e u t N F [I1 I2]. unfold sax_step. destruct (x_exc u) as [f|] eqn:X; [split; [congruence|congruence]|].
    destruct (I2 eq_refl) as (T & I3). destruct e as [n|n|c].
    - (* a start tag *)
      assert (OK : okay (seen ++ [SStart n]) (set_value_type step want u t n)).
      { destruct (set_value_type step want u t n) as [[u1 t1] f1] eqn:E.
        assert (TT : f1 = None -> x_type u1 = X_METHOD_NAME -> In MN (seen ++ [SStart n])).
        { intros -> T1. rewrite in_app_iff. destruct (start_type _ _ _ _ _ E T1) as [G|G]; [left; auto|right; left]. rewrite (proj1 (name_of n) G). reflexivity. }
        destruct I3 as [(M & H)|(M & FI & H)].
        - destruct (get_value_type n) eqn:G; try (
            pose proof (type_fine val want u t n (tags [] seen) (fun Q => ltac:(congruence)) X M H) as K; rewrite E in K; destruct K as (K1 & K2 & K3);
            split; [exact K1|]; split; [exact K2|]; intro Q; split; [auto|]; left; rewrite tags_snoc_start; auto).
          (* the fault begins *)
          assert (NM : x_type u <> X_METHOD_NAME). { intro Q. apply (name_first seen); [rewrite <- (fault_name n G); exact F|auto]. }
          assert (HW : tinv [] t) by (destruct H as (A & B); split; [cbn; lia|exact B]).
          unfold set_value_type in E. rewrite G in E. cbv zeta in E. destruct (_ && _ && _) in E; inversion E; subst; (split; [exact X|]); (split; [discriminate|]); [discriminate|].
          intros _. split; [auto|]. right. split; [reflexivity|]. split; [|exact HW]. rewrite in_app_iff. right. left. rewrite (fault_name n G). reflexivity.
        - destruct (last_fault seen _ F FI) as (A & B & C). destruct (name_of n) as (N1 & N2 & N3).
          assert (TN : x_type u <> X_METHOD_NAME) by (intro Q; apply (no_name_both seen (fault_last_front _ _ F) FI); auto).
          pose proof (start_inside u t n X M TN H ltac:(intro Q; apply A; rewrite (N1 Q); reflexivity) ltac:(intro Q; apply B; rewrite (N2 Q); reflexivity)
                        ltac:(intro Q; apply C; rewrite (N3 Q); reflexivity)) as K.
          rewrite E in K. destruct K as (K1 & K2 & K3). split; [exact K1|]. split; [exact K2|]. intro Q. split; [auto|]. right. destruct (K3 Q) as (Q1 & Q2 & Q3).
          split; [exact Q1|]. split; [|exact Q3]. rewrite in_app_iff. auto. }
      destruct (set_value_type step want u t n) as [[u1 t1] [f1|]].
      + pose proof (okay_caught _ _ OK) as C. exact C.
      + assert (O2 : okay (seen ++ [SStart n]) (x_set_buf [] u1, t1, None)) by exact OK. exact (okay_caught _ _ O2).
    - (* an end tag *)
      assert (OK : okay (seen ++ [SEnd n]) (match set_value_data step strtod erange u t (x_buf u) with (u, b, None) => close_entity step u b n | r => r end)).
      { apply nested_app in N as [_ N]. cbn [nested_sax] in N. destruct (tags [] seen) as [|m stk] eqn:TG; [contradiction|]. destruct N as [<- _].
        destruct I3 as [(M & H)|(M & FI & H)].
        - pose proof (data_fine val strtod erange u t (x_buf u) (n :: stk) X M H) as K.
          destruct (set_value_data step strtod erange u t (x_buf u)) as [[u1 t1] [f1|]].
          + destruct K as (K1 & K2 & _). split; [exact K1|]. split; [exact K2|discriminate].
          + destruct K as (K1 & _ & K3). destruct (K3 eq_refl) as [M1 H1]. pose proof (close_fine val u1 t1 n stk K1 M1 H1) as L.
            pose proof (close_type u1 t1 n) as CT. destruct (close_entity step u1 t1 n) as [[u2 t2] f2]. destruct L as (L1 & L2 & L3).
            split; [exact L1|]. split; [exact L2|]. intros ->. specialize (CT _ _ eq_refl). split; [rewrite CT; discriminate|]. left. rewrite tags_app, TG. cbn [tags tl]. apply L3. reflexivity.
        - assert (TN : x_type u <> X_METHOD_NAME) by (intro Q; apply (no_name_both seen (fault_last_front _ _ F) FI); auto).
          pose proof (data_inside u t (x_buf u) X M TN H) as K. destruct (set_value_data step strtod erange u t (x_buf u)) as [[u1 t1] [f1|]].
          + destruct K as (K1 & K2 & _). split; [exact K1|]. split; [exact K2|discriminate].
          + destruct K as (K1 & _ & K3). destruct (K3 eq_refl) as (M1 & _ & H1). pose proof (close_inside u1 t1 n K1 M1 H1) as L.
            pose proof (close_type u1 t1 n) as CT. destruct (close_entity step u1 t1 n) as [[u2 t2] f2]. destruct L as (L1 & L2 & L3).
            split; [exact L1|]. split; [exact L2|]. intros ->. specialize (CT _ _ eq_refl). split; [rewrite CT; discriminate|]. right. destruct (L3 eq_refl) as (Q1 & _ & Q3).
            split; [exact Q1|]. split; [rewrite in_app_iff; auto|exact Q3]. }
      exact (okay_caught _ _ OK).
    - split; cbn [x_set_buf x_exc]; [congruence|]. intros _. split; cbn [x_type x_main]; [intro Q; rewrite in_app_iff; auto|].
      destruct I3 as [(M & H)|(M & FI & H)]; [left|right]; (split; [exact M|]); [rewrite tags_app; exact H|split; [rewrite in_app_iff; auto|exact H]].
  Qed.
  Lemma steps_safe : forall l seen u t, nested_sax [] (seen ++ l) -> fault_last (seen ++ l) -> hinv seen u t ->
    let '(u', t') := sax_steps step strtod erange want u t l in hinv (seen ++ l) u' t'.
  Proof.
    induction l as [|e l IH]; intros seen u t N F I; [rewrite app_nil_r; exact I|]. cbn [sax_steps].
    replace (seen ++ e :: l) with ((seen ++ [e]) ++ l) in * by (rewrite <- app_assoc; reflexivity).
    pose proof (step_fine seen e u t (proj1 (proj1 (nested_app _ _ _) N)) (fault_last_front _ _ F) I) as K.
    destruct (sax_step step strtod erange want u t e) as [u1 t1]. apply IH; assumption.
  Qed.
End Safe.

Lemma unmarshall_safe : forall val strtod erange want seen u t d batch code u' t' f,
  nested_sax [] (seen ++ batch) -> fault_last (seen ++ batch) -> (code < 102 \/ 816 <= code) -> x_exc u = None -> hinv seen u t ->
  x_unmarshall (tb_step val) strtod erange want u t d batch code = (u', t', f) ->
  f <> Some Undef /\ (f = None -> code = 0 /\ x_exc u' = None /\ hinv (seen ++ batch) u' t').
Proof.
  intros val strtod erange want seen u t d batch code u' t' f HN HF HC HX HI H. unfold x_unmarshall in H.
  destruct (x_sniff u d) as [u1 f1] eqn:ES. destruct (x_sniff_exc _ _ _ _ ES) as (EX & EM & EU). destruct f1 as [f1|].
  - inversion H; subst. split; [exact EU|discriminate].
  - assert (ET : x_type u1 = x_type u).
    { unfold x_sniff in ES. repeat match type of ES with context [match ?x with _ => _ end] => destruct x end; inversion ES; subst; reflexivity. }
    assert (I1 : hinv seen u1 t) by (destruct HI as [A B]; split; rewrite EX; [exact A|]; unfold minv; rewrite EM, ET; exact B).
    pose proof (steps_safe val strtod erange want batch seen u1 t HN HF I1) as G.
    destruct (sax_steps (tb_step val) strtod erange want u1 t batch) as [u2 t2]. destruct G as [G1 G2].
    assert (HQ : (if code =? 0 then (u2, t2, x_exc u2) else if looked_up code && negb (known_code code) then (u2, t2, Some Undef)
                  else (u2, t2, Some (Exn (StreamError "Parser error")))) = (u', t', f)) by (destruct (x_exc u2) as [[e|]|]; [exact H|congruence|exact H]).
    rewrite known_text in HQ by exact HC. destruct (Z.eqb_spec code 0) as [EC|EC]; inversion HQ; subst; (split; [congruence|]); [|discriminate].
    intro Q. split; [reflexivity|]. split; [exact Q|]. split; [exact G1|exact G2].
Qed.

Lemma um_all_safe : forall P val strtod erange want, orderly P -> plain_faults P -> forall pieces prior batches p u t s f,
  reports P (ps_init P) prior batches p -> x_exc u = None -> hinv (concat batches) u t ->
  um_all (xml_um P strtod erange val want) (p, u, t) pieces = (s, f) ->
  f <> Some Undef /\ (f = None -> exists prior' batches' p' u' t', s = (p', u', t') /\ reports P (ps_init P) prior' batches' p' /\
    x_exc u' = None /\ hinv (concat batches') u' t').
Proof.
  intros P val strtod erange want HO HP. induction pieces as [|d pieces IH]; intros prior batches p u t s f HR HX HI H.
  - inversion H; subst. split; [discriminate|]. intros _. eauto 10.
  - cbn [um_all] in H. cbn [xml_um um_take] in H. destruct (ps_take P p d) as [[p1 batch] code] eqn:ET.
    destruct (HO _ _ _ _ _ _ _ HR ET) as [HN HC]. pose proof (HP _ _ _ _ _ _ _ HR ET) as HF.
    destruct (x_unmarshall (tb_step val) strtod erange want u t d batch code) as [[u1 t1] f1] eqn:EU.
    destruct (unmarshall_safe _ _ _ _ _ _ _ _ _ _ _ _ _ HN HF HC HX HI EU) as [F1 F2].
    destruct f1 as [f1|]; [inversion H; subst; split; [exact F1|discriminate]|].
    destruct (F2 eq_refl) as (-> & X1 & I1). eapply IH; [eapply reports_snoc; eassumption|exact X1| |exact H].
    rewrite concat_app. cbn [concat]. rewrite app_nil_r. exact I1.
Qed.

Lemma xml_um_safe_any : forall P strtod erange val want, orderly P -> plain_faults P -> um_safe (xml_um P strtod erange val want).
Proof.
  intros P strtod erange val want HO HP pieces s f H.
  destruct (um_all_safe P val strtod erange want HO HP pieces [] [] (ps_init P) xun_init tb_init s f (reports_nil P _) eq_refl) as [F1 F2]; [|exact H|].
  { split; [discriminate|]. intros _. split; [discriminate|]. left. split; [discriminate|exact tinv_init]. }
  split; [exact F1|]. intro HF. destruct (F2 HF) as (prior & batches & p & u & t & -> & HR & HX & HI). cbn [xml_um um_finish um_builder].
  destruct (ps_take P p []) as [[p1 batch] code] eqn:ET. destruct (HO _ _ _ _ _ _ _ HR ET) as [HN HC]. pose proof (HP _ _ _ _ _ _ _ HR ET) as HFL.
  unfold x_finish. destruct (x_unmarshall (tb_step val) strtod erange 0 u t [] batch code) as [[u1 t1] f1] eqn:EU.
  destruct (unmarshall_safe _ _ _ _ _ _ _ _ _ _ _ _ _ HN HFL HC HX HI EU) as [G1 G2].
  destruct f1 as [[e|]|]; cbn [fst snd].
  - split; discriminate.
  - congruence.
  - destruct (G2 eq_refl) as (_ & X1 & (_ & I1)). destruct (I1 X1) as (_ & I2).
    destruct (xtype_eqb (x_type u1) X_NONE); cbn [fst snd]; (split; [discriminate|]); [|discriminate]. intros _.
    destruct I2 as [(_ & I2)|(_ & _ & I2)]; eapply tinv_data; exact I2.
Qed.
