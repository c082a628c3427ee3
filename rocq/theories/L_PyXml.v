(** Any XML body and the Python server. *)
From Coq Require Import Lia.
From Verif Require Import Base Value Text Unicode M_Marshal M_BinUnmarshal M_TreeBuilder M_Base64 M_Iso M_Url M_Http M_HttpIO M_Registry M_Server M_Xml M_XmlUm M_Python M_PyRegistry M_PyServer
  S_Value S_Xml S_XmlUm S_Http S_Server S_PyServer L_Base L_Xml3 L_Xml4 L_Xml7 L_XmlSafe L_ReadAny L_PyServer3.

Section Xml.
  Variable host : datetime -> datetime.
  Variable pass native : bool.
  Variable strtod : bytes -> option Z.
  Variable erange : bool.
  Notation step := (pb_step host pass native).

  (** Never fewer containers than are open. *)
  Definition pinv (n : nat) (b : pb) : Prop := pb_error b = true \/ (n <= List.length (pb_stack b))%nat.
  Lemma pinv_value : forall n v b, pinv n b -> pinv n (pb_value v b).
  Proof.
    intros n v b K. unfold pb_value. destruct (pb_error b) eqn:E; [exact K|]. destruct K as [K|K]; [congruence|].
    destruct (link_of b) as [k|]; [|left; reflexivity]. destruct (place_len k v b) as (A & B & C). right. rewrite A. exact K.
  Qed.
  Lemma pinv_open : forall n v b, pinv n b -> pinv (S n) (pb_open v b).
  Proof.
    intros n v b K. unfold pb_open. destruct (pb_error b) eqn:E; [left; exact E|]. destruct K as [K|K]; [congruence|].
    destruct (link_of b) as [k|]; [|left; reflexivity]. right. cbn [pb_stack List.length]. lia.
  Qed.
  Lemma pinv_close : forall n b, pinv (S n) b -> snd (pb_close b) = None /\ pinv n (fst (pb_close b)).
  Proof.
    intros n b K. unfold pb_close. destruct (pb_error b) eqn:E; [cbn; split; [reflexivity|left; exact E]|]. destruct K as [K|K]; [congruence|].
    destruct (pb_stack b) as [|[k c] r] eqn:ES; [cbn in K; lia|]. cbn [fst snd List.length] in *. split; [reflexivity|].
    destruct (place_len k (pb_value_of c) (pb_with r b)) as (A & B & C). right. rewrite A. cbn [pb_with pb_stack]. lia.
  Qed.
  Lemma pinv_step : forall n b e, pinv n b -> match e with EOpenStruct _ | EOpenArray _ | ECloseStruct | ECloseArray | EFault _ _ => False | _ => True end ->
    snd (step b e) = None /\ pinv n (fst (step b e)).
  Proof.
    intros n b e K H.
    assert (PL : forall e, match e with EInt _ | EBool _ | ENull | EDouble _ | EBinary _ | EDateTime _ => True | _ => False end -> snd (step b e) = None /\ pinv n (fst (step b e))).
    { intros e' H'. destruct e'; try contradiction; (split; [reflexivity|]; apply pinv_value; exact K). }
    destruct e; try contradiction; try (apply PL; exact I); cbn [pb_step].
    - destruct (py_decode pass s); (split; [reflexivity|]); cbn [fst]; [apply pinv_value; exact K|]. destruct (pb_error b) eqn:E; left; [exact E|reflexivity].
    - split; [reflexivity|]. cbn [fst]. destruct (pb_error b) eqn:E; [left; exact E|]. destruct K as [K|K]; [congruence|right; exact K].
    - split; [reflexivity|]. cbn [fst]. destruct K as [K|K]; [left; exact K|right; cbn [pb_stack List.length]; lia].
    - split; [reflexivity|exact K].
  Qed.
  Lemma method_kept : forall b e, pb_method b <> None -> pb_method (fst (step b e)) <> None.
  Proof.
    assert (PV : forall v b, pb_method (pb_value v b) = pb_method b).
    { intros v b. unfold pb_value. destruct (pb_error b); [reflexivity|]. destruct (link_of b) as [k|]; [|reflexivity]. apply place_len. }
    assert (PO : forall v b, pb_method (pb_open v b) = pb_method b).
    { intros v b. unfold pb_open. destruct (pb_error b); [reflexivity|]. destruct (link_of b) as [k|]; reflexivity. }
    assert (PC : forall b, pb_method (fst (pb_close b)) = pb_method b).
    { intros b. unfold pb_close. destruct (pb_error b); [reflexivity|]. destruct (pb_stack b) as [|[k c] r]; [reflexivity|]. cbn [fst]. destruct (place_len k (pb_value_of c) (pb_with r b)) as (_ & M & _). rewrite M. reflexivity. }
    intros b e M. destruct e; cbn [pb_step]; rewrite ?PC; try (cbn [fst]; rewrite ?PV, ?PO; exact M).
    - destruct (py_decode pass s); cbn [fst]; [rewrite PV; exact M|]. destruct (pb_error b); exact M.
    - cbn [fst]. destruct (pb_error b); exact M.
    - cbn. discriminate.
    - destruct (pb_error b); [exact M|]. destruct (py_decode false msg); exact M.
  Qed.

  (** The unmarshaller with this builder: as in L_XmlSafe.v, and only StreamErrors are thrown. *)
  Variable want : Z.
  Definition ginv (stk : list bytes) (u : xun) (b : pb) : Prop :=
    match x_exc u with
    | None => x_main u <> X_FAULT /\ pinv (List.length (containers stk)) b
    | Some (Exn (StreamError _)) => True
    | _ => False
    end.
  Definition gfine (r : xun * pb * option fail) (stk : list bytes) : Prop :=
    let '(u, b, f) := r in
    x_exc u = None /\ match f with
                      | None => x_main u <> X_FAULT /\ pinv (List.length (containers stk)) b
                      | Some (Exn (StreamError _)) => True
                      | _ => False
                      end.
  Lemma gfine_caught : forall r stk, gfine r stk -> let '(u, b) := x_caught r in ginv stk u b.
  Proof.
    intros [[u b] [[e|]|]] stk (X & G); unfold x_caught; [destruct e; try contradiction; exact I|contradiction|]. unfold ginv. rewrite X. exact G.
  Qed.
  Lemma emit_g : forall u b e k stk n, x_exc u = None -> pinv n b -> match e with EOpenStruct _ | EOpenArray _ | ECloseStruct | ECloseArray | EFault _ _ => False | _ => True end ->
    (forall b', pinv n b' -> gfine (k b') stk) -> gfine (x_emit step u b e k) stk.
  Proof.
    intros u b e k stk n X H N K. pose proof (pinv_step n b e H N) as [A B]. unfold x_emit. destruct (step b e) as [b' f]; cbn [fst snd] in *. subst f. apply K; exact B.
  Qed.
  Lemma response_g : forall u b stk n k, x_exc u = None -> x_main u <> X_FAULT -> pinv n b ->
    (forall u b, x_exc u = None -> x_main u <> X_FAULT -> pinv n b -> gfine (k u b) stk) -> gfine (x_response step u b k) stk.
  Proof.
    intros u b stk n k X M H K. unfold x_response. destruct (xtype_eqb (x_main u) X_METHOD_RESPONSE); [|apply K; auto].
    eapply emit_g; [exact X|exact H|exact I|]. intros b' H'. apply K; [exact X|discriminate|exact H'].
  Qed.
  Lemma type_g : forall u b n stk, (get_value_type n = X_FAULT -> want = T_METHOD_CALL \/ want = 0) -> x_exc u = None -> x_main u <> X_FAULT -> pinv (List.length (containers stk)) b ->
    gfine (set_value_type step want u b n) (n :: stk).
  Proof.
    intros u b n stk WANT X M H. unfold set_value_type. pose proof (cont_none n stk) as CN.
    destruct (get_value_type n) eqn:G;
      try (eapply response_g; [exact X|exact M|exact H|]; intros u1 t1 X1 M1 H1; split; [exact X1|]; split; [exact M1|rewrite CN by discriminate; exact H1]).
    - eapply response_g; [exact X|exact M|exact H|]. intros u1 t1 X1 M1 H1.
      assert (NF : xtype_eqb (x_main u1) X_FAULT = false) by (destruct (x_main u1); try reflexivity; congruence). rewrite NF.
      unfold x_emit. cbn [pb_step]. split; [exact X1|]. split; [exact M1|]. unfold containers. cbn [flat_map]. unfold kind_of_name at 1. rewrite G. apply pinv_open. exact H1.
    - eapply response_g; [exact X|exact M|exact H|]. intros u1 t1 X1 M1 H1.
      unfold x_emit. cbn [pb_step]. split; [exact X1|]. split; [exact M1|]. unfold containers. cbn [flat_map]. unfold kind_of_name at 1. rewrite G. apply pinv_open. exact H1.
    - cbv zeta. destruct (_ && _ && _); (split; [exact X|]); [exact I|]. split; [discriminate|rewrite CN by discriminate; exact H].
    - cbv zeta. destruct (_ && _ && _); (split; [exact X|]); [exact I|]. split; [discriminate|rewrite CN by discriminate; exact H].
    - cbv zeta. assert (Q : negb (main_code X_FAULT =? want) && negb (want =? TYPE_ANY) && (negb (xtype_eqb X_FAULT X_FAULT) || negb (want =? T_METHOD_RESPONSE)) = true)
        by (destruct (WANT eq_refl) as [-> | ->]; reflexivity). rewrite Q.
      split; [exact X|exact I].
  Qed.
  Lemma data_g : forall u b data stk, x_exc u = None -> x_main u <> X_FAULT -> pinv (List.length (containers stk)) b -> gfine (set_value_data step strtod erange u b data) stk.
  Proof.
    intros u b data stk X M H. unfold set_value_data.
    assert (NF : xtype_eqb (x_main u) X_FAULT = false) by (destruct (x_main u); try reflexivity; congruence). rewrite NF.
    assert (TH : forall m, gfine (x_throw u b m) stk) by (intro m; split; [exact X|exact I]).
    assert (NO : forall e, match e with EOpenStruct _ | EOpenArray _ | ECloseStruct | ECloseArray | EFault _ _ => False | _ => True end -> gfine (x_emit step u b e (fun b => (x_none u, b, None))) stk).
    { intros e N. eapply emit_g; [exact X|exact H|exact N|]. intros t' H'. split; [exact X|]. auto. }
    destruct (x_type u); try (apply NO; exact I); try (split; [exact X|]; auto; fail).
    - destruct (strtol_all data) as [z|]; [|apply TH]. cbv zeta. destruct (_ && _); [apply TH|apply NO; exact I].
    - destruct (strtod (c_str data)); [apply NO; exact I|apply TH].
    - pose proof (parse_iso_ub data). pose proof (iso_errors data) as IE. destruct (parse_iso data) as [d|e|]; [apply NO; exact I| |congruence].
      destruct (IE e eq_refl) as [m ->]. split; [exact X|exact I].
    - eapply emit_g; [exact X|exact H|exact I|]. intros t' H'. split; [exact X|]. split; [discriminate|exact H'].
  Qed.
  Lemma close_g : forall u b n stk, x_exc u = None -> x_main u <> X_FAULT -> pinv (List.length (containers (n :: stk))) b -> gfine (close_entity step u b n) stk.
  Proof.
    intros u b n stk X M H. unfold close_entity. change (x_main (x_none u)) with (x_main u).
    assert (NF : xtype_eqb (x_main u) X_FAULT = false) by (destruct (x_main u); try reflexivity; congruence). rewrite NF.
    unfold containers in H. cbn [flat_map] in H. unfold kind_of_name at 1 in H.
    destruct (get_value_type n); cbn [app] in H; try (split; [exact X|]; auto; fail).
    - unfold x_emit. cbn [pb_step]. destruct (pinv_close _ _ H) as [A B]. destruct (pb_close b) as [t' f]; cbn [fst snd] in *. subst f. split; [exact X|]. auto.
    - unfold x_emit. cbn [pb_step]. destruct (pinv_close _ _ H) as [A B]. destruct (pb_close b) as [t' f]; cbn [fst snd] in *. subst f. split; [exact X|]. auto.
  Qed.
  Lemma steps_g : want = T_METHOD_CALL \/ want = 0 -> forall l stk u b, nested_sax stk l -> ginv stk u b ->
    let '(u', b') := sax_steps step strtod erange want u b l in ginv (tags stk l) u' b'.
  Proof.
    intros WANT. induction l as [|e l IH]; intros stk u b N G; [exact G|]. cbn [sax_steps]. unfold sax_step at 1.
    destruct (x_exc u) as [f|] eqn:X.
    - assert (Q : sax_steps step strtod erange want u b l = (u, b)) by (apply steps_exc; congruence). rewrite Q. unfold ginv in *. rewrite X in *. destruct f as [[]|]; try contradiction; exact I.
    - assert (MH : x_main u <> X_FAULT /\ pinv (List.length (containers stk)) b) by (unfold ginv in G; rewrite X in G; exact G). destruct MH as [M H].
      destruct e as [n|n|c]; cbn [nested_sax tags] in *.
      + pose proof (type_g u b n stk (fun _ => WANT) X M H) as F. destruct (set_value_type step want u b n) as [[u1 t1] [f|]].
        * pose proof (gfine_caught _ _ F) as C. destruct (x_caught (u1, t1, Some f)) as [u2 t2]. apply IH; assumption.
        * assert (G2 : gfine (x_set_buf [] u1, t1, None) (n :: stk)) by exact F.
          pose proof (gfine_caught _ _ G2) as C. destruct (x_caught (x_set_buf [] u1, t1, None)) as [u2 t2]. apply IH; assumption.
      + destruct stk as [|m stk]; [contradiction|]. destruct N as [<- N]. cbn [tl].
        pose proof (data_g u b (x_buf u) (n :: stk) X M H) as F. destruct (set_value_data step strtod erange u b (x_buf u)) as [[u1 t1] [f|]].
        * assert (G2 : gfine (u1, t1, Some f) stk) by exact F.
          pose proof (gfine_caught _ _ G2) as C. destruct (x_caught (u1, t1, Some f)) as [u2 t2]. apply IH; assumption.
        * destruct F as (X1 & M1 & H1). pose proof (close_g u1 t1 n stk X1 M1 H1) as G2.
          pose proof (gfine_caught _ _ G2) as C. destruct (x_caught (close_entity step u1 t1 n)) as [u2 t2]. apply IH; assumption.
      + apply IH; [exact N|]. unfold ginv. cbn [x_set_buf x_exc x_main]. rewrite X. auto.
  Qed.

  (** A name, once there, stays; an element methodName with text gives one. *)
  Definition has (r : xun * pb * option fail) : Prop := pb_method (snd (fst r)) <> None.
  Lemma emit_has : forall u b e k, pb_method b <> None -> (forall b', pb_method b' <> None -> has (k b')) -> has (x_emit step u b e k).
  Proof. intros u b e k M K. pose proof (method_kept b e M) as M'. unfold x_emit. destruct (step b e) as [b' [f|]]; [exact M'|apply K; exact M']. Qed.
  Lemma response_has : forall u b k, pb_method b <> None -> (forall u b', pb_method b' <> None -> has (k u b')) -> has (x_response step u b k).
  Proof. intros u b k M K. unfold x_response. destruct (xtype_eqb _ _); [|auto]. apply emit_has; auto. Qed.
  Lemma type_has : forall u b n, pb_method b <> None -> has (set_value_type step want u b n).
  Proof.
    intros u b n M. unfold set_value_type. destruct (get_value_type n); try (apply response_has; [exact M|]; intros u1 b1 M1; exact M1).
    - apply response_has; [exact M|]. intros u1 b1 M1. destruct (xtype_eqb _ _); [exact M1|]. apply emit_has; [exact M1|]. auto.
    - apply response_has; [exact M|]. intros u1 b1 M1. apply emit_has; [exact M1|]. auto.
    - cbv zeta. destruct (_ && _ && _); exact M.
    - cbv zeta. destruct (_ && _ && _); exact M.
    - cbv zeta. destruct (_ && _ && _); exact M.
  Qed.
  Lemma data_has : forall u b d, pb_method b <> None -> has (set_value_data step strtod erange u b d).
  Proof.
    intros u b d M. assert (NO : forall u1 e, has (x_emit step u b e (fun b => (u1, b, None)))) by (intros u1 e; apply emit_has; [exact M|]; auto).
    unfold set_value_data. destruct (x_type u); try exact M; try apply NO.
    - destruct (strtol_all d); [|exact M]. cbv zeta. destruct (_ && _); [exact M|]. destruct (xtype_eqb _ _); [exact M|apply NO].
    - destruct (strtod (c_str d)); [apply NO|exact M].
    - destruct (xtype_eqb _ _); [exact M|apply NO].
    - destruct (parse_iso d); [apply NO|exact M|exact M].
    - destruct (xtype_eqb _ _); [exact M|apply NO].
  Qed.
  Lemma close_has : forall u b n, pb_method b <> None -> has (close_entity step u b n).
  Proof.
    intros u b n M. unfold close_entity. cbv zeta. destruct (xtype_eqb _ _); destruct (get_value_type n); try exact M; (apply emit_has; [exact M|]; auto).
  Qed.
  Lemma caught_has : forall r, has r -> pb_method (snd (x_caught r)) <> None.
  Proof. intros [[u b] [[e|]|]] H; unfold x_caught; [destruct e; exact H|exact H|exact H]. Qed.
  Lemma step_has : forall u b e, pb_method b <> None -> pb_method (snd (sax_step step strtod erange want u b e)) <> None.
  Proof.
    intros u b e M. unfold sax_step. destruct (x_exc u); [exact M|]. destruct e as [n|n|c]; [| |exact M].
    - apply caught_has. pose proof (type_has u b n M) as T. destruct (set_value_type step want u b n) as [[u1 b1] [f|]]; exact T.
    - apply caught_has. pose proof (data_has u b (x_buf u) M) as T. destruct (set_value_data step strtod erange u b (x_buf u)) as [[u1 b1] [f|]]; [exact T|apply close_has; exact T].
  Qed.
  Lemma steps_has : forall l u b, pb_method b <> None -> pb_method (snd (sax_steps step strtod erange want u b l)) <> None.
  Proof.
    induction l as [|e l IH]; intros u b M; [exact M|]. cbn [sax_steps]. pose proof (step_has u b e M) as M'. destruct (sax_step step strtod erange want u b e) as [u1 b1]. apply IH. exact M'.
  Qed.
  Definition opening (l : list sax) : Prop := exists a texts, l = a ++ SStart (str "methodName") :: map SChars texts.
  Lemma opening_snoc : forall l e, opening (l ++ [e]) -> e = SStart (str "methodName") \/ (exists t, e = SChars t) /\ opening l.
  Proof.
    intros l e (a & ts & H). destruct (rev ts) as [|t ts'] eqn:R.
    - assert (ts = []) by (rewrite <- (rev_involutive ts), R; reflexivity). subst. cbn [map] in H. apply app_inj_tail in H as [_ ->]. auto.
    - assert (ts = rev ts' ++ [t]) by (rewrite <- (rev_involutive ts), R; reflexivity). subst. rewrite map_app in H. cbn [map] in H. rewrite app_comm_cons, app_assoc in H.
      apply app_inj_tail in H as [-> ->]. right. split; [eauto|]. exists a, (rev ts'). reflexivity.
  Qed.
  Lemma named_snoc : forall l e, named (l ++ [e]) -> named l \/ (exists n, e = SEnd n) /\ opening l.
  Proof.
    intros l e (a & ts & n & r & H). destruct (rev r) as [|x r'] eqn:R.
    - assert (r = []) by (rewrite <- (rev_involutive r), R; reflexivity). subst. rewrite app_comm_cons, app_assoc in H. apply app_inj_tail in H as [-> ->].
      right. split; [eauto|]. exists a, ts. reflexivity.
    - assert (r = rev r' ++ [x]) by (rewrite <- (rev_involutive r), R; reflexivity). subst. left.
      assert (E : l ++ [e] = (a ++ SStart (str "methodName") :: map SChars ts ++ SEnd n :: rev r') ++ [x]) by (rewrite H; rewrite <- ?app_assoc; cbn [app]; rewrite <- ?app_assoc; reflexivity).
      apply app_inj_tail in E as [-> _]. exists a, ts, n, (rev r'). reflexivity.
  Qed.
  Definition heard (l : list sax) (u : xun) (b : pb) : Prop := (named l -> pb_method b <> None) /\ (opening l -> x_type u = X_METHOD_NAME).
  Lemma start_heard : forall u b u' b', sax_step step strtod erange want u b (SStart (str "methodName")) = (u', b') -> x_exc u' = None -> x_type u' = X_METHOD_NAME.
  Proof.
    intros u b u' b' E X. unfold sax_step in E. destruct (x_exc u) eqn:XU; [inversion E; subst; congruence|].
    unfold set_value_type in E. change (get_value_type (str "methodName")) with X_METHOD_NAME in E. cbv iota in E.
    unfold x_response, x_emit in E. destruct (xtype_eqb (x_main u) X_METHOD_RESPONSE); [cbn [pb_step] in E|]; unfold x_caught in E; inversion E; subst; reflexivity.
  Qed.
  Lemma end_heard : forall u b n u' b', x_type u = X_METHOD_NAME -> sax_step step strtod erange want u b (SEnd n) = (u', b') -> x_exc u' = None -> pb_method b' <> None.
  Proof.
    intros u b n u' b' T E X. unfold sax_step in E. destruct (x_exc u) eqn:XU; [inversion E; subst; congruence|].
    unfold set_value_data in E. rewrite T in E. unfold x_emit in E at 1. cbn [pb_step] in E.
    match type of E with x_caught (close_entity step ?u ?b n) = _ => assert (B1 : pb_method b <> None) by (cbn; discriminate); pose proof (caught_has _ (close_has u b n B1)) as Q end.
    rewrite E in Q. exact Q.
  Qed.
  Lemma steps_heard : forall m l u b u' b', sax_steps step strtod erange want u b m = (u', b') -> x_exc u' = None -> heard l u b -> heard (l ++ m) u' b'.
  Proof.
    induction m as [|e m IH]; intros l u b u' b' H X [N O]; cbn [sax_steps] in H; [inversion H; subst; rewrite app_nil_r; split; assumption|].
    destruct (sax_step step strtod erange want u b e) as [u1 b1] eqn:E.
    assert (X1 : x_exc u1 = None). { destruct (x_exc u1) eqn:X1; [|reflexivity]. rewrite steps_exc in H by congruence. congruence. }
    replace (l ++ e :: m) with ((l ++ [e]) ++ m) by (rewrite <- app_assoc; reflexivity). eapply IH; [exact H|exact X|]. split.
    - intro Y. apply named_snoc in Y as [Y|[[n ->] Y]]; [|eapply end_heard; eauto]. pose proof (step_has u b e (N Y)) as Q. rewrite E in Q. exact Q.
    - intro Y. apply opening_snoc in Y as [-> |[[t ->] Y]]; [eapply start_heard; eauto|]. specialize (O Y). unfold sax_step in E. destruct (x_exc u); inversion E; subst; exact O.
  Qed.
End Xml.

(** ** The version *)
Lemma find_sub_spec : forall p s i, find_sub p s = Some i -> exists a r, s = a ++ p ++ r /\ blen a = i.
Proof.
  intros p. assert (PF : forall q s, is_prefix q s = true -> exists r, s = q ++ r).
  { induction q as [|c q IH]; intros s H; [exists s; reflexivity|]. destruct s as [|x s]; [discriminate|]. cbn [is_prefix] in H. apply andb_true_iff in H as [H1 H2].
    apply byte_eqb_eq in H1. subst x. destruct (IH s H2) as [r ->]. exists r. reflexivity. }
  induction s as [|c s IH]; intros i H; cbn [find_sub] in H.
  - destruct (is_prefix p []) eqn:E; [|discriminate]. inversion H; subst. destruct (PF _ _ E) as [r ->]. exists [], r. split; reflexivity.
  - destruct (is_prefix p (c :: s)) eqn:E; [inversion H; subst; destruct (PF _ _ E) as [r ->]; exists [], r; split; reflexivity|].
    destruct (find_sub p s) as [j|]; [|discriminate]. inversion H; subst. destruct (IH j eq_refl) as (a & r & -> & L). exists (c :: a), r. split; [reflexivity|]. unfold blen, zlen in *. cbn [List.length]. lia.
Qed.
Lemma ztake_split : forall n (s : bytes), exists r, s = ztake n s ++ r.
Proof. intros n s. exists (skipn (Z.to_nat n) s). unfold ztake. symmetry. apply firstn_skipn. Qed.
Lemma first_text_app : forall a b, first_text a = [] -> first_text (a ++ b) = first_text b.
Proof. induction a as [|[|c d] a IH]; intros b H; [reflexivity|cbn; apply IH; exact H|discriminate]. Qed.
Lemma first_text_kept : forall a b, first_text a <> [] -> first_text (a ++ b) = first_text a.
Proof. induction a as [|[|c d] a IH]; intros b H; [destruct (H eq_refl)|cbn; apply IH; exact H|reflexivity]. Qed.
Definition vinv (prior : list bytes) (u : xun) : Prop :=
  if x_check u then first_text prior = [] /\ x_ver u = mkVer 2 1 else first_text prior <> [] /\ (3 < v_major (x_ver u) -> bad_declaration (first_text prior)).
Lemma sniff_vinv : forall prior u d u' f, vinv prior u -> x_sniff u d = (u', f) ->
  match f with
  | None => vinv (prior ++ [d]) u'
  | Some f => bad_declaration (first_text (prior ++ [d]))
  end.
Proof.
  intros prior u d u' f V H. unfold x_sniff in H. unfold vinv in V.
  destruct (x_check u) eqn:C.
  2:{ rewrite andb_false_r in H. inversion H; subst. unfold vinv. rewrite C. destruct V as [V1 V2]. rewrite (first_text_kept _ _ V1). split; assumption. }
  destruct V as [V1 V2].
  assert (KEEP : d = [] -> x_ver u = mkVer 2 1 -> vinv (prior ++ [d]) u) by (intros -> E; unfold vinv; rewrite C, (first_text_app _ _ V1); split; [reflexivity|exact E]).
  destruct d as [|c d]; [inversion H; subst; apply KEEP; auto|]. set (t := c :: d) in *. assert (FT : first_text (@app bytes prior (@cons bytes t nil)) = t) by (etransitivity; [apply first_text_app; exact V1|reflexivity]). assert (FT2 : first_text (prior ++ [t]) = t) by exact FT.
  assert (B : negb (blen t =? 0) && true = true) by (unfold t, blen, zlen; cbn [List.length]; destruct (Z.eqb_spec (Z.of_nat (S (List.length d))) 0); [lia|reflexivity]). rewrite B in H.
  assert (CH : forall u0, v_major (x_ver u0) = 2 -> x_ver u0 = x_ver u0 -> vinv (prior ++ [t]) (x_checked u0)).
  { intros u0 E _. unfold vinv. cbn [x_checked x_check x_ver]. first [rewrite FT|rewrite FT2]. split; [discriminate|]. rewrite E. lia. }
  assert (V2' : v_major (x_ver u) = 2) by (rewrite V2; reflexivity).
  destruct (find_sub version_mark (ztake 80 t)) as [i|] eqn:EF; [|inversion H; subst; apply CH; auto].
  destruct (Z.ltb_spec (i + blen version_mark + 2) (blen t)) as [L|L]; [|inversion H; subst; apply CH; auto].
  destruct (find_sub_spec _ _ _ EF) as (a & r & ES & EA). destruct (ztake_split 80 t) as [q EQ]. rewrite ES in EQ. rewrite <- !app_assoc in EQ.
  change (blen version_mark) with 17 in *.
  assert (L80 : blen a + 17 <= 80).
  { assert (X : blen (ztake 80 t) <= 80) by (unfold blen, zlen, ztake; rewrite firstn_length; lia). rewrite ES in X. unfold blen, zlen in *. rewrite !app_length in X. change (List.length version_mark) with 17%nat in X. lia. }
  assert (RQ : exists x y z after, r ++ q = x :: y :: z :: after).
  { assert (X : blen (r ++ q) >= 3). { rewrite EQ in L. unfold blen, zlen in *. rewrite !app_length in L. rewrite app_length. change (List.length version_mark) with 17%nat in L. lia. }
    destruct (r ++ q) as [|x [|y [|z after]]]; try (unfold blen, zlen in X; cbn in X; lia). eauto. }
  destruct RQ as (x & y & z & after & RQ). rewrite RQ in EQ.
  assert (LT : blen (ztake 80 t) = Z.min 80 (blen t)) by (unfold blen, zlen, ztake; rewrite firstn_length; lia).
  assert (BAD : 80 <= blen a + 17 + 2 \/ b2z x < 48 \/ 51 < b2z x -> bad_declaration t).
  { intro X. exists a, x, y, z, after. split; [exact EQ|]. split; [exact L80|]. tauto. }
  assert (NT : forall n, nth_error (ztake 80 t) n = None -> Z.of_nat n < blen t -> 80 <= Z.of_nat n).
  { intros n X Y. apply nth_error_None in X. unfold blen, zlen in LT. unfold blen, zlen in Y. lia. }
  destruct (nth_error (ztake 80 t) (Z.to_nat (i + 17))) as [m|] eqn:E1.
  - destruct (nth_error (ztake 80 t) (Z.to_nat (i + 17 + 2))) as [m2|] eqn:E2.
    + inversion H; subst u' f. unfold vinv. cbn [x_checked x_set_ver x_check x_ver]. first [rewrite FT|rewrite FT2]. split; [discriminate|]. intro V. apply BAD. right. 
      assert (EM : m = x).
      { assert (X : nth_error t (Z.to_nat (i + 17)) = Some m). { destruct (ztake_split 80 t) as [q' EQ']. rewrite EQ'. rewrite nth_error_app1; [exact E1|]. apply nth_error_Some. congruence. }
        rewrite EQ in X. rewrite app_assoc in X. rewrite nth_error_app2 in X by (rewrite app_length; change (List.length version_mark) with 17%nat; unfold blen, zlen in EA; lia).
        replace (Z.to_nat (i + 17) - List.length (a ++ version_mark))%nat with 0%nat in X by (rewrite app_length; change (List.length version_mark) with 17%nat; unfold blen, zlen in EA; lia).
        cbn in X. congruence. }
      subst m. cbn [v_major] in V. unfold u8, unsigned in V. change (2 ^ 8) with 256 in V. pose proof (b2z_range x). destruct (Z.lt_ge_cases (b2z x) 48); [auto|]. right. rewrite Z.mod_small in V by lia. lia.
    + inversion H; subst. first [rewrite FT|rewrite FT2]. apply BAD. left. pose proof (NT _ E2). unfold blen, zlen in *. lia.
  - inversion H; subst. first [rewrite FT|rewrite FT2]. apply BAD. left. pose proof (NT _ E1). unfold blen, zlen in *. lia.
Qed.

(** ** The pieces of a document *)
Section Pieces.
  Variable host : datetime -> datetime.
  Variable pass native : bool.
  Variable P : parser.
  Variable strtod : bytes -> option Z.
  Variable erange : bool.
  Hypothesis ORD : orderly P.
  Notation step := (pb_step host pass native).
  Notation um := (pxml_um step P strtod erange T_METHOD_CALL).

  Lemma steps_ver : forall w l u b, x_ver (fst (sax_steps step strtod erange w u b l)) = x_ver u /\ x_check (fst (sax_steps step strtod erange w u b l)) = x_check u.
  Proof.
    intros w l u b. replace u with (set_vc (x_ver u) (x_check u) u) at 1 3 by (destruct u; reflexivity).
    rewrite steps_vc. destruct (sax_steps step strtod erange w u b l) as [u1 b1]. split; reflexivity.
  Qed.
  Definition good (prior : list bytes) (l : list sax) (u : xun) (b : pb) : Prop :=
    x_exc u = None /\ ginv (tags [] l) u b /\ vinv prior u /\ heard l u b.
  Lemma sniff_rest : forall u d u' f, x_sniff u d = (u', f) -> x_type u' = x_type u.
  Proof.
    intros u d u' f H. unfold x_sniff in H. repeat match type of H with context [match ?x with _ => _ end] => destruct x end; inversion H; subst; reflexivity.
  Qed.
  Lemma unmarshall_g : forall want prior l u b d batch code u' b' f, want = T_METHOD_CALL \/ want = 0 ->
    nested_sax (tags [] l) batch -> (code < 102 \/ 816 <= code) -> good prior l u b ->
    x_unmarshall step strtod erange want u b d batch code = (u', b', f) ->
    match f with
    | None => code = 0 /\ good (prior ++ [d]) (l ++ batch) u' b'
    | Some (Exn (StreamError _)) => True
    | Some _ => bad_declaration (first_text (prior ++ [d]))
    end.
  Proof.
    intros want prior l u b d batch code u' b' f HW HN HC (HX & HG & HV & HH) H. unfold x_unmarshall in H.
    destruct (x_sniff u d) as [u1 f1] eqn:ES. destruct (x_sniff_exc _ _ _ _ ES) as (EX & EM & EU). pose proof (sniff_rest _ _ _ _ ES) as ET. pose proof (sniff_vinv _ _ _ _ _ HV ES) as V1.
    destruct f1 as [f1|]; [injection H as <- <- <-; destruct f1 as [[]|]; auto; exact V1|].
    assert (G1 : ginv (tags [] l) u1 b) by (unfold ginv in *; rewrite EX, EM; exact HG).
    assert (H1 : heard l u1 b) by (destruct HH as [A B]; split; [exact A|rewrite ET; exact B]).
    pose proof (steps_g host pass native strtod erange want HW batch (tags [] l) u1 b HN G1) as G.
    pose proof (steps_heard host pass native strtod erange want batch l u1 b) as SH. pose proof (steps_ver want batch u1 b) as [SV SC].
    destruct (sax_steps step strtod erange want u1 b batch) as [u2 b2]. cbn [fst] in SV, SC. specialize (SH _ _ eq_refl).
    unfold ginv in G. rewrite known_text in H by exact HC.
    assert (HF : (if code =? 0 then (u2, b2, x_exc u2) else (u2, b2, Some (Exn (StreamError "Parser error")))) = (u', b', f)) by (destruct (x_exc u2) as [[e|]|]; [exact H|contradiction|exact H]).
    destruct (Z.eqb_spec code 0) as [EC|EC]; inversion HF; subst; [|exact I].
    destruct (x_exc u') as [[e|]|] eqn:X; [destruct e; try contradiction; exact I|contradiction|].
    split; [reflexivity|]. split; [exact X|]. split; [unfold ginv; rewrite X, tags_app; exact G|]. split; [unfold vinv in *; rewrite SV, SC; exact V1|apply SH; [reflexivity|exact H1]].
  Qed.
  Lemma xml_pieces : forall pieces prior batches p u b s f,
    reports P (ps_init P) prior batches p -> good prior (concat batches) u b ->
    hand_over (pu_take um) (p, u, b) pieces = (s, f) ->
    match f with
    | None => exists batches' p' u' b', s = (p', u', b') /\ reports P (ps_init P) (prior ++ pieces) batches' p' /\ good (prior ++ pieces) (concat batches') u' b'
    | Some (Exn (StreamError _)) => True
    | Some _ => bad_declaration (first_text (prior ++ pieces))
    end.
  Proof.
    induction pieces as [|d pieces IH]; intros prior batches p u b s f HR HG H.
    - inversion H; subst. rewrite app_nil_r. eauto 10.
    - cbn [hand_over] in H. cbn [pu_take pxml_um] in H. destruct (ps_take P p d) as [[p1 batch] code] eqn:ET.
      destruct (ORD _ _ _ _ _ _ _ HR ET) as [HN HC]. apply nested_app in HN as [_ HN].
      destruct (x_unmarshall step strtod erange T_METHOD_CALL u b d batch code) as [[u1 b1] f1] eqn:EU.
      pose proof (unmarshall_g _ _ _ _ _ _ _ _ _ _ _ (or_introl eq_refl) HN HC HG EU) as F1.
      destruct f1 as [f1|].
      + injection H as <- <-. destruct f1 as [[]|]; auto.
        all: replace (prior ++ d :: pieces) with ((prior ++ [d]) ++ pieces) by (rewrite <- app_assoc; reflexivity); rewrite first_text_kept; [exact F1|].
        all: intro Z0; unfold bytes in *; rewrite Z0 in F1; destruct F1 as (a & m & x & y & r & E & _); destruct a; discriminate.
      + destruct F1 as [-> G1]. replace (prior ++ d :: pieces) with ((prior ++ [d]) ++ pieces) by (rewrite <- app_assoc; reflexivity).
        eapply IH; [eapply reports_snoc; eassumption| |exact H]. rewrite concat_app. cbn [concat]. rewrite app_nil_r. exact G1.
  Qed.
  Lemma xml_fine : forall pieces, troubles um In_xml pieces -> bad_declaration (first_text pieces) \/ nameless P pieces.
  Proof.
    intros pieces T.
    assert (START : good [] (concat []) xun_init pb_init).
    { split; [reflexivity|]. split; [split; [discriminate|right; cbn; lia]|]. split; [split; reflexivity|]. split; [intros (a & ts & n & r & E); destruct a; discriminate|intros (a & ts & E); destruct a; discriminate]. }
    pose proof (fun s f => xml_pieces pieces [] [] (ps_init P) xun_init pb_init s f (reports_nil P _) START) as XP. cbn [app] in XP.
    assert (FIN : forall s s' x, hand_over (pu_take um) (pu_init um) pieces = (s, None) -> pu_finish um s = (s', x) ->
      exists batches p u b p1 last u1 b1, reports P (ps_init P) pieces batches p /\ ps_take P p [] = (p1, last, 0) /\ x = Ok tt /\ s' = (p1, u1, b1) /\ good (pieces ++ [[]]) (concat batches ++ last) u1 b1 /\ s = (p, u, b)
      \/ (exists m, x = Err (StreamError m)) \/ bad_declaration (first_text pieces)).
    { intros s s' x HO HF. destruct (XP _ _ HO) as (batches & p & u & b & -> & HR & HG). cbn [pu_finish pxml_um] in HF. destruct (ps_take P p []) as [[p1 last] code] eqn:ET.
      destruct (ORD _ _ _ _ _ _ _ HR ET) as [HN HC]. apply nested_app in HN as [_ HN]. unfold x_finish in HF.
      destruct (x_unmarshall step strtod erange 0 u b [] last code) as [[u1 b1] f1] eqn:EU. pose proof (unmarshall_g _ _ _ _ _ _ _ _ _ _ _ (or_intror eq_refl) HN HC HG EU) as F1.
      exists batches, p, u, b, p1, last, u1, b1. assert (FN : first_text (pieces ++ [[]]) = first_text pieces).
      { destruct (first_text pieces) eqn:FE; [rewrite first_text_app by exact FE; reflexivity|rewrite first_text_kept by congruence; exact FE]. }
      destruct f1 as [[e|]|].
      - inversion HF; subst. destruct e; try (right; right; rewrite <- FN; exact F1). right. left. eauto.
      - right. right. rewrite <- FN. exact F1.
      - destruct F1 as [-> G1]. destruct (xtype_eqb (x_type u1) X_NONE); inversion HF; subst; [left; auto 10|right; left; eauto]. }
    destruct T as [s f HO U|s s' x f HO HF X U|s s' HO HF X].
    - left. pose proof (XP _ _ HO) as Y. destruct f as [[]|]; try exact Y. destruct U.
    - destruct (FIN _ _ _ HO HF) as (bs & p & u & b & p1 & last & u1 & b1 & [(_ & _ & -> & _)|[[m ->]|B]]); [|exfalso|left; exact B].
      + exfalso. destruct X as [[X _]|(e & X & _)]; discriminate.
      + destruct X as [[X _]|(e & X & ->)]; [discriminate|]. injection X as <-. exact U.
    - destruct (FIN _ _ _ HO HF) as (bs & p & u & b & p1 & last & u1 & b1 & [(HR & ET & _ & -> & G1 & _)|[[m Y]|B]]); [|discriminate|left; exact B].
      destruct G1 as (_ & _ & V & [N _]). cbn [pu_version pu_builder pxml_um fst snd version_of] in X.
      assert (FN : first_text (pieces ++ [[]]) = first_text pieces).
      { destruct (first_text pieces) eqn:FE; [rewrite first_text_app by exact FE; reflexivity|rewrite first_text_kept by congruence; exact FE]. }
      destruct X as [X|[X _]].
      + left. unfold vinv in V. destruct (x_check u1); [destruct V as [_ V]; rewrite V in X; cbn in X; lia|]. destruct V as [_ V]. rewrite <- FN. apply V. exact X.
      + right. exists bs, p, p1, last. split; [exact HR|]. split; [exact ET|]. intro Y. exact (N Y X).
  Qed.
End Pieces.
