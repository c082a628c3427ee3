(** The XML unmarshaller with the tree builder does nothing undefined when it reads requests. *)
From Coq Require Import Lia.
From Verif Require Import Base Value Text M_Marshal M_BinUnmarshal M_TreeBuilder M_Base64 M_Iso M_Url M_Registry M_Xml M_XmlUm
  S_Value S_Xml S_XmlUm S_Server L_Base L_Origin L_Xml4 L_Xml7.

(** How many containers are open, and what [retValue] can be. *)
Definition tinv (st : list kind) (t : tb) : Prop :=
  (List.length st <= List.length (tb_stack t ++ concat (tb_under t)))%nat /\
  Forall (fun s => s <> []) (tb_under t) /\
  (tb_stack t = [] -> tb_under t = [] /\ tb_root t <> RBottom).

Lemma tinv_init : tinv [] tb_init.
Proof. split; [cbn; lia|]. split; [constructor|]. intros _. split; [reflexivity|discriminate]. Qed.
Lemma tinv_data : forall st t, tinv st t -> tb_data t <> UB.
Proof.
  intros st t (_ & _ & H). unfold tb_data. destruct (tb_root t); try discriminate.
  destruct (tb_stack t) eqn:E; [destruct (H eq_refl) as [_ H2]; congruence|apply plug_not_ub].
Qed.
Lemma tinv_value : forall st t v, tinv st t -> snd (tb_value t v) <> Some Undef /\ tinv st (fst (tb_value t v)).
Proof.
  intros st t v (H1 & H2 & H3). unfold tb_value. destruct (tb_stack t) as [|f r] eqn:E.
  - destruct (H3 eq_refl) as [U R]. destruct (tb_first t); cbn [fst snd]; (split; [discriminate|]); (split; [|split]); cbn [tb_stack tb_under tb_root]; auto.
    + intros _. split; [exact U|discriminate].
    + rewrite E. exact H1.
  - pose proof (frame_add_not_ub (tb_member t) v f) as N. destruct (frame_add (tb_member t) v f) as [f'|e|]; [| |congruence]; cbn [fst snd]; (split; [discriminate|]); (split; [|split]);
      cbn [tb_set_stack tb_stack tb_under tb_root]; auto; try discriminate; rewrite E; [exact H1|discriminate].
Qed.
Lemma tinv_open : forall st t b k, tinv st t -> snd (tb_open t b) <> Some Undef /\
  tinv (if snd (tb_open t b) then st else k :: st) (fst (tb_open t b)).
Proof.
  intros st t b k (H1 & H2 & H3). unfold tb_open. destruct (tb_stack t) as [|f r] eqn:E.
  - destruct (H3 eq_refl) as [U R]. destruct (tb_first t); cbn [fst snd]; (split; [discriminate|]); (split; [|split]); cbn [tb_stack tb_under tb_root unexpected]; auto.
    + cbn [app List.length] in *. lia.
    + discriminate.
    + rewrite E. exact H1.
  - pose proof (frame_add_not_ub (tb_member t) (body_value b) f) as N. destruct (frame_add (tb_member t) (body_value b) f) as [f'|e|]; [| |congruence]; cbn [fst snd];
      (split; [discriminate|]); (split; [|split]); cbn [tb_set_stack tb_stack tb_under tb_root]; auto; try discriminate.
    + cbn [app List.length] in *. lia.
    + rewrite E. exact H1.
    + rewrite E. discriminate.
Qed.
Lemma tinv_close : forall st t k, tinv (k :: st) t -> snd (tb_close t) <> Some Undef /\
  tinv st (fst (tb_close t)).
Proof.
  intros st t k (H1 & H2 & H3). cbn [List.length] in H1. unfold tb_close. destruct (tb_stack t) as [|f [|p r]] eqn:E.
  - destruct (H3 eq_refl) as [U _]. rewrite U in H1. cbn in H1. lia.
  - cbn [fst snd]. split; [discriminate|]. split; [|split]; cbn [tb_stack tb_under tb_root].
    + destruct (tb_under t) as [|s us]; cbn [app concat hd tl List.length] in *; [lia|rewrite app_length in *; lia].
    + destruct H2; cbn; auto.
    + intro Q. destruct H2 as [|s us HS HU]; cbn [hd tl] in *; [|congruence]. split; [reflexivity|]. destruct (tb_root t); discriminate.
  - pose proof (frame_add_not_ub (f_key f) (body_value (f_body f)) p) as N. destruct (frame_add (f_key f) (body_value (f_body f)) p) as [f'|e|]; [| |congruence]; cbn [fst snd];
      (split; [discriminate|]); (split; [|split]); cbn [tb_set_stack tb_stack tb_under tb_root]; auto; try discriminate.
    + cbn [app List.length] in *. lia.
    + rewrite E. cbn [app List.length] in *. lia.
    + rewrite E. discriminate.
Qed.
Lemma tinv_step : forall val st t e, tinv st t ->
  match e with ECloseStruct | ECloseArray => False | _ => True end ->
  snd (tb_step val t e) <> Some Undef /\ tinv st (fst (tb_step val t e)).
Proof.
  intros val st t e H N. assert (HW : forall k st t, tinv (k :: st) t -> tinv st t) by (intros k st0 t0 (A & B); split; [cbn [List.length] in A; lia|exact B]).
  assert (HO : forall b, snd (tb_open t b) <> Some Undef /\ tinv st (fst (tb_open t b))).
  { intro b. destruct (tinv_open st t b KArray H) as [A B]. split; [exact A|]. destruct (snd (tb_open t b)); [exact B|eapply HW; exact B]. }
  destruct e; try contradiction; cbn [tb_step]; try (apply tinv_value; exact H); try apply HO; cbn [fst snd]; (split; [discriminate|]); auto.
  - destruct H as (H1 & H2 & H3). split; [|split]; cbn [tb_stack tb_under tb_root]; try discriminate.
    + cbn [app List.length] in *. destruct (tb_stack t) as [|f r] eqn:E; cbn [app concat List.length] in *; [lia|rewrite app_length in *; cbn [List.length] in *; lia].
    + destruct (tb_stack t) eqn:E; [exact H2|constructor; [discriminate|exact H2]].
  - destruct H as (H1 & H2 & H3). split; [|split]; cbn [tb_stack tb_under tb_root]; auto. intro Q. destruct (H3 Q). split; [assumption|discriminate].
Qed.

Lemma parse_iso_ub : forall s, parse_iso s <> UB.
Proof.
  intro s. unfold parse_iso. repeat match goal with |- context [match ?x with _ => _ end] => destruct x end; discriminate.
Qed.

Section Safe.
  Variable val : option mktime_t.
  Variable strtod : bytes -> option Z.
  Variable erange : bool.
  Notation step := (tb_step val).
  Variable want : Z.

  Definition sinv (stk : list bytes) (u : xun) (t : tb) : Prop :=
    x_exc u <> Some Undef /\ (x_exc u = None -> x_main u <> X_FAULT /\ tinv (containers stk) t).
  Definition fine (r : xun * tb * option fail) (stk : list bytes) : Prop :=
    let '(u, t, f) := r in
    x_exc u = None /\ f <> Some Undef /\ (f = None -> x_main u <> X_FAULT /\ tinv (containers stk) t).

  Lemma fine_caught : forall r stk, fine r stk -> let '(u, t) := x_caught r in sinv stk u t.
  Proof.
    intros [[u t] [[e|]|]] stk (X & U & G); unfold x_caught.
    - destruct e; (split; [cbn; discriminate|cbn; discriminate]).
    - congruence.
    - split; [congruence|]. intros _. auto.
  Qed.
  Lemma emit_fine : forall u t e k stk st, x_exc u = None -> tinv st t -> match e with ECloseStruct | ECloseArray => False | _ => True end ->
    (forall t', tinv st t' -> fine (k t') stk) -> fine (x_emit step u t e k) stk.
  Proof.
    intros u t e k stk st X H N K. pose proof (tinv_step val st t e H N) as [A B]. unfold x_emit. destruct (step t e) as [t' [f|]]; cbn [fst snd] in *; [|apply K; exact B].
    split; [exact X|]. split; [exact A|discriminate].
  Qed.
  Lemma response_fine : forall u t n st k, x_exc u = None -> x_main u <> X_FAULT -> tinv st t ->
    (forall u t, x_exc u = None -> x_main u <> X_FAULT -> tinv st t -> fine (k u t) n) -> fine (x_response step u t k) n.
  Proof.
    intros u t n st k X M H K. unfold x_response. destruct (xtype_eqb (x_main u) X_METHOD_RESPONSE); [|apply K; auto].
    eapply emit_fine; [exact X|exact H|exact I|]. intros t' H'. apply K; [exact X|discriminate|exact H'].
  Qed.
  Lemma open_fine : forall u t n stk e b k, x_exc u = None -> x_main u <> X_FAULT -> tinv (containers stk) t ->
    (forall t, step t e = tb_open t b) -> containers (n :: stk) = k :: containers stk ->
    fine (x_emit step u t e (fun t => (x_with X_NONE (x_main u) u, t, None))) (n :: stk).
  Proof.
    intros u t n stk e b k X M H E C. unfold x_emit. rewrite E. pose proof (tinv_open _ t b k H) as [A B].
    destruct (tb_open t b) as [t' [f|]]; cbn [fst snd] in *; (split; [exact X|]); (split; [exact A|]); [discriminate|].
    intros _. split; [exact M|]. rewrite C. exact B.
  Qed.
  Lemma type_fine : forall u t n stk, (get_value_type n = X_FAULT -> want = T_METHOD_CALL \/ want = 0) -> x_exc u = None -> x_main u <> X_FAULT -> tinv (containers stk) t ->
    fine (set_value_type step want u t n) (n :: stk).
  Proof.
    intros u t n stk WANT X M H. unfold set_value_type. pose proof (cont_none n stk) as CN.
    destruct (get_value_type n) eqn:G;
      try (eapply response_fine; [exact X|exact M|exact H|]; intros u1 t1 X1 M1 H1; split; [exact X1|]; split; [discriminate|]; intros _; split; [exact M1|rewrite CN by discriminate; exact H1]).
    - eapply response_fine; [exact X|exact M|exact H|]. intros u1 t1 X1 M1 H1.
      assert (NF : xtype_eqb (x_main u1) X_FAULT = false) by (destruct (x_main u1); try reflexivity; congruence). rewrite NF.
      eapply open_fine; [exact X1|exact M1|exact H1|reflexivity|]. unfold containers. cbn [flat_map]. unfold kind_of_name at 1. rewrite G. reflexivity.
    - eapply response_fine; [exact X|exact M|exact H|]. intros u1 t1 X1 M1 H1.
      eapply open_fine; [exact X1|exact M1|exact H1|reflexivity|]. unfold containers. cbn [flat_map]. unfold kind_of_name at 1. rewrite G. reflexivity.
    - cbv zeta. destruct (_ && _ && _); (split; [exact X|]); (split; [discriminate|]); [discriminate|]. intros _. split; [discriminate|rewrite CN by discriminate; exact H].
    - cbv zeta. destruct (_ && _ && _); (split; [exact X|]); (split; [discriminate|]); [discriminate|]. intros _. split; [discriminate|rewrite CN by discriminate; exact H].
    - cbv zeta. assert (Q : negb (main_code X_FAULT =? want) && negb (want =? TYPE_ANY) && (negb (xtype_eqb X_FAULT X_FAULT) || negb (want =? T_METHOD_RESPONSE)) = true)
        by (destruct (WANT eq_refl) as [-> | ->]; reflexivity). rewrite Q.
      split; [exact X|]. split; discriminate.
  Qed.
  Lemma data_fine : forall u t data stk, x_exc u = None -> x_main u <> X_FAULT -> tinv (containers stk) t ->
    fine (set_value_data step strtod erange u t data) stk.
  Proof.
    intros u t data stk X M H. unfold set_value_data.
    assert (NF : xtype_eqb (x_main u) X_FAULT = false) by (destruct (x_main u); try reflexivity; congruence). rewrite NF.
    assert (TH : forall m, fine (x_throw u t m) stk) by (intro m; split; [exact X|split; discriminate]).
    assert (NO : forall e, match e with ECloseStruct | ECloseArray => False | _ => True end -> fine (x_emit step u t e (fun b => (x_none u, b, None))) stk).
    { intros e N. eapply emit_fine; [exact X|exact H|exact N|]. intros t' H'. split; [exact X|]. split; [discriminate|]. auto. }
    destruct (x_type u); try (apply NO; exact I); try (split; [exact X|]; split; [discriminate|]; auto; fail).
    - destruct (strtol_all data) as [z|]; [|apply TH]. cbv zeta. destruct (_ && _); [apply TH|apply NO; exact I].
    - destruct (strtod (c_str data)); [apply NO; exact I|apply TH].
    - pose proof (parse_iso_ub data). destruct (parse_iso data) as [d|e|]; [apply NO; exact I| |congruence]. split; [exact X|split; discriminate].
    - eapply emit_fine; [exact X|exact H|exact I|]. intros t' H'. split; [exact X|]. split; [discriminate|]. intros _. split; [discriminate|exact H'].
  Qed.
  Lemma close_fine : forall u t n stk, x_exc u = None -> x_main u <> X_FAULT -> tinv (containers (n :: stk)) t ->
    fine (close_entity step u t n) stk.
  Proof.
    intros u t n stk X M H. unfold close_entity. change (x_main (x_none u)) with (x_main u).
    assert (NF : xtype_eqb (x_main u) X_FAULT = false) by (destruct (x_main u); try reflexivity; congruence). rewrite NF.
    unfold containers in H. cbn [flat_map] in H. unfold kind_of_name at 1 in H.
    destruct (get_value_type n); cbn [app] in H; try (split; [exact X|]; split; [discriminate|]; auto; fail).
    - unfold x_emit. cbn [tb_step]. pose proof (tinv_close _ _ _ H) as [A B]. destruct (tb_close t) as [t' [f|]]; cbn [fst snd] in *;
        (split; [exact X|]); (split; [exact A|]); [discriminate|]; auto.
    - unfold x_emit. cbn [tb_step]. pose proof (tinv_close _ _ _ H) as [A B]. destruct (tb_close t) as [t' [f|]]; cbn [fst snd] in *;
        (split; [exact X|]); (split; [exact A|]); [discriminate|]; auto.
  Qed.

  (** Where the open tags are after some callbacks. *)
  Fixpoint tags (stk : list bytes) (l : list sax) : list bytes :=
    match l with [] => stk | SStart n :: r => tags (n :: stk) r | SEnd _ :: r => tags (tl stk) r | SChars _ :: r => tags stk r end.
  Lemma steps_fine : want = T_METHOD_CALL \/ want = 0 -> forall l stk u t, nested_sax stk l -> sinv stk u t ->
    let '(u', t') := sax_steps step strtod erange want u t l in sinv (tags stk l) u' t'.
  Proof.
    intros WANT. induction l as [|e l IH]; intros stk u t N I; [exact I|]. cbn [sax_steps]. pose proof I as [I1 I2]. unfold sax_step at 1.
    destruct (x_exc u) as [f|] eqn:X.
    - assert (Q : sax_steps step strtod erange want u t l = (u, t)) by (apply steps_exc; congruence). rewrite Q. split; [congruence|congruence].
    - destruct (I2 eq_refl) as [M H]. destruct e as [n|n|c]; cbn [nested_sax tags] in *.
      + pose proof (type_fine u t n stk (fun _ => WANT) X M H) as G. destruct (set_value_type step want u t n) as [[u1 t1] [f|]].
        * pose proof (fine_caught _ _ G) as C. destruct (x_caught (u1, t1, Some f)) as [u2 t2]. apply IH; assumption.
        * assert (G2 : fine (x_set_buf [] u1, t1, None) (n :: stk)) by exact G.
          pose proof (fine_caught _ _ G2) as C. destruct (x_caught (x_set_buf [] u1, t1, None)) as [u2 t2]. apply IH; assumption.
      + destruct stk as [|m stk]; [contradiction|]. destruct N as [<- N]. cbn [tl].
        pose proof (data_fine u t (x_buf u) (n :: stk) X M H) as G. destruct (set_value_data step strtod erange u t (x_buf u)) as [[u1 t1] [f|]].
        * destruct G as (X1 & U1 & _). assert (G2 : fine (u1, t1, Some f) stk) by (split; [assumption|]; split; [assumption|discriminate]).
          pose proof (fine_caught _ _ G2) as C. destruct (x_caught (u1, t1, Some f)) as [u2 t2]. apply IH; assumption.
        * destruct G as (X1 & _ & G). destruct (G eq_refl) as [M1 H1]. pose proof (close_fine u1 t1 n stk X1 M1 H1) as G2.
          pose proof (fine_caught _ _ G2) as C. destruct (x_caught (close_entity step u1 t1 n)) as [u2 t2]. apply IH; assumption.
      + apply IH; [exact N|]. split; cbn [x_set_buf x_exc x_main]; [congruence|]. intros _. auto.
  Qed.
End Safe.

Lemma nested_app : forall a b stk, nested_sax stk (a ++ b) <-> nested_sax stk a /\ nested_sax (tags stk a) b.
Proof.
  induction a as [|e a IH]; intros b stk; [cbn; tauto|]. destruct e as [n|n|c]; cbn [app nested_sax tags]; try apply IH.
  destruct stk as [|m stk]; [tauto|]. cbn [tl]. rewrite IH. tauto.
Qed.
Lemma tags_app : forall a b stk, tags stk (a ++ b) = tags (tags stk a) b.
Proof. induction a as [|[n|n|c] a IH]; intros b stk; cbn [app tags]; auto. Qed.

Lemma x_sniff_exc : forall u d u' f, x_sniff u d = (u', f) -> x_exc u' = x_exc u /\ x_main u' = x_main u /\ f <> Some Undef.
Proof.
  intros u d u' f H. unfold x_sniff in H.
  repeat match type of H with context [match ?x with _ => _ end] => destruct x end; inversion H; subst; cbn; repeat split; discriminate.
Qed.
Lemma known_text : forall code, (code < 102 \/ 816 <= code) -> looked_up code && negb (known_code code) = false.
Proof.
  intros code H. unfold looked_up, known_code. destruct (Z.ltb_spec code 0); cbn; [reflexivity|].
  destruct (Z.leb_spec 816 code); cbn; [reflexivity|]. destruct (Z.leb_spec 0 code); [|lia]. destruct (Z.ltb_spec code 102); [reflexivity|lia].
Qed.
Lemma unmarshall_fine : forall val strtod erange want stk u t d batch code u' t' f, want = T_METHOD_CALL \/ want = 0 ->
  nested_sax stk batch -> (code < 102 \/ 816 <= code) -> x_exc u = None -> sinv stk u t ->
  x_unmarshall (tb_step val) strtod erange want u t d batch code = (u', t', f) ->
  f <> Some Undef /\ (f = None -> code = 0 /\ x_exc u' = None /\ sinv (tags stk batch) u' t').
Proof.
  intros val strtod erange want stk u t d batch code u' t' f HW HN HC HX HI H. unfold x_unmarshall in H.
  destruct (x_sniff u d) as [u1 f1] eqn:ES. destruct (x_sniff_exc _ _ _ _ ES) as (EX & EM & EU). destruct f1 as [f1|].
  - inversion H; subst. split; [exact EU|discriminate].
  - assert (I1 : sinv stk u1 t) by (destruct HI as [A B]; split; rewrite EX; [exact A|rewrite EM; exact B]).
    pose proof (steps_fine val strtod erange want HW batch stk u1 t HN I1) as G.
    destruct (sax_steps (tb_step val) strtod erange want u1 t batch) as [u2 t2]. destruct G as [G1 G2].
    assert (HF : (if code =? 0 then (u2, t2, x_exc u2) else if looked_up code && negb (known_code code) then (u2, t2, Some Undef)
                  else (u2, t2, Some (Exn (StreamError "Parser error")))) = (u', t', f)) by (destruct (x_exc u2) as [[e|]|]; [exact H|congruence|exact H]).
    rewrite known_text in HF by exact HC. destruct (Z.eqb_spec code 0) as [EC|EC]; inversion HF; subst; (split; [congruence|]); [|discriminate].
    intro Q. split; [reflexivity|]. split; [exact Q|]. split; [exact G1|exact G2].
Qed.

Lemma reports_snoc : forall P s0 pieces batches s d s' batch, reports P s0 pieces batches s -> ps_take P s d = (s', batch, 0) ->
  reports P s0 (pieces ++ [d]) (batches ++ [batch]) s'.
Proof. intros P s0 pieces batches s d s' batch H. induction H; intros HT; cbn [app]; econstructor; eauto. constructor. Qed.

Lemma um_all_fine : forall P val strtod erange, orderly P -> forall pieces prior batches p u t s f,
  reports P (ps_init P) prior batches p -> x_exc u = None -> sinv (tags [] (concat batches)) u t ->
  um_all (xml_um P strtod erange val T_METHOD_CALL) (p, u, t) pieces = (s, f) ->
  f <> Some Undef /\ (f = None -> exists prior' batches' p' u' t', s = (p', u', t') /\ reports P (ps_init P) prior' batches' p' /\
    x_exc u' = None /\ sinv (tags [] (concat batches')) u' t').
Proof.
  intros P val strtod erange HO. induction pieces as [|d pieces IH]; intros prior batches p u t s f HR HX HI H.
  - inversion H; subst. split; [discriminate|]. intros _. eauto 10.
  - cbn [um_all] in H. cbn [xml_um um_take] in H. destruct (ps_take P p d) as [[p1 batch] code] eqn:ET.
    destruct (HO _ _ _ _ _ _ _ HR ET) as [HN HC]. apply nested_app in HN as [_ HN].
    destruct (x_unmarshall (tb_step val) strtod erange T_METHOD_CALL u t d batch code) as [[u1 t1] f1] eqn:EU.
    destruct (unmarshall_fine _ _ _ _ _ _ _ _ _ _ _ _ _ (or_introl eq_refl) HN HC HX HI EU) as [F1 F2].
    destruct f1 as [f1|]; [inversion H; subst; split; [exact F1|discriminate]|].
    destruct (F2 eq_refl) as (-> & X1 & I1). eapply IH; [eapply reports_snoc; eassumption|exact X1| |exact H].
    rewrite concat_app. cbn [concat]. rewrite app_nil_r, tags_app. exact I1.
Qed.

Lemma xml_um_safe : forall P strtod erange val, orderly P -> um_safe (xml_um P strtod erange val T_METHOD_CALL).
Proof.
  intros P strtod erange val HO pieces s f H.
  destruct (um_all_fine P val strtod erange HO pieces [] [] (ps_init P) xun_init tb_init s f (reports_nil P _) eq_refl) as [F1 F2]; [|exact H|].
  { split; [discriminate|]. intros _. split; [discriminate|exact tinv_init]. }
  split; [exact F1|]. intro HF. destruct (F2 HF) as (prior & batches & p & u & t & -> & HR & HX & HI). cbn [xml_um um_finish um_builder].
  destruct (ps_take P p []) as [[p1 batch] code] eqn:ET. destruct (HO _ _ _ _ _ _ _ HR ET) as [HN HC]. apply nested_app in HN as [_ HN].
  unfold x_finish. destruct (x_unmarshall (tb_step val) strtod erange 0 u t [] batch code) as [[u1 t1] f1] eqn:EU.
  destruct (unmarshall_fine _ _ _ _ _ _ _ _ _ _ _ _ _ (or_intror eq_refl) HN HC HX HI EU) as [G1 G2].
  destruct f1 as [[e|]|]; cbn [fst snd].
  - split; discriminate.
  - congruence.
  - destruct (G2 eq_refl) as (_ & X1 & (_ & I1)). destruct (I1 X1) as [_ I2].
    destruct (xtype_eqb (x_type u1) X_NONE); cbn [fst snd]; (split; [discriminate|]); [|discriminate]. intros _. eapply tinv_data. exact I2.
Qed.
