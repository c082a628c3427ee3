(** Truncated responses. *)
From Coq Require Import Lia.
From Verif Require Import Base Value M_Marshal M_BinUnmarshal M_TreeBuilder S_Events S_Value S_Wire L_Base L_BinUnmarshal
  L_BinSafety L_Nesting L_Morph L_RoundTrip L_TreeBuilder L_Message L_Wire L_Complete.

Section Grow.
  Variable B : Type.
  Variable bstep0 : B -> event -> B * option fail.
  Variable req : Z.
  Notation bstep := (traced bstep0).
  Notation T := (B * list event)%type.
  Notation body := (body T bstep req).
  Notation emit := (emit T bstep).
  Notation scalar := (scalar T bstep).
  Notation decrement := (decrement T bstep).
  Notation dec_members := (dec_members T bstep).
  Notation lbig := (lbig T bstep req).

  Definition grown (b b' : T) (st : dstate) : Prop :=
    exists es, snd b' = snd b ++ es /\ (st = S_VALUE_TYPE -> es <> []).

  Lemma emit_grow : forall c b e c' b' , c_fault c = 0 -> emit c b e = (c', b', None) ->
    c' = c /\ snd b' = snd b ++ [e].
  Proof.
    intros c b e c' b' F H. unfold M_BinUnmarshal.emit in H. rewrite F in H. cbn [Z.eqb] in H.
    destruct (bstep b e) as [b1 f1] eqn:E. inversion H; subst. apply traced_snd in E. auto.
  Qed.

  Definition next_ok (c : core) (b : T) (r : bres T) : Prop :=
    match r with
    | Next _ c' b' _ _ => c_fault c' = 0 /\ head_state (c_state c') = false /\ grown b b' (c_state c')
    | _ => True
    end.

  Lemma scalar_grow : forall c b e, c_fault c = 0 -> next_ok c b (scalar c b e).
  Proof.
    intros c b e F. unfold M_BinUnmarshal.scalar. destruct (emit c b e) as [[c1 b1] [f|]] eqn:E; [exact I|].
    apply emit_grow in E; auto. destruct E as [-> E]. split; [exact F|]. split; [reflexivity|].
    exists [e]. split; auto. discriminate.
  Qed.

  Lemma container_grow : forall k c b d, c_fault c = 0 -> next_ok c b (container_arm T bstep k c b d).
  Proof.
    intros k c b d F. unfold container_arm. cbv zeta.
    destruct (_ <? _); [exact I|]. destruct (negb _); [exact I|]. destruct (_ <=? _); [exact I|].
    destruct (emit c b _) as [[c1 b1] [f|]] eqn:E; [exact I|].
    apply emit_grow in E; auto. destruct E as [-> E].
    destruct (negb _).
    - split; [exact F|]. split; [reflexivity|]. eexists. split; [exact E|]. discriminate.
    - destruct (emit c b1 _) as [[c2 b2] [f|]] eqn:E2; [exact I|].
      apply emit_grow in E2; auto. destruct E2 as [-> E2].
      split; [exact F|]. split; [reflexivity|]. rewrite E, <- app_assoc in E2. eexists. split; [exact E2|]. discriminate.
  Qed.

  Lemma quiet : forall c b st w fin, c_fault c = 0 -> head_state st = false -> st <> S_VALUE_TYPE ->
    next_ok c b (Next T (set_state st c) b w fin).
  Proof.
    intros c b st w fin F H N. split; [exact F|]. split; [exact H|]. exists []. split; [rewrite app_nil_r; auto|].
    intro X. contradiction.
  Qed.

  Lemma value_type_grow : forall known c b t, c_fault c = 0 -> next_ok c b (value_type_arm T bstep known c b t).
  Proof.
    intros known c b t F. unfold value_type_arm. cbv zeta.
    repeat match goal with
    | |- next_ok _ _ (if ?x then _ else _) => destruct x
    | |- next_ok _ _ (match ?x with Some _ => _ | None => _ end) => destruct x
    end; try exact I; try (apply scalar_grow; auto); apply quiet; auto; discriminate.
  Qed.

  Lemma body_grow : forall known c b w d, c_fault c = 0 -> head_state (c_state c) = false ->
    next_ok c b (body known c b w d).
  Proof.
    intros known c b w d F HS. unfold M_BinUnmarshal.body. cbv zeta.
    destruct (c_state c) eqn:ES; try discriminate HS;
      repeat match goal with
      | |- next_ok _ _ (if ?x then _ else _) => destruct x
      | |- next_ok _ _ (match ?x with Some _ => _ | None => _ end) => destruct x
      | |- next_ok _ _ (match ?x with [] => _ | _ :: _ => _ end) => destruct x
      end; try exact I; try (apply scalar_grow; auto); try (apply value_type_grow; auto);
      try (apply container_grow; auto); try (apply quiet; auto; discriminate).
    - destruct (emit c b _) as [[c1 b1] [f|]] eqn:E; [exact I|].
      apply emit_grow in E; auto. destruct E as [-> E]. split; [exact F|]. split; [reflexivity|].
      eexists. split; [exact E|]. discriminate.
    - unfold length_arm. cbv zeta. destruct (_ <=? _); [exact I|]. apply quiet; auto; discriminate.
    - unfold length_arm. cbv zeta. destruct (_ <=? _); [exact I|]. apply quiet; auto; discriminate.
  Qed.

  Lemma dec_members_grow : forall stk b stk' b' f, dec_members stk b = (stk', b', f) ->
    exists es, snd b' = snd b ++ es.
  Proof.
    induction stk as [|[n k] r IH]; intros b stk' b' f H; cbn [M_BinUnmarshal.dec_members] in H.
    - inversion H; subst. exists []. rewrite app_nil_r. reflexivity.
    - cbv zeta in H. destruct (negb _).
      + inversion H; subst. exists []. rewrite app_nil_r. reflexivity.
      + destruct (bstep b _) as [b1 [g|]] eqn:E; apply traced_snd in E.
        * inversion H; subst. eauto.
        * destruct (IH _ _ _ _ H) as [es E2]. rewrite E2, E, <- app_assoc. eauto.
  Qed.

  Lemma lbig_grow : forall c w b s c' w' b' r, cinv c w -> c_fault c = 0 -> head_state (c_state c) = false ->
    lbig false c w b s = (c', w', b', r, Finished) ->
    c_fault c' = 0 /\ head_state (c_state c') = false /\
    exists es, snd b' = snd b ++ es /\ (es = [] -> c_state c' = S_VALUE_TYPE -> c_state c = S_VALUE_TYPE /\ r = s).
  Proof.
    intros c w b s c' w' b' r I F HS H. revert F HS c' w' b' r H.
    apply (lbig_ind T bstep req false (fun c w b s res => c_fault c = 0 -> head_state (c_state c) = false ->
      forall c' w' b' r, res = (c', w', b', r, Finished) ->
      c_fault c' = 0 /\ head_state (c_state c') = false /\
      exists es, snd b' = snd b ++ es /\
        (es = [] -> c_state c' = S_VALUE_TYPE -> c_state c = S_VALUE_TYPE /\ r = s))); auto; clear c w b s I;
      try (intros; discriminate).
    - intros c w b s I L F HS c' w' b' r E. inversion E; subst. split; auto. split; auto.
      exists []. rewrite app_nil_r. auto.
    - intros c w b s c1 b1 w1 fin c2 b2 r0 I L HB HD I1 I2 _ IH F HS c' w' b' r E.
      pose proof (body_grow false c b w s F HS) as BG. rewrite HB in BG. destruct BG as (F1 & S1 & es1 & E1 & G1).
      assert (X : c_fault c2 = 0 /\ c_state c2 = c_state c1 /\ exists es, snd b2 = snd b1 ++ es).
      { unfold M_BinUnmarshal.decrement in HD. destruct fin.
        - destruct (dec_members (c_stack c1) b1) as [[s2 b3] g] eqn:ED. inversion HD; subst.
          apply dec_members_grow in ED. auto.
        - inversion HD; subst. split; auto. split; auto. exists []. rewrite app_nil_r. auto. }
      destruct X as (F2 & S2 & es2 & E2).
      destruct (IH F2 ltac:(congruence) _ _ _ _ E) as (F3 & S3 & es3 & E3 & G3).
      split; auto. split; auto. exists (es1 ++ es2 ++ es3). split.
      { rewrite E3, E2, E1, !app_assoc. reflexivity. }
      intros N SV. apply app_eq_nil in N. destruct N as [N1 N]. apply app_eq_nil in N. destruct N as [N2 N3].
      destruct (G3 N3 SV) as [G4 _]. exfalso. apply G1; auto. congruence.
  Qed.
End Grow.

Section Trunc.
  Variable B : Type.
  Variable bstep : B -> event -> B * option fail.
  Variable req : Z.
  Variable ver : version.
  Hypothesis HM : modern ver.

  (** Cutting inside the value. *)
  Lemma cut_value : forall v b b2 p q, wf ver v -> replay bstep b (events v) = (b2, None) ->
    fst (bin_run ver (feed v)) = p ++ q -> p <> [] -> q <> [] ->
    exists c w b' r, lbig _ (traced bstep) req false (idle ver 0 0) 1 (b, [EMethodResponse]) p =
      (c, w, b', r, Finished) /\ ~ (c_state c = S_VALUE_TYPE /\ c_stack c = []).
  Proof.
    intros v b b2 p q W HR EP NP NQ.
    assert (TR : forall es b t b2, replay bstep b es = (b2, None) ->
              replay (traced bstep) (b, t) es = ((b2, t ++ es), None)).
    { clear. induction es as [|e es IH]; intros b t b2 H; cbn [replay] in *.
      - inversion H; subst. rewrite app_nil_r. reflexivity.
      - unfold traced. cbn [fst snd]. destruct (bstep b e) as [b1 [f|]]; [discriminate|].
        fold (traced bstep). rewrite (IH _ _ _ H), <- app_assoc. reflexivity. }
    destruct (decodes_all _ (traced bstep) req ver HM v W (idle ver 0 0) (b, [EMethodResponse]) []
      _ [] _ (idle_at_value ver 0) (TR _ _ _ _ HR) eq_refl) as [_ Q].
    rewrite app_nil_r, EP in Q. 
    assert (CI : cinv (idle ver 0 0) 1) by (apply idle_cinv; lia).
    assert (QE : lbig _ (traced bstep) req false (done [] (idle ver 0 0)) 1
      (b2, [EMethodResponse] ++ events v) [] = (idle ver 0 0, 1, (b2, [EMethodResponse] ++ events v), [], Finished))
      by (rewrite lbig_eq by exact CI; reflexivity).
    rewrite QE in Q. rewrite lbig_app in Q by exact CI.
    destruct (lbig _ (traced bstep) req false (idle ver 0 0) 1 (b, [EMethodResponse]) p) as [[[[c w] b'] r] e] eqn:E1.
    destruct e; try discriminate Q.
    exists c, w, b', r. split; [reflexivity|]. intros [SV SK].
    destruct (lbig_grow B bstep req _ _ _ _ _ _ _ _ CI eq_refl eq_refl E1) as (F1 & S1 & es1 & T1 & G1).
    pose proof (lbig_finished _ _ _ _ _ _ _ _ _ _ _ _ E1 CI) as RD.
    assert (WR : w = 1 /\ r = []).
    { destruct RD as [(RW & _) RL]. unfold wok in RW. rewrite SV in RW. subst w. split; auto.
      destruct r; auto. rewrite zlen_cons in RL. pose proof (zlen_nonneg _ r). lia. }
    destruct WR as [-> ->]. cbn [app] in Q.
    destruct (lbig_grow B bstep req _ _ _ _ _ _ _ _ (proj1 RD) F1 S1 Q) as (_ & _ & es2 & T2 & G2).
    cbn [fst snd] in T1, T2. rewrite T1 in T2. cbn [app] in T2. inversion T2 as [T3].
    assert (N1 : es1 <> []).
    { intro X. destruct (G1 X SV) as [_ G]. congruence. }
    assert (N2 : es2 <> []).
    { intro X. destruct (G2 X eq_refl) as [_ G]. congruence. }
    pose proof (proj2 (events_prefix v) es1 es2 T3 N1 N2) as D.
    assert (TR0 : trel (head_rel (idle ver 0 0)) (snd (b, [EMethodResponse]))).
    { exists (NBody []). split; [reflexivity|]. unfold head_rel. cbn. split; [reflexivity|discriminate]. }
    destruct (lbig_nest B bstep req false _ _ _ _ _ _ _ _ _ CI TR0 E1) as [_ N].
    destruct (N eq_refl) as (s & HR1 & HH). unfold head_rel in HH. rewrite SV in HH. cbn [head_state] in HH.
    rewrite F1 in HH. cbn [Z.eqb] in HH. unfold opened in HH. rewrite SK in HH. destruct HH as [-> _].
    rewrite T1 in HR1. cbn [nest_run nest_step app] in HR1. apply nest_depth in HR1. cbn in HR1. lia.
  Qed.
End Trunc.

(** ** Whole truncated responses *)
Lemma all_of_lbig_fin : forall B bstep req (b b' : B) c w r s pieces, concat pieces = s ->
  lbig B bstep req false core0 4 b s = (c, w, b', r, Finished) ->
  unmarshall_all B bstep req unm_init b pieces = (mkUnm c r w, b', None).
Proof.
  intros B bstep req b b' c w r s pieces E H.
  destruct (unmarshall_all_concat B bstep req pieces unm_init b ready_init) as (u' & E1 & E2 & _).
  rewrite E in E1. rewrite unmarshall_lbig in E1 by exact ready_init.
  cbn [unm_init u_core u_wanted u_buffer app] in E1.
  change (mkCore S_MAGIC [] 0 0 (mkVer 2 1)) with core0 in E1. rewrite H in E1.
  destruct (unmarshall_all B bstep req unm_init b pieces) as [[u b1] f]. cbn [fst snd fail_of] in *.
  inversion E1; subst. rewrite <- E2 by reflexivity. reflexivity.
Qed.

Section TruncWire.
  Variable val : option mktime_t.
  Variable req : Z.
  Variable ver : version.
  Hypothesis HM : modern ver.
  Let HL : legal ver := modern_legal ver HM.

  Lemma not_complete : forall (u : unm), ~ (c_state (u_core u) = S_VALUE_TYPE /\ c_stack (u_core u) = []) ->
    unm_finish u = Err (StreamError "Stream not complete").
  Proof.
    intros u H. unfold unm_finish. destruct (dstate_eqb (c_state (u_core u)) S_VALUE_TYPE) eqn:E; [|reflexivity].
    destruct (c_stack (u_core u)); [|reflexivity]. exfalso. apply H. split; auto.
    destruct (c_state (u_core u)); try discriminate E. reflexivity.
  Qed.

  Lemma response_truncated : forall v wire n pieces, wf ver v -> accepts req T_METHOD_RESPONSE ->
    sent ver (response_calls v) = Ok wire -> 0 <= n < zlen wire -> concat pieces = ztake n wire ->
    (n <> 5 -> received val req pieces = Err (StreamError "Stream not complete")) /\
    (n = 5 -> received_value val req pieces = Err (FaultExn (-500) (str "No data unmarshalled"))).
  Proof.
    intros v wire n pieces W HA HS Hn EC.
    destruct (builds_root val ver v tb_init W eq_refl eq_refl eq_refl) as [m ER].
    unfold sent, response_calls in HS. cbn [bin_run bin_pack] in HS.
    destruct (decodes_all tb (tb_step val) req ver HM v W (idle ver 0 0) tb_init []
      _ [] _ (idle_at_value ver 0) ER eq_refl) as [Q1 _].
    destruct (bin_run ver (feed v)) as [enc fl] eqn:EB. cbn [fst snd] in Q1. subst fl.
    set (tag := data_type T_METHOD_RESPONSE 0) in *.
    assert (EW : wire = magic ver ++ tag :: enc) by (injection HS as <-; reflexivity).
    clear HS. subst wire.
    assert (F : forall c w t r, lbig tb (tb_step val) req false core0 4 tb_init (concat pieces) = (c, w, t, r, Finished) ->
              ~ (c_state c = S_VALUE_TYPE /\ c_stack c = []) ->
              received val req pieces = Err (StreamError "Stream not complete")).
    { intros c w t r HLB NC. unfold received. rewrite (all_of_lbig_fin _ _ _ _ _ _ _ _ _ _ eq_refl HLB).
      rewrite not_complete by exact NC. reflexivity. }
    rewrite EC in F.
    assert (LM : zlen (magic ver) = 4) by reflexivity.
    rewrite zlen_app, LM, zlen_cons in Hn.
    destruct (Z_lt_le_dec n 4) as [L4|L4].
    { split; [|lia]. intros _.
      assert (LT : zlen (ztake n (magic ver ++ tag :: enc)) = n).
      { apply zlen_ztake. rewrite zlen_app, LM, zlen_cons. pose proof (zlen_nonneg _ enc). lia. }
      eapply F.
      - rewrite lbig_eq by exact cinv_init. rewrite LT. destruct (4 <=? n) eqn:E; [lia|]. reflexivity.
      - intros [X _]. discriminate X. }
    assert (TM : ztake n (magic ver ++ tag :: enc) = magic ver ++ ztake (n - 4) (tag :: enc)).
    { unfold ztake. rewrite firstn_app. rewrite firstn_all2.
      - f_equal. f_equal. cbn [magic length]. lia.
      - cbn [magic length]. lia. }
    rewrite TM in F.
    destruct (Z.eq_dec n 4) as [E4|N4].
    { split; [|lia]. intros _. subst n. cbn [ztake Z.sub Z.to_nat firstn] in F.
      change (ztake (4 - 4) (tag :: enc)) with (@nil byte) in F.
      eapply F.
      - rewrite (decode_magic tb (tb_step val) req ver HL). rewrite lbig_eq by apply after_magic_cinv. reflexivity.
      - intros [X _]. discriminate X. }
    assert (TT : ztake (n - 4) (tag :: enc) = tag :: ztake (n - 5) enc).
    { unfold ztake. replace (Z.to_nat (n - 4)) with (S (Z.to_nat (n - 5))) by lia. reflexivity. }
    rewrite TT in F.
    destruct (Z.eq_dec n 5) as [E5|N5].
    { split; [lia|]. intros _. subst n.
      unfold received_value, received. erewrite all_of_lbig_fin; [|exact EC|].
      2:{ rewrite TM, TT. rewrite (decode_magic tb (tb_step val) req ver HL).
          rewrite (decode_response_tag tb (tb_step val) req ver _ _ tb_init HA eq_refl).
          rewrite lbig_eq by (apply idle_cinv; lia). reflexivity. }
      reflexivity. }
    split; [|lia]. intros _.
    destruct (cut_value tb (tb_step val) req ver HM v tb_init _ (ztake (n - 5) enc) (zdrop (n - 5) enc) W ER)
      as (c & w & b' & r & EL & NC).
    { rewrite EB. symmetry. apply ztake_zdrop. }
    { intro X. apply (f_equal zlen) in X. rewrite zlen_ztake, zlen_nil in X by lia. lia. }
    { intro X. apply (f_equal zlen) in X. rewrite zlen_zdrop, zlen_nil in X by lia. lia. }
    unfold received. rewrite (traced_unmarshall_all _ _ _ _ _ _ []).
    erewrite all_of_lbig_fin; [|exact EC|].
    2:{ rewrite TM, TT. rewrite (decode_magic _ (traced (tb_step val)) req ver HL).
        rewrite (decode_response_tag _ (traced (tb_step val)) req ver (tb_init, []) _ (tb_init, [EMethodResponse]) HA eq_refl).
        exact EL. }
    rewrite not_complete by exact NC. reflexivity.
  Qed.
End TruncWire.
