(** Data after a complete response. *)
From Coq Require Import Lia.
From Verif Require Import Base Value M_Marshal M_BinUnmarshal M_TreeBuilder S_Events S_Value S_Wire L_Base L_BinUnmarshal
  L_BinSafety L_Nesting L_Morph L_RoundTrip L_TreeBuilder L_Message L_Wire L_Complete L_Truncate L_Origin.

Lemma all_of_lbig_any : forall B bstep req (b b' : B) c w r e s pieces, concat pieces = s ->
  lbig B bstep req false core0 4 b s = (c, w, b', r, e) ->
  exists u, unmarshall_all B bstep req unm_init b pieces = (u, b', fail_of e) /\ u_core u = c.
Proof.
  intros B bstep req b b' c w r e s pieces E H.
  destruct (unmarshall_all_concat B bstep req pieces unm_init b ready_init) as (u' & E1 & _ & E3).
  rewrite E in E1. rewrite unmarshall_lbig in E1 by exact ready_init.
  cbn [unm_init u_core u_wanted u_buffer app] in E1.
  change (mkCore S_MAGIC [] 0 0 (mkVer 2 1)) with core0 in E1. rewrite H in E1.
  destruct (unmarshall_all B bstep req unm_init b pieces) as [[u b1] f]. cbn [fst snd] in *.
  inversion E1; subst. exists u. split; auto.
Qed.

Section Extra.
  Variable val : option mktime_t.
  Variable req : Z.
  Variable ver : version.
  Hypothesis HM : modern ver.
  Let HL : legal ver := modern_legal ver HM.

  (** A tree builder that has its value refuses every further value. *)
  Lemma done_refuses : forall t e s', tb_stack t = [] -> tb_first t = false ->
    nest_step (NBody []) e = Some s' -> tb_step val t e = (t, unexpected).
  Proof.
    intros t e s' ST FI N. destruct e; cbn in N; try discriminate; cbn [tb_step];
      unfold tb_value, tb_open; rewrite ST, FI; reflexivity.
  Qed.

  Definition stuck (t0 : tb) (b : tb * list event) : Prop :=
    well_nested (snd b) -> b = (t0, [EMethodResponse]).

  Lemma extra_lbig : forall t0 extra c w b' r e, tb_stack t0 = [] -> tb_first t0 = false -> extra <> [] ->
    lbig _ (traced (tb_step val)) req false (idle ver 0 0) 1 (t0, [EMethodResponse]) extra = (c, w, b', r, e) ->
    fst b' = t0 /\ (e = Finished /\ c_state c <> S_VALUE_TYPE \/ exists m, e = Failed (Exn (StreamError m))).
  Proof.
    intros t0 extra c w b' r e ST FI NE EL.
    assert (CI : cinv (idle ver 0 0) 1) by (apply idle_cinv; lia).
    assert (TR0 : trel (head_rel (idle ver 0 0)) (snd (t0, [EMethodResponse]))).
    { exists (NBody []). split; [reflexivity|]. unfold head_rel. cbn. split; [reflexivity|discriminate]. }
    destruct (lbig_nest tb (tb_step val) req false _ _ _ _ _ _ _ _ _ CI TR0 EL) as [WN _].
    assert (HP : forall b e b', stuck t0 b -> traced (tb_step val) b e = (b', None) -> stuck t0 b').
    { intros [t es] ev [t' es'] S H WN'. unfold traced in H. cbn [fst snd] in H.
      destruct (tb_step val t ev) as [t1 f1] eqn:E1. inversion H; subst. cbn [snd] in WN'.
      pose proof (S (well_nested_prefix _ _ WN')) as X. inversion X; subst. cbn [app] in WN'.
      exfalso. change (match nest_step (NBody []) ev with Some s' => Some s' | None => None end <> None) in WN'.
      destruct (nest_step (NBody []) ev) eqn:EN; [|congruence].
      rewrite (done_refuses _ _ _ ST FI EN) in E1. discriminate. }
    pose proof (lbig_origin _ (traced (tb_step val)) req (stuck t0) HP false _ _ _ _ _ _ _ _ _ CI (fun _ => eq_refl) EL) as O.
    pose proof (lbig_not_stopped _ (traced (tb_step val)) req (idle ver 0 0) 1 (t0, [EMethodResponse]) extra CI) as NS.
    pose proof (lbig_not_out _ (traced (tb_step val)) req false (idle ver 0 0) 1 (t0, [EMethodResponse]) extra CI) as NO.
    rewrite EL in NS, NO. cbn [snd] in NS, NO.
    destruct e; try congruence.
    - specialize (O WN). subst b'. split; [reflexivity|]. left. split; [reflexivity|]. intro SV.
      destruct (lbig_grow tb (tb_step val) req _ _ _ _ _ _ _ _ CI eq_refl eq_refl EL) as (_ & _ & es & T1 & G1).
      cbn [snd] in T1. assert (es = []) as -> by (destruct es; [auto|discriminate T1]).
      destruct (G1 eq_refl SV) as [_ ->].
      destruct (lbig_finished _ _ _ _ _ _ _ _ _ _ _ _ EL CI) as [(RW & _) RL].
      unfold wok in RW. rewrite SV in RW. subst w. destruct extra; [congruence|].
      rewrite zlen_cons in RL. pose proof (zlen_nonneg _ extra). lia.
    - destruct O as [[[m ->] S]|([t es] & ev & S & H)].
      + rewrite (S WN). split; [reflexivity|]. right. eauto.
      + unfold traced in H. cbn [fst snd] in H.
        destruct (tb_step val t ev) as [t1 f1] eqn:E1. inversion H; subst. cbn [fst snd] in *.
        pose proof (S (well_nested_prefix _ _ WN)) as X. inversion X; subst. cbn [app] in WN.
        change (match nest_step (NBody []) ev with Some s' => Some s' | None => None end <> None) in WN.
        destruct (nest_step (NBody []) ev) eqn:EN; [|congruence].
        rewrite (done_refuses _ _ _ ST FI EN) in E1. inversion E1; subst. split; auto. right. eauto.
  Qed.

  Theorem response_extra : forall v wire extra pieces, wf ver v -> accepts req T_METHOD_RESPONSE ->
    sent ver (response_calls v) = Ok wire -> extra <> [] -> concat pieces = wire ++ extra ->
    (exists m, received val req pieces = Err (StreamError m)) /\
    tb_data (snd (fst (unmarshall_all tb (tb_step val) req unm_init tb_init pieces)))
      = Ok (plain (make_datetime val) v).
  Proof.
    intros v wire extra pieces W HA HS NE EC.
    destruct (builds_root val ver v tb_init W eq_refl eq_refl eq_refl) as [m ER].
    destruct (response_decodes tb (tb_step val) req ver HL HM v tb_init tb_init _ extra W HA eq_refl ER) as [Q1 Q2].
    unfold sent in HS. destruct (bin_run ver (response_calls v)) as [o f]. cbn [fst snd] in *. subst f.
    inversion HS; subst o. clear HS.
    set (t0 := mkTB [] _ _ _ _ _ _ _) in *.
    destruct (lbig _ (traced (tb_step val)) req false (idle ver 0 0) 1 (t0, [EMethodResponse]) extra)
      as [[[[c w] b'] r] e] eqn:EL.
    destruct (extra_lbig t0 extra _ _ _ _ _ eq_refl eq_refl NE EL) as [F D].
    assert (RD : ready (mkUnm (idle ver 0 0) [] 1)).
    { split; cbn; [apply idle_cinv; lia|lia]. }
    pose proof (traced_unmarshall tb (tb_step val) req extra (mkUnm (idle ver 0 0) [] 1) t0 [EMethodResponse]) as TU.
    rewrite !unmarshall_lbig in TU by exact RD. cbn [u_core u_wanted u_buffer app] in TU. rewrite EL in TU.
    destruct (lbig tb (tb_step val) req false (idle ver 0 0) 1 t0 extra) as [[[[c1 w1] b1] r1] e1] eqn:EL1.
    injection TU as -> -> -> -> FE.
    destruct (all_of_lbig_any _ _ _ _ _ _ _ _ _ _ pieces EC Q2) as (u & EU & EC2).
    unfold received. rewrite EU, FE, F. cbn [fst snd]. split; [|reflexivity].
    destruct D as [[-> NS]|[m1 ->]]; cbn [fail_of]; [|eauto].
    rewrite not_complete; [cbn [bind]; eauto|]. rewrite EC2. tauto.
  Qed.
End Extra.
