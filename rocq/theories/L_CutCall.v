(** The beginning of a method call. *)
From Coq Require Import Lia.
From Verif Require Import Base Value M_Marshal M_BinUnmarshal M_TreeBuilder S_Events S_Value S_Wire L_Base L_BinUnmarshal
  L_BinSafety L_Nesting L_Morph L_RoundTrip L_TreeBuilder L_Message L_Wire L_Complete L_Truncate.

(** What is missing may be the rest of a list of pieces. *)
Lemma prefix_cases : forall A (x y p q : list A), x ++ y = p ++ q -> (exists p', p = x ++ p' /\ y = p' ++ q) \/ (exists z, x = p ++ z /\ z <> []).
Proof.
  induction x as [|a x IH]; intros y p q H; cbn [app] in H.
  - left. exists p. auto.
  - destruct p as [|b p]; [right; exists (a :: x); split; [reflexivity|discriminate]|]. cbn [app] in H. inversion H; subst.
    destruct (IH _ _ _ H2) as [(p' & -> & ->)|(z & -> & N)]; [left; exists p'; auto|right; exists z; auto].
Qed.

Section Cut.
  Variable B : Type.
  Variable bstep : B -> event -> B * option fail.
  Variable req : Z.
  Variable ver : version.
  Hypothesis HM : modern ver.
  Notation lbig := (lbig _ (traced bstep) req false).
  Definition partial (c : core) : Prop := ~ (c_state c = S_VALUE_TYPE /\ c_stack c = []).

  Lemma replay_traced : forall es b t b2, replay bstep b es = (b2, None) -> replay (traced bstep) (b, t) es = ((b2, t ++ es), None).
  Proof.
    induction es as [|e es IH]; intros b t b2 H; cbn [replay] in *.
    - inversion H; subst. rewrite app_nil_r. reflexivity.
    - unfold traced. cbn [fst snd]. destruct (bstep b e) as [b1 [f|]]; [discriminate|].
      fold (traced bstep). rewrite (IH _ _ _ H), <- app_assoc. reflexivity.
  Qed.
  Lemma value_run : forall v t b b2 rest, wfu ver v -> replay bstep b (events v) = (b2, None) ->
    snd (bin_run ver (feed v)) = None /\ lbig (idle ver 0 0) 1 (b, t) (fst (bin_run ver (feed v)) ++ rest) = lbig (idle ver 0 0) 1 (b2, t ++ events v) rest.
  Proof.
    intros v t b b2 rest W HR.
    exact (decodes_any _ (traced bstep) req ver HM v W (idle ver 0 0) (b, t) rest _ [] _ (idle_at_value ver 0) (replay_traced _ _ t _ HR) eq_refl).
  Qed.
  Lemma value_nest : forall v t b b2, wfu ver v -> replay bstep b (events v) = (b2, None) -> nest_run NStart t = Some (NBody []) -> nest_run NStart (t ++ events v) = Some (NBody []).
  Proof.
    intros v t b b2 W HR HN. destruct (value_run v t b b2 [] W HR) as [_ Q]. rewrite app_nil_r in Q.
    assert (CI : cinv (idle ver 0 0) 1) by (apply idle_cinv; lia). rewrite (lbig_eq _ _ _ _ (idle ver 0 0) 1 _ []) in Q by exact CI. cbn in Q.
    assert (TR0 : trel (head_rel (idle ver 0 0)) (snd (b, t))).
    { exists (NBody []). split; [exact HN|]. unfold head_rel. cbn. split; [reflexivity|discriminate]. }
    destruct (lbig_nest B bstep req false _ _ _ _ _ _ _ _ _ CI TR0 Q) as [_ N]. destruct (N eq_refl) as (s & H1 & H2). unfold head_rel in H2. cbn in H2. destruct H2 as [-> _]. exact H1.
  Qed.

  Lemma cut_value_at : forall v t b b2 p q, wfu ver v -> nest_run NStart t = Some (NBody []) -> replay bstep b (events v) = (b2, None) ->
    fst (bin_run ver (feed v)) = p ++ q -> p <> [] -> q <> [] ->
    exists c w b' r, lbig (idle ver 0 0) 1 (b, t) p = (c, w, b', r, Finished) /\ partial c.
  Proof.
    intros v t b b2 p q W HN HR EP NP NQ.
    destruct (value_run v t b b2 [] W HR) as [_ Q]. rewrite app_nil_r, EP in Q.
    assert (CI : cinv (idle ver 0 0) 1) by (apply idle_cinv; lia).
    assert (QE : lbig (idle ver 0 0) 1 (b2, t ++ events v) [] = (idle ver 0 0, 1, (b2, t ++ events v), [], Finished))
      by (rewrite lbig_eq by exact CI; reflexivity).
    rewrite QE in Q. rewrite lbig_app in Q by exact CI.
    destruct (lbig (idle ver 0 0) 1 (b, t) p) as [[[[c w] b'] r] e] eqn:E1.
    destruct e; try discriminate Q.
    exists c, w, b', r. split; [reflexivity|]. intros [SV SK].
    destruct (lbig_grow B bstep req _ _ _ _ _ _ _ _ CI eq_refl eq_refl E1) as (F1 & S1 & es1 & T1 & G1).
    pose proof (lbig_finished _ _ _ _ _ _ _ _ _ _ _ _ E1 CI) as RD.
    assert (WR : w = 1 /\ r = []).
    { destruct RD as [(RW & _) RL]. unfold wok in RW. rewrite SV in RW. subst w. split; auto.
      destruct r; auto. rewrite zlen_cons in RL. pose proof (zlen_nonneg _ r). lia. }
    destruct WR as [-> ->]. cbn [app] in Q.
    destruct (lbig_grow B bstep req _ _ _ _ _ _ _ _ (proj1 RD) F1 S1 Q) as (_ & _ & es2 & T2 & G2).
    cbn [fst snd] in T1, T2. rewrite T1, <- app_assoc in T2. apply app_inv_head in T2.
    assert (N1 : es1 <> []) by (intro X; destruct (G1 X SV) as [_ G]; congruence).
    assert (N2 : es2 <> []) by (intro X; destruct (G2 X eq_refl) as [_ G]; congruence).
    pose proof (proj2 (events_prefix v) es1 es2 T2 N1 N2) as D.
    assert (TR0 : trel (head_rel (idle ver 0 0)) (snd (b, t))).
    { exists (NBody []). split; [exact HN|]. unfold head_rel. cbn. split; [reflexivity|discriminate]. }
    destruct (lbig_nest B bstep req false _ _ _ _ _ _ _ _ _ CI TR0 E1) as [_ N].
    destruct (N eq_refl) as (s & HR1 & HH). unfold head_rel in HH. rewrite SV in HH. cbn [head_state] in HH.
    rewrite F1 in HH. cbn [Z.eqb] in HH. unfold opened in HH. rewrite SK in HH. destruct HH as [-> _].
    rewrite T1, nest_run_app, HN in HR1. apply nest_depth in HR1. cbn in HR1. lia.
  Qed.

  Lemma cut_params : forall ps t b b2 p q, Forall (wfu ver) ps -> nest_run NStart t = Some (NBody []) -> replay bstep b (flat_map events ps) = (b2, None) ->
    fst (bin_run ver (flat_map feed ps)) = p ++ q ->
    (exists k, (k <= List.length ps)%nat /\ p = fst (bin_run ver (flat_map feed (firstn k ps)))) \/
    exists c w b' r, lbig (idle ver 0 0) 1 (b, t) p = (c, w, b', r, Finished) /\ partial c.
  Proof.
    induction ps as [|x ps IH]; intros t b b2 p q W HN HR EP; cbn [flat_map] in *.
    - cbn in EP. left. exists O. split; [apply le_n|]. symmetry in EP. apply app_eq_nil in EP as [-> _]. reflexivity.
    - inversion W as [|? ? W1 W2]; subst. apply replay_app_ok in HR. destruct HR as (b1 & E1 & E2). rewrite bin_run_app in EP.
      destruct (value_run x t b b1 [] W1 E1) as [Q1 _].
      destruct (bin_run ver (feed x)) as [o f] eqn:EX. cbn [fst snd] in *. subst f.
      assert (EP' : o ++ fst (bin_run ver (flat_map feed ps)) = p ++ q) by (rewrite <- EP; destruct (bin_run ver (flat_map feed ps)); reflexivity).
      clear EP. destruct (prefix_cases _ _ _ _ _ EP') as [(p' & -> & EY)|(z & EO & NZ)].
      + destruct (IH (t ++ events x) b1 b2 p' q W2 (value_nest x t b b1 W1 E1 HN) E2 EY) as [(k & HK & EK)|(c & w & b' & r & EL & NP)].
        * left. exists (S k). cbn [firstn flat_map List.length]. split; [apply le_n_S, HK|]. rewrite bin_run_app, EX, EK. destruct (bin_run ver (flat_map feed (firstn k ps))); reflexivity.
        * right. exists c, w, b', r. split; [|exact NP]. destruct (value_run x t b b1 p' W1 E1) as [_ Q]. rewrite EX in Q. cbn [fst] in Q. rewrite Q. exact EL.
      + destruct p as [|a p]; [left; exists O; split; [apply Nat.le_0_l|reflexivity]|]. right.
        apply (cut_value_at x t b b1 (a :: p) z W1 HN E1); [rewrite EX; exact EO|discriminate|exact NZ].
  Qed.

  Let HL : legal ver := modern_legal ver HM.
  Notation T := (B * list event)%type.

  Lemma cut_call : forall name ps b b1 b2 p q, 1 <= blen name <= 255 -> Forall (wfu ver) ps -> accepts req T_METHOD_CALL ->
    bstep b (EMethodCall name) = (b1, None) -> replay bstep b1 (flat_map events ps) = (b2, None) ->
    fst (bin_run ver (call_calls name ps)) = p ++ q ->
    (exists k, (k <= List.length ps)%nat /\ p = fst (bin_run ver (call_calls name (firstn k ps)))) \/
    exists c w b' r, lbig core0 4 (b, []) p = (c, w, b', r, Finished) /\ partial c.
  Proof.
    intros name ps b b1 b2 p q LN W HA H1 H2 EP.
    assert (X : (255 <? blen name) || (blen name =? 0) = false).
    { apply orb_false_iff. rewrite Z.ltb_ge, Z.eqb_neq. lia. }
    assert (EC : forall l, fst (bin_run ver (call_calls name l)) = (magic ver ++ [data_type T_METHOD_CALL 0; z2b (blen name)] ++ name) ++ fst (bin_run ver (flat_map feed l))).
    { intro l. unfold call_calls. cbn [bin_run bin_pack]. rewrite X. destruct (bin_run ver (flat_map feed l)) as [o f]. cbn [fst]. rewrite <- !app_assoc. reflexivity. }
    rewrite EC in EP. destruct (prefix_cases _ _ _ _ _ EP) as [(p' & -> & EY)|(z & EO & NZ)].
    - destruct (cut_params ps [EMethodCall name] b1 b2 p' q W eq_refl H2 EY) as [(k & HK & ->)|(c & w & b' & r & EL & NP)].
      + left. exists k. rewrite EC. auto.
      + right. exists c, w, b', r. split; [|exact NP]. 
        destruct (call_decodes_any _ (traced bstep) req ver HL HM name [] (b, []) (b1, [EMethodCall name]) (b1, [EMethodCall name]) p' LN (Forall_nil _) HA) as [_ Q].
        * unfold traced. cbn [fst snd]. rewrite H1. reflexivity.
        * reflexivity.
        * rewrite EC in Q. change (fst (bin_run ver (flat_map feed []))) with (@nil byte) in Q. rewrite app_nil_r in Q. rewrite Q. exact EL.
    - right. assert (SH : forall st w (s : bytes), head_state st = true -> wok (mkCore st [] 0 0 ver) w -> zlen s < w ->
        lbig (mkCore st [] 0 0 ver) w (b, []) s = (mkCore st [] 0 0 ver, w, (b, []), s, Finished) /\ partial (mkCore st [] 0 0 ver)).
      { intros st w s HS HW HZ. split.
        - rewrite lbig_eq.
          + replace (w <=? zlen s) with false by (symmetry; apply Z.leb_gt; exact HZ). reflexivity.
          + split; [exact HW|]. split; [|intros _; split; reflexivity]. split; [constructor|]. cbn. split; [lia|auto].
        - intros [Y _]. cbn in Y. subst st. discriminate HS. }
      destruct (prefix_cases _ _ _ _ _ EO) as [(p1 & -> & E1)|(z1 & E1 & N1)].
      + rewrite (decode_magic _ (traced bstep) req ver HL (b, []) p1).
        destruct p1 as [|t1 p1].
        { rewrite lbig_eq by exact (after_magic_cinv ver). do 4 eexists. split; [reflexivity|]. intros [Y _]. discriminate Y. }
        cbn [app] in E1. injection E1 as ET E2. subst t1.
        assert (CI : forall st w, wok (mkCore st [] 0 0 ver) w -> cinv (mkCore st [] 0 0 ver) w).
        { intros st w H. split; auto. split; [|intros _; split; reflexivity].
          split; [constructor|]. cbn. split; [lia|auto]. }
        rewrite one_byte by exact (after_magic_cinv ver).
        unfold M_BinUnmarshal.body at 1. cbn [after_magic c_state]. cbv zeta.
        rewrite (dt0 T_METHOD_CALL) by (unfold T_METHOD_CALL; lia).
        rewrite accepts_check by auto. change (T_METHOD_CALL =? T_FAULT) with false.
        change (T_METHOD_CALL =? T_METHOD_RESPONSE) with false. rewrite Z.eqb_refl. cbv iota.
        cbn [M_BinUnmarshal.decrement].
        change (set_state S_METHOD_NAME_LEN (after_magic ver)) with (mkCore S_METHOD_NAME_LEN [] 0 0 ver).
        destruct p1 as [|l1 p1].
        { do 4 eexists. apply SH; [reflexivity|reflexivity|cbn; lia]. }
        cbn [app] in E2. injection E2 as EL E3. subst l1.
        rewrite one_byte by (apply CI; reflexivity).
        unfold M_BinUnmarshal.body at 1. cbn [c_state].
        assert (BZ : b2z (z2b (blen name)) = blen name) by (rewrite b2z_z2b; apply Z.mod_small; lia).
        rewrite BZ. destruct (blen name =? 0) eqn:E0; [lia|]. cbn [M_BinUnmarshal.decrement].
        change (set_state S_METHOD_NAME {| c_state := S_METHOD_NAME_LEN; c_stack := []; c_errno := 0; c_fault := 0; c_ver := ver |})
          with (mkCore S_METHOD_NAME [] 0 0 ver).
        do 4 eexists. apply SH; [reflexivity|cbn; lia|]. pose proof (f_equal (@zlen byte) E3) as E4. rewrite zlen_app in E4. rewrite <- blen_zlen in E4. destruct z; [congruence|]. rewrite zlen_cons in E4. pose proof (zlen_nonneg _ z). lia.
      + do 4 eexists. split.
        * rewrite lbig_eq by exact cinv_init. assert (HZ : zlen p < 4).
          { assert (LM : zlen (magic ver) = 4) by reflexivity. rewrite E1, zlen_app in LM. destruct z1; [congruence|]. rewrite zlen_cons in LM. pose proof (zlen_nonneg _ z1). lia. }
          replace (4 <=? zlen p) with false by (symmetry; apply Z.leb_gt; exact HZ). reflexivity.
        * intros [Y _]. discriminate Y.
  Qed.

  (** A call that ends early is not accepted, except between two parameters: then it is a call with fewer. *)
  Lemma call_truncated : forall name ps b b1 b2 wire part lost pieces u b', 1 <= blen name <= 255 -> Forall (wfu ver) ps -> accepts req T_METHOD_CALL ->
    bstep b (EMethodCall name) = (b1, None) -> replay bstep b1 (flat_map events ps) = (b2, None) ->
    sent ver (call_calls name ps) = Ok wire -> wire = part ++ lost -> concat pieces = part ->
    unmarshall_all B bstep req unm_init b pieces = (u, b', None) -> unm_finish u = Ok tt ->
    exists k, (k <= List.length ps)%nat /\ sent ver (call_calls name (firstn k ps)) = Ok part.
  Proof.
    intros name ps b b1 b2 wire part lost pieces u b' LN W HA H1 H2 HS EW EC HU HF.
    assert (EP : fst (bin_run ver (call_calls name ps)) = part ++ lost).
    { unfold sent in HS. destruct (bin_run ver (call_calls name ps)) as [o [f|]]; [destruct f; discriminate|]. injection HS as HS. cbn [fst]. rewrite HS. exact EW. }
    destruct (cut_call name ps b b1 b2 part lost LN W HA H1 H2 EP) as [(k & HK & ->)|(c & w & bb & r & EL & NP)].
    - exists k. split; [exact HK|]. unfold sent.
      assert (X : exists b3, replay bstep b1 (flat_map events (firstn k ps)) = (b3, None)).
      { rewrite <- (firstn_skipn k ps), flat_map_app in H2. apply replay_app_ok in H2. destruct H2 as (b3 & E & _). eauto. }
      destruct X as (b3 & X).
      destruct (call_decodes_any _ bstep req ver HL HM name (firstn k ps) b b1 b3 [] LN ltac:(apply Forall_forall; intros x HI; rewrite Forall_forall in W; apply W; rewrite <- (firstn_skipn k ps); apply in_or_app; left; exact HI) HA H1 X) as [Q _].
      destruct (bin_run ver (call_calls name (firstn k ps))) as [o f]. cbn [fst snd] in *. subst f. reflexivity.
    - exfalso. pose proof (traced_unmarshall_all B bstep req pieces unm_init b []) as TU. rewrite (all_of_lbig_fin _ _ _ _ _ _ _ _ _ _ EC EL) in TU. rewrite HU in TU.
      inversion TU; subst. rewrite not_complete in HF by exact NP. discriminate.
  Qed.

  Lemma call_incomplete : forall name ps b b1 b2 part lost pieces, 1 <= blen name <= 255 -> Forall (wfu ver) ps -> accepts req T_METHOD_CALL ->
    bstep b (EMethodCall name) = (b1, None) -> replay bstep b1 (flat_map events ps) = (b2, None) ->
    sent ver (call_calls name ps) = Ok (part ++ lost) -> (forall k, (k <= List.length ps)%nat -> sent ver (call_calls name (firstn k ps)) <> Ok part) -> concat pieces = part ->
    exists u b', unmarshall_all B bstep req unm_init b pieces = (u, b', None) /\ unm_finish u = Err (StreamError "Stream not complete").
  Proof.
    intros name ps b b1 b2 part lost pieces LN W HA H1 H2 HS HK EC.
    assert (EP : fst (bin_run ver (call_calls name ps)) = part ++ lost).
    { unfold sent in HS. destruct (bin_run ver (call_calls name ps)) as [o [f|]]; [destruct f; discriminate|]. injection HS as HS. exact HS. }
    destruct (cut_call name ps b b1 b2 part lost LN W HA H1 H2 EP) as [(k & HK' & E)|(c & w & bb & r & EL & NP)].
    - exfalso. apply (HK k HK'). unfold sent.
      assert (X : exists b3, replay bstep b1 (flat_map events (firstn k ps)) = (b3, None)).
      { rewrite <- (firstn_skipn k ps), flat_map_app in H2. apply replay_app_ok in H2. destruct H2 as (b3 & E3 & _). eauto. }
      destruct X as (b3 & X).
      destruct (call_decodes_any _ bstep req ver HL HM name (firstn k ps) b b1 b3 [] LN ltac:(apply Forall_forall; intros x HI; rewrite Forall_forall in W; apply W; rewrite <- (firstn_skipn k ps); apply in_or_app; left; exact HI) HA H1 X) as [Q _].
      destruct (bin_run ver (call_calls name (firstn k ps))) as [o f]. cbn [fst snd] in *. subst f. rewrite E. reflexivity.
    - pose proof (traced_unmarshall_all B bstep req pieces unm_init b []) as TU. rewrite (all_of_lbig_fin _ _ _ _ _ _ _ _ _ _ EC EL) in TU.
      do 2 eexists. split; [exact TU|]. apply not_complete. exact NP.
  Qed.
End Cut.
