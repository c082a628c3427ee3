(** Consequences for failures: no undefined behaviour, failures are permanent, partial decoding. *)
From Coq Require Import Lia.
From Verif Require Import Base Value M_Marshal M_BinUnmarshal L_Base L_BinUnmarshal.

Ltac arms H :=
  repeat match type of H with
  | (if ?x then _ else _) = _ => destruct x; try discriminate
  | match ?x with [] => _ | _ :: _ => _ end = _ => destruct x; try discriminate
  | match ?x with Some _ => _ | None => _ end = _ => destruct x; try discriminate
  | length_arm _ _ _ _ _ _ = _ => unfold length_arm in H; cbv zeta in H
  end.

Section Safe.
  Variable B : Type.
  Variable bstep : B -> event -> B * option fail.
  Variable req : Z.

  Notation body := (body B bstep req).
  Notation emit := (emit B bstep).
  Notation scalar := (scalar B bstep).
  Notation decrement := (decrement B bstep).
  Notation dec_members := (dec_members B bstep).
  Notation lbig := (lbig B bstep req).
  Notation unmarshall := (unmarshall B bstep req).

  (** *** A property [Q] of failures that holds for all exceptions of the decoder and for all
      failures of the builder holds for all failures. *)
  Section Fails.
    Variable Q : fail -> Prop.
    Hypothesis QE : forall m, Q (Exn (StreamError m)).
    Hypothesis QB : forall b e f, snd (bstep b e) = Some f -> Q f.

    Lemma emit_fail : forall c b e c' b' f, emit c b e = (c', b', Some f) -> Q f.
    Proof.
      intros c b e c' b' f. unfold M_BinUnmarshal.emit. destruct (c_fault c =? 0).
      - destruct (bstep b e) as [b1 f1] eqn:E. intro H; inversion H; subst. eapply QB. rewrite E. reflexivity.
      - destruct e; simpl; try (intro H; inversion H; subst; apply QE).
        + destruct (c_fault c =? 1); intro H; inversion H; subst; apply QE.
        + destruct (c_fault c =? 2).
          * destruct (bstep b (EFault (s32 (c_errno c)) s)) as [b1 [f1|]] eqn:E;
              intro H; inversion H; subst. eapply QB. rewrite E. reflexivity.
          * intro H; inversion H; subst; apply QE.
    Qed.

    Lemma scalar_fail : forall c b e c' b' f, scalar c b e = Bad B c' b' f -> Q f.
    Proof.
      intros c b e c' b' f. unfold M_BinUnmarshal.scalar. destruct (emit c b e) as [[c1 b1] [g|]] eqn:E;
        intro H; inversion H; subst. eapply emit_fail; eauto.
    Qed.

    Lemma container_fail : forall k c b d c' b' f, container_arm B bstep k c b d = Bad B c' b' f -> Q f.
    Proof.
      intros k c b d c' b' f H. unfold container_arm in H. cbv zeta in H.
      unfold throw in H.
      destruct (_ <? _); [inversion H; apply QE|]. destruct (negb _); [inversion H; apply QE|].
      destruct (_ <=? _); [inversion H; apply QE|].
      destruct (emit c b _) as [[c1 b1] [?|]] eqn:E1; [inversion H; subst; eapply emit_fail; eauto|].
      destruct (negb _); [discriminate|].
      destruct (emit c1 b1 _) as [[? ?] [?|]] eqn:E2; [inversion H; subst; eapply emit_fail; eauto|discriminate].
    Qed.

    Lemma value_type_fail : forall known c b t c' b' f,
      value_type_arm B bstep known c b t = Bad B c' b' f -> Q f.
    Proof.
      intros known c b t c' b' f H. unfold value_type_arm in H. cbv zeta in H. unfold throw in H.
      arms H; try (eapply scalar_fail; eassumption); inversion H; subst; apply QE.
    Qed.

    Lemma body_fail : forall known c b w s c' b' f,
      cinv c w -> w <= zlen s -> body known c b w s = Bad B c' b' f -> Q f.
    Proof.
      intros known c b w s c' b' f (W & _ & _) L H. unfold M_BinUnmarshal.body in H. cbv zeta in H.
      assert (EM : forall e st,
         (match emit c b e with
          | (c1, b1, None) => Next B (set_state st c1) b1 1 false
          | (c1, b1, Some f) => Bad B c1 b1 f
          end) = Bad B c' b' f -> Q f).
      { intros e st E. destruct (emit c b e) as [[c1 b1] [g|]] eqn:E1; [|discriminate].
        inversion E; subst. eapply emit_fail; eauto. }
      unfold wok in W.
      assert (E1 : zlen s <? w = false) by lia. rewrite E1 in H.
      destruct (c_state c) eqn:ES; try (destruct (8 <? w) eqn:E8; [lia|]); cbn [orb] in H;
        try (eapply EM; eassumption); try (eapply scalar_fail; eassumption);
        try (eapply container_fail; eassumption);
        try (unfold length_arm, throw in H; arms H; inversion H; subst; apply QE);
        try (subst w; rewrite E1 in H; eapply scalar_fail; eassumption);
        unfold throw in H.
      - subst w. destruct s as [|m0 [|m1 [|v0 [|v1 s]]]]; rewrite ?zlen_cons, ?zlen_nil in L; try lia.
        arms H; inversion H; subst; apply QE.
      - destruct s as [|x s]; [rewrite zlen_nil in L; lia|].
        destruct (negb _); [inversion H; apply QE|]. destruct (_ =? T_FAULT); [discriminate|].
        destruct (_ =? T_METHOD_RESPONSE); [eapply EM; eauto|].
        destruct (_ =? T_METHOD_CALL); [discriminate|inversion H; apply QE].
      - destruct s as [|x s]; [rewrite zlen_nil in L; lia|].
        destruct (_ =? 0); [inversion H; apply QE|discriminate].
      - destruct s as [|x s]; [rewrite zlen_nil in L; lia|].
        destruct (in_struct c); [|eapply value_type_fail; eauto].
        destruct (_ =? 0); [inversion H; apply QE|discriminate].
      - destruct s as [|x s]; [rewrite zlen_nil in L; lia|]. eapply value_type_fail; eauto.
      - destruct (decode_datetime (c_ver c) s) eqn:ED; [eapply scalar_fail; eauto|]. exfalso.
        unfold decode_datetime in ED. subst w. cbv zeta in ED. destruct (2 <? v_major (c_ver c)).
        + destruct (split_at s 14 L) as (a & r & -> & EL).
          do 14 (destruct a as [|? a]; [discriminate EL|]). destruct a; [|discriminate EL]. discriminate.
        + destruct (split_at s 10 L) as (a & r & -> & EL).
          do 10 (destruct a as [|? a]; [discriminate EL|]). destruct a; [|discriminate EL]. discriminate.
    Qed.

    Lemma dec_members_fail : forall stk b stk' b' f, dec_members stk b = (stk', b', Some f) -> Q f.
    Proof.
      induction stk as [|[n k] r IH]; intros b stk' b' f H; cbn [M_BinUnmarshal.dec_members] in H; [discriminate|].
      cbv zeta in H. destruct (negb _); [discriminate|].
      destruct (bstep b _) as [b1 [g|]] eqn:E; [|eapply IH; eauto].
      inversion H; subst. eapply QB. rewrite E. reflexivity.
    Qed.

    Lemma decrement_fail : forall fin c b c' b' f, decrement fin c b = (c', b', Some f) -> Q f.
    Proof.
      intros fin c b c' b' f. unfold M_BinUnmarshal.decrement. destruct fin; [|discriminate].
      destruct (dec_members (c_stack c) b) as [[s b1] g] eqn:E. intro H; inversion H; subst.
      eapply dec_members_fail; eauto.
    Qed.

    Lemma lbig_fail : forall known c w b s f, cinv c w -> snd (lbig known c w b s) = Failed f -> Q f.
    Proof.
      intros known c w b s f I. revert f.
      apply (lbig_ind B bstep req known (fun c w b s r => forall f, snd r = Failed f -> Q f)); auto;
        simpl; intros; try discriminate.
      - match goal with H : Failed _ = Failed _ |- _ => inversion H; subst end. eapply body_fail; eauto.
      - match goal with H : Failed _ = Failed _ |- _ => inversion H; subst end. eapply decrement_fail; eauto.
    Qed.

    Lemma unmarshall_fail : forall u b data f, ready u -> snd (unmarshall u b data) = Some f -> Q f.
    Proof.
      intros u b data f R H. rewrite unmarshall_lbig in H by auto.
      pose proof (lbig_not_out B bstep req false (u_core u) (u_wanted u) b (u_buffer u ++ data) (proj1 R)) as NO.
      pose proof (lbig_fail false (u_core u) (u_wanted u) b (u_buffer u ++ data)) as LF.
      destruct (lbig false _ _ _ _) as [[[[c w] b'] r] e].
      simpl in *. destruct e; simpl in H; try discriminate; [|congruence].
      inversion H; subst. eapply LF; eauto. apply R.
    Qed.
  End Fails.

  (** *** Permanent failure, for builders whose refusals change nothing and that refuse to close a
      container only with failures in [Q]. *)
  Section Stubborn.
    Variable Q : fail -> Prop.
    Hypothesis unchanged : forall b e b' f, bstep b e = (b', Some f) -> b' = b.
    Hypothesis closing : forall b e b' f, e = ECloseStruct \/ e = ECloseArray -> bstep b e = (b', Some f) -> Q f.

    Lemma emit_bad : forall c b e c' b' f, emit c b e = (c', b', Some f) -> c' = c /\ b' = b.
    Proof.
      intros c b e c' b' f. unfold M_BinUnmarshal.emit. destruct (c_fault c =? 0).
      - destruct (bstep b e) as [b1 f1] eqn:E. intro H. inversion H; subst. apply unchanged in E. auto.
      - destruct e; simpl; try (intro H; inversion H; subst; auto; fail).
        + destruct (c_fault c =? 1); intro H; inversion H; subst; auto.
        + destruct (c_fault c =? 2); [|intro H; inversion H; subst; auto].
          destruct (bstep b _) as [b1 [f1|]] eqn:E; intro H; inversion H; subst. apply unchanged in E. auto.
    Qed.

    Lemma scalar_bad : forall c b e c' b' f, scalar c b e = Bad B c' b' f -> c' = c /\ b' = b.
    Proof.
      intros c b e c' b' f. unfold M_BinUnmarshal.scalar. destruct (emit c b e) as [[c1 b1] [g|]] eqn:E;
        intro H; inversion H; subst. eapply emit_bad; eauto.
    Qed.

    Lemma container_bad : forall k c b d c' b' f, container_arm B bstep k c b d = Bad B c' b' f -> ~ Q f ->
      c' = c /\ b' = b.
    Proof.
      intros k c b d c' b' f H NQ. unfold container_arm in H. cbv zeta in H.
      unfold throw in H.
      destruct (_ <? _); [inversion H; auto|]. destruct (negb _); [inversion H; auto|].
      destruct (_ <=? _); [inversion H; auto|].
      destruct (emit c b _) as [[c1 b1] [?|]] eqn:E1; [inversion H; subst; eapply emit_bad; eauto|].
      destruct (negb _); [discriminate|].
      destruct (emit c1 b1 _) as [[c2 b2] [?|]] eqn:E2; [|discriminate].
      inversion H; subst. exfalso. apply NQ.
      unfold M_BinUnmarshal.emit in E1, E2. destruct (c_fault c =? 0) eqn:EF.
      - destruct (bstep b _) as [b3 f3] eqn:E3. inversion E1; subst. rewrite EF in E2.
        destruct (bstep b1 _) as [b4 f4] eqn:E4. inversion E2; subst.
        eapply closing; [|exact E4]. destruct k; auto.
      - destruct k; discriminate.
    Qed.

    Lemma value_type_bad : forall known c b t c' b' f,
      value_type_arm B bstep known c b t = Bad B c' b' f -> c' = c /\ b' = b.
    Proof.
      intros known c b t c' b' f H. unfold value_type_arm in H. cbv zeta in H. unfold throw in H.
      arms H; try (eapply scalar_bad; eassumption); inversion H; subst; auto.
    Qed.

    Lemma body_bad : forall c b w s c' b' f,
      body false c b w s = Bad B c' b' f -> cinv c w -> ~ Q f ->
      b' = b /\ cinv c' w /\ body false c' b w s = Bad B c' b f.
    Proof.
      intros c b w s c' b' f H I NQ.
      assert (K : (c' = c /\ b' = b) \/ 
        (c_state c = S_MAGIC /\ b' = b /\ exists v, c' = set_ver v c /\ body false c' b w s = Bad B c' b f)).
      { pose proof H as H0. unfold M_BinUnmarshal.body in H0. cbv zeta in H0. unfold throw in H0.
        assert (EM : forall e st,
          (match emit c b e with
           | (c1, b1, None) => Next B (set_state st c1) b1 1 false
           | (c1, b1, Some f) => Bad B c1 b1 f
           end) = Bad B c' b' f -> c' = c /\ b' = b).
        { intros e st E. destruct (emit c b e) as [[c1 b1] [g|]] eqn:E1; [|discriminate].
          inversion E; subst. eapply emit_bad; eauto. }
        destruct (c_state c) eqn:ES;
          repeat match type of H0 with
          | (if (zlen _ <? _) then _ else _) = _ => destruct (zlen s <? _); [inversion H0; subst; left; auto|]
          | (if (zlen _ <? _) || _ then _ else _) = _ =>
              destruct ((zlen s <? w) || (8 <? w)); [inversion H0; subst; left; auto|]
          end;
          try (left; eapply EM; eassumption); try (left; eapply scalar_bad; eassumption);
          try (left; eapply container_bad; eassumption);
          try (left; unfold length_arm, throw in H0; arms H0; inversion H0; subst; auto; fail).
        - destruct s as [|m0 [|m1 [|v0 [|v1 s]]]]; try (inversion H0; subst; left; auto; fail).
          destruct (negb _) eqn:E1 in H0; [inversion H0; subst; left; auto|].
          destruct (_ || _) eqn:E2 in H0; [|discriminate].
          right. inversion H0; subst. split; auto. split; auto. eexists. split; [reflexivity|].
          unfold M_BinUnmarshal.body, throw. cbn [c_state set_ver]. rewrite ES, E1, E2. reflexivity.
        - destruct s as [|x s]; [inversion H0; subst; left; auto|].
          destruct (negb _); [inversion H0; subst; left; auto|]. destruct (_ =? T_FAULT); [discriminate|].
          destruct (_ =? T_METHOD_RESPONSE); [left; eapply EM; eauto|].
          destruct (_ =? T_METHOD_CALL); [discriminate|inversion H0; subst; left; auto].
        - destruct s as [|x s]; [inversion H0; subst; left; auto|].
          destruct (in_struct c); [|left; eapply value_type_bad; eauto].
          destruct (b2z x =? 0); [inversion H0; subst; left; auto|discriminate].
        - destruct s as [|x s]; [inversion H0; subst; left; auto|]. left. eapply value_type_bad; eauto.
        - destruct (decode_datetime (c_ver c) s); [left; eapply scalar_bad; eauto|inversion H0; subst; left; auto]. }
      destruct K as [[-> ->]|(ES & -> & v & -> & HB)].
      - auto.
      - split; auto. split; auto. destruct I as (W & I & D). unfold cinv, wok, hd_ok, cinv0 in *.
        cbn [set_ver c_state c_stack c_fault c_ver]. rewrite ES in *. auto.
    Qed.

    Lemma dec_members_q : forall stk b s b' f, dec_members stk b = (s, b', Some f) -> Q f.
    Proof.
      induction stk as [|[n k] r IH]; intros b s b' f H; cbn [M_BinUnmarshal.dec_members] in H; [discriminate|].
      cbv zeta in H. destruct (negb _); [discriminate|].
      destruct (bstep b _) as [b1 [g|]] eqn:E; [|eauto]. inversion H; subst.
      eapply closing; [|exact E]. destruct k; auto.
    Qed.

    Definition dead (u : unm) (b : B) (f : fail) : Prop :=
      cinv (u_core u) (u_wanted u) /\ u_wanted u <= zlen (u_buffer u)
      /\ body false (u_core u) b (u_wanted u) (u_buffer u) = Bad B (u_core u) b f.

    Lemma lbig_dead : forall c w b s c' w' b' r f, cinv c w -> ~ Q f ->
      lbig false c w b s = (c', w', b', r, Failed f) -> dead (mkUnm c' r w') b' f.
    Proof.
      intros c w b s c' w' b' r f I. revert c' w' b' r f.
      apply (lbig_ind B bstep req false (fun c w b s res => forall c' w' b' r f, ~ Q f ->
        res = (c', w', b', r, Failed f) -> dead (mkUnm c' r w') b' f)); auto; intros; try discriminate.
      - match goal with H : (_, _, _, _, _) = _ |- _ => inversion H; subst end.
        match goal with HQ : ~ Q _ |- _ => destruct (body_bad _ _ _ _ _ _ _ H1 H HQ) as (-> & I' & HB) end.
        split; [exact I'|]. split; auto.
      - exfalso. match goal with H : decrement ?fin ?cc ?bb = _ |- _ => 
          unfold M_BinUnmarshal.decrement in H; destruct fin; [|discriminate H];
          destruct (dec_members (c_stack cc) bb) as [[? ?] [g|]] eqn:DE; [|discriminate H];
          apply dec_members_q in DE; inversion H; subst end.
        match goal with H : (_, _, _, _, _) = _ |- _ => inversion H; subst end. auto.
    Qed.

    Lemma unmarshall_dead : forall u b data u' b' f, ready u -> ~ Q f ->
      unmarshall u b data = (u', b', Some f) -> dead u' b' f.
    Proof.
      intros u b data u' b' f R NQ H. rewrite unmarshall_lbig in H by auto.
      pose proof (lbig_not_out B bstep req false (u_core u) (u_wanted u) b (u_buffer u ++ data) (proj1 R)) as NO.
      destruct (lbig false _ _ _ _) as [[[[c w] b1] r] e] eqn:E. inversion H; subst.
      destruct e; try discriminate; simpl in *; try congruence. inversion H3; subst.
      eapply lbig_dead; eauto. apply R.
    Qed.

    Lemma dead_stays : forall u b f data, dead u b f ->
      exists u', unmarshall u b data = (u', b, Some f) /\ dead u' b f.
    Proof.
      intros [c buf w] b f data (I & L & HB). cbn [u_core u_buffer u_wanted] in *.
      assert (GEN : forall x, body false c b w (buf ++ x) = Bad B c b f)
        by (intro x; rewrite body_local; auto).
      pose proof (cinv_nonneg _ _ I) as W0.
      unfold M_BinUnmarshal.unmarshall, driver_init. cbn [u_core u_buffer u_wanted].
      destruct buf as [|x buf].
      - unfold enough_fuel. cbn [u_buffer length].
        replace (2 * (0 + length data) + 2)%nat with (S (2 * length data + 1))%nat by lia.
        cbn [M_BinUnmarshal.run u_wanted u_buffer u_core].
        pose proof (zlen_nonneg _ data). rewrite zlen_nil in *.
        destruct (w <=? 0 + zlen data) eqn:E; [|lia].
        specialize (GEN data). cbn [app] in GEN. rewrite GEN.
        eexists. split; [reflexivity|]. unfold driver_finish. cbn [u_core u_buffer u_wanted app].
        split; [exact I|]. cbn [u_core u_buffer u_wanted]. split; [lia|exact GEN].
      - set (n := Z.min _ _). set (bf := x :: buf) in *.
        assert (EQ : bf ++ ztake n data ++ zdrop n data = bf ++ data) by (rewrite ztake_zdrop; reflexivity).
        unfold enough_fuel. cbn [u_buffer].
        set (b1 := bf ++ ztake n data) in *. set (i1 := zdrop n data) in *.
        replace (2 * (length b1 + length i1) + 2)%nat with (S (2 * (length b1 + length i1) + 1))%nat by lia.
        cbn [M_BinUnmarshal.run u_wanted u_buffer u_core].
        assert (L1 : w <= zlen b1) by (unfold b1; rewrite zlen_app; pose proof (zlen_nonneg _ (ztake n data)); lia).
        pose proof (zlen_nonneg _ i1).
        destruct (w <=? zlen b1 + zlen i1) eqn:E; [|lia].
        assert (HB1 : body false c b w b1 = Bad B c b f) by apply GEN.
        unfold b1 at 1. cbv iota. unfold bf at 1. cbn [app].
        change (x :: buf ++ ztake n data) with b1. rewrite HB1.
        eexists. split; [reflexivity|]. unfold driver_finish. cbn [u_core u_buffer u_wanted].
        split; [exact I|]. cbn [u_core u_buffer u_wanted].
        split; [rewrite zlen_app; lia|]. rewrite body_local; auto.
    Qed.
  End Stubborn.
  (** *** Partial decoding. *)
  Lemma value_type_known : forall c b t,
    value_type_arm B bstep true c b t =
    match value_type_arm B bstep true c b t with
    | Stop _ => Stop B
    | _ => value_type_arm B bstep false c b t
    end /\
    (value_type_arm B bstep true c b t = Stop B ->
     value_type_arm B bstep false c b t = throw B c b "Unknown value type").
  Proof.
    intros c b t. unfold value_type_arm. cbv zeta.
    repeat match goal with
    | |- context [if ?x then _ else _] => destruct x
    | |- context [versioned_length_size ?a ?b] => destruct (versioned_length_size a b)
    end;
    (split; [|try discriminate; auto; intro X; apply scalar_not_stop in X; contradiction]);
    try reflexivity; match goal with |- scalar ?a ?b ?e = _ => destruct (scalar a b e) eqn:E; auto end;
    apply scalar_not_stop in E; contradiction.
  Qed.

  Lemma body_known : forall c b w s,
    (body true c b w s = Stop B /\ body false c b w s = throw B c b "Unknown value type"
      /\ (c_state c = S_VALUE_TYPE \/ c_state c = S_REAL_VALUE_TYPE))
    \/ (body true c b w s <> Stop B /\ body false c b w s = body true c b w s).
  Proof.
    intros c b w s.
    assert (NS := body_not_stop B bstep req c b w s).
    destruct (c_state c) eqn:ES.
    all: try (right; assert (E : body true c b w s = body false c b w s)
      by (unfold M_BinUnmarshal.body; rewrite ES; reflexivity); rewrite E; auto; fail).
    - unfold M_BinUnmarshal.body. rewrite ES. destruct s as [|t s].
      { right. split; [discriminate|reflexivity]. }
      destruct (in_struct c).
      { right. split; [|reflexivity]. destruct (b2z t =? 0); discriminate. }
      destruct (value_type_known c b t) as [K1 K2].
      destruct (value_type_arm B bstep true c b t) eqn:E; [right|left|right]; auto;
        rewrite <- K1; split; auto; discriminate.
    - unfold M_BinUnmarshal.body. rewrite ES. destruct s as [|t s].
      { right. split; [discriminate|reflexivity]. }
      destruct (value_type_known c b t) as [K1 K2].
      destruct (value_type_arm B bstep true c b t) eqn:E; [right|left|right]; auto;
        rewrite <- K1; split; auto; discriminate.
  Qed.

  Lemma lbig_known : forall c w b s c' w' b' r e, cinv c w ->
    lbig true c w b s = (c', w', b', r, e) ->
    (e <> Stopped -> lbig false c w b s = (c', w', b', r, e)) /\
    (e = Stopped ->
       lbig false c w b s = (c', w', b', r, Failed (Exn (StreamError "Unknown value type")))
       /\ cinv c' w' /\ w' = 1 /\ 1 <= zlen r /\ body false c' b' w' r = throw B c' b' "Unknown value type"
       /\ exists p, s = p ++ r /\ lbig false c w b p = (c', w', b', [], Finished)).
  Proof.
    intros c w b s c' w' b' r e I. revert c' w' b' r e.
    apply (lbig_ind B bstep req true (fun c w b s res => forall c' w' b' r e,
      res = (c', w', b', r, e) ->
      (e <> Stopped -> lbig false c w b s = (c', w', b', r, e)) /\
      (e = Stopped ->
       lbig false c w b s = (c', w', b', r, Failed (Exn (StreamError "Unknown value type")))
       /\ cinv c' w' /\ w' = 1 /\ 1 <= zlen r /\ body false c' b' w' r = throw B c' b' "Unknown value type"
       /\ exists p, s = p ++ r /\ lbig false c w b p = (c', w', b', [], Finished)))); auto;
      clear c w b s I.
    - intros c w b s I L c' w' b' r e E. inversion E; subst. split; [|discriminate]. intros _.
      rewrite lbig_eq by auto. destruct (w' <=? zlen r) eqn:X; [lia|]. reflexivity.
    - intros c w b s I L HB c' w' b' r e E. inversion E; subst. split; [congruence|]. intros _.
      destruct (body_known c' b' w' r) as [(K1 & K2 & K3)|[K1 _]]; [|congruence].
      assert (W : w' = 1) by (destruct I as [W _]; unfold wok in W; destruct K3 as [K3|K3]; rewrite K3 in W; auto).
      split; [|split; [exact I|split; [exact W|split; [lia|split; [exact K2|]]]]].
      + rewrite lbig_eq by auto. destruct (w' <=? zlen r) eqn:X; [|lia]. rewrite K2. reflexivity.
      + exists []. split; auto. rewrite lbig_eq by auto. rewrite zlen_nil, W. reflexivity.
    - intros c w b s c1 b1 f I L HB c' w' b' r e E. inversion E; subst. split; [|discriminate]. intros _.
      destruct (body_known c b w' r) as [(K1 & K2 & K3)|[K1 K2]]; [congruence|].
      rewrite lbig_eq by auto. destruct (w' <=? zlen r) eqn:X; [|lia]. rewrite K2, HB. reflexivity.
    - intros c w b s c1 b1 w1 fin c2 b2 f I L HB I1 HD c' w' b' r e E. inversion E; subst.
      split; [|discriminate]. intros _.
      destruct (body_known c b w' r) as [(K1 & K2 & K3)|[K1 K2]]; [congruence|].
      rewrite lbig_eq by auto. destruct (w' <=? zlen r) eqn:X; [|lia]. rewrite K2, HB, HD. reflexivity.
    - intros c w b s c1 b1 w1 fin c2 b2 r0 I L HB HD I1 I2 _ IH c' w' b' r e E.
      specialize (IH _ _ _ _ _ E). destruct IH as [IH1 IH2].
      destruct (body_known c b w s) as [(K1 & K2 & K3)|[K1 K2]]; [congruence|].
      assert (EQ : lbig false c w b s = lbig false c2 w1 b2 (zdrop w s)).
      { rewrite lbig_eq by auto. destruct (w <=? zlen s) eqn:X; [|lia]. rewrite K2, HB, HD. reflexivity. }
      rewrite EQ. split; [exact IH1|]. intro ES. destruct (IH2 ES) as (J1 & J2 & J3 & J4 & J7 & p & J5 & J6).
      do 5 (split; [assumption|]).
      exists (ztake w s ++ p). rewrite <- app_assoc, <- J5, ztake_zdrop. split; auto.
      pose proof (cinv_nonneg _ _ I) as W0.
      assert (LT : zlen (ztake w s) = w) by (apply zlen_ztake; lia).
      rewrite lbig_eq by auto. rewrite zlen_app, LT. pose proof (zlen_nonneg _ p).
      destruct (w <=? w + zlen p) eqn:X; [|lia].
      rewrite body_local by (auto; lia).
      assert (BL : body false c b w s = body false c b w (ztake w s)).
      { rewrite <- (ztake_zdrop _ w s) at 1. apply body_local; auto; lia. }
      rewrite <- BL, K2, HB, HD. rewrite zdrop_app' by auto. exact J6.
  Qed.

  Lemma unmarshall_known_spec : forall u b data u' b' n, ready u ->
    unmarshall_known B bstep req u b data = (u', b', inl n) ->
    n < zlen data \/ zlen (u_buffer u') < u_wanted u' ->
    0 <= n <= zlen data
    /\ unmarshall u b (ztake n data) = (u', b', None)
    /\ (n < zlen data ->
        exists u2, unmarshall u b (ztake (n + 1) data)
                   = (u2, b', Some (Exn (StreamError "Unknown value type")))).
  Proof.
    intros u b data u' b' n R H C.
    destruct (driver_run B bstep req true u b data R) as (buf & rest & H1 & H2).
    unfold unmarshall_known in H.
    destruct (driver_init u data) as [u0 inp]. rewrite H1 in H. clear H1.
    pose proof (lbig_not_out B bstep req true (u_core u) (u_wanted u) b (u_buffer u ++ data) (proj1 R)) as NO.
    destruct (lbig true (u_core u) (u_wanted u) b (u_buffer u ++ data)) as [[[[c w] b1] r] e] eqn:E.
    destruct (lbig_known _ _ _ _ _ _ _ _ _ (proj1 R) E) as [K1 K2].
    destruct H2 as (H2 & H3 & H4 & H5). simpl in NO.
    pose proof (zlen_nonneg _ data) as D0.
    destruct e; try congruence; cbn [u_core] in H.
    - (* finished *)
      specialize (K1 ltac:(discriminate)).
      assert (LF : cinv c w /\ zlen r < w) by (eapply lbig_finished; [exact E | apply R]).
      destruct LF as [I' L'].
      assert (n = zlen data /\ u' = mkUnm c r w /\ b1 = b').
      { destruct (dstate_eqb (c_state c) S_VALUE_TYPE) eqn:ES; inversion H; subst.
        - assert (W : w = 1).
          { destruct I' as [W _]. unfold wok in W. destruct (c_state c); try discriminate; auto. }
          assert (RN : buf = [] /\ rest = []).
          { assert (zlen (buf ++ rest) = 0) by (pose proof (zlen_nonneg _ (buf ++ rest)); lia).
            apply zlen_0_nil in H0. apply app_eq_nil in H0. auto. }
          destruct RN as [-> ->]. rewrite zlen_nil. repeat split; auto. lia.
        - unfold driver_finish. cbn [u_core u_buffer u_wanted]. auto. }
      destruct H0 as (-> & -> & ->).
      split; [lia|]. rewrite ztake_all by lia. split; [|lia].
      rewrite unmarshall_lbig by auto. rewrite K1. reflexivity.
    - (* stopped *)
      destruct (K2 eq_refl) as (J1 & J2 & J3 & J4 & J7 & p & J5 & J6).
      destruct (dstate_eqb (c_state c) S_VALUE_TYPE) eqn:ES; inversion H; subst.
      2:{ exfalso. unfold driver_finish in C. cbn [u_buffer u_wanted] in C. lia. }
      assert (BN : buf = []).
      { destruct buf as [|x buf]; auto. exfalso.
        specialize (H4 ltac:(discriminate)). destruct R as [_ R]. rewrite <- H4 in R.
        assert (u_buffer u = []) by (apply zlen_0_nil; pose proof (zlen_nonneg _ (u_buffer u)); lia).
        specialize (H5 H0). discriminate. }
      subst buf. cbn [app] in *.
      (* [p] is the old buffer followed by the reported prefix *)
      assert (LP : zlen (u_buffer u) <= zlen p).
      { destruct (Z_lt_le_dec (zlen p) (zlen (u_buffer u))) as [X|X]; auto. exfalso.
        assert (PB : u_buffer u = p ++ ztake (zlen (u_buffer u) - zlen p) rest).
        { rewrite <- (ztake_app _ (u_buffer u) data) at 1. rewrite J5.
          unfold ztake, zlen in *. rewrite firstn_app, firstn_all2 by lia. f_equal. f_equal. lia. }
        rewrite lbig_eq in J6 by apply R. destruct R as [_ R].
        destruct (u_wanted u <=? zlen p) eqn:Y; [lia|]. inversion J6; subst.
        assert (u_buffer u = []) by (apply zlen_0_nil; pose proof (zlen_nonneg _ (u_buffer u)); lia).
        rewrite H0, zlen_nil in X. pose proof (zlen_nonneg _ (@nil byte)). simpl in X. lia. }
      assert (PD : exists q, p = u_buffer u ++ q /\ data = q ++ rest).
      { exists (zdrop (zlen (u_buffer u)) p).
        assert (ztake (zlen (u_buffer u)) p = u_buffer u).
        { rewrite <- (ztake_app_le _ _ p rest) by lia. rewrite <- J5. apply ztake_app. }
        split; [rewrite <- H0 at 1; symmetry; apply ztake_zdrop|].
        rewrite <- zdrop_app_le by lia. rewrite <- J5. symmetry. apply zdrop_app. }
      destruct PD as (q & -> & ->).
      rewrite zlen_app in *. pose proof (zlen_nonneg _ q).
      replace (zlen q + zlen rest - zlen rest) with (zlen q) in * by lia.
      split; [lia|]. rewrite ztake_app.
      split; [rewrite unmarshall_lbig by auto; rewrite J6; reflexivity|].
      intros _. destruct rest as [|t rest]; [rewrite zlen_nil in *; lia|].
      assert (ET : ztake (zlen q + 1) (q ++ t :: rest) = q ++ [t]).
      { change (t :: rest) with ([t] ++ rest). rewrite app_assoc. apply ztake_app'.
        rewrite zlen_app. reflexivity. }
      rewrite ET. rewrite unmarshall_lbig by auto. rewrite app_assoc.
      rewrite lbig_app by apply R. rewrite J6. cbn [app].
      change (t :: rest) with ([t] ++ rest) in J7. rewrite body_local in J7 by (auto; reflexivity).
      rewrite lbig_eq by auto. change (1 <=? zlen [t]) with true. cbv iota.
      rewrite J7. eexists. reflexivity.
  Qed.
End Safe.
