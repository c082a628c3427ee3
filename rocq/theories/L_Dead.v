(** A failed stream stays failed. *)
From Coq Require Import Lia.
From Verif Require Import Base Value M_Marshal M_BinUnmarshal M_TreeBuilder S_Events S_Value S_Wire L_Base L_BinUnmarshal
  L_BinSafety L_Nesting L_Morph L_Origin L_Bound.

Section Dead.
  Variable B : Type.
  Variable bstep : B -> event -> B * option fail.
  Variable req : Z.
  Variable Q : fail -> Prop.
  Hypothesis unchanged : forall b e b' f, bstep b e = (b', Some f) -> b' = b.
  Hypothesis closing : forall b e b' f, e = ECloseStruct \/ e = ECloseArray -> bstep b e = (b', Some f) -> Q f.

  Lemma dead_attempts : forall datas u b f, dead B bstep req u b f ->
    attempts bstep req u b datas = (map (fun _ => Some f) datas, b).
  Proof.
    induction datas as [|d r IH]; intros u b f D; cbn [attempts map]; auto.
    destruct (dead_stays B bstep req Q unchanged closing u b f d D) as (u' & E & D'). rewrite E, (IH _ _ _ D'). reflexivity.
  Qed.

  Lemma failed_dead : forall pieces u b u' b' f, ready u -> ~ Q f ->
    unmarshall_all B bstep req u b pieces = (u', b', Some f) -> dead B bstep req u' b' f.
  Proof.
    induction pieces as [|p ps IH]; intros u b u' b' f R NQ H; cbn [unmarshall_all] in H; [discriminate|].
    destruct (unmarshall B bstep req u b p) as [[u1 b1] [g|]] eqn:E.
    - inversion H; subst. eapply unmarshall_dead; eauto.
    - eapply IH; [|exact NQ|exact H]. eapply unmarshall_ready; eauto.
  Qed.

  Theorem stays_failed : forall pieces b u' b' f datas, ~ Q f ->
    unmarshall_all B bstep req unm_init b pieces = (u', b', Some f) ->
    attempts bstep req u' b' datas = (map (fun _ => Some f) datas, b').
  Proof. intros. apply dead_attempts. eapply failed_dead; eauto. apply ready_init. Qed.
End Dead.

(** The tree builder never meets a too long name. *)
Definition short_keys : list frame -> Prop := Forall (fun fr => blen (f_key fr) <= 255).
Definition short_names (t : tb) : Prop := short_keys (tb_stack t) /\ Forall short_keys (tb_under t).
Definition short (b : tb * list event) : Prop :=
  Forall bounded (snd b) -> blen (tb_member (fst b)) <= 255 /\ short_names (fst b).

Lemma frame_add_short : forall k v f, blen k <= 255 -> exists f', frame_add k v f = Ok f' /\ f_key f' = f_key f.
Proof.
  intros k v [fk [l|m]] H; unfold frame_add; cbn [f_body f_key]; [eexists; split; reflexivity|].
  unfold struct_append. replace (255 <? blen k) with false by (symmetry; apply Z.ltb_ge; lia).
  eexists. split; reflexivity.
Qed.

Lemma short_step : forall val t e, bounded e -> blen (tb_member t) <= 255 ->
  short_names t ->
  snd (tb_step val t e) <> Some (Exn LenError) /\
  (snd (tb_step val t e) = None -> blen (tb_member (fst (tb_step val t e))) <= 255 /\
     short_names (fst (tb_step val t e))).
Proof.
  intros val t e HB HM [HS HU].
  assert (V : forall v, snd (tb_value t v) <> Some (Exn LenError) /\
    (snd (tb_value t v) = None -> blen (tb_member (fst (tb_value t v))) <= 255 /\
     short_names (fst (tb_value t v)))).
  { intro v. unfold tb_value. destruct (tb_stack t) as [|f r] eqn:ES.
    - destruct (tb_first t); cbn; split; try discriminate. intros _. split; auto; split; auto; repeat constructor; auto.
    - destruct (frame_add_short (tb_member t) v f HM) as (f' & -> & EK). cbn [fst snd]. split; [discriminate|].
      intros _. cbn. split; auto. split; [|exact HU]. cbn [tb_set_stack tb_stack]. inversion HS; subst. constructor; [rewrite EK|]; auto. }
  assert (O : forall b, snd (tb_open t b) <> Some (Exn LenError) /\
    (snd (tb_open t b) = None -> blen (tb_member (fst (tb_open t b))) <= 255 /\
     short_names (fst (tb_open t b)))).
  { intro b. unfold tb_open. destruct (tb_stack t) as [|f r] eqn:ES.
    - destruct (tb_first t); cbn; split; try discriminate. intros _. split; auto; split; auto; repeat constructor; auto.
    - destruct (frame_add_short (tb_member t) (body_value b) f HM) as (f' & -> & EK). cbn [fst snd]. split; [discriminate|].
      intros _. cbn. split; auto. split; [|exact HU]. constructor; auto. }
  assert (C : snd (tb_close t) <> Some (Exn LenError) /\
    (snd (tb_close t) = None -> blen (tb_member (fst (tb_close t))) <= 255 /\
     short_names (fst (tb_close t)))).
  { unfold tb_close. destruct (tb_stack t) as [|f [|p r]] eqn:ES.
    - cbn. split; discriminate.
    - cbn. split; [discriminate|]. intros _. split; [exact HM|]. split; cbn [tb_stack tb_under]; destruct HU; cbn [hd tl]; auto; constructor.
    - inversion HS; subst. destruct (frame_add_short (f_key f) (body_value (f_body f)) p H1) as (f' & -> & EK).
      cbn [fst snd]. split; [discriminate|]. intros _. cbn. split; auto. split; [|exact HU]. cbn [tb_set_stack tb_stack]. inversion H2; subst.
      constructor; [rewrite EK|]; auto. }
  destruct e; cbn [tb_step]; auto; cbn in *; (split; [discriminate|]); intros _; (split; auto); try lia; (split; [|auto]); auto.
  - constructor; auto. cbn. lia.
  - cbn [tb_under]. destruct (tb_stack t); auto.
Qed.

Theorem tree_fail_kind : forall val req pieces u t f,
  unmarshall_all tb (tb_step val) req unm_init tb_init pieces = (u, t, Some f) ->
  exists m, f = Exn (StreamError m).
Proof.
  intros val req pieces u t f H.
  pose proof (proj1 (tree_no_undef val req pieces u t (Some f) H)) as NU.
  rewrite (traced_unmarshall_all _ _ _ _ _ _ []) in H.
  destruct (unmarshall_all _ (traced (tb_step val)) req unm_init (tb_init, []) pieces) as [[u1 b1] f1] eqn:E.
  inversion H; subst. clear H.
  pose proof (unmarshall_all_bnd tb (tb_step val) req pieces unm_init (tb_init, []) _ _ _ ready_init (Forall_nil _) E) as BN.
  unfold bnd in BN.
  assert (HP : forall b e b', short b -> traced (tb_step val) b e = (b', None) -> short b').
  { intros [t0 es] e [t1 es1] S H FB. unfold traced in H. cbn [fst snd] in *.
    destruct (tb_step val t0 e) as [t2 g] eqn:ES. inversion H; subst. apply Forall_app in FB. destruct FB as [F1 F2].
    destruct (S F1) as [S1 S2]. apply Forall_inv in F2.
    pose proof (proj2 (short_step val t0 e F2 S1 S2)) as X. rewrite ES in X. apply X. reflexivity. }
  pose proof (unmarshall_all_origin _ (traced (tb_step val)) req short HP pieces unm_init (tb_init, []) _ _ _ ready_init
    ltac:(intros _; cbn; split; [lia|split; constructor]) E) as O. cbn in O.
  destruct O as [[O _]|([t0 es] & e & S & O)]; auto.
  unfold traced in O. cbn [fst snd] in *. destruct (tb_step val t0 e) as [t2 g] eqn:ES. inversion O; subst.
  cbn [fst snd] in *. apply Forall_app in BN. destruct BN as [F1 F2]. destruct (S F1) as [S1 S2]. apply Forall_inv in F2.
  pose proof (proj1 (short_step val t0 e F2 S1 S2)) as X. rewrite ES in X. cbn [snd] in X.
  assert (V : forall v, snd (tb_value t0 v) = Some f -> f = Undef \/ f = Exn LenError \/ exists m, f = Exn (StreamError m)).
  { intro v. unfold tb_value. destruct (tb_stack t0); [destruct (tb_first t0)|]; cbn; try discriminate.
    - intro K. inversion K. right. right. eauto.
    - destruct (frame_add_short (tb_member t0) v f0 S1) as (f' & -> & _). discriminate. }
  assert (OP : forall v, snd (tb_open t0 v) = Some f -> f = Undef \/ f = Exn LenError \/ exists m, f = Exn (StreamError m)).
  { intro v. unfold tb_open. destruct (tb_stack t0); [destruct (tb_first t0)|]; cbn; try discriminate.
    - intro K. inversion K. right. right. eauto.
    - destruct (frame_add_short (tb_member t0) (body_value v) f0 S1) as (f' & -> & _). discriminate. }
  assert (CL : snd (tb_close t0) = Some f -> f = Undef \/ f = Exn LenError \/ exists m, f = Exn (StreamError m)).
  { cbn [fst] in S2. unfold short_names in S2. unfold tb_close. destruct (tb_stack t0) as [|f1 [|p r]]; cbn; try discriminate.
    - intro K. inversion K. auto.
    - apply proj1, Forall_inv in S2. destruct (frame_add_short (f_key f1) (body_value (f_body f1)) p S2) as (f' & -> & _). discriminate. }
  assert (R : snd (tb_step val t0 e) = Some f) by (rewrite ES; reflexivity).
  assert (f = Undef \/ f = Exn LenError \/ exists m, f = Exn (StreamError m)) as K
    by (destruct e; cbn [tb_step] in R; eauto; cbn in R; discriminate).
  destruct K as [-> |[-> |K]]; auto; congruence.
Qed.

Theorem tree_stays_failed : forall val req pieces u t f datas,
  unmarshall_all tb (tb_step val) req unm_init tb_init pieces = (u, t, Some f) ->
  attempts (tb_step val) req u t datas = (map (fun _ => Some f) datas, t).
Proof.
  intros val req pieces u t f datas H.
  apply (stays_failed tb (tb_step val) req (fun f => f = Undef \/ f = Exn LenError)) with (pieces := pieces) (b := tb_init); auto.
  - intros b e b' f0 E. eapply tb_step_fail; eauto.
  - intros b e b' f0 HE E. 
    assert (C : snd (tb_close b) = Some f0) by (destruct HE; subst e; cbn [tb_step] in E; rewrite E; reflexivity).
    revert C. unfold tb_close. destruct (tb_stack b) as [|f1 [|p r]]; cbn; try discriminate.
    + intro K. inversion K. auto.
    + unfold frame_add. destruct (f_body p) as [l|m]; cbn; try discriminate.
      unfold struct_append. destruct (255 <? _); cbn; [|discriminate]. intro K. inversion K. auto.
  - apply tree_fail_kind in H. destruct H as [m ->]. intros [X|X]; discriminate.
Qed.
