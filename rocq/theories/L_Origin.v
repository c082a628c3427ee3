(** Where a failure of the unmarshaller comes from, and invariants of the builder. *)
From Coq Require Import Lia.
From Verif Require Import Base Value M_Marshal M_BinUnmarshal M_TreeBuilder S_Events S_Value S_Wire L_Base L_BinUnmarshal
  L_BinSafety L_Nesting L_Morph.

Section Origin.
  Variable B : Type.
  Variable bstep : B -> event -> B * option fail.
  Variable req : Z.
  Variable P : B -> Prop.
  Hypothesis HP : forall b e b', P b -> bstep b e = (b', None) -> P b'.

  Notation body := (body B bstep req).
  Notation emit := (emit B bstep).
  Notation scalar := (scalar B bstep).
  Notation decrement := (decrement B bstep).
  Notation dec_members := (dec_members B bstep).
  Notation lbig := (lbig B bstep req).

  (** The failure [f] with builder state [b']: the unmarshaller's own, or the answer of the builder. *)
  Definition origin (b' : B) (f : fail) : Prop :=
    ((exists m, f = Exn (StreamError m)) /\ P b') \/ (exists b0 e, P b0 /\ bstep b0 e = (b', Some f)).

  Definition okres (r : bres B) : Prop :=
    match r with
    | Next _ _ b' _ _ => P b'
    | Stop _ => True
    | Bad _ _ b' f => origin b' f
    end.

  Lemma own : forall b m, P b -> origin b (Exn (StreamError m)).
  Proof. intros b m H. left. eauto. Qed.

  Lemma emit_origin : forall c b e c' b' f, P b -> emit c b e = (c', b', f) ->
    match f with None => P b' | Some f => origin b' f end.
  Proof.
    intros c b e c' b' f HB H. unfold M_BinUnmarshal.emit in H.
    destruct (c_fault c =? 0).
    - destruct (bstep b e) as [b1 f1] eqn:E. inversion H; subst. destruct f; [right; eauto|eauto].
    - destruct e; cbn [fault_step] in H; try (inversion H; subst; apply own; auto; fail).
      + destruct (c_fault c =? 1); inversion H; subst; auto. apply own; auto.
      + destruct (c_fault c =? 2); [|inversion H; subst; apply own; auto].
        destruct (bstep b _) as [b1 [f1|]] eqn:E; inversion H; subst; [right; eauto|eauto].
  Qed.

  Lemma scalar_origin : forall c b e, P b -> okres (scalar c b e).
  Proof.
    intros c b e HB. unfold M_BinUnmarshal.scalar. destruct (emit c b e) as [[c1 b1] f] eqn:E.
    apply emit_origin in E; auto. destruct f; exact E.
  Qed.

  Lemma container_origin : forall k c b d, P b -> okres (container_arm B bstep k c b d).
  Proof.
    intros k c b d HB. unfold container_arm. cbv zeta.
    destruct (_ <? _); [apply own; auto|]. destruct (negb _); [apply own; auto|].
    destruct (_ <=? _); [apply own; auto|].
    destruct (emit c b _) as [[c1 b1] f] eqn:E. apply emit_origin in E; auto. destruct f; [exact E|].
    destruct (negb _); [exact E|].
    destruct (emit c1 b1 _) as [[c2 b2] f] eqn:E2. apply emit_origin in E2; auto. destruct f; exact E2.
  Qed.

  Lemma value_type_origin : forall known c b t, P b -> okres (value_type_arm B bstep known c b t).
  Proof.
    intros known c b t HB. unfold value_type_arm. cbv zeta.
    repeat match goal with
    | |- okres (if ?x then _ else _) => destruct x
    | |- okres (match ?x with Some _ => _ | None => _ end) => destruct x
    end; try exact I; try exact HB; try (apply own; auto; fail); apply scalar_origin; auto.
  Qed.

  Lemma body_origin : forall known c b w s, cinv c w -> w <= zlen s -> P b -> okres (body known c b w s).
  Proof.
    intros known c b w s (W & _ & _) L HB. unfold M_BinUnmarshal.body. cbv zeta.
    unfold wok in W.
    assert (NE : 1 <= w -> exists t s', s = t :: s').
    { intro X. destruct s as [|t s]; [rewrite zlen_nil in L; lia|eauto]. }
    assert (EM : forall e st w fin, okres (match emit c b e with
        | (c1, b1, None) => Next B (set_state st c1) b1 w fin
        | (c1, b1, Some f) => Bad B c1 b1 f
        end)).
    { intros e st w1 fin. destruct (emit c b e) as [[c1 b1] f] eqn:E. apply emit_origin in E; auto.
      destruct f; exact E. }
    assert (WD : (zlen s <? w) = false) by (apply Z.ltb_ge; lia).
    assert (W8 : w <= 8 -> (8 <? w) = false) by (intro; apply Z.ltb_ge; lia).
    destruct (c_state c) eqn:ES;
      try (destruct (NE ltac:(lia)) as (t & s' & ->));
      rewrite ?WD; rewrite ?W8 by lia; cbn [orb];
      try (apply scalar_origin; auto; fail); try (apply container_origin; auto; fail);
      try (apply value_type_origin; auto; fail);
      try (unfold length_arm; cbv zeta; destruct (_ <=? _); [apply own; auto|exact HB]);
      try apply EM.
    - subst w. rewrite zlen_cons in L. destruct s' as [|m1 [|v0 [|v1 d]]];
        try (exfalso; rewrite ?zlen_cons, ?zlen_nil in L; lia).
      destruct (negb _); [apply own; auto|]. destruct (_ || _); [apply own; auto|]. exact HB.
    - destruct (negb _); [apply own; auto|]. destruct (_ =? _); [exact HB|].
      destruct (_ =? _); [apply EM|]. destruct (_ =? _); [exact HB|apply own; auto].
    - destruct (_ =? _); [apply own; auto|exact HB].
    - destruct (in_struct c); [|apply value_type_origin; auto].
      destruct (_ =? _); [apply own; auto|exact HB].
    - subst w. rewrite WD. apply scalar_origin; auto.
    - destruct (decode_datetime (c_ver c) s) eqn:E; [apply scalar_origin; auto|]. exfalso.
      revert E. unfold decode_datetime. cbv zeta.
      assert (LS : forall k (l : bytes), Z.of_nat k <= zlen l -> (k <= length l)%nat).
      { intros k l H. unfold zlen in H. lia. }
      destruct (2 <? v_major (c_ver c)).
      + assert (HL := LS 14%nat s ltac:(lia)). do 14 (destruct s as [|? s]; [cbn in HL; lia|]). discriminate.
      + assert (HL := LS 10%nat s ltac:(lia)). do 10 (destruct s as [|? s]; [cbn in HL; lia|]). discriminate.
  Qed.

  Lemma dec_members_origin : forall stk b stk' b' f, P b -> dec_members stk b = (stk', b', f) ->
    match f with None => P b' | Some f => origin b' f end.
  Proof.
    induction stk as [|[n k] r IH]; intros b stk' b' f HB H; cbn [M_BinUnmarshal.dec_members] in H.
    - inversion H; subst. exact HB.
    - cbv zeta in H. destruct (negb _); [inversion H; subst; exact HB|].
      destruct (bstep b _) as [b1 [g|]] eqn:E.
      + inversion H; subst. right. eauto.
      + eapply IH; [|exact H]. eauto.
  Qed.

  Lemma decrement_origin : forall fin c b c' b' f, P b -> decrement fin c b = (c', b', f) ->
    match f with None => P b' | Some f => origin b' f end.
  Proof.
    intros [|] c b c' b' f HB H; cbn [M_BinUnmarshal.decrement] in H.
    - destruct (dec_members (c_stack c) b) as [[s b1] g] eqn:E. inversion H; subst.
      eapply dec_members_origin; eauto.
    - inversion H; subst. exact HB.
  Qed.

  Lemma lbig_origin : forall known c w b s c' w' b' r e, cinv c w -> P b ->
    lbig known c w b s = (c', w', b', r, e) ->
    match e with Failed f => origin b' f | _ => P b' end.
  Proof.
    intros known c w b s c' w' b' r e I HB H. revert HB c' w' b' r e H.
    apply (lbig_ind B bstep req known (fun c w b s res => P b ->
      forall c' w' b' r e, res = (c', w', b', r, e) ->
      match e with Failed f => origin b' f | _ => P b' end)); auto; clear c w b s I.
    - intros c w b s I L HB c' w' b' r e E. inversion E; subst. exact HB.
    - intros c w b s I L HBd HB c' w' b' r e E. inversion E; subst. exact HB.
    - intros c w b s c1 b1 f I L HBd HB c' w' b' r e E. inversion E; subst.
      pose proof (body_origin known c b w' r I L HB) as X. rewrite HBd in X. exact X.
    - intros c w b s c1 b1 w1 fin c2 b2 f I L HBd I1 HD HB c' w' b' r e E. inversion E; subst.
      pose proof (body_origin known c b w' r I L HB) as X. rewrite HBd in X.
      exact (decrement_origin _ _ _ _ _ _ X HD).
    - intros c w b s c1 b1 w1 fin c2 b2 r0 I L HBd HD I1 I2 _ IH HB c' w' b' r e E.
      refine (IH _ _ _ _ _ _ E). pose proof (body_origin known c b w s I L HB) as X. rewrite HBd in X.
      exact (decrement_origin _ _ _ _ _ _ X HD).
  Qed.

  Lemma unmarshall_all_origin : forall pieces u b u' b' f, ready u -> P b ->
    unmarshall_all B bstep req u b pieces = (u', b', f) ->
    match f with Some f => origin b' f | None => P b' end.
  Proof.
    induction pieces as [|p ps IH]; intros u b u' b' f R HB H; cbn [unmarshall_all] in H.
    - inversion H; subst. exact HB.
    - destruct (unmarshall B bstep req u b p) as [[u1 b1] g] eqn:E.
      pose proof (unmarshall_ready B bstep req u b p) as UR. rewrite E in UR.
      rewrite unmarshall_lbig in E by auto.
      destruct (lbig false (u_core u) (u_wanted u) b (u_buffer u ++ p)) as [[[[c w] b2] r] e] eqn:EL.
      pose proof (lbig_not_stopped B bstep req (u_core u) (u_wanted u) b (u_buffer u ++ p) (proj1 R)) as NS.
      pose proof (lbig_not_out B bstep req false (u_core u) (u_wanted u) b (u_buffer u ++ p) (proj1 R)) as NO.
      rewrite EL in NS, NO.
      apply lbig_origin in EL; [|apply R|exact HB]. inversion E; subst.
      destruct e; cbn [fail_of snd] in *; try congruence.
      + eapply IH; [|exact EL|exact H]. eapply UR; eauto.
      + inversion H; subst. exact EL.
  Qed.
End Origin.

(** ** The tree builder meets no undefined behaviour *)
Fixpoint feedall (val : option mktime_t) (t : tb) (es : list event) : tb :=
  match es with [] => t | e :: r => feedall val (fst (tb_step val t e)) r end.

Lemma feedall_app : forall val a b t, feedall val t (a ++ b) = feedall val (feedall val t a) b.
Proof. induction a; intros; cbn [app feedall]; auto. Qed.

Definition tbrel (s : nstate) (t : tb) : Prop :=
  match s with
  | NStart => tb_stack t = [] /\ tb_root t = RNone
  | NBody o => (length o <= length (tb_stack t))%nat /\ (tb_stack t = [] -> tb_root t <> RBottom)
  | NEnd => tb_root t = RNone
  end.

Lemma frame_add_not_ub : forall k v f, frame_add k v f <> UB.
Proof.
  intros k v [fk [l|m]]; unfold frame_add; cbn [f_body f_key]; [discriminate|].
  unfold struct_append. destruct (255 <? blen k); cbn [bind]; discriminate.
Qed.

Section TB.
  Variable val : option mktime_t.

  Lemma take_item_length : forall o o', take_item o = Some o' -> length o' = length o.
  Proof.
    intros [|[[n k] p] r] o' H; cbn [take_item] in H.
    - inversion H; reflexivity.
    - destruct k; [destruct p; [|discriminate]|]; destruct (0 <? n); inversion H; subst; reflexivity.
  Qed.

  Lemma tb_value_rel : forall o o' t v, tbrel (NBody o) t -> length o' = length o ->
    (snd (tb_value t v) = None -> tbrel (NBody o') (fst (tb_value t v))) /\ snd (tb_value t v) <> Some Undef.
  Proof.
    intros o o' t v [L R] EL. unfold tb_value. destruct (tb_stack t) as [|f r] eqn:ST.
    - destruct (tb_first t); cbn [fst snd]; split; try discriminate.
      intros _. split; cbn [tb_stack length] in *; [lia|]. intros _. discriminate.
    - pose proof (frame_add_not_ub (tb_member t) v f) as NU.
      destruct (frame_add (tb_member t) v f) as [f'| |]; try congruence; cbn [fst snd]; split; try discriminate.
      intros _. split; cbn [tb_set_stack tb_stack length] in *; [lia|discriminate].
  Qed.

  Lemma tb_open_rel : forall o o' t b, tbrel (NBody o) t -> length o' = S (length o) ->
    (snd (tb_open t b) = None -> tbrel (NBody o') (fst (tb_open t b))) /\ snd (tb_open t b) <> Some Undef.
  Proof.
    intros o o' t b [L R] EL. unfold tb_open. destruct (tb_stack t) as [|f r] eqn:ST.
    - destruct (tb_first t); cbn [fst snd]; split; try discriminate.
      intros _. split; cbn [tb_stack length] in *; [lia|]. discriminate.
    - pose proof (frame_add_not_ub (tb_member t) (body_value b) f) as NU.
      destruct (frame_add (tb_member t) (body_value b) f) as [f'| |]; try congruence; cbn [fst snd]; split; try discriminate.
      intros _. split; cbn [tb_set_stack tb_stack length] in *; [lia|discriminate].
  Qed.

  Lemma tb_close_rel : forall o x t, tbrel (NBody (x :: o)) t ->
    (snd (tb_close t) = None -> tbrel (NBody o) (fst (tb_close t))) /\ snd (tb_close t) <> Some Undef.
  Proof.
    intros o x t [L R]. unfold tb_close. destruct (tb_stack t) as [|f [|p r]] eqn:ST; cbn [length] in L.
    - lia.
    - cbn [fst snd]. split; [|discriminate]. intros _. split; cbn [tb_stack tb_root length]; [lia|].
      intros _. destruct (tb_root t); discriminate.
    - pose proof (frame_add_not_ub (f_key f) (body_value (f_body f)) p) as NU.
      destruct (frame_add (f_key f) (body_value (f_body f)) p); try congruence; cbn [fst snd]; split; try discriminate.
      intros _. split; cbn [tb_set_stack tb_stack length] in *; [lia|discriminate].
  Qed.

  Lemma tb_step_rel : forall s e s' t, nest_step s e = Some s' -> tbrel s t ->
    (snd (tb_step val t e) = None -> tbrel s' (fst (tb_step val t e))) /\ snd (tb_step val t e) <> Some Undef.
  Proof.
    intros s e s' t N R. destruct s as [|o|]; cbn [nest_step] in N; [| |discriminate].
    - destruct R as [R1 R2].
      destruct e; try discriminate; inversion N; subst; cbn [tb_step fst snd]; split; try discriminate; intros _.
      + split; cbn; [lia|discriminate].
      + split; [rewrite R1; cbn; lia|]. intros _. rewrite R2. discriminate.
      + reflexivity.
    - destruct e; try discriminate; cbn [tb_step];
        try (destruct (take_item o) as [o'|] eqn:T; [|discriminate]; apply take_item_length in T; inversion N; subst;
             first [eapply tb_value_rel; eauto | eapply tb_open_rel; eauto; cbn [length]; lia]).
      + unfold name_item in N. destruct o as [|[[n [|]] [|]] r]; try discriminate.
        destruct (_ && _); inversion N; subst. cbn [fst snd]. split; [|discriminate]. intros _. exact R.
      + unfold close_item in N. destruct o as [|[[n [|]] [|]] r]; try discriminate.
        destruct (_ =? _); inversion N; subst. eapply tb_close_rel; eauto.
      + unfold close_item in N. destruct o as [|[[n [|]] p] r]; try discriminate.
        destruct (_ =? _); inversion N; subst. eapply tb_close_rel; eauto.
  Qed.

  (** A failing step leaves the builder as it was. *)
  Lemma tb_step_fail : forall t e t' f, tb_step val t e = (t', Some f) -> t' = t.
  Proof.
    intros t e t' f H.
    assert (V : forall v, tb_value t v = (t', Some f) -> t' = t).
    { intros v. unfold tb_value. destruct (tb_stack t); [destruct (tb_first t)|destruct (frame_add _ _ _)];
        intro X; inversion X; auto. }
    assert (O : forall v, tb_open t v = (t', Some f) -> t' = t).
    { intros v. unfold tb_open. destruct (tb_stack t); [destruct (tb_first t)|destruct (frame_add _ _ _)];
        intro X; inversion X; auto. }
    assert (C : tb_close t = (t', Some f) -> t' = t).
    { unfold tb_close. destruct (tb_stack t) as [|? [|? ?]]; [| |destruct (frame_add _ _ _)];
        intro X; inversion X; auto. }
    destruct e; cbn [tb_step] in H; eauto; inversion H.
  Qed.

  Definition good (b : tb * list event) : Prop :=
    forall s, nest_run NStart (snd b) = Some s -> tbrel s (fst b).

  Lemma good_step : forall b e b', good b -> well_nested (snd b') -> traced (tb_step val) b e = (b', None) -> good b'.
  Proof.
    intros [t es] e b' G WN H. unfold traced in H. cbn [fst snd] in H.
    destruct (tb_step val t e) as [t' f] eqn:E. inversion H; subst. clear H.
    intros s' HR. cbn [fst snd] in *. rewrite nest_run_app in HR.
    destruct (nest_run NStart es) as [s|] eqn:ES; [|discriminate]. cbn [nest_run] in HR.
    destruct (nest_step s e) as [s1|] eqn:EN; [|discriminate]. inversion HR; subst.
    destruct (tb_step_rel s e s' t EN (G s ES)) as [X _]. rewrite E in X. apply X. reflexivity.
  Qed.

  Lemma good_init : good (tb_init, []).
  Proof. intros s H. inversion H; subst. split; reflexivity. Qed.

  Lemma plug_not_ub : forall fs v k, plug v k fs <> UB.
  Proof.
    induction fs as [|f r IH]; intros v k; cbn [plug]; [discriminate|].
    pose proof (frame_add_not_ub k v f) as NU. destruct (frame_add k v f); cbn [bind]; auto; discriminate.
  Qed.

  Lemma tbrel_data : forall s t, tbrel s t -> tb_data t <> UB.
  Proof.
    intros s t R. unfold tb_data. destruct (tb_root t) eqn:ER; try discriminate.
    destruct s as [|o|]; cbn [tbrel] in R.
    - destruct R; congruence.
    - destruct (tb_stack t) eqn:ES; [destruct R as [_ R]; exfalso; apply R; auto|apply plug_not_ub].
    - congruence.
  Qed.

  Theorem tree_no_undef : forall req pieces u t f,
    unmarshall_all tb (tb_step val) req unm_init tb_init pieces = (u, t, f) ->
    f <> Some Undef /\ tb_data t <> UB.
  Proof.
    intros req pieces u t f H.
    rewrite (traced_unmarshall_all _ _ _ _ _ _ []) in H.
    destruct (unmarshall_all _ (traced (tb_step val)) req unm_init (tb_init, []) pieces) as [[u1 [t1 es]] f1] eqn:E.
    injection H as H1 H2 H3. cbn [fst] in H2. subst u1 t1 f1.
    destruct (unmarshall_all_nest tb (tb_step val) req pieces unm_init (tb_init, []) _ _ _ (nready_init _ _) E) as [WN _].
    cbn [snd] in WN.
    (* the invariant: good, provided the trace is well nested *)
    assert (X := unmarshall_all_origin _ (traced (tb_step val)) req
      (fun b => well_nested (snd b) -> good b)).
    specialize (fun HH => X HH pieces unm_init (tb_init, []) u (t, es) f ready_init (fun _ => good_init) E).
    match type of X with ?A -> _ => assert (HH : A) end.
    { intros b e b' G HS WN'. pose proof HS as HS0. apply traced_snd in HS.
      rewrite HS in WN'. assert (WN0 := well_nested_prefix _ _ WN').
      eapply good_step; eauto. rewrite HS. exact WN'. }
    specialize (X HH).
    assert (GD : forall s, good (t, es) -> nest_run NStart es = Some s -> tb_data t <> UB).
    { intros s G ES. exact (tbrel_data s t (G s ES)). }
    unfold well_nested in WN. destruct (nest_run NStart es) as [s|] eqn:ES; [|congruence].
    destruct f as [f|].
    - destruct X as [[[m ->] G]|([t0 es0] & e & G & HS)].
      + split; [discriminate|]. eapply GD; eauto. apply G. unfold well_nested. cbn [snd]. congruence.
      + pose proof HS as HS0. apply traced_snd in HS. cbn [snd] in HS. subst es.
        rewrite nest_run_app in ES. destruct (nest_run NStart es0) as [s0|] eqn:ES0; [|discriminate].
        cbn [nest_run] in ES. destruct (nest_step s0 e) as [s1|] eqn:EN; [|discriminate].
        assert (WN0 : well_nested es0) by (unfold well_nested; congruence).
        pose proof (G WN0 s0 ES0) as R. cbn [fst] in R.
        destruct (tb_step_rel s0 e s1 t0 EN R) as [_ NU].
        unfold traced in HS0. cbn [fst snd] in HS0. destruct (tb_step val t0 e) as [t2 f2] eqn:ET.
        inversion HS0; subst. split; [exact NU|].
        apply tb_step_fail in ET. subst t. exact (tbrel_data s0 t0 R).
    - split; [discriminate|]. eapply GD; eauto. apply X. unfold well_nested. cbn [snd]. congruence.
  Qed.
End TB.
