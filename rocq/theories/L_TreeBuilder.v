(** The tree builder rebuilds a value from the calls that describe it. *)
From Coq Require Import Lia.
From Verif Require Import Base Value M_Marshal M_BinUnmarshal M_TreeBuilder S_Value L_Base L_RoundTrip.

Lemma bytes_cmp_refl : forall a, bytes_cmp a a = Eq.
Proof. induction a as [|x a IH]; cbn [bytes_cmp]; auto. rewrite Z.compare_refl. exact IH. Qed.

Lemma bytes_cmp_antisym : forall a b, bytes_cmp b a = CompOpp (bytes_cmp a b).
Proof.
  induction a as [|x a IH]; intros [|y b]; cbn [bytes_cmp CompOpp]; auto.
  rewrite (Z.compare_antisym (b2z x) (b2z y)). destruct (b2z x ?= b2z y); cbn [CompOpp]; auto.
Qed.

Lemma map_set_last : forall A k (x : A) m,
  (forall k' y, In (k', y) m -> bytes_cmp k' k = Lt) -> map_set k x m = m ++ [(k, x)].
Proof.
  induction m as [|[k' y] m IH]; intros H; cbn [map_set app]; auto.
  rewrite bytes_cmp_antisym, (H k' y) by (left; reflexivity). cbn [CompOpp].
  rewrite IH; auto. intros k2 y2 H2. apply (H k2 y2). right. exact H2.
Qed.

Lemma increasing_app : forall A (a b : list (bytes * A)), increasing (a ++ b) ->
  increasing a /\ increasing b /\ forall k x k' x', In (k, x) a -> In (k', x') b -> bytes_cmp k k' = Lt.
Proof.
  induction a as [|[k x] a IH]; intros b H; cbn [app increasing] in *.
  - split; auto. split; auto. intros ? ? ? ? [].
  - destruct H as [H1 H2]. destruct (IH b H2) as (I1 & I2 & I3). split.
    + split; auto. intros k' x' HI. apply (H1 k' x'). apply in_or_app. auto.
    + split; auto. intros k0 x0 k' x' [E|HI] HB.
      * inversion E; subst. apply (H1 k' x'). apply in_or_app. auto.
      * eapply I3; eauto.
Qed.

Lemma increasing_map : forall A C (g : A -> C) (m : list (bytes * A)), increasing m ->
  increasing (map (fun kv => (fst kv, g (snd kv))) m).
Proof.
  induction m as [|[k x] m IH]; intros H; cbn [map increasing fst snd] in *; auto.
  destruct H as [H1 H2]. split; auto. intros k' x' HI. apply in_map_iff in HI.
  destruct HI as ([k2 x2] & E & HI). inversion E; subst. cbn [fst]. eapply H1; eauto.
Qed.

(** What the tree builder needs of a value: members in order, names it accepts. *)
Fixpoint shape (v : value) : Prop :=
  match v with
  | VStruct m => increasing m /\
      (fix all (l : list (bytes * value)) : Prop := match l with [] => True | (k, x) :: r => (blen k <= 255 /\ shape x) /\ all r end) m
  | VArray l => (fix all (l : list value) : Prop := match l with [] => True | x :: r => shape x /\ all r end) l
  | VSecret x => shape x
  | _ => True
  end.
Lemma shape_struct : forall m, shape (VStruct m) <-> increasing m /\ Forall (fun kv => blen (fst kv) <= 255 /\ shape (snd kv)) m.
Proof.
  intro m. cbn [shape]. split; intros [I F]; split; auto; clear I.
  - induction m as [|[k x] m IH]; constructor; destruct F; auto.
  - induction F as [|[k x] m A F IH]; auto.
Qed.
Lemma shape_array : forall l, shape (VArray l) <-> Forall shape l.
Proof.
  intro l. cbn [shape]. split; intro F.
  - induction l as [|x l IH]; constructor; destruct F; auto.
  - induction F as [|x l A F IH]; auto.
Qed.
Lemma wf_shape : forall ver v, wf ver v -> shape v.
Proof.
  intro ver. induction v using value_nested_ind; intro W; try exact I.
  - apply wf_struct in W. destruct W as (_ & I & FW). apply shape_struct. split; auto.
    rewrite Forall_forall in *. intros kv HI. destruct (FW kv HI) as [A C]. split; [lia|]. apply H; auto.
  - apply wf_array in W. destruct W as (_ & FW). apply shape_array. rewrite Forall_forall in *. auto.
  - exact (IHv W).
Qed.

Section Build.
  Variable val : option mktime_t.
  Variable ver : version.
  Notation tstep := (tb_step val).
  Notation rb := (plain (make_datetime val)).

  Definition with_stack (stk : list frame) (m : bytes) (t : tb) : tb :=
    mkTB stk (tb_root t) (tb_first t) m (tb_method t) (tb_errnum t) (tb_errmsg t) (tb_under t).

  Lemma frame_add_any : forall k v w f f', frame_add k v f = Ok f' -> exists g, frame_add k w f = Ok g.
  Proof.
    intros k v w [fk [l|m]] f'; unfold frame_add; cbn [f_body f_key]; [eauto|].
    unfold struct_append. destruct (255 <? blen k); cbn [bind]; [discriminate|eauto].
  Qed.

  (** Claim for a value inside a container. *)
  Definition builds (v : value) : Prop :=
    forall t f r f', tb_stack t = f :: r -> frame_add (tb_member t) (rb v) f = Ok f' ->
      exists m, replay tstep t (events v) = (with_stack (f' :: r) m t, None).

  Lemma builds_scalar : forall v e, events v = [e] ->
    (forall t, tstep t e = tb_value t (rb v)) -> builds v.
  Proof.
    intros v e EE HS t f r f' ST FA. exists (tb_member t). rewrite EE. cbn [replay].
    rewrite HS. unfold tb_value. rewrite ST, FA. reflexivity.
  Qed.

  Lemma builds_items : forall l t k acc p r, Forall builds l ->
    tb_stack t = mkFrame k (BArr acc) :: p :: r ->
    exists m, replay tstep t (flat_map events l) =
              (with_stack (mkFrame k (BArr (acc ++ map rb l)) :: p :: r) m t, None).
  Proof.
    induction l as [|x l IH]; intros t k acc p r F ST; cbn [flat_map map replay].
    - exists (tb_member t). rewrite app_nil_r, <- ST. destruct t; reflexivity.
    - inversion F; subst.
      destruct (H1 t (mkFrame k (BArr acc)) (p :: r) (mkFrame k (BArr (acc ++ [rb x]))) ST eq_refl) as [m E].
      rewrite replay_app, E.
      destruct (IH (with_stack (mkFrame k (BArr (acc ++ [rb x])) :: p :: r) m t) k (acc ++ [rb x]) p r H2 eq_refl)
        as [m' E'].
      exists m'. rewrite E'. rewrite <- app_assoc. reflexivity.
  Qed.

  Lemma builds_items1 : forall l t k acc, Forall builds l ->
    tb_stack t = [mkFrame k (BArr acc)] ->
    exists m, replay tstep t (flat_map events l) =
              (with_stack [mkFrame k (BArr (acc ++ map rb l))] m t, None).
  Proof.
    induction l as [|x l IH]; intros t k acc F ST; cbn [flat_map map replay].
    - exists (tb_member t). rewrite app_nil_r, <- ST. destruct t; reflexivity.
    - inversion F; subst.
      destruct (H1 t (mkFrame k (BArr acc)) [] (mkFrame k (BArr (acc ++ [rb x]))) ST eq_refl) as [m E].
      rewrite replay_app, E.
      destruct (IH (with_stack [mkFrame k (BArr (acc ++ [rb x]))] m t) k (acc ++ [rb x]) H2 eq_refl)
        as [m' E'].
      exists m'. rewrite E'. rewrite <- app_assoc. reflexivity.
  Qed.

  Definition member_events (kv : bytes * value) : list event := EMember (fst kv) :: events (snd kv).

  Lemma builds_members : forall l t k acc r,
    Forall (fun kv => blen (fst kv) <= 255 /\ builds (snd kv)) l ->
    increasing (acc ++ map (fun kv => (fst kv, rb (snd kv))) l) ->
    tb_stack t = mkFrame k (BStruct acc) :: r ->
    exists m, replay tstep t (flat_map member_events l) =
              (with_stack (mkFrame k (BStruct (acc ++ map (fun kv => (fst kv, rb (snd kv))) l)) :: r) m t, None).
  Proof.
    induction l as [|[key x] l IH]; intros t k acc r F I ST; cbn [flat_map map replay].
    - exists (tb_member t). rewrite app_nil_r, <- ST. destruct t; reflexivity.
    - inversion F as [|? ? [HK HB] F']; subst. cbn [fst snd] in *.
      unfold member_events at 1. cbn [fst snd]. rewrite <- app_comm_cons. cbn [replay tb_step].
      cbn [map fst snd] in I.
      set (t1 := mkTB (tb_stack t) (tb_root t) (tb_first t) key (tb_method t) (tb_errnum t) (tb_errmsg t) (tb_under t)).
      assert (FA : frame_add (tb_member t1) (rb x) (mkFrame k (BStruct acc)) =
                   Ok (mkFrame k (BStruct (acc ++ [(key, rb x)])))).
      { unfold frame_add. cbn [f_body f_key t1 tb_member]. unfold struct_append.
        destruct (255 <? blen key) eqn:E; [apply Z.ltb_lt in E; lia|]. cbn [bind].
        rewrite map_set_last; auto. intros k' y HI.
        destruct (increasing_app _ _ _ I) as (_ & _ & H). eapply H; eauto. left. reflexivity. }
      destruct (HB t1 (mkFrame k (BStruct acc)) r _ ST FA) as [m E].
      rewrite replay_app, E.
      destruct (IH (with_stack (mkFrame k (BStruct (acc ++ [(key, rb x)])) :: r) m t1) k (acc ++ [(key, rb x)]) r F')
        as [m' E']; auto.
      { rewrite <- app_assoc. exact I. }
      exists m'. rewrite E'. rewrite <- app_assoc. reflexivity.
  Qed.

  Lemma events_struct : forall m,
    events (VStruct m) = EOpenStruct (zlen m) :: flat_map member_events m ++ [ECloseStruct].
  Proof. reflexivity. Qed.

  Theorem builds_shape : forall v, shape v -> builds v.
  Proof.
    induction v using value_nested_ind; intro W;
      try (eapply builds_scalar; [reflexivity|]; reflexivity).
    - apply shape_struct in W. destruct W as (I & FW).
      assert (FB : Forall (fun kv => blen (fst kv) <= 255 /\ builds (snd kv)) m).
      { rewrite Forall_forall in *. intros kv HI. destruct (FW kv HI) as [A C]. split; auto. }
      intros t f r f' ST FA. rewrite events_struct. cbn [replay tb_step]. unfold tb_open. rewrite ST.
      destruct (frame_add_any _ _ (body_value (BStruct [])) _ _ FA) as [g Eg]. rewrite Eg.
      destruct (builds_members m (tb_set_stack (mkFrame (tb_member t) (BStruct []) :: f :: r) t)
                  (tb_member t) [] (f :: r) FB) as [m1 E]; [|reflexivity|].
      { cbn [app]. apply increasing_map. exact I. }
      rewrite replay_app, E. cbn [replay tb_step]. unfold tb_close. cbn [with_stack tb_stack f_key f_body body_value app].
      cbn [plain] in FA. rewrite FA. exists m1. reflexivity.
    - apply shape_array in W. rename W into FW.
      assert (FB : Forall builds l).
      { rewrite Forall_forall in *. intros x HI. auto. }
      intros t f r f' ST FA. cbn [events replay tb_step]. unfold tb_open. rewrite ST.
      destruct (frame_add_any _ _ (body_value (BArr [])) _ _ FA) as [g Eg]. rewrite Eg.
      destruct (builds_items l (tb_set_stack (mkFrame (tb_member t) (BArr []) :: f :: r) t)
                  (tb_member t) [] f r FB eq_refl) as [m1 E].
      rewrite replay_app, E. cbn [replay tb_step]. unfold tb_close. cbn [with_stack tb_stack f_key f_body body_value app].
      cbn [plain] in FA. rewrite FA. exists m1. reflexivity.
    - exact (IHv W).
  Qed.

  Theorem builds_all : forall v, wf ver v -> builds v.
  Proof. intros v W. apply builds_shape. eapply wf_shape. exact W. Qed.

  (** A value at top level. *)
  Theorem root_shape : forall v t, shape v -> tb_stack t = [] -> tb_under t = [] -> tb_first t = true ->
    exists m, replay tstep t (events v) =
      (mkTB [] (RDone (rb v)) false m (tb_method t) (tb_errnum t) (tb_errmsg t) [], None).
  Proof.
    induction v using value_nested_ind; intros t W ST UN FI;
      try (exists (tb_member t); cbn [events replay tb_step]; unfold tb_value; rewrite ST, UN, FI; reflexivity).
    - apply shape_struct in W. destruct W as (I & FW).
      assert (FB : Forall (fun kv => blen (fst kv) <= 255 /\ builds (snd kv)) m).
      { rewrite Forall_forall in *. intros kv HI. destruct (FW kv HI) as [A C]. split; auto. apply builds_shape; auto. }
      rewrite events_struct. cbn [replay tb_step]. unfold tb_open. rewrite ST, UN, FI.
      match goal with |- context [replay _ ?t0 _] =>
        destruct (builds_members m t0 (tb_member t) [] [] FB) as [m1 E]; [|reflexivity|] end.
      { cbn [app]. apply increasing_map. exact I. }
      rewrite replay_app, E. cbn [replay tb_step]. unfold tb_close.
      cbn [with_stack tb_stack tb_root tb_first tb_method tb_errnum tb_errmsg tb_under hd tl tb_member f_key f_body body_value app].
      exists m1. reflexivity.
    - apply shape_array in W. rename W into FW.
      assert (FB : Forall builds l).
      { rewrite Forall_forall in *. intros x HI. apply builds_shape; auto. }
      cbn [events replay tb_step]. unfold tb_open. rewrite ST, UN, FI.
      match goal with |- context [replay _ ?t0 _] =>
        destruct (builds_items1 l t0 (tb_member t) [] FB) as [m1 E]; [reflexivity|] end.
      rewrite replay_app, E. cbn [replay tb_step]. unfold tb_close.
      cbn [with_stack tb_stack tb_root tb_first tb_method tb_errnum tb_errmsg tb_under hd tl tb_member f_key f_body body_value app].
      exists m1. reflexivity.
    - exact (IHv t W ST UN FI).
  Qed.

  Theorem builds_root : forall v t, wf ver v -> tb_stack t = [] -> tb_under t = [] -> tb_first t = true ->
    exists m, replay tstep t (events v) =
      (mkTB [] (RDone (rb v)) false m (tb_method t) (tb_errnum t) (tb_errmsg t) [], None).
  Proof. intros v t W. apply root_shape. eapply wf_shape. exact W. Qed.
End Build.
