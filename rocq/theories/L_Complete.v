(** What complete traces look like; growth of the trace; proper prefixes of the description of a value. *)
From Coq Require Import Lia.
From Verif Require Import Base Value M_Marshal M_BinUnmarshal S_Events S_Value L_Base L_BinUnmarshal
  L_BinSafety L_Nesting L_Morph L_RoundTrip L_TreeBuilder L_Message L_Wire.

(** ** Traces that leave nothing open describe complete values *)

(** [comp open es]: [es] delivers what the open containers still expect, closes them all and may go on with complete
    values at top level. *)
Fixpoint comp (open : list open_container) (es : list event) : Prop :=
  match open with
  | [] => exists vs, es = flat_map events vs
  | (n, KArray, _) :: r =>
      exists vs es', zlen vs = n /\ es = flat_map events vs ++ ECloseArray :: es' /\ comp r es'
  | (n, KStruct, false) :: r =>
      exists ms es', zlen ms = n /\ es = flat_map member_events ms ++ ECloseStruct :: es' /\ comp r es'
  | (n, KStruct, true) :: r =>
      exists v ms es', zlen ms = n - 1 /\ es = events v ++ flat_map member_events ms ++ ECloseStruct :: es'
                       /\ comp r es'
  end.

Lemma comp_prepend : forall open open' v es, take_item open = Some open' -> comp open' es ->
  comp open (events v ++ es).
Proof.
  intros [|[[n k] p] r] open' v es H C; cbn [take_item] in H.
  - inversion H; subst. destruct C as [vs ->]. exists (v :: vs). reflexivity.
  - destruct k; [destruct p; [|discriminate]|]; destruct (0 <? n) eqn:E; inversion H; subst; cbn [comp] in *.
    + destruct C as (ms & es' & L & -> & C). exists v, ms, es'. auto.
    + destruct C as (vs & es' & L & -> & C). exists (v :: vs), es'.
      rewrite zlen_cons. split; [lia|]. split; [|auto]. cbn [flat_map]. rewrite <- app_assoc. reflexivity.
Qed.

Lemma nest_comp : forall es open, nest_run (NBody open) es = Some (NBody []) -> comp open es.
Proof.
  induction es as [|e es IH]; intros open H; cbn [nest_run] in H.
  - inversion H; subst. exists []. reflexivity.
  - destruct (nest_step (NBody open) e) as [s|] eqn:ES; [|discriminate].
    assert (SC : forall v, events v = [e] -> option_map NBody (take_item open) = Some s -> comp open (e :: es)).
    { intros v EV EO. destruct (take_item open) as [o|] eqn:ET; [|discriminate]. inversion EO; subst.
      change (e :: es) with ([e] ++ es). rewrite <- EV. eapply comp_prepend; eauto. }
    destruct e; cbn [nest_step] in ES; try discriminate.
    + exact (SC (VInt z) eq_refl ES).
    + exact (SC (VBool b) eq_refl ES).
    + exact (SC VNull eq_refl ES).
    + exact (SC (VDouble bits) eq_refl ES).
    + exact (SC (VString s0) eq_refl ES).
    + exact (SC (VBinary s0) eq_refl ES).
    + exact (SC (VDateTime d) eq_refl ES).
    + destruct (take_item open) as [o|] eqn:ET; [|discriminate]. inversion ES; subst.
      destruct (IH _ H) as (ms & es' & L & -> & C). subst n.
      assert (X := comp_prepend open o (VStruct ms) es' ET C).
      rewrite events_struct in X. cbn [app] in X. rewrite <- app_assoc in X. exact X.
    + unfold name_item in ES. destruct open as [|[[n [|]] [|]] r]; try discriminate.
      destruct ((0 <? n) && (0 <? blen name)) eqn:EN; [|discriminate]. inversion ES; subst.
      destruct (IH _ H) as (v & ms & es' & L & -> & C). exists ((name, v) :: ms), es'.
      rewrite zlen_cons. split; [lia|]. split; [|auto]. cbn [flat_map].
      unfold member_events at 2. cbn [fst snd app]. rewrite <- app_assoc. reflexivity.
    + unfold close_item in ES. destruct open as [|[[n [|]] [|]] r]; try discriminate.
      destruct (n =? 0) eqn:EN; [|discriminate]. inversion ES; subst. apply Z.eqb_eq in EN. subst n.
      exists [], es. cbn [flat_map app]. repeat split. apply IH. exact H.
    + destruct (take_item open) as [o|] eqn:ET; [|discriminate]. inversion ES; subst.
      destruct (IH _ H) as (vs & es' & L & -> & C). subst n.
      assert (X := comp_prepend open o (VArray vs) es' ET C).
      cbn [events app] in X. rewrite <- app_assoc in X. exact X.
    + unfold close_item in ES. destruct open as [|[[n [|]] p] r]; try discriminate.
      destruct (n =? 0) eqn:EN; [|discriminate]. inversion ES; subst. apply Z.eqb_eq in EN. subst n.
      exists [], es. cbn [flat_map app]. repeat split. apply IH. exact H.
Qed.

(** ** finish() *)

Lemma finish_ok : forall u, unm_finish u = Ok tt -> c_state (u_core u) = S_VALUE_TYPE /\ c_stack (u_core u) = [].
Proof.
  intros u H. unfold unm_finish in H.
  destruct (dstate_eqb (c_state (u_core u)) S_VALUE_TYPE) eqn:E1; cbn [negb orb] in H; [|discriminate].
  destruct (c_stack (u_core u)); cbn [negb] in H; [|discriminate].
  destruct (c_state (u_core u)); try discriminate E1. auto.
Qed.

Lemma finished_trace : forall B (bstep : B -> event -> B * option fail) req pieces b u b',
  unmarshall_all _ (traced bstep) req unm_init (b, []) pieces = (u, b', None) -> unm_finish u = Ok tt ->
  (exists name vs, snd b' = EMethodCall name :: flat_map events vs)
  \/ (exists vs, snd b' = EMethodResponse :: flat_map events vs)
  \/ (exists code msg, snd b' = [EFault code msg] /\ c_fault (u_core u) = 3)
  \/ (snd b' = [] /\ (c_fault (u_core u) = 1 \/ c_fault (u_core u) = 2)).
Proof.
  intros B bstep req pieces b u b' H F. apply finish_ok in F. destruct F as [FS FK].
  destruct (unmarshall_all_nest B bstep req pieces unm_init (b, []) u b' None (nready_init _ _) H) as [_ N].
  destruct (N eq_refl) as [R (s & HR & HH)].
  assert (FR : 0 <= c_fault (u_core u) <= 3) by apply R.
  unfold head_rel in HH. rewrite FS in HH. cbn [head_state] in HH. unfold opened in HH. rewrite FK in HH.
  destruct (c_fault (u_core u) =? 0) eqn:E0.
  - destruct HH as [-> _]. destruct (snd b') as [|e es]; [discriminate|].
    cbn [nest_run] in HR. destruct e; cbn [nest_step] in HR; try discriminate.
    + apply nest_comp in HR. destruct HR as [vs ->]. left. eauto.
    + apply nest_comp in HR. destruct HR as [vs ->]. right. left. eauto.
    + exfalso. destruct es; discriminate.
  - destruct HH as [-> _]. destruct (c_fault (u_core u) =? 3) eqn:E3.
    + right. right. left. destruct (snd b') as [|e es]; [discriminate|].
      cbn [nest_run] in HR. destruct e; cbn [nest_step] in HR; try discriminate.
      * exfalso. clear -HR. assert (G : forall es o, nest_run (NBody o) es <> Some NEnd).
        { clear. induction es as [|e es IH]; intros o; cbn [nest_run]; [discriminate|].
          destruct (nest_step (NBody o) e) as [s|] eqn:E; [|discriminate].
          assert (exists o', s = NBody o') as [o' ->]; [|apply IH].
          destruct e; cbn [nest_step] in E; try discriminate;
            try (destruct (take_item o); [inversion E; eauto|discriminate]).
          - unfold name_item in E. destruct o as [|[[? [|]] [|]] ?]; try discriminate.
            destruct (_ && _); inversion E; eauto.
          - unfold close_item in E. destruct o as [|[[? [|]] [|]] ?]; try discriminate.
            destruct (_ =? _); inversion E; eauto.
          - unfold close_item in E. destruct o as [|[[? [|]] [|]] ?]; try discriminate;
            destruct (_ =? _); inversion E; eauto. }
        exact (G _ _ HR).
      * exfalso. clear -HR. assert (G : forall es o, nest_run (NBody o) es <> Some NEnd).
        { clear. induction es as [|e es IH]; intros o; cbn [nest_run]; [discriminate|].
          destruct (nest_step (NBody o) e) as [s|] eqn:E; [|discriminate].
          assert (exists o', s = NBody o') as [o' ->]; [|apply IH].
          destruct e; cbn [nest_step] in E; try discriminate;
            try (destruct (take_item o); [inversion E; eauto|discriminate]).
          - unfold name_item in E. destruct o as [|[[? [|]] [|]] ?]; try discriminate.
            destruct (_ && _); inversion E; eauto.
          - unfold close_item in E. destruct o as [|[[? [|]] [|]] ?]; try discriminate.
            destruct (_ =? _); inversion E; eauto.
          - unfold close_item in E. destruct o as [|[[? [|]] [|]] ?]; try discriminate;
            destruct (_ =? _); inversion E; eauto. }
        exact (G _ _ HR).
      * destruct es as [|e es]; [|cbn in HR; discriminate]. exists code, msg. split; auto. lia.
    + right. right. right. split; [|lia].
      destruct (snd b') as [|e es]; [reflexivity|]. exfalso.
      cbn [nest_run] in HR.
      assert (G : forall es s, s <> NStart -> nest_run s es <> Some NStart).
      { clear. induction es as [|e es IH]; intros s NS; cbn [nest_run]; [congruence|].
        destruct (nest_step s e) as [s'|] eqn:E; [|discriminate]. apply IH. intros ->.
        destruct s as [|o|]; [congruence| |discriminate].
        destruct e; cbn [nest_step] in E; try discriminate;
          try (destruct (take_item o); discriminate).
        - unfold name_item in E. destruct o as [|[[? [|]] [|]] ?]; try discriminate.
          destruct (_ && _); inversion E.
        - unfold close_item in E. destruct o as [|[[? [|]] [|]] ?]; try discriminate.
          destruct (_ =? _); inversion E.
        - unfold close_item in E. destruct o as [|[[? [|]] [|]] ?]; try discriminate;
          destruct (_ =? _); inversion E. }
      destruct e; cbn [nest_step] in HR; try discriminate; eapply G; eauto; discriminate.
Qed.

(** ** Depth *)
Definition weight (e : event) : Z :=
  match e with
  | EOpenStruct _ | EOpenArray _ => 1
  | ECloseStruct | ECloseArray => -1
  | _ => 0
  end.
Fixpoint depth (es : list event) : Z :=
  match es with [] => 0 | e :: r => weight e + depth r end.

Lemma depth_app : forall a b, depth (a ++ b) = depth a + depth b.
Proof. induction a; intro b; cbn [app depth]; auto. rewrite IHa. lia. Qed.

Lemma take_item_len : forall o o', take_item o = Some o' -> zlen o' = zlen o.
Proof.
  intros [|[[n k] p] r] o' H; cbn [take_item] in H.
  - inversion H; reflexivity.
  - destruct k; [destruct p; [|discriminate]|]; destruct (0 <? n); inversion H; subst; rewrite !zlen_cons; reflexivity.
Qed.

Lemma nest_depth : forall es o o', nest_run (NBody o) es = Some (NBody o') -> zlen o' = zlen o + depth es.
Proof.
  induction es as [|e es IH]; intros o o' H; cbn [nest_run depth] in *.
  - inversion H; subst. lia.
  - destruct (nest_step (NBody o) e) as [s|] eqn:E; [|discriminate].
    assert (X : exists o1, s = NBody o1 /\ zlen o1 = zlen o + weight e).
    { destruct e; cbn [nest_step weight] in *; try discriminate;
        try (destruct (take_item o) as [o1|] eqn:T; [|discriminate]; apply take_item_len in T;
             inversion E; subst; eexists; split; [reflexivity|]; rewrite ?zlen_cons; unfold open_container in *; lia).
      - unfold name_item in E. destruct o as [|[[? [|]] [|]] ?]; try discriminate.
        destruct (_ && _); inversion E; subst. eexists; split; [reflexivity|]. rewrite !zlen_cons. unfold open_container in *. lia.
      - unfold close_item in E. destruct o as [|[[? [|]] [|]] ?]; try discriminate.
        destruct (_ =? _); inversion E; subst. eexists; split; [reflexivity|]. rewrite !zlen_cons. unfold open_container in *. lia.
      - unfold close_item in E. destruct o as [|[[? [|]] p] ?]; try discriminate.
        destruct (_ =? _); inversion E; subst. eexists; split; [reflexivity|]. rewrite !zlen_cons. unfold open_container in *. lia. }
    destruct X as (o1 & -> & L). rewrite (IH _ _ H). lia.
Qed.

(** A non-empty proper prefix of the description of a value leaves something open. *)
Definition prefix_open (es : list event) : Prop :=
  depth es = 0 /\ forall a b, es = a ++ b -> a <> [] -> b <> [] -> 0 < depth a.

Lemma flat_prefix : forall A (g : A -> list event) l, (forall x, In x l -> depth (g x) = 0 /\
    forall a b, g x = a ++ b -> 0 <= depth a) ->
  depth (flat_map g l) = 0 /\ forall a b, flat_map g l = a ++ b -> 0 <= depth a.
Proof.
  induction l as [|x l IH]; intros H; cbn [flat_map].
  - split; auto. intros a b E. symmetry in E. apply app_eq_nil in E. destruct E as [-> _]. cbn. lia.
  - destruct (H x (or_introl eq_refl)) as [H1 H2].
    destruct IH as [I1 I2]; [intros y HY; apply H; right; exact HY|].
    split; [rewrite depth_app; lia|]. intros a b E.
    apply app_eq_app in E. destruct E as (l0 & [[E1 E2]|[E1 E2]]).
    + exact (H2 a l0 E1).
    + subst a. rewrite depth_app. pose proof (I2 l0 b E2). lia.
Qed.

Lemma prefix_nonneg : forall es, prefix_open es -> forall a b, es = a ++ b -> 0 <= depth a.
Proof.
  intros es [D P] a b E. destruct a as [|e a]; [cbn; lia|]. destruct b as [|e' b].
  - rewrite app_nil_r in E. rewrite <- E. lia.
  - assert (0 < depth (e :: a)) by (apply (P (e :: a) (e' :: b)); auto; discriminate). lia.
Qed.

Lemma container_prefix : forall o c inner, weight o = 1 -> weight c = -1 ->
  depth inner = 0 -> (forall a b, inner = a ++ b -> 0 <= depth a) ->
  prefix_open (o :: inner ++ [c]).
Proof.
  intros o c inner Ho Hc D P. split.
  - cbn [depth]. rewrite depth_app. cbn [depth]. lia.
  - intros a b E NA NB. destruct a as [|x a]; [congruence|]. cbn [app] in E. inversion E; subst.
    cbn [depth]. rewrite Ho.
    destruct (exists_last NB) as (b0 & y & ->). rewrite app_assoc in H1. apply app_inj_tail in H1.
    destruct H1 as [H1 _]. pose proof (P a b0 H1). lia.
Qed.

Lemma events_prefix : forall v, prefix_open (events v).
Proof.
  induction v using value_nested_ind; 
    try (split; [reflexivity|]; cbn [events]; intros a b0 E NA NB; destruct a as [|x a]; [congruence|];
         destruct a; [destruct b0; [congruence|discriminate E]|discriminate E]).
  - rewrite events_struct. rewrite Forall_forall in H.
    assert (X := flat_prefix _ member_events m).
    destruct X as [D P].
    { intros kv HI. destruct (H kv HI) as [D P]. unfold member_events. split; [cbn [depth weight]; lia|].
      intros a b E. destruct a as [|x a]; [cbn; lia|]. cbn [app] in E. inversion E; subst. cbn [depth weight].
      pose proof (prefix_nonneg _ (H kv HI) a b H2). lia. }
    apply container_prefix; auto.
  - cbn [events]. rewrite Forall_forall in H.
    destruct (flat_prefix _ events l) as [D P].
    { intros x HI. destruct (H x HI) as [D P]. split; auto. apply prefix_nonneg. auto. }
    apply container_prefix; auto.
  - exact IHv.
Qed.
