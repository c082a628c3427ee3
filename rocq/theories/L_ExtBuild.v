(** The extended tree builder, fed the calls that describe a value, makes [deco] of it. *)
From Coq Require Import Lia.
From Verif Require Import Base Value Text M_Marshal M_BinUnmarshal M_TreeBuilder M_Secrets S_Value S_Secrets
  L_Base L_RoundTrip L_TreeBuilder L_Text L_Secrets.

Section Build.
  Variable val : option mktime_t.
  Variable ver : version.
  Notation xstep := (ext_step val).
  Notation dc := (deco (make_datetime val)).

  Lemma ext_put_any : forall p v w p' how, ext_put p v = (p', Ok how) -> exists q, ext_put p w = (q, Ok how).
  Proof.
    intros [|[nd s] r] v w p' how H; cbn [ext_put] in *; [discriminate|].
    destruct nd; try destruct v0; try discriminate; try (inversion H; eauto; fail).
    destruct r as [|[nd' s'] r']; [discriminate|]. destruct nd'; try discriminate.
    unfold struct_append in *. destruct (255 <? blen k); [discriminate|]. inversion H; eauto.
  Qed.

  Definition parent (how : link) (p : list pnode) : list pnode := match how with LMember _ => tl p | _ => p end.

  Lemma ext_put_link : forall p v p' how, ext_put p v = (p', Ok how) -> ext_link how (parent how p) v = p'.
  Proof.
    intros [|[nd s] r] v p' how H; cbn [ext_put] in H; [discriminate|].
    destruct nd; try destruct v0; try discriminate; try (inversion H; subst; reflexivity).
    destruct r as [|[nd' s'] r']; [discriminate|]. destruct nd'; try discriminate.
    unfold struct_append in H. destruct (255 <? blen k) eqn:E; [discriminate|]. inversion H; subst.
    cbn [ext_link parent tl ext_put]. unfold struct_append. rewrite E. reflexivity.
  Qed.

  Definition xbuilds (v : value) : Prop :=
    forall x b o p' how, match_secret (x_path x) = Ok (b, o) ->
      ext_put (x_path x) (wrap b (dc o v)) = (p', Ok how) ->
      replay xstep x (events v) = (set_path x p', None).

  Lemma xscalar : forall v e, events v = [e] -> (forall x, xstep x e = ext_value x (dc None v)) ->
    (forall o, dc o v = dc None v) -> xbuilds v.
  Proof.
    intros v e EE HS HD x b o p' how HM HP. rewrite EE. cbn [replay]. rewrite HS. unfold ext_value. rewrite HM.
    rewrite HD in HP. rewrite HP. reflexivity.
  Qed.

  Lemma match_array : forall l how b o r, match_secret ((XArray l how b, o) :: r) = Ok (lookup_index o (zlen l)).
  Proof. intros. destruct o; reflexivity. Qed.
  Lemma match_call : forall n l o r, match_secret ((XCall n l, o) :: r) = Ok (lookup_index o (zlen l)).
  Proof. intros. destruct o; reflexivity. Qed.
  Lemma match_name : forall k o r, match_secret ((XName k, o) :: r) = Ok (lookup_name o k).
  Proof. intros. destruct o; reflexivity. Qed.

  Lemma zlen_deco_items : forall o l i, zlen (deco_items (make_datetime val) o i l) = zlen l.
  Proof. induction l as [|x l IH]; intro i; cbn [deco_items]; auto. rewrite !zlen_cons, IH. reflexivity. Qed.

  Lemma xitems : forall l acc how b o r tr, Forall xbuilds l ->
    replay xstep (mkExt ((XArray acc how b, o) :: r) tr) (flat_map events l) =
    (mkExt ((XArray (acc ++ deco_items (make_datetime val) o (zlen acc) l) how b, o) :: r) tr, None).
  Proof.
    induction l as [|x l IH]; intros acc how b o r tr F; cbn [flat_map deco_items].
    - rewrite app_nil_r. reflexivity.
    - inversion F; subst. rewrite replay_app.
      destruct (lookup_index o (zlen acc)) as [b1 o1] eqn:EL.
      rewrite (H1 _ b1 o1 ((XArray (acc ++ [wrap b1 (dc o1 x)]) how b, o) :: r) LItem);
        [| cbn [x_path]; rewrite match_array, EL; reflexivity | reflexivity].
      unfold set_path; cbn [x_path x_tree]. rewrite IH by auto. cbn [fst snd]. rewrite <- app_assoc, zlen_app. reflexivity.
  Qed.

  Lemma xargs : forall l n acc o r tr, Forall xbuilds l ->
    replay xstep (mkExt ((XCall n acc, o) :: r) tr) (flat_map events l) =
    (mkExt ((XCall n (acc ++ deco_items (make_datetime val) o (zlen acc) l), o) :: r) tr, None).
  Proof.
    induction l as [|x l IH]; intros n acc o r tr F; cbn [flat_map deco_items].
    - rewrite app_nil_r. reflexivity.
    - inversion F; subst. rewrite replay_app.
      destruct (lookup_index o (zlen acc)) as [b1 o1] eqn:EL.
      rewrite (H1 _ b1 o1 ((XCall n (acc ++ [wrap b1 (dc o1 x)]), o) :: r) LItem);
        [| cbn [x_path]; rewrite match_call, EL; reflexivity | reflexivity].
      unfold set_path; cbn [x_path x_tree]. rewrite IH by auto. cbn [fst snd]. rewrite <- app_assoc, zlen_app. reflexivity.
  Qed.

  Lemma xmembers : forall l acc how b o r tr,
    Forall (fun kv => 1 <= blen (fst kv) <= 255 /\ xbuilds (snd kv)) l ->
    increasing (acc ++ map (deco_member (make_datetime val) o) l) ->
    replay xstep (mkExt ((XStruct acc how b, o) :: r) tr) (flat_map member_events l) =
    (mkExt ((XStruct (acc ++ map (deco_member (make_datetime val) o) l) how b, o) :: r) tr, None).
  Proof.
    induction l as [|[k x] l IH]; intros acc how b o r tr F I; cbn [flat_map map].
    - rewrite app_nil_r. reflexivity.
    - inversion F as [|? ? [HK HB] F']; subst. cbn [fst snd] in *. rewrite replay_app.
      unfold member_events at 1. cbn [fst snd replay ext_step x_path]; unfold set_path; cbn [x_path x_tree].
      destruct (lookup_name o k) as [b1 o1] eqn:EL.
      rewrite (HB _ b1 o1 ((XStruct (acc ++ [(k, wrap b1 (dc o1 x))]) how b, o) :: r) (LMember k)).
      + unfold set_path; cbn [x_path x_tree]. cbn [map] in I. unfold deco_member at 1 in I. cbn [fst snd] in I. rewrite EL in I. cbn [fst snd] in I.
        rewrite IH; auto; [|rewrite <- app_assoc; exact I]. unfold deco_member at 2. cbn [fst snd]. rewrite EL. cbn [fst snd].
        rewrite <- app_assoc. reflexivity.
      + cbn [x_path]. rewrite match_name, EL. reflexivity.
      + cbn [x_path ext_put]. unfold struct_append. destruct (255 <? blen k) eqn:E; [apply Z.ltb_lt in E; lia|].
        rewrite map_set_last; [reflexivity|]. intros k' y HI. destruct (increasing_app _ _ _ I) as (_ & _ & H).
        eapply H; eauto. left. reflexivity.
  Qed.

  Lemma increasing_deco : forall o m, increasing m -> increasing (map (deco_member (make_datetime val) o) m).
  Proof.
    intros o m. induction m as [|[k x] m IH]; intros H; cbn [map increasing] in *; auto. unfold deco_member at 1. cbn [fst snd].
    destruct H as [H1 H2]. split; auto. intros k' x' HI. apply in_map_iff in HI.
    destruct HI as ([k2 x2] & E & HI). inversion E; subst. cbn [fst]. eapply H1; eauto.
  Qed.

  Lemma xbuilds_all : forall v, wf ver v -> xbuilds v.
  Proof.
    induction v using value_nested_ind; intro W;
      try (eapply xscalar; [reflexivity|reflexivity|reflexivity]).
    - apply wf_struct in W. destruct W as (_ & I & FW).
      assert (FB : Forall (fun kv => 1 <= blen (fst kv) <= 255 /\ xbuilds (snd kv)) m).
      { rewrite Forall_forall in *. intros kv HI. destruct (FW kv HI) as [A C]. split; auto. }
      intros x b o p' how HM HP. rewrite events_struct. cbn [replay ext_step]. unfold ext_open. rewrite HM.
      destruct (ext_put_any _ _ (wrap b (VStruct [])) _ _ HP) as [q Eq]. rewrite Eq. fold (parent how (x_path x)).
      unfold set_path at 1. rewrite replay_app, xmembers; [| exact FB | cbn [app]; apply increasing_deco; exact I].
      cbn [replay ext_step app]. unfold ext_close_struct. unfold set_path; cbn [x_path x_tree].
      apply ext_put_link in HP. rewrite deco_struct in HP. rewrite HP. reflexivity.
    - apply wf_array in W. destruct W as (_ & FW).
      assert (FB : Forall xbuilds l).
      { rewrite Forall_forall in *. intros x HI. auto. }
      intros x b o p' how HM HP. cbn [events replay ext_step]. unfold ext_open. rewrite HM.
      destruct (ext_put_any _ _ (wrap b (VArray [])) _ _ HP) as [q Eq]. rewrite Eq. fold (parent how (x_path x)).
      unfold set_path at 1. rewrite replay_app, xitems by exact FB.
      cbn [replay ext_step app]. unfold ext_close_array. unfold set_path; cbn [x_path x_tree].
      apply ext_put_link in HP. rewrite deco_array in HP. change (zlen (@nil value)) with 0. rewrite HP. reflexivity.
    - exact (IHv W).
  Qed.

  (** A whole call. *)
  Lemma ext_call_replay : forall name ps tr, Forall (wf ver) ps ->
    replay xstep (mkExt [] tr) (EMethodCall name :: flat_map events ps) =
    (mkExt [(XCall name (deco_items (make_datetime val) (Some tr) 0 ps), Some tr)] tr, None).
  Proof.
    intros name ps tr F. cbn [replay ext_step]. unfold ext_start. unfold set_path; cbn [x_path x_tree].
    rewrite xargs; [reflexivity|]. rewrite Forall_forall in *. intros x I. apply xbuilds_all. auto.
  Qed.

  (** A response: the root value is never secret and nothing below it is. *)
  Lemma ext_response_replay : forall v tr, wf ver v ->
    replay xstep (mkExt [] tr) (EMethodResponse :: events v) =
    (mkExt [(XResponse (Some (dc None v)), Some tr)] tr, None).
  Proof.
    intros v tr W. cbn [replay ext_step]. unfold ext_start. unfold set_path; cbn [x_path x_tree].
    rewrite (xbuilds_all v W _ false None [(XResponse (Some (dc None v)), Some tr)] LItem); reflexivity.
  Qed.
End Build.

(** The secrets of a parameter list, as the feeder reports them for the array of parameters. *)
Lemma gathered_tree : forall ver ps, wf ver (VArray ps) ->
  ext_init (gather [] (VArray ps)) = Ok (mkExt [] (tree_of (R_items 0 ps))).
Proof.
  intros ver ps W. unfold ext_init. rewrite gather_rel. cbn [app]. rewrite build_tree by (eapply rel_ok; eauto). reflexivity.
Qed.

Lemma lookup_root : forall L i, Forall (fun p => p <> []) L ->
  lookup_index (Some (tree_of L)) i = lookup_index (sub_node L) i.
Proof.
  intros [|p L] i F; [reflexivity|]. unfold sub_node. rewrite not_all_nil by (auto; discriminate). reflexivity.
Qed.

Lemma deco_items_ext : forall f o o' l i, (forall j, lookup_index o j = lookup_index o' j) ->
  deco_items f o i l = deco_items f o' i l.
Proof. induction l as [|x l IH]; intros i H; cbn [deco_items]; auto. rewrite H, (IH _ H). reflexivity. Qed.

Lemma call_marked : forall f ver ps, wf ver (VArray ps) -> flat_secrets (VArray ps) -> reachable_secrets (VArray ps) ->
  deco_items f (Some (tree_of (R_items 0 ps))) 0 ps = map (marked f) ps.
Proof.
  intros f ver ps W F H. rewrite (deco_items_ext f _ (sub_node (R_items 0 ps))) by (intro; apply lookup_root; apply R_items_nonempty).
  destruct (deco_marked f ver (VArray ps) W F H) as [A _]. specialize (A eq_refl). rewrite deco_array in A.
  cbn [marked] in A. change (R (VArray ps)) with (R_items 0 ps) in A. congruence.
Qed.
