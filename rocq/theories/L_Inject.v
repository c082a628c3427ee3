(** Encodings are injective and self-delimiting. *)
From Coq Require Import Lia.
From Verif Require Import Base Value M_Marshal M_BinUnmarshal M_TreeBuilder S_Events S_Value L_Base L_BinUnmarshal
  L_RoundTrip L_TreeBuilder L_Message L_Complete L_Origin.

(** A builder that records calls until the container it starts in is closed, then ignores everything. *)
Definition stop_step (s : list event * Z * bool) (e : event) : (list event * Z * bool) * option fail :=
  let '(es, d, stopped) := s in
  if stopped then (s, None)
  else let d' := d + weight e in
       if d' <? 0 then ((es, d', true), None) else ((es ++ [e], d', false), None).

Lemma stop_replay : forall es' es d, (forall a c, es' = a ++ c -> 0 <= d + depth a) ->
  replay stop_step (es, d, false) es' = ((es ++ es', d + depth es', false), None).
Proof.
  induction es' as [|e es' IH]; intros es d H; cbn [replay depth].
  - rewrite app_nil_r, Z.add_0_r. reflexivity.
  - unfold stop_step. pose proof (H [e] es' eq_refl) as H1. cbn [depth] in H1.
    destruct (d + weight e <? 0) eqn:E; [lia|]. fold stop_step. rewrite IH.
    + rewrite <- app_assoc. cbn [app]. do 3 f_equal. lia.
    + intros a c E2. pose proof (H (e :: a) c ltac:(cbn; congruence)) as H2. cbn [depth] in H2. lia.
Qed.

Lemma stopped_stays : forall req c w b s es d, cinv c w -> b = (es, d, true) ->
  snd (fst (fst (lbig _ stop_step req false c w b s))) = b.
Proof.
  intros req c w b s es d I E.
  pose proof (lbig_origin _ stop_step req (fun b' => b' = (es, d, true))) as L.
  specialize (L ltac:(intros b0 e b' -> H; cbn in H; congruence) false c w b s).
  destruct (lbig _ stop_step req false c w b s) as [[[[c' w'] b'] r] e].
  specialize (L _ _ _ _ _ I E eq_refl). cbn [fst snd]. rewrite E.
  destruct e; auto. destruct L as [[_ X]|(b0 & e & -> & X)]; auto. cbn in X. discriminate.
Qed.

Section Inject.
  Variable ver : version.
  Hypothesis HM : modern ver.

  Definition in_array : core := mkCore S_VALUE_TYPE [(1, KArray)] 0 0 ver.

  Lemma in_array_at : at_value ver in_array.
  Proof.
    split; [|split; [reflexivity|split; [reflexivity|left; split; reflexivity]]].
    unfold cinv, wok, cinv0, hd_ok, in_array, element_size_limit. cbn.
    split; auto. split; [|discriminate]. split; [|split; [lia|congruence]].
    constructor; [cbn; lia|constructor].
  Qed.

  Lemma stop_decode : forall v r, wf ver v ->
    snd (fst (fst (lbig _ stop_step TYPE_ANY false in_array 1 ([], 0, false) (fst (bin_run ver (feed v)) ++ r))))
    = (events v, -1, true).
  Proof.
    intros v r W.
    destruct (events_prefix v) as [D _].
    pose proof (stop_replay (events v) [] 0) as SR.
    specialize (SR ltac:(intros a c E; rewrite Z.add_0_l; exact (prefix_nonneg _ (events_prefix v) a c E))).
    rewrite D in SR. cbn [app Z.add] in SR.
    destruct (decodes_all _ stop_step TYPE_ANY ver HM v W in_array ([], 0, false) r _ [] (events v, -1, true) in_array_at SR)
      as [_ Q].
    { reflexivity. }
    rewrite Q. eapply stopped_stays; [|reflexivity].
    unfold cinv, wok, cinv0, hd_ok, done. cbn. split; auto. split; [|discriminate].
    split; [constructor|]. split; [lia|auto].
  Qed.

  Lemma events_plain_inj : forall v1 v2, wf ver v1 -> wf ver v2 -> events v1 = events v2 ->
    plain (make_datetime None) v1 = plain (make_datetime None) v2.
  Proof.
    intros v1 v2 W1 W2 E.
    destruct (builds_root None ver v1 tb_init W1 eq_refl eq_refl eq_refl) as [m1 E1].
    destruct (builds_root None ver v2 tb_init W2 eq_refl eq_refl eq_refl) as [m2 E2].
    rewrite E in E1. rewrite E1 in E2. inversion E2. auto.
  Qed.

  Lemma enc_plain : forall v, wf ver v -> bin_run ver (feed (plain (make_datetime None) v)) = bin_run ver (feed v).
  Proof.
    induction v using value_nested_ind; intro W; cbn [plain]; try reflexivity.
    - cbn [wf] in W. destruct W as [-> _]. cbn [feed bin_run bin_pack]. reflexivity.
    - apply wf_struct in W. destruct W as (_ & _ & FW). rewrite !feed_struct.
      assert (EL : zlen (map (fun kv => (fst kv, plain (make_datetime None) (snd kv))) m) = zlen m)
        by (unfold zlen; rewrite map_length; reflexivity).
      rewrite EL. cbn [bin_run].
      assert (X : bin_run ver (feed_members (map (fun kv => (fst kv, plain (make_datetime None) (snd kv))) m)) =
                  bin_run ver (feed_members m)).
      { clear EL. induction m as [|[k x] m IH]; [reflexivity|].
        inversion H; subst. inversion FW as [|? ? [_ WX] FW']; subst. cbn [map fst snd] in *.
        unfold feed_members in *. cbn [flat_map fst snd]. rewrite !bin_run_app. rewrite IH by auto.
        cbn [bin_run]. rewrite H2 by auto. reflexivity. }
      rewrite X. reflexivity.
    - apply wf_array in W. destruct W as (_ & FW). rewrite !feed_array.
      assert (EL : zlen (map (plain (make_datetime None)) l) = zlen l)
        by (unfold zlen; rewrite map_length; reflexivity).
      rewrite EL. cbn [bin_run].
      assert (X : bin_run ver (flat_map feed (map (plain (make_datetime None)) l)) = bin_run ver (flat_map feed l)).
      { clear EL. induction l as [|x l IH]; [reflexivity|].
        inversion H; subst. inversion FW; subst. cbn [map flat_map]. rewrite !bin_run_app. rewrite IH by auto.
        rewrite H2 by auto. reflexivity. }
      rewrite X. reflexivity.
    - exact (IHv W).
  Qed.

  Theorem enc_inject : forall v1 v2 r1 r2, wf ver v1 -> wf ver v2 ->
    fst (bin_run ver (feed v1)) ++ r1 = fst (bin_run ver (feed v2)) ++ r2 ->
    plain (make_datetime None) v1 = plain (make_datetime None) v2 /\ r1 = r2.
  Proof.
    intros v1 v2 r1 r2 W1 W2 E.
    pose proof (stop_decode v1 r1 W1) as S1. pose proof (stop_decode v2 r2 W2) as S2.
    rewrite E, S2 in S1. assert (EE : events v1 = events v2) by congruence.
    assert (EP := events_plain_inj v1 v2 W1 W2 EE). split; auto.
    rewrite <- (enc_plain v1), <- (enc_plain v2), EP in E by auto.
    apply app_inv_head in E. exact E.
  Qed.
End Inject.

Lemma plain_ext : forall f g v, (forall d, f d = g d) -> plain f v = plain g v.
Proof.
  intros f g v H. induction v using value_nested_ind; cbn [plain]; try reflexivity.
  - rewrite H. reflexivity.
  - f_equal. apply map_ext_in. intros kv HI. rewrite Forall_forall in H0. rewrite (H0 kv HI). reflexivity.
  - f_equal. apply map_ext_in. intros x HI. rewrite Forall_forall in H0. apply (H0 x HI).
  - exact IHv.
Qed.
