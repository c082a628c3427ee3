(** Lemmas about multicalls and the system methods. *)
From Coq Require Import Lia.
From Verif Require Import Base Value Text M_Marshal M_BinUnmarshal M_TreeBuilder M_Values M_Base64 M_Json M_Iso M_Url M_Xml M_Registry
  S_Value S_Registry L_Base L_Dup L_Registry.

Section Registry.
  Context {W : Type}.
  Variable message : exn -> bytes.
  Implicit Types (g : registry (W:=W)) (w : W).

  Lemma shown_result x v : shown message x v -> entry_result message x = Some v.
  Proof.
    intros [u|e code msg HD HS]; [reflexivity|]. destruct HD; try reflexivity. elim (HS m). reflexivity.
  Qed.
  Lemma result_shown x v : entry_result message x = Some v -> shown message x v.
  Proof.
    destruct x as [u|e|]; cbn; intro H; [inversion H; constructor| |discriminate].
    destruct e; inversion H; apply shown_fault; try constructor; intros; discriminate.
  Qed.

  Notation call g := (call_registered message g).

  Lemma entry_shows_step g w v w' r : entry_shows message g w v w' r ->
    forall acc es, multi_loop message (call g) g w acc (v :: es) = multi_loop message (call g) g w' (acc ++ [r]) es.
  Proof.
    intros H acc es. destruct H.
    - cbn [multi_loop]. destruct v; try reflexivity. elim (H m). reflexivity.
    - cbn [multi_loop]. unfold multi_entry, struct_at. rewrite H. reflexivity.
    - cbn [multi_loop]. unfold multi_entry, struct_at. rewrite H. destruct v; try reflexivity. elim (H0 s). reflexivity.
    - cbn [multi_loop]. unfold multi_entry, struct_at. rewrite H. cbn [bind as_string]. rewrite H0, H1. reflexivity.
    - cbn [multi_loop]. unfold multi_entry, struct_at. rewrite H. cbn [bind as_string]. rewrite H1. cbn [bind].
      unfold not_registered in H0. destruct (map_get name (g_methods g)); [reflexivity|]. destruct (g_default g); [reflexivity|]. exfalso. intuition congruence.
    - cbn [multi_loop]. unfold multi_entry, struct_at. rewrite H. cbn [bind as_string]. rewrite H1. cbn [bind].
      unfold not_registered in H0. destruct (as_array v) eqn:EA; [| |destruct v; discriminate].
      + destruct v; try discriminate. elim (H2 l). reflexivity.
      + assert (e = TypeError) by (destruct v; inversion EA; reflexivity). subst e.
        destruct (map_get name (g_methods g)); [reflexivity|]. destruct (g_default g); [reflexivity|]. exfalso. intuition congruence.
    - cbn [multi_loop]. unfold multi_entry, struct_at. rewrite H. cbn [bind as_string]. rewrite H0. cbn [bind as_array].
      apply shown_result in H2. destruct H1 as [e HR HC|d HR HD HC].
      + rewrite HR. unfold call in *. rewrite HC, H2. reflexivity.
      + rewrite HR, HD, HC, H2. reflexivity.
  Qed.

  Lemma all_show_loop g : forall w es w' vs, all_show message g w es w' vs ->
    forall acc, multi_loop message (call g) g w acc es = (w', Ok (VArray (acc ++ vs))).
  Proof.
    induction 1 as [w|w e w1 v es w2 vs HE HA IH]; intro acc; [cbn; rewrite app_nil_r; reflexivity|].
    rewrite (entry_shows_step _ _ _ _ _ HE). rewrite IH, <- app_assoc. reflexivity.
  Qed.

  (** Every entry shows something if the methods fail in the documented ways only. *)
  Definition contained (x : res value) : Prop := exists v, shown message x v.

  Lemma entry_total g : (forall name w ps w' x, method_runs message g w name ps w' x -> contained x) ->
    forall v w, exists w' r, entry_shows message g w v w' r.
  Proof.
    intros HC v w.
    destruct v as [| | | | | | | | |m| |]; try (eexists; eexists; apply shows_no_struct; intros; discriminate).
    destruct (map_get (str "methodName") m) as [nv|] eqn:EN; [|eexists; eexists; apply shows_no_name; assumption].
    assert (HD : (exists name, nv = VString name) \/ (forall s, nv <> VString s)) by (destruct nv; eauto; right; intros; discriminate).
    destruct HD as [(name & ->)|HD]; [|eexists; eexists; eapply shows_bad_name; eassumption].
    assert (HK : (not_registered g name /\ g_default g = None) \/ (~ not_registered g name \/ g_default g <> None)).
    { unfold not_registered. destruct (map_get name (g_methods g)) as [x|], (g_default g) as [y|]; auto; right; (left; discriminate) || (right; discriminate). }
    destruct HK as [[H1 H2]|HK]; [eexists; eexists; eapply shows_unknown; eassumption|].
    destruct (map_get (str "params") m) as [pv|] eqn:EP; [|eexists; eexists; eapply shows_no_params; eassumption].
    assert (HA : (exists l, pv = VArray l) \/ (forall l, pv <> VArray l)) by (destruct pv; eauto; right; intros; discriminate).
    destruct HA as [(ps & ->)|HA]; [|eexists; eexists; eapply shows_bad_params; eassumption].
    assert (HM : exists w' x, method_runs message g w name ps w' x).
    { destruct (map_get name (g_methods g)) as [e|] eqn:ER.
      - destruct (call g w (e_handler e) ps) as [w' x] eqn:EC. exists w', x. econstructor 1; eassumption.
      - destruct (g_default g) as [d|] eqn:ED; [|exfalso; unfold not_registered in HK; intuition congruence].
        destruct (d w name ps) as [w' x] eqn:EC. exists w', x. econstructor 2; eassumption. }
    destruct HM as (w' & x & HM). destruct (HC _ _ _ _ _ HM) as (r & HS). exists w', r. eapply shows_run; eassumption.
  Qed.

  (** System methods are contained if the methods of the application are. *)
  Lemma contained_result x : contained x <-> entry_result message x <> None.
  Proof.
    split; [intros (v & H); apply shown_result in H; congruence|]. intro H. destruct (entry_result message x) as [v|] eqn:E; [|congruence].
    exists v. apply result_shown. assumption.
  Qed.
  Lemma asked_contained g ps : match asked g ps with Ok _ => True | Err e => contained (Err e) | UB => False end.
  Proof.
    unfold asked. destruct (zlen ps =? 1) eqn:EZ; cbn [negb]; [|apply contained_result; discriminate].
    destruct ps as [|p [|q ps]]; try (apply Z.eqb_eq in EZ; unfold zlen in EZ; cbn in EZ; lia).
    destruct p; cbn; try (apply contained_result; discriminate). destruct (map_get s (g_methods g)); [exact I|apply contained_result; discriminate].
  Qed.

  Lemma system_contained g :
    (forall name w ps w' x, runs g w name ps w' x -> contained x) ->
    forall n name e w ps, (nesting (VArray ps) < n)%nat -> registered g name e -> contained (snd (call g w (e_handler e) ps)).
  Proof.
    intro HU. induction n as [|n IH]; intros name e w ps HN HR; [lia|]. destruct e as [h sig help]. cbn [e_handler].
    destruct h.
    - change (call g w (User f) ps) with (f w ps). destruct (f w ps) as [w' x] eqn:EF. cbn [snd]. eapply HU. econstructor 1; eassumption.
    - unfold call_registered. cbn. unfold list_methods. destruct ps; apply contained_result; discriminate.
    - unfold call_registered. cbn [call_method snd]. unfold method_help. pose proof (asked_contained g ps). destruct (asked g ps); cbn [bind]; [apply contained_result; discriminate|assumption|contradiction].
    - unfold call_registered. cbn [call_method snd]. unfold method_signature. pose proof (asked_contained g ps). destruct (asked g ps); cbn [bind]; [apply contained_result; discriminate|assumption|contradiction].
    - rewrite call_multicall. unfold multicall. destruct (zlen ps =? 1) eqn:EZ; cbn [negb]; [|apply contained_result; discriminate].
      destruct ps as [|p [|q ps]]; try (apply Z.eqb_eq in EZ; unfold zlen in EZ; cbn in EZ; lia).
      destruct p; try (apply contained_result; discriminate). change (bind (check_items (str "A") [VArray l]) _) with (Ok l). cbv beta iota.
      assert (HL : (nesting (VArray l) <= n)%nat) by (pose proof (nesting_in [VArray l] (VArray l) (or_introl eq_refl)); lia). clear HN EZ HR.
      assert (HX : exists w' vs, multi_loop message (call g) g w [] l = (w', Ok (VArray vs))).
      { generalize (@nil value). revert w HL. induction l as [|v l IHl]; intros w HL acc; [eexists; eexists; reflexivity|].
        assert (HL2 : (nesting (VArray l) <= n)%nat) by (cbn in *; lia).
        pose proof (nesting_in (v :: l) v (or_introl eq_refl)) as HV. cbn [multi_loop]. destruct v; try (apply IHl; assumption).
        assert (HE : contained (snd (multi_entry (call g) g w m))).
        { unfold multi_entry, struct_at. destruct (map_get (str "methodName") m) as [nv|]; [|apply contained_result; discriminate]. cbn [bind].
          destruct nv; try (apply contained_result; discriminate). cbn [as_string].
          destruct (map_get (str "params") m) as [pv|] eqn:EP; cbn [bind].
          2:{ destruct (map_get s (g_methods g)); [|destruct (g_default g)]; apply contained_result; discriminate. }
          destruct (as_array pv) as [qs|e2|] eqn:EA; [| |destruct pv; discriminate].
          2:{ destruct pv; inversion EA; subst; destruct (map_get s (g_methods g)); try destruct (g_default g); apply contained_result; discriminate. }
          destruct (map_get s (g_methods g)) as [e2|] eqn:ER.
          - eapply IH; [|eassumption]. destruct pv; try discriminate. inversion EA; subst. apply map_get_in in EP as (k & HI). apply nesting_member in HI. lia.
          - destruct (g_default g) as [d|] eqn:ED; [|apply contained_result; discriminate]. destruct (d w s qs) as [w' x] eqn:EX. cbn [snd]. eapply HU. econstructor 2; eassumption. }
        destruct (multi_entry (call g) g w m) as [w1 x]. cbn [snd] in HE. apply contained_result in HE. destruct (entry_result message x) as [r|]; [|congruence].
        apply IHl; assumption. }
      destruct HX as (w' & vs & ->). apply contained_result. discriminate.
  Qed.

  Lemma methods_contained g : (forall name w ps w' x, runs g w name ps w' x -> contained x) ->
    forall name w ps w' x, method_runs message g w name ps w' x -> contained x.
  Proof.
    intros HU name w ps w' x [e HR HC|d HR HD HC].
    - pose proof (system_contained g HU (S (nesting (VArray ps))) name e w ps ltac:(lia) HR) as H. rewrite HC in H. exact H.
    - eapply HU. econstructor 2; eassumption.
  Qed.

  Lemma all_total g : (forall name w ps w' x, method_runs message g w name ps w' x -> contained x) ->
    forall es w, exists w' vs, all_show message g w es w' vs.
  Proof.
    intros HC. induction es as [|e es IH]; intro w; [eexists; eexists; constructor|].
    destruct (entry_total g HC e w) as (w1 & r & HE). destruct (IH w1) as (w2 & vs & HA). exists w2, (r :: vs). econstructor; eassumption.
  Qed.
End Registry.
