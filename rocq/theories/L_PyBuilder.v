(** Lemmas: the builder with [datetimeBuilder]. *)
From Coq Require Import Lia.
From Verif Require Import Base Value Unicode M_Marshal M_BinUnmarshal M_TreeBuilder S_Value S_Wire M_Python M_PyBuilder S_Python S_PyBuilder L_Base L_Bits L_BinUnmarshal L_RoundTrip
  L_TreeBuilder L_Dup L_Message L_Wire L_JsText L_JsCall L_PyText L_PyBuild L_PyRead L_Python L_PyLoad.

Section Hook.
  Variable host : datetime -> datetime.
  Variable pass native : bool.
  Variable W E : Type.
  Variable call : W -> datetime -> W * (py + E).
  Notation step := (pb_step host pass native).
  Notation hook := (hook_step host pass native W E call).
  Notation calls := (fun w d => call w (given d)).
  Notation made := (made W E calls).
  Notation filled := (filled native).

  Lemma made_app : forall ds es w, made w (ds ++ es) =
    match made w ds with
    | (w, inl ps) => match made w es with (w, inl qs) => (w, inl (ps ++ qs)) | (w, inr x) => (w, inr x) end
    | (w, inr x) => (w, inr x)
    end.
  Proof.
    induction ds as [|d ds IH]; intros es w; [cbn [app S_PyBuilder.made]; destruct (made w es) as [w' [qs|x]]; reflexivity|].
    cbn [app S_PyBuilder.made]. destruct (call w (given d)) as [w1 [p|x]]; [|reflexivity]. rewrite IH.
    destruct (made w1 ds) as [w2 [ps|x]]; [|reflexivity]. destruct (made w2 es) as [w3 [qs|x]]; reflexivity.
  Qed.

  Lemma bad_hook : forall h e, pb_error (h_pb h) = true -> ordinary e -> hook h e = (h, None).
  Proof.
    intros h e B O. destruct h as [w r b]. cbn [h_pb] in B. destruct e; try contradiction O; unfold hook_step; cbn [h_world h_raised h_pb]; try rewrite B; try reflexivity;
      rewrite (bad_step host pass native b _ B O); reflexivity.
  Qed.
  Lemma bad_hooks : forall es h, pb_error (h_pb h) = true -> Forall ordinary es -> replay hook h es = (h, None).
  Proof. induction es as [|e es IH]; intros h B F; cbn [replay]; [reflexivity|]. inversion F; subst. rewrite bad_hook; auto. Qed.

  (** What the calls for something do: the dates [ds] are made, and if all are the builder is as [P] says. *)
  Definition done_with (w : W) (b : pb) (es : list event) (ds : list datetime) (P : list py -> pb -> Prop) : Prop :=
    match made w ds with
    | (w', inl ps) => exists m b', P ps b' /\ replay hook (mkHooked w None b) es = (mkHooked w' None (pb_set m b'), None)
    | (w', inr x) => exists b', replay hook (mkHooked w None b) es = (mkHooked w' (Some x) b', None) /\ pb_bad b'
    end.
  Definition builds (v : value) : Prop := texts v -> uniq v -> no_nul_names v ->
    forall w b k, pb_error b = false -> link_of b = Some k -> done_with w b (events v) (dates v) (fun ps b' => exists p, filled v ps p /\ b' = place k p b).

  Lemma one_plain : forall v e p, (forall d, e <> EDateTime d) -> events v = [e] -> dates v = [] -> (forall b, step b e = (pb_value p b, None)) -> filled v [] p -> builds v.
  Proof.
    intros v e p ND EV DV S F T U N w b k B L. unfold done_with. rewrite DV, EV. cbn [S_PyBuilder.made replay]. exists (pb_member (place k p b)), (place k p b).
    split; [eauto|]. rewrite pb_set_id.
    assert (X: hook (mkHooked w None b) e = (let '(b', f) := step b e in (mkHooked w None b', f))) by (destruct e; try reflexivity; destruct (ND d eq_refl)).
    rewrite X, S. unfold pb_value. rewrite B, L. reflexivity.
  Qed.

  Lemma replay_hook_app : forall xs h ys, replay hook h (xs ++ ys) = match replay hook h xs with (h', None) => replay hook h' ys | r => r end.
  Proof. intros. apply replay_app. Qed.

  Lemma with_items : forall l, Forall builds l -> Forall texts l -> Forall uniq l -> Forall no_nul_names l ->
    forall w b q acc r, pb_error b = false -> pb_stack b = (q, PB_list acc) :: r ->
    done_with w b (flat_map events l) (flat_map dates l) (fun ps b' => exists l', filled_items native l ps l' /\ b' = pb_with ((q, PB_list (acc ++ l')) :: r) b).
  Proof.
    induction l as [|x l IH]; intros F T U N w b q acc r B S; unfold done_with; cbn [flat_map].
    - cbn [S_PyBuilder.made replay]. exists (pb_member b), b. split; [|destruct b; reflexivity]. exists []. split; [constructor|]. rewrite app_nil_r, <- S. destruct b; reflexivity.
    - inversion F as [|? ? BX F']; inversion T as [|? ? TX T']; inversion U as [|? ? UX U']; inversion N as [|? ? NX N']; subst.
      assert (L : link_of b = Some L_item) by (unfold link_of; rewrite S; reflexivity).
      pose proof (BX TX UX NX w b L_item B L) as D. unfold done_with in D. rewrite made_app. destruct (made w (dates x)) as [w1 [ps|e]].
      + destruct D as (m & b1 & (p & FP & EB) & D). unfold place in EB. rewrite S in EB. cbn [add_item] in EB. subst b1.
        specialize (IH F' T' U' N' w1 (pb_set m (pb_with ((q, PB_list (acc ++ [p])) :: r) b)) q (acc ++ [p]) r B eq_refl). unfold done_with in IH. destruct (made w1 (flat_map dates l)) as [w2 [qs|e]].
        * destruct IH as (m' & b2 & (l' & FL & EB) & IH). exists m', (pb_with ((q, PB_list (acc ++ p :: l')) :: r) b). split; [exists (p :: l'); split; [constructor; assumption|reflexivity]|].
          rewrite replay_app, D, IH, EB, <- app_assoc. reflexivity.
        * destruct IH as (b' & IH & PB). exists b'. rewrite replay_app, D, IH. auto.
      + destruct D as (b' & D & PB). exists b'. rewrite replay_app, D. rewrite bad_hooks; auto; [apply PB|apply items_ordinary].
  Qed.

  Lemma members_ordinary : forall m, Forall ordinary (flat_map (fun kv => EMember (fst kv) :: events (snd kv)) m).
  Proof. induction m as [|[k x] m IM]; cbn [flat_map]; [constructor|]. constructor; [exact I|]. apply Forall_app. split; [apply events_ordinary|exact IM]. Qed.

  Lemma with_members : forall m, Forall (fun kv => builds (snd kv)) m -> Forall (fun kv => is_text (fst kv) /\ texts (snd kv)) m -> NoDup (map fst m) ->
    Forall (fun kv => uniq (snd kv)) m -> Forall (fun kv => ~ In x00 (fst kv) /\ no_nul_names (snd kv)) m ->
    forall w b q acc r, pb_error b = false -> pb_stack b = (q, PB_dict acc) :: r -> (forall kv u, In kv m -> same_str (fst kv) u -> ~ In u (map fst acc)) ->
    done_with w b (flat_map (fun kv => EMember (fst kv) :: events (snd kv)) m) (flat_map (fun kv => dates (snd kv)) m)
      (fun ps b' => exists m', filled_members native m ps (map (fun kv => (PyStr (fst kv), snd kv)) m') /\ b' = pb_with ((q, PB_dict (acc ++ m')) :: r) b).
  Proof.
    induction m as [|[k x] m IH]; intros F T D U N w b q acc r B S FR; unfold done_with; cbn [flat_map].
    - cbn [S_PyBuilder.made replay]. exists (pb_member b), b. split; [|destruct b; reflexivity]. exists []. split; [constructor|]. rewrite app_nil_r, <- S. destruct b; reflexivity.
    - inversion F as [|? ? BX F']; inversion T as [|? ? [TK TX] T']; inversion D as [|? ? DK D']; inversion U as [|? ? UX U']; inversion N as [|? ? [NK NX] N']; subst.
      cbn [fst snd app] in *. destruct (proj1 (key_text k) TK) as [u K]. pose proof (key_same k u NK K) as SK.
      set (b0 := mkPB (pb_stack b) (pb_root b) (pb_first b) false k (pb_method b)).
      assert (ST : forall es, replay hook (mkHooked w None b) (EMember k :: es) = replay hook (mkHooked w None b0) es).
      { intros es. cbn [replay]. unfold hook_step. cbn [h_world h_raised h_pb pb_step]. rewrite B. reflexivity. }
      rewrite ST. assert (L : link_of b0 = Some (L_member u)) by (unfold link_of; cbn [b0 pb_stack pb_member]; rewrite S, K; reflexivity).
      pose proof (BX TX UX NX w b0 (L_member u) eq_refl L) as DX. unfold done_with in DX. rewrite made_app. destruct (made w (dates x)) as [w1 [ps|e]].
      + destruct DX as (m1 & b1 & (p & FP & EB) & DX). unfold place in EB. cbn [b0 pb_stack] in EB. rewrite S in EB. cbn [add_member] in EB.
        rewrite dict_set_new in EB by (apply (FR (k, x) u); [left; reflexivity|exact SK]). subst b1.
        assert (FR' : forall kv w, In kv m -> same_str (fst kv) w -> ~ In w (map fst (acc ++ [(u, p)]))).
        { intros kv w' I Q. rewrite map_app, in_app_iff. intros [J|[J|[]]]; [revert J; apply (FR kv); [right; exact I|exact Q]|]. cbn [fst] in J. subst w'.
          apply DK. rewrite (same_str_inj _ _ _ SK Q). apply in_map, I. }
        specialize (IH F' T' D' U' N' w1 (pb_set m1 (pb_with ((q, PB_dict (acc ++ [(u, p)])) :: r) b0)) q (acc ++ [(u, p)]) r eq_refl eq_refl FR').
        unfold done_with in IH. destruct (made w1 (flat_map (fun kv => dates (snd kv)) m)) as [w2 [qs|e]].
        * destruct IH as (m' & b2 & (l' & FL & EB) & IH). exists m', (pb_with ((q, PB_dict (acc ++ (u, p) :: l')) :: r) b).
          split; [exists ((u, p) :: l'); split; [cbn [map fst snd]; constructor; assumption|reflexivity]|].
          rewrite replay_app, DX, IH, EB, <- app_assoc. unfold b0, pb_with, pb_set. cbn. rewrite B. reflexivity.
        * destruct IH as (b' & IH & PB). exists b'. rewrite replay_app, DX, IH. auto.
      + destruct DX as (b' & DX & PB). exists b'. rewrite replay_app, DX. rewrite bad_hooks; auto; [apply PB|apply members_ordinary].
  Qed.

  Lemma plain : forall v p, (forall d, v <> VDateTime d) -> (forall m, v <> VStruct m) -> (forall l, v <> VArray l) -> (forall x, v <> VSecret x) -> reads host native v p -> filled v [] p.
  Proof. intros. eapply filled_plain; eassumption. Qed.

  Theorem builds_with : forall v, builds v.
  Proof.
    induction v using value_nested_ind; try solve [eapply one_plain; [|reflexivity|reflexivity|reflexivity|apply plain; try discriminate; constructor]; discriminate].
    - intros T. pose proof T as (u & S). revert T. eapply one_plain; [|reflexivity|reflexivity| |]; [discriminate| |].
      + intros b. cbn [pb_step]. rewrite (decode_same pass s u S). reflexivity.
      + apply plain; try discriminate; constructor; exact S.
    - intros T. pose proof T as (u & S). revert T. eapply one_plain; [|reflexivity|reflexivity| |]; [discriminate| |].
      + intros b. cbn [pb_step]. rewrite (decode_same pass s u S). reflexivity.
      + apply plain; try discriminate; constructor; exact S.
    - intros T U N w b k B L. unfold done_with. cbn [dates events S_PyBuilder.made replay]. unfold hook_step. cbn [h_world h_raised h_pb]. rewrite B.
      destruct (call w (given d)) as [w1 [p|x]].
      + exists (pb_member (place k p b)), (place k p b). split; [exists p; split; [constructor|reflexivity]|]. rewrite pb_set_id. unfold pb_value. rewrite B, L. reflexivity.
      + exists (pb_fail b). split; [reflexivity|split; reflexivity].
    - intros T U N w pb0 k B L. cbn [texts uniq no_nul_names] in T, U, N.
      rewrite (all_pairs2 (fun kv => is_text (fst kv)) (fun kv => texts (snd kv))) in T. destruct U as [D U].
      rewrite (all_pairs (fun kv => uniq (snd kv))) in U. rewrite (all_pairs2 (fun kv => ~ In x00 (fst kv)) (fun kv => no_nul_names (snd kv))) in N.
      set (b0 := mkPB ((k, PB_dict []) :: pb_stack pb0) (match k with L_root => P_open | _ => pb_root pb0 end)
                     (match k with L_root => false | _ => pb_first pb0 end) (pb_error pb0) (pb_member pb0) (pb_method pb0)).
      assert (OP : forall es, replay hook (mkHooked w None pb0) (EOpenStruct (zlen m) :: es) = replay hook (mkHooked w None b0) es).
      { intro es. cbn [replay]. unfold hook_step. cbn [h_world h_raised h_pb pb_step]. unfold pb_open. rewrite B, L. unfold b0. rewrite B. reflexivity. }
      pose proof (with_members m H T D U N w b0 k [] (pb_stack pb0) B eq_refl ltac:(auto)) as X. cbn [events dates]. unfold done_with in *.
      rewrite OP. destruct (made w (flat_map (fun kv => dates (snd kv)) m)) as [w1 [ps|x]].
      + destruct X as (m1 & b1 & (m' & FM & ->) & X). eexists m1, _. split; [exists (of_dict m'); split; [constructor; exact FM|reflexivity]|].
        rewrite replay_app, X. cbn [replay]. unfold hook_step. cbn [h_world h_raised h_pb pb_step]. unfold pb_close. cbn [pb_set pb_with pb_error pb_stack b0 app]. rewrite B.
        unfold pb_value_of. clear. unfold place, pb_set, pb_with, b0. destruct pb0 as [stk rt fi er me mt]. cbn. destruct k; destruct stk as [|[? ?] ?]; reflexivity.
      + destruct X as (b' & X & PB). exists b'. rewrite replay_app, X. cbn [replay]. rewrite bad_hook; [auto|apply PB|exact I].
    - intros T U N w pb0 k B L. cbn [texts uniq no_nul_names] in T, U, N. rewrite all_values in T, U, N.
      set (b0 := mkPB ((k, PB_list []) :: pb_stack pb0) (match k with L_root => P_open | _ => pb_root pb0 end)
                     (match k with L_root => false | _ => pb_first pb0 end) (pb_error pb0) (pb_member pb0) (pb_method pb0)).
      assert (OP : forall es, replay hook (mkHooked w None pb0) (EOpenArray (zlen l) :: es) = replay hook (mkHooked w None b0) es).
      { intro es. cbn [replay]. unfold hook_step. cbn [h_world h_raised h_pb pb_step]. unfold pb_open. rewrite B, L. unfold b0. rewrite B. reflexivity. }
      pose proof (with_items l H T U N w b0 k [] (pb_stack pb0) B eq_refl) as X. cbn [events dates]. unfold done_with in *.
      rewrite OP. destruct (made w (flat_map dates l)) as [w1 [ps|x]].
      + destruct X as (m1 & b1 & (l' & FL & ->) & X). eexists m1, _. split; [exists (PyList l'); split; [constructor; exact FL|reflexivity]|].
        rewrite replay_app, X. cbn [replay]. unfold hook_step. cbn [h_world h_raised h_pb pb_step]. unfold pb_close. cbn [pb_set pb_with pb_error pb_stack b0 app]. rewrite B.
        unfold pb_value_of. clear. unfold place, pb_set, pb_with, b0. destruct pb0 as [stk rt fi er me mt]. cbn. destruct k; destruct stk as [|[? ?] ?]; reflexivity.
      + destruct X as (b' & X & PB). exists b'. rewrite replay_app, X. cbn [replay]. rewrite bad_hook; [auto|apply PB|exact I].
    - intros T U N w b k B L. specialize (IHv T U N w b k B L). unfold done_with in *. cbn [dates events]. destruct (made w (dates v)) as [w1 [ps|x]]; [|exact IHv].
      destruct IHv as (m & b1 & (p & F & EB) & R). exists m, b1. split; [exists p; split; [constructor; exact F|exact EB]|exact R].
  Qed.
End Hook.

(** ** [loads] *)
Section Loads.
  Variable host : datetime -> datetime.
  Variable pass native : bool.
  Variable W E : Type.
  Variable call : W -> datetime -> W * (py + E).
  Variable ver : version.
  Hypothesis HM : modern ver.
  Let HL : legal ver := modern_legal ver HM.
  Notation hook := (hook_step host pass native W E call).
  Notation calls := (fun w d => call w (given d)).
  Notation made := (made W E calls).
  Notation start w := (mkHooked (E := E) w None pb_init).

  Lemma response_hooked : forall v w h, wfu ver v -> replay hook (start w) (events v) = (h, None) ->
    exists wire, sent ver (response_calls v) = Ok wire /\ unmarshall (hooked W E) hook TYPE_ANY unm_init (start w) wire = (mkUnm (idle ver 0 0) [] 1, h, None).
  Proof.
    intros v w h WF R. destruct (response_decodes_any (hooked W E) hook TYPE_ANY ver HL HM v (start w) (start w) h [] WF (or_introl eq_refl) eq_refl R) as [Q1 Q2].
    unfold sent. destruct (bin_run ver (response_calls v)) as [o f]. cbn [fst snd] in *. subst f. exists o. split; [reflexivity|].
    assert (X : unmarshall_all (hooked W E) hook TYPE_ANY unm_init (start w) [o] = (mkUnm (idle ver 0 0) [] 1, h, None)) by (eapply all_of_lbig; [apply app_nil_r| |exact Q2]; apply idle_cinv; lia).
    rewrite one_piece in X. exact X.
  Qed.
  Lemma call_hooked : forall name ps w h, name_ok name -> Forall (wfu ver) ps -> replay hook (fst (hook (start w) (EMethodCall name))) (flat_map events ps) = (h, None) ->
    exists wire, sent ver (call_calls name ps) = Ok wire /\ unmarshall (hooked W E) hook TYPE_ANY unm_init (start w) wire = (mkUnm (idle ver 0 0) [] 1, h, None).
  Proof.
    intros name ps w h NO WF R. destruct (call_decodes_any (hooked W E) hook TYPE_ANY ver HL HM name ps (start w) _ h [] NO WF (or_introl eq_refl) eq_refl R) as [Q1 Q2].
    unfold sent. destruct (bin_run ver (call_calls name ps)) as [o f]. cbn [fst snd] in *. subst f. exists o. split; [reflexivity|].
    assert (X : unmarshall_all (hooked W E) hook TYPE_ANY unm_init (start w) [o] = (mkUnm (idle ver 0 0) [] 1, h, None)) by (eapply all_of_lbig; [apply app_nil_r| |exact Q2]; apply idle_cinv; lia).
    rewrite one_piece in X. exact X.
  Qed.

  Definition a_fault (p : py) : Prop := match p with PyFault _ _ => True | _ => False end.
  Hypothesis NF : forall w d w' p, call w d = (w', inl p) -> ~ a_fault p.

  Lemma made_no_fault : forall ds w w' ps, made w ds = (w', inl ps) -> Forall (fun p => ~ a_fault p) ps.
  Proof.
    induction ds as [|d ds IH]; intros w w' ps M; cbn [S_PyBuilder.made] in M; [inversion M; constructor|].
    destruct (call w (given d)) as [w1 [p|x]] eqn:C; [|discriminate M]. destruct (made w1 ds) as [w2 [qs|x]] eqn:D; [|discriminate M]. inversion M; subst. constructor; eauto.
  Qed.
  Lemma filled_no_fault : forall v ps p, Forall (fun p => ~ a_fault p) ps -> filled native v ps p -> ~ a_fault p.
  Proof.
    induction v using value_nested_ind; intros ps q F R; inversion R; subst;
      try (inversion F; assumption); try (intro X; exact X); try (eapply IHv; eassumption);
      try (match goal with H : forall d, ?c ?x <> _ |- _ => destruct (H x eq_refl) end);
      match goal with H : reads _ _ _ _ |- _ => inversion H; subst end; try destruct native; intro X; exact X.
  Qed.

  Lemma hooked_response : forall w v, wfu ver v -> texts v -> uniq v -> no_nul_names v ->
    exists wire, sent ver (response_calls v) = Ok wire /\
    match made w (dates v) with
    | (w', inl ps) => exists p, filled native v ps p /\ hooked_loads host pass native W E call w wire = (w', H_done (PyOk (p, None)))
    | (w', inr x) => hooked_loads host pass native W E call w wire = (w', H_raised x)
    end.
  Proof.
    intros w v WF T U N. pose proof (builds_with host pass native W E call v T U N w pb_init L_root eq_refl eq_refl) as D. unfold done_with in D.
    destruct (made w (dates v)) as [w' [ps|x]] eqn:M.
    - destruct D as (m & b' & (p & F & ->) & D). destruct (response_hooked v w _ WF D) as (wire & S & R). exists wire. split; [exact S|]. exists p. split; [exact F|].
      unfold hooked_loads. rewrite R. pose proof (filled_no_fault v ps p (made_no_fault _ _ _ _ M) F) as Q. destruct p; try reflexivity. destruct (Q I).
    - destruct D as (b' & D & [B1 B2]). destruct (response_hooked v w _ WF D) as (wire & S & R). exists wire. split; [exact S|].
      unfold hooked_loads. rewrite R. unfold pb_data, pb_object. cbn [h_pb h_world h_raised]. rewrite B2. reflexivity.
  Qed.

  Lemma hooked_call : forall w name n ps, name_ok name -> same_str name n -> Forall (wfu ver) ps -> Forall texts ps -> Forall uniq ps -> Forall no_nul_names ps ->
    exists wire, sent ver (call_calls name ps) = Ok wire /\
    match made w (flat_map dates ps) with
    | (w', inl qs) => exists l, filled_items native ps qs l /\ hooked_loads host pass native W E call w wire = (w', H_done (PyOk (PyTuple l, Some n)))
    | (w', inr x) => hooked_loads host pass native W E call w wire = (w', H_raised x)
    end.
  Proof.
    intros w name n ps NO NS WF T U N.
    assert (F : Forall (builds host pass native W E call) ps) by (apply Forall_forall; intros; apply builds_with).
    set (b0 := fst (pb_step host pass native pb_init (EMethodCall name))).
    pose proof (with_items host pass native W E call ps F T U N w b0 L_root [] [] eq_refl eq_refl) as D. unfold done_with in D.
    destruct (made w (flat_map dates ps)) as [w' [qs|x]] eqn:M.
    - destruct D as (m & b' & (l & FI & ->) & D). destruct (call_hooked name ps w _ NO WF D) as (wire & S & R). exists wire. split; [exact S|]. exists l. split; [exact FI|].
      unfold hooked_loads. rewrite R. unfold pb_data, pb_object, pb_name. cbn. rewrite (decode_same false name n NS). reflexivity.
    - destruct D as (b' & D & [B1 B2]). destruct (call_hooked name ps w _ NO WF D) as (wire & S & R). exists wire. split; [exact S|].
      unfold hooked_loads. rewrite R. unfold pb_data, pb_object. cbn [h_pb h_world h_raised]. rewrite B2. reflexivity.
  Qed.
End Loads.
