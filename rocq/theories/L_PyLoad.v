(** Lemmas: [dumps] and [loads]. *)
From Coq Require Import Lia Permutation.
From Verif Require Import Base Value Unicode M_Marshal M_BinUnmarshal M_TreeBuilder S_Value S_Wire M_Python S_Python L_Base L_Bits L_RoundTrip
  L_TreeBuilder L_Dup L_BinUnmarshal L_Message L_Wire L_JsText L_JsCall L_PyText L_PyBuild L_PyRead L_Python.
Ltac Zify.zify_post_hook ::= Z.div_mod_to_equations.

(** ** loads *)
Section Loads.
  Variable host : datetime -> datetime.
  Variable pass native : bool.
  Variable ver : version.
  Hypothesis HM : modern ver.
  Let HL : legal ver := modern_legal ver HM.
  Notation step := (pb_step host pass native).

  Lemma one_piece : forall B (bstep : B -> event -> B * option fail) req u b wire,
    unmarshall_all B bstep req u b [wire] = unmarshall B bstep req u b wire.
  Proof. intros. cbn [unmarshall_all]. destruct (unmarshall B bstep req u b wire) as [[u' b'] [f|]]; reflexivity. Qed.

  Lemma py_of_no_fault : forall v p, py_of host pass native v = Some p -> forall c m, p <> PyFault c m.
  Proof.
    induction v using value_nested_ind; intros p E c' m'; try (inversion E; subst; discriminate).
    - inversion E. destruct native; discriminate.
    - cbn [py_of] in E. destruct (py_decode pass s); inversion E; discriminate.
    - cbn [py_of] in E. destruct (py_decode pass s); inversion E; discriminate.
    - rewrite py_of_struct in E. destruct (members_of _ _ _ m []); inversion E; discriminate.
    - rewrite py_of_array in E. destruct (items_of _ _ _ l); inversion E; discriminate.
    - exact (IHv p E c' m').
  Qed.

  (** The unmarshaller gives the builder the calls of a response. *)
  Lemma response_run : forall v b, wfu ver v -> replay step pb_init (events v) = (b, None) ->
    exists wire, sent ver (response_calls v) = Ok wire /\ forall pieces, concat pieces = wire ->
      unmarshall_all pb step TYPE_ANY unm_init pb_init pieces = (mkUnm (idle ver 0 0) [] 1, b, None).
  Proof.
    intros v b W R.
    destruct (response_decodes_any pb step TYPE_ANY ver HL HM v pb_init pb_init b [] W (or_introl eq_refl) eq_refl R) as [Q1 Q2].
    unfold sent. destruct (bin_run ver (response_calls v)) as [o f]. cbn [fst snd] in *. subst f.
    exists o. split; [reflexivity|]. intros pieces E. eapply all_of_lbig; [exact E| |exact Q2]. apply idle_cinv. lia.
  Qed.
  Lemma call_run : forall name ps b, name_ok name -> Forall (wfu ver) ps -> replay step (fst (step pb_init (EMethodCall name))) (flat_map events ps) = (b, None) ->
    exists wire, sent ver (call_calls name ps) = Ok wire /\ forall pieces, concat pieces = wire ->
      unmarshall_all pb step TYPE_ANY unm_init pb_init pieces = (mkUnm (idle ver 0 0) [] 1, b, None).
  Proof.
    intros name ps b N W R.
    destruct (call_decodes_any pb step TYPE_ANY ver HL HM name ps pb_init _ b [] N W (or_introl eq_refl) eq_refl R) as [Q1 Q2].
    unfold sent. destruct (bin_run ver (call_calls name ps)) as [o f]. cbn [fst snd] in *. subst f.
    exists o. split; [reflexivity|]. intros pieces E. eapply all_of_lbig; [exact E| |exact Q2]. apply idle_cinv. lia.
  Qed.

  Lemma loads_bad : forall wire u b, unmarshall pb step TYPE_ANY unm_init pb_init wire = (u, b, None) -> pb_bad b -> loads host pass native wire = PyRaise PE_Decode.
  Proof. intros wire u b E [_ R]. unfold loads. rewrite E. unfold pb_data, pb_object. rewrite R. reflexivity. Qed.

  Lemma loads_response : forall v, wfu ver v -> exists wire, sent ver (response_calls v) = Ok wire /\
    loads host pass native wire = match py_of host pass native v with Some p => PyOk (p, None) | None => PyRaise PE_Decode end.
  Proof.
    intros v W. pose proof (builds_all host pass native v pb_init L_root eq_refl eq_refl) as D. destruct (py_of host pass native v) as [p|] eqn:EP; cbn [option_map done_to] in D.
    - destruct D as [m D]. destruct (response_run v _ W D) as (wire & S & R). exists wire. split; [exact S|]. specialize (R [wire] (app_nil_r wire)). rewrite one_piece in R.
      unfold loads. rewrite R. pose proof (py_of_no_fault v p EP) as NF. destruct p; try reflexivity. exfalso. eapply NF. reflexivity.
    - destruct D as (b & D & B). destruct (response_run v _ W D) as (wire & S & R). exists wire. split; [exact S|]. specialize (R [wire] (app_nil_r wire)). rewrite one_piece in R.
      eapply loads_bad; eauto.
  Qed.

  Lemma loads_call : forall name ps, name_ok name -> Forall (wfu ver) ps -> exists wire, sent ver (call_calls name ps) = Ok wire /\
    loads host pass native wire = match items_of host pass native ps with
                                  | Some l => match py_decode false name with Some n => PyOk (PyTuple l, Some n) | None => PyRaise PE_Decode end
                                  | None => PyRaise PE_Decode
                                  end.
  Proof.
    intros name ps N W. set (b0 := fst (step pb_init (EMethodCall name))).
    assert (F : Forall (builds_py host pass native) ps) by (apply Forall_forall; intros; apply builds_all).
    pose proof (builds_items host pass native ps F b0 L_root [] [] eq_refl eq_refl) as D. destruct (items_of host pass native ps) as [l|] eqn:EP; cbn [option_map done_to] in D.
    - destruct D as [m D]. destruct (call_run name ps _ N W D) as (wire & S & R). exists wire. split; [exact S|]. specialize (R [wire] (app_nil_r wire)). rewrite one_piece in R.
      unfold loads. rewrite R. unfold pb_data, pb_object, pb_name. cbn. destruct (py_decode false name); reflexivity.
    - destruct D as (b & D & B). destruct (call_run name ps _ N W D) as (wire & S & R). exists wire. split; [exact S|]. specialize (R [wire] (app_nil_r wire)). rewrite one_piece in R.
      eapply loads_bad; eauto.
  Qed.

  Lemma loads_fault : forall code msg m, in_s32 code -> small (blen msg) -> py_decode false msg = Some m ->
    exists wire, sent ver [PFault code msg] = Ok wire /\ loads host pass native wire = PyRaise (PE_Fault (PyInt code) (PyStr m)).
  Proof.
    intros code msg m HC HS D.
    assert (ST : step pb_init (EFault code msg) = (mkPB [] (P_done (PyFault (PyInt code) (PyStr m))) true false [] None, None)) by (cbn [pb_step pb_init pb_error]; rewrite D; reflexivity).
    destruct (fault_decodes pb step TYPE_ANY ver HL HM code msg pb_init _ [] HC HS (or_introl eq_refl) ST) as [Q1 Q2].
    unfold sent. destruct (bin_run ver [PFault code msg]) as [o f]. cbn [fst snd] in *. subst f. exists o. split; [reflexivity|].
    assert (R : unmarshall_all pb step TYPE_ANY unm_init pb_init [o] = (mkUnm (idle ver 3 code) [] 1, mkPB [] (P_done (PyFault (PyInt code) (PyStr m))) true false [] None, None)).
    { eapply all_of_lbig; [apply app_nil_r| |exact Q2]. apply idle_cinv. lia. }
    rewrite one_piece in R. unfold loads. rewrite R. reflexivity.
  Qed.
End Loads.

(** ** dumps *)
Section Dumps.
  Variable host : datetime -> datetime.
  Variable ver : version.
  Hypothesis HM : modern ver.

  Lemma ver_given : mkVer (u8 (v_major ver)) (u8 (v_minor ver)) = ver /\ v_major ver <? 0 = false /\ v_minor ver <? 0 = false /\ exists x, bin_create ver = Ok x.
  Proof.
    destruct HM as [A B]. destruct ver as [ma mi]. cbn [v_major v_minor] in *. split.
    - f_equal; unfold u8, unsigned; apply Z.mod_small; change (2 ^ 8) with 256; lia.
    - destruct (Z.ltb_spec ma 0); [lia|]. destruct (Z.ltb_spec mi 0); [lia|]. split; [reflexivity|]. split; [reflexivity|].
      unfold bin_create. cbn [v_major]. destruct (Z.ltb_spec 3 ma); [lia|]. eauto.
  Qed.

  Lemma sends_no_large : forall p, py_sends ver p -> no_large p.
  Proof.
    induction p as [|b|b|z|d|s|s|d|d|l IH|l IH|m IH|c m|] using py_nested_ind; intro S; cbn [py_sends no_large] in *; auto.
    - unfold in_s64 in S. lia.
    - rewrite all_items in *. rewrite Forall_forall in *. auto.
    - rewrite all_items in *. rewrite Forall_forall in *. auto.
    - rewrite (all_members2 (fun kv => exists u, fst kv = PyStr u /\ name_fits u) (fun kv => py_sends ver (snd kv))) in S.
      rewrite (all_members (fun kv => no_large (snd kv))). rewrite Forall_forall in *. intros kv I. apply IH; [exact I|apply S; exact I].
  Qed.

  Definition args_ok (l : list py) : Prop := Forall is_object l /\ Forall (within host ver) l /\ Forall no_large l.
  Lemma args_fed : forall l, args_ok l -> Forall (fed host ver) l.
  Proof. intros l (A & B & C). rewrite Forall_forall in *. intros x I. apply fed_all; auto. Qed.

  (** Names: accepted exactly if they are names. *)
  Lemma method_name : forall n, is_str n ->
    (method_arg n = PyOk (flat_map utf8_char n) /\ Forall uchar n /\ ~ In 0 n) \/ ((exists e, method_arg n = PyRaise e) /\ ~ (Forall uchar n /\ ~ In 0 n)).
  Proof.
    intros n S. unfold method_arg. destruct (encode_str n S) as [[U E]|[U E]]; rewrite E; [|right; split; [eauto|tauto]].
    destruct (existsb (fun c => c =? 0) n) eqn:Z.
    - right. split; [eauto|]. intros [_ X]. apply X. apply existsb_exists in Z as (c & I & C). apply Z.eqb_eq in C. subst. exact I.
    - left. split; [reflexivity|]. split; [exact U|]. intro I. assert (existsb (fun c => c =? 0) n = true); [|congruence]. apply existsb_exists. exists 0. auto.
  Qed.

  Definition is_args (params : py) (l : list py) : Prop := params = PyTuple l \/ params = PyList l.

  Lemma dumps_call : forall name params l, is_str name -> is_args params l -> args_ok l ->
    let d := dumps host (v_major ver) (v_minor ver) (Some name) params in
    let ok := name_fits name /\ ~ In 0 name /\ Forall (py_sends ver) l in
    (ok /\ exists wire, d = PyOk wire /\ sent ver (call_calls (flat_map utf8_char name) (map (value_of host) l)) = Ok wire /\ Forall (wfu ver) (map (value_of host) l)) \/
    (~ ok /\ exists e, d = PyRaise e).
  Proof.
    intros name params l SN PA OK. cbv zeta. destruct ver_given as (V & V1 & V2 & x & V3).
    assert (ED : dumps host (v_major ver) (v_minor ver) (Some name) params =
      match method_arg name with PyOk s => written ver (PMethodCall s :: fst (feed_args host l), snd (feed_args host l)) | PyRaise e => PyRaise e | PyAbort => PyAbort | PyUndef => PyUndef end).
    { unfold dumps. destruct (method_arg name); try reflexivity. rewrite V, V1, V2, V3. cbn [orb]. destruct PA as [->| ->]; reflexivity. }
    rewrite ED. clear ED. destruct (method_name name SN) as [(-> & U & NZ)|((e & ->) & NO)].
    2:{ right. split; [intros ([X _] & Y & _); tauto|eauto]. }
    set (nb := flat_map utf8_char name). pose proof (zlen_nonneg _ nb) as LN.
    destruct ((255 <? blen nb) || (blen nb =? 0)) eqn:EL.
    { right. split; [intros ([_ X] & _); fold nb in X; apply orb_true_iff in EL; lia|]. apply bad_written. left. cbn [fst bin_run bin_pack]. rewrite EL. cbn [snd]. eexists. split; [reflexivity|]. left. reflexivity. }
    assert (LK : 1 <= blen nb <= 255) by (apply orb_false_iff in EL as [X Y]; rewrite (blen_zlen nb) in *; lia).
    assert (BP : bin_pack ver (PMethodCall nb) = (magic ver ++ data_type T_METHOD_CALL 0 :: z2b (blen nb) :: nb, None)) by (cbn [bin_pack]; rewrite EL; reflexivity).
    unfold feed_args. destruct (fed_seq host ver HM l (args_fed l OK)) as [(A & B & C & D)|[A B]].
    - left. split; [repeat split; auto; fold nb; lia|]. unfold sent, call_calls, written. cbn [fst snd bin_run]. rewrite BP, C.
      destruct (call_received None ver TYPE_ANY nb (map (value_of host) l) HM LK D (or_introl eq_refl)) as (wire & E & _).
      unfold sent, call_calls in E. cbn [bin_run] in E. rewrite BP in E. destruct (bin_run ver (flat_map feed (map (value_of host) l))) as [o [[e|]|]]; try discriminate E.
      rewrite B. exists wire. inversion E; subst. auto.
    - right. split; [tauto|]. apply bad_written. eapply bad_cons; [exact BP|exact B].
  Qed.

  Lemma dumps_response : forall params l x, is_args params (x :: l) -> args_ok [x] ->
    let d := dumps host (v_major ver) (v_minor ver) None params in
    (py_sends ver x /\ exists wire, d = PyOk wire /\ sent ver (response_calls (value_of host x)) = Ok wire /\ wfu ver (value_of host x)) \/
    (~ py_sends ver x /\ exists e, d = PyRaise e).
  Proof.
    intros params l x PA OK. cbv zeta. destruct ver_given as (V & V1 & V2 & y & V3).
    assert (ED : dumps host (v_major ver) (v_minor ver) None params = written ver (PMethodResponse :: fst (feed_py host x), snd (feed_py host x))).
    { unfold dumps. rewrite V, V1, V2, V3. cbn [orb]. destruct PA as [->| ->]; reflexivity. }
    rewrite ED. clear ED. pose proof (args_fed _ OK) as F. inversion F as [|? ? F0 _]; subst. clear F.
    destruct F0 as [[A (B & C & D)]|[A B]].
    - left. split; [exact A|]. unfold sent, response_calls, written. cbn [fst snd bin_run bin_pack]. rewrite C.
      destruct (response_received None ver TYPE_ANY _ HM D (or_introl eq_refl)) as (wire & E & _).
      unfold sent, response_calls in E. cbn [bin_run bin_pack] in E. destruct (bin_run ver (feed (value_of host x))) as [o [[e|]|]]; try discriminate E.
      rewrite B. exists wire. inversion E; subst. auto.
    - right. split; [exact A|]. apply bad_written. eapply bad_cons; [reflexivity|exact B].
  Qed.

  Lemma dumps_fault : forall z m, Forall uchar m -> in_s64 z -> small (blen (flat_map utf8_char m)) ->
    exists wire, dumps host (v_major ver) (v_minor ver) None (PyFault (PyInt z) (PyStr m)) = PyOk wire /\ sent ver [PFault (s32 z) (flat_map utf8_char m)] = Ok wire.
  Proof.
    intros z m U Z S. destruct ver_given as (V & V1 & V2 & y & V3). unfold dumps. rewrite V, V1, V2, V3. cbn [orb].
    destruct (encode_str m) as [[_ E]|[N _]]; [|rewrite E|tauto].
    { unfold is_str. eapply Forall_impl; [|exact U]. intros c X. cbn beta in *. unfold uchar in X. lia. }
    unfold in_s64 in Z. destruct (Z.leb_spec (- 2 ^ 63) z); [|lia]. destruct (Z.ltb_spec z (2 ^ 63)); [|lia]. cbn [andb].
    unfold written, sent. cbn [fst snd bin_run bin_pack]. eexists. split; reflexivity.
  Qed.
End Dumps.

(** ** From Python to Python *)
Section Back.
  Variable host : datetime -> datetime.
  Variable ver : version.

  Lemma seen_reads : forall native p, is_object p -> py_sends ver p -> no_nul_keys p ->
    texts (value_of host p) /\ uniq (value_of host p) /\ no_nul_names (value_of host p) /\ reads host native (value_of host p) (seen host native p).
  Proof.
    intro native. induction p as [|b|b|z|d|s|s|d|d|l IH|l IH|m IH|c m|] using py_nested_ind; intros O S N; cbn [is_object py_sends no_nul_keys value_of seen texts uniq no_nul_names] in *;
      try contradiction; try (repeat split; try exact I; constructor; fail).
    - assert (X : same_str (flat_map utf8_char s) s) by (split; [exact S|reflexivity]). split; [exists s; exact X|]. repeat split; try exact I. constructor. exact X.
    - rewrite all_items in *. rewrite !all_values. assert (F : Forall (fun p => texts (value_of host p) /\ uniq (value_of host p) /\ no_nul_names (value_of host p) /\ reads host native (value_of host p) (seen host native p)) l)
        by (rewrite Forall_forall in *; auto). clear - F.
      split; [|split; [|split]]; [| | |constructor]; (induction F as [|x l (A & B & C & D) _ IL]; cbn [map]; constructor; auto).
    - rewrite all_items in *. rewrite !all_values. assert (F : Forall (fun p => texts (value_of host p) /\ uniq (value_of host p) /\ no_nul_names (value_of host p) /\ reads host native (value_of host p) (seen host native p)) l)
        by (rewrite Forall_forall in *; auto). clear - F.
      split; [|split; [|split]]; [| | |constructor]; (induction F as [|x l (A & B & C & D) _ IL]; cbn [map]; constructor; auto).
    - destruct O as [ND O]. rewrite (all_members2 (fun kv => is_object (fst kv)) (fun kv => is_object (snd kv))) in O.
      rewrite (all_members2 (fun kv => exists u, fst kv = PyStr u /\ name_fits u) (fun kv => py_sends ver (snd kv))) in S.
      rewrite (all_members2 (fun kv => forall u, fst kv = PyStr u -> ~ In 0 u) (fun kv => no_nul_keys (snd kv))) in N.
      rewrite (all_pairs2 (fun kv => is_text (fst kv)) (fun kv => texts (snd kv))), (all_pairs (fun kv => uniq (snd kv))), (all_pairs2 (fun kv => ~ In x00 (fst kv)) (fun kv => no_nul_names (snd kv))).
      assert (K : Forall (fun kv : py * py => exists u, fst kv = PyStr u /\ name_fits u) m) by (eapply Forall_impl; [|exact S]; intros kv [X _]; exact X).
      assert (D : NoDup (map fst (map (fun kv => (key_bytes (fst kv), value_of host (snd kv))) m))) by (rewrite map_map; cbn [fst]; apply nodup_keys; auto).
      assert (F : Forall (fun kv => (exists u, fst kv = PyStr u /\ same_str (key_bytes (fst kv)) u /\ ~ In x00 (key_bytes (fst kv))) /\
                      texts (value_of host (snd kv)) /\ uniq (value_of host (snd kv)) /\ no_nul_names (value_of host (snd kv)) /\ reads host native (value_of host (snd kv)) (seen host native (snd kv))) m).
      { rewrite Forall_forall in *. intros kv I. destruct (O kv I) as [_ O2]. destruct (S kv I) as [(u & E & [UF _]) S2]. destruct (N kv I) as [N1 N2].
        split; [|apply IH; auto]. exists u. split; [exact E|]. rewrite E. cbn [key_bytes]. split; [split; [exact UF|reflexivity]|].
        intro X. apply in_flat_map in X as (c & IC & X). specialize (N1 u E). apply N1. rewrite Forall_forall in UF. specialize (UF c IC). unfold uchar in UF.
        replace 0 with c; [exact IC|]. unfold utf8_char in X.
        assert (BZ : forall z, z2b z = x00 -> z mod 256 = 0) by (intros z EZ; rewrite <- b2z_z2b, EZ; reflexivity).
        repeat match type of X with context [if ?b then _ else _] => let H := fresh in destruct b eqn:H end; cbn [In] in X; repeat destruct X as [X|X]; try contradiction; apply BZ in X; lia. }
      clear - F D. split; [|split; [split; [exact D|]|split]]; [| | |constructor]; clear D;
        (induction F as [|kv m ((u & E & SS & NZ) & A & B & C & R) _ IM]; cbn [map]; constructor; auto; cbn [fst snd]); eauto.
      split; [unfold is_text; eauto|exact A].
  Qed.

  Lemma seen_back : forall pass native p, is_object p -> py_sends ver p -> no_nul_keys p ->
    py_of host pass native (value_of host p) = Some (seen host native p).
  Proof.
    intros pass native p O S N. destruct (seen_reads native p O S N) as (A & B & C & D).
    destruct (texts_read host native pass _ A B C) as (q & E & R). rewrite E. f_equal. eapply reads_one; eauto.
  Qed.
  Lemma seen_items : forall pass native l, Forall is_object l -> Forall (py_sends ver) l -> Forall no_nul_keys l ->
    items_of host pass native (map (value_of host) l) = Some (map (seen host native) l).
  Proof.
    induction l as [|x l IH]; intros A B C; [reflexivity|]. inversion A; inversion B; inversion C; subst. cbn [map items_of]. rewrite seen_back, IH by auto. reflexivity.
  Qed.
End Back.
