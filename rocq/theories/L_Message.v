(** Whole binary messages: decoding what [packMethodResponse], [packMethodCall], [packFault] and the
    feeder wrote. *)
From Coq Require Import Lia.
From Verif Require Import Base Value M_Marshal M_BinUnmarshal M_TreeBuilder S_Value S_Wire L_Base L_Bits L_BinUnmarshal L_RoundTrip.

(** Versions the unmarshaller accepts. *)
Definition legal (v : version) : Prop := 1 <= v_major v <= 3 /\ 0 <= v_minor v < 256.

Lemma modern_legal : forall v, modern v -> legal v.
Proof. intros v [H1 H2]. split; [lia|auto]. Qed.

Section Message.
  Variable B : Type.
  Variable bstep : B -> event -> B * option fail.
  Variable req : Z.
  Variable ver : version.
  Hypothesis HV : legal ver.

  Notation body := (body B bstep req).
  Notation emit := (emit B bstep).
  Notation scalar := (scalar B bstep).
  Notation decrement := (decrement B bstep).
  Notation dec_members := (dec_members B bstep).
  Notation lbig := (lbig B bstep req false).
  Notation replay := (replay bstep).

  (** The object once the body of a message is expected / complete. *)
  Definition idle (fault errno : Z) : core := mkCore S_VALUE_TYPE [] errno fault ver.

  Lemma idle_cinv : forall f e, 0 <= f <= 3 -> cinv (idle f e) 1.
  Proof.
    intros f e H. unfold cinv, wok, cinv0, hd_ok, idle. cbn.
    split; auto. split; [|discriminate]. split; [constructor|]. split; auto.
  Qed.

  Lemma idle_at_value : forall e, at_value ver (idle 0 e).
  Proof.
    intro e. split; [apply idle_cinv; lia|]. split; [reflexivity|]. split; [reflexivity|]. left. split; reflexivity.
  Qed.

  Definition core0 : core := u_core unm_init.

  Lemma b2z_ver : b2z (z2b (v_major ver)) = v_major ver /\ b2z (z2b (v_minor ver)) = v_minor ver.
  Proof.
    destruct HV as [H1 H2]. rewrite !b2z_z2b. split; apply Z.mod_small; lia.
  Qed.

  Definition after_magic : core := mkCore S_BODY [] 0 0 ver.

  Lemma after_magic_cinv : cinv after_magic 1.
  Proof.
    unfold cinv, wok, cinv0, hd_ok, after_magic. cbn. repeat split; auto; lia.
  Qed.

  Lemma decode_magic : forall b s, lbig core0 4 b (magic ver ++ s) = lbig after_magic 1 b s.
  Proof.
    intros b s. rewrite lbig_eq by exact cinv_init.
    unfold magic. cbn [app]. rewrite !zlen_cons. pose proof (zlen_nonneg _ s).
    destruct (4 <=? 1 + (1 + (1 + (1 + zlen s)))) eqn:E; [|lia].
    destruct b2z_ver as [E1 E2]. destruct HV as [HM0 _].
    unfold M_BinUnmarshal.body. cbn [core0 unm_init u_core c_state].
    change (byte_eqb xca xca && byte_eqb x11 x11) with true. cbn [negb].
    rewrite E1, E2. 
    assert (X : (3 <? v_major ver) || (v_major ver <? 1) = false) by (apply orb_false_iff; rewrite !Z.ltb_ge; lia).
    rewrite X. cbn [M_BinUnmarshal.decrement].
    match goal with |- context [zdrop 4 (?m0 :: ?m1 :: ?m2 :: ?m3 :: s)] =>
      change (m0 :: m1 :: m2 :: m3 :: s) with ([m0; m1; m2; m3] ++ s) end.
    rewrite zdrop_app' by reflexivity.
    unfold after_magic, set_state, set_ver. cbn [c_stack c_errno c_fault c_ver].
    replace (mkVer (v_major ver) (v_minor ver)) with ver by (destruct ver; reflexivity). reflexivity.
  Qed.

  Notation accepts := (S_Wire.accepts req).

  Lemma accepts_check : forall ty, accepts ty ->
    negb ((req =? TYPE_ANY) || (ty =? req) || ((ty =? T_FAULT) && (req =? T_METHOD_RESPONSE))) = false.
  Proof.
    intros ty [-> |[-> |[-> ->]]]; [reflexivity| |reflexivity].
    rewrite Z.eqb_refl. rewrite orb_true_r. reflexivity.
  Qed.

  Lemma dt0 : forall T, 0 <= T < 32 -> Z.shiftr (b2z (data_type T 0)) 3 = T.
  Proof. intros T H. apply (data_type_spec T 0); lia. Qed.

  Lemma one_byte : forall c b t s, cinv c 1 ->
    lbig c 1 b (t :: s) =
      match body false c b 1 (t :: s) with
      | Stop _ => (c, 1, b, t :: s, Stopped)
      | Bad _ c' b' f => (c', 1, b', t :: s, Failed f)
      | Next _ c' b' want fin =>
          match decrement fin c' b' with
          | (c2, b2, Some f) => (c2, 1, b2, t :: s, Failed f)
          | (c2, b2, None) => lbig c2 want b2 s
          end
      end.
  Proof.
    intros c b t s I. rewrite lbig_eq by auto. rewrite zlen_cons. pose proof (zlen_nonneg _ s).
    destruct (1 <=? 1 + zlen s) eqn:E; [|lia]. reflexivity.
  Qed.

  Lemma decode_response_tag : forall b s b1, accepts T_METHOD_RESPONSE ->
    bstep b EMethodResponse = (b1, None) ->
    lbig after_magic 1 b (data_type T_METHOD_RESPONSE 0 :: s) = lbig (idle 0 0) 1 b1 s.
  Proof.
    intros b s b1 HA HB. rewrite one_byte by exact after_magic_cinv.
    unfold M_BinUnmarshal.body. cbn [after_magic c_state]. cbv zeta.
    rewrite (dt0 T_METHOD_RESPONSE) by (unfold T_METHOD_RESPONSE; lia).
    rewrite accepts_check by auto. change (T_METHOD_RESPONSE =? T_FAULT) with false.
    rewrite Z.eqb_refl. cbv iota. unfold M_BinUnmarshal.emit. cbn [c_fault Z.eqb]. rewrite HB. reflexivity.
  Qed.

  Hypothesis HM : modern ver.

  Theorem response_decodes_any : forall v b b1 b2 rest, wfu ver v -> accepts T_METHOD_RESPONSE ->
    bstep b EMethodResponse = (b1, None) -> replay b1 (events v) = (b2, None) ->
    snd (bin_run ver (response_calls v)) = None /\
    lbig core0 4 b (fst (bin_run ver (response_calls v)) ++ rest) = lbig (idle 0 0) 1 b2 rest.
  Proof.
    intros v b b1 b2 rest W HA H1 H2. unfold response_calls. cbn [bin_run bin_pack].
    destruct (decodes_any B bstep req ver HM v W (idle 0 0) b1 rest b2 [] b2 (idle_at_value 0) H2 eq_refl) as [Q1 Q2].
    destruct (bin_run ver (feed v)) as [o f]. cbn [fst snd] in *. subst f. split; [reflexivity|].
    rewrite <- !app_assoc. rewrite decode_magic. cbn [app]. rewrite (decode_response_tag _ _ b1); auto.
  Qed.
  Theorem response_decodes : forall v b b1 b2 rest, wf ver v -> accepts T_METHOD_RESPONSE ->
    bstep b EMethodResponse = (b1, None) -> replay b1 (events v) = (b2, None) ->
    snd (bin_run ver (response_calls v)) = None /\
    lbig core0 4 b (fst (bin_run ver (response_calls v)) ++ rest) = lbig (idle 0 0) 1 b2 rest.
  Proof. intros v b b1 b2 rest W. apply response_decodes_any, wf_wfu, W. Qed.

  (** Parameters of a call: a sequence of values at top level. *)
  Lemma params_decode : forall ps b b2 rest, Forall (wfu ver) ps -> replay b (flat_map events ps) = (b2, None) ->
    snd (bin_run ver (flat_map feed ps)) = None /\
    lbig (idle 0 0) 1 b (fst (bin_run ver (flat_map feed ps)) ++ rest) = lbig (idle 0 0) 1 b2 rest.
  Proof.
    induction ps as [|p ps IH]; intros b b2 rest F H; cbn [flat_map] in *.
    - cbn in H. inversion H; subst. split; reflexivity.
    - inversion F; subst. apply replay_app_ok in H. destruct H as (b1 & E1 & E2).
      rewrite bin_run_app.
      destruct (IH b1 b2 rest H3 E2) as [P1 P2].
      destruct (decodes_any B bstep req ver HM p H2 (idle 0 0) b
        (fst (bin_run ver (flat_map feed ps)) ++ rest) b1 [] b1 (idle_at_value 0) E1 eq_refl) as [Q1 Q2].
      destruct (bin_run ver (feed p)) as [o f]. cbn [fst snd] in *. subst f.
      destruct (bin_run ver (flat_map feed ps)) as [o' f']. cbn [fst snd] in *. subst f'.
      split; [reflexivity|]. rewrite <- app_assoc. rewrite Q2. exact P2.
  Qed.

  Theorem call_decodes_any : forall name ps b b1 b2 rest, 1 <= blen name <= 255 -> Forall (wfu ver) ps ->
    accepts T_METHOD_CALL ->
    bstep b (EMethodCall name) = (b1, None) -> replay b1 (flat_map events ps) = (b2, None) ->
    snd (bin_run ver (call_calls name ps)) = None /\
    lbig core0 4 b (fst (bin_run ver (call_calls name ps)) ++ rest) = lbig (idle 0 0) 1 b2 rest.
  Proof.
    intros name ps b b1 b2 rest LN W HA H1 H2. unfold call_calls. cbn [bin_run bin_pack].
    assert (X : (255 <? blen name) || (blen name =? 0) = false).
    { apply orb_false_iff. rewrite Z.ltb_ge, Z.eqb_neq. lia. }
    rewrite X.
    destruct (params_decode ps b1 b2 rest W H2) as [Q1 Q2].
    destruct (bin_run ver (flat_map feed ps)) as [o f]. cbn [fst snd] in *. subst f. split; [reflexivity|].
    rewrite <- !app_assoc. rewrite decode_magic. cbn [app].
    rewrite one_byte by exact after_magic_cinv.
    unfold M_BinUnmarshal.body at 1. cbn [after_magic c_state]. cbv zeta.
    rewrite (dt0 T_METHOD_CALL) by (unfold T_METHOD_CALL; lia).
    rewrite accepts_check by auto. change (T_METHOD_CALL =? T_FAULT) with false.
    change (T_METHOD_CALL =? T_METHOD_RESPONSE) with false. rewrite Z.eqb_refl. cbv iota.
    cbn [M_BinUnmarshal.decrement].
    change (set_state S_METHOD_NAME_LEN after_magic)
      with (mkCore S_METHOD_NAME_LEN [] 0 0 ver).
    assert (CI : forall st w, wok (mkCore st [] 0 0 ver) w -> cinv (mkCore st [] 0 0 ver) w).
    { intros st w H. split; auto. split; [|intros _; split; reflexivity].
      split; [constructor|]. cbn. split; [lia|auto]. }
    rewrite one_byte by (apply CI; reflexivity).
    unfold M_BinUnmarshal.body at 1. cbn [c_state].
    assert (BZ : b2z (z2b (blen name)) = blen name) by (rewrite b2z_z2b; apply Z.mod_small; lia).
    rewrite BZ. destruct (blen name =? 0) eqn:E0; [lia|]. cbn [M_BinUnmarshal.decrement].
    change (set_state S_METHOD_NAME {| c_state := S_METHOD_NAME_LEN; c_stack := []; c_errno := 0; c_fault := 0; c_ver := ver |})
      with (mkCore S_METHOD_NAME [] 0 0 ver).
    rewrite lbig_eq by (apply CI; cbn; lia).
    rewrite zlen_app, blen_zlen. pose proof (zlen_nonneg _ (o ++ rest)).
    destruct (zlen name <=? zlen name + zlen (o ++ rest)) eqn:E; [|lia].
    unfold M_BinUnmarshal.body at 1. cbn [c_state]. cbv zeta.
    rewrite zlen_app. destruct (zlen name + zlen (o ++ rest) <? zlen name) eqn:E2; [lia|].
    rewrite ztake_app' by auto. unfold M_BinUnmarshal.emit. cbn [c_fault Z.eqb]. rewrite H1.
    cbn [M_BinUnmarshal.decrement]. rewrite zdrop_app' by auto. exact Q2.
  Qed.
  Theorem call_decodes : forall name ps b b1 b2 rest, 1 <= blen name <= 255 -> Forall (wf ver) ps ->
    accepts T_METHOD_CALL ->
    bstep b (EMethodCall name) = (b1, None) -> replay b1 (flat_map events ps) = (b2, None) ->
    snd (bin_run ver (call_calls name ps)) = None /\
    lbig core0 4 b (fst (bin_run ver (call_calls name ps)) ++ rest) = lbig (idle 0 0) 1 b2 rest.
  Proof.
    intros name ps b b1 b2 rest LN W. apply call_decodes_any; auto. eapply Forall_impl; [|exact W]. apply wf_wfu.
  Qed.

  (** Faults: the number and the message go through the fault builder. *)
  Lemma idle_body : forall f e b t s,
    body false (idle f e) b 1 (t :: s) = value_type_arm B bstep false (idle f e) b t.
  Proof. reflexivity. Qed.

  Lemma set_cinv : forall f e st w, 0 <= f <= 3 -> head_state st = false -> wok (set_state st (idle f e)) w ->
    cinv (set_state st (idle f e)) w.
  Proof.
    intros f e st w Hf HS W. split; auto. split.
    - split; [constructor|]. cbn. split; auto.
    - intro X. cbn [set_state c_state] in X. congruence.
  Qed.

  Lemma f_tag : forall f e b t s st n, 0 <= f <= 3 ->
    value_type_arm B bstep false (idle f e) b t = Next B (set_state st (idle f e)) b n false ->
    lbig (idle f e) 1 b (t :: s) = lbig (set_state st (idle f e)) n b s.
  Proof.
    intros f e b t s st n Hf HT. rewrite one_byte by (apply idle_cinv; auto).
    rewrite idle_body, HT. reflexivity.
  Qed.

  Lemma f_payload : forall f e st n b p s ev f' e' b', 0 <= f <= 3 ->
    cinv (set_state st (idle f e)) n -> zlen p = n ->
    (forall s, body false (set_state st (idle f e)) b n (p ++ s) = scalar (set_state st (idle f e)) b ev) ->
    emit (set_state st (idle f e)) b ev = (set_state st (idle f' e'), b', None) ->
    lbig (set_state st (idle f e)) n b (p ++ s) = lbig (idle f' e') 1 b' s.
  Proof.
    intros f e st n b p s ev f' e' b' Hf I L HBd HE. rewrite lbig_eq by auto.
    rewrite zlen_app. pose proof (zlen_nonneg _ s). destruct (n <=? zlen p + zlen s) eqn:E; [|lia].
    rewrite HBd. unfold M_BinUnmarshal.scalar. rewrite HE. rewrite zdrop_app' by auto. reflexivity.
  Qed.

  Ltac tag T t :=
    let H1 := fresh in let H2 := fresh in
    destruct (data_type_spec T t) as [H1 H2]; [unfold T; lia|lia|];
    unfold value_type_arm; cbv zeta; rewrite H1, ?H2;
    unfold T_BOOL, T_NULL, T_INT, T_INTN8, T_INTP8, T_DOUBLE, T_DATETIME, T_STRING, T_BINARY, T_ARRAY, T_STRUCT;
    cbn [Z.eqb Pos.eqb].

  Lemma u64_s64 : forall x, 0 <= x < 2 ^ 64 -> u64 x = u64 (s64 x).
  Proof.
    intros x R. unfold u64, s64, unsigned, signed. cbv zeta.
    rewrite (Z.mod_small x) by lia.
    destruct (x <? 2 ^ (64 - 1)); [symmetry; apply Z.mod_small; lia|].
    replace (x - 2 ^ 64) with (x + (-1) * 2 ^ 64) by lia.
    rewrite Z.mod_add by lia. symmetry. apply Z.mod_small. lia.
  Qed.

  Lemma f_int : forall f e b z s f' e' b', in_s64 z -> 0 <= f <= 3 ->
    (forall st, emit (set_state st (idle f e)) b (EInt z) = (set_state st (idle f' e'), b', None)) ->
    lbig (idle f e) 1 b (pack_int ver z ++ s) = lbig (idle f' e') 1 b' s.
  Proof.
    intros f e b z s f' e' b' Hz Hf HE. pose proof (maj2 ver HM) as M2. unfold pack_int.
    destruct (2 <? v_major ver) eqn:E3.
    - destruct (pack_num_decode ver T_INT (s64 (zigzag_encode z)) (zigzag_encode z)) as (t & p & EP & Ht & Lp & GI);
        auto; [exact (signed_range 64 _ ltac:(lia))|apply u64_s64; apply (zigzag_range z Hz)|].
      rewrite EP. cbn [app].
      rewrite (f_tag f e b _ _ S_INT (t + 1)); auto.
      2:{ tag T_INT t. cbn [idle c_ver]. rewrite E3. apply len_arm; auto. }
      eapply f_payload; eauto.
      + apply set_cinv; auto. cbn. lia.
      + intro s0. erewrite body_num with (k := fun d =>
          let n := get_int64 d in
          scalar (set_state S_INT (idle f e)) b (EInt (if 2 <? v_major ver then zigzag_decode n else n)));
          [|exact Lp|lia|reflexivity].
        cbv zeta. rewrite GI, E3, zigzag_roundtrip by auto. reflexivity.
    - assert (E1 : 1 <? v_major ver = true) by lia. rewrite E1.
      destruct (z <? 0) eqn:EN.
      + destruct (pack_num_decode ver T_INTN8 (s64 (safe_abs z)) (safe_abs z)) as (t & p & EP & Ht & Lp & GI);
          auto; [exact (signed_range 64 _ ltac:(lia))| |].
        { apply u64_s64. unfold safe_abs. rewrite EN. apply Z.mod_pos_bound; lia. }
        rewrite EP. cbn [app].
        rewrite (f_tag f e b _ _ S_INTN8 (t + 1)); auto.
        2:{ tag T_INTN8 t. reflexivity. }
        eapply f_payload; eauto.
        * apply set_cinv; auto. cbn. lia.
        * intro s0. erewrite body_num with (k := fun d =>
            scalar (set_state S_INTN8 (idle f e)) b (EInt (safe_negate (get_int64 d))));
            [|exact Lp|lia|reflexivity].
          cbv beta. rewrite GI, safe_abs_negate by (auto; lia). reflexivity.
      + destruct (pack_num_decode ver T_INTP8 z z) as (t & p & EP & Ht & Lp & GI); auto.
        rewrite EP. cbn [app].
        rewrite (f_tag f e b _ _ S_INTP8 (t + 1)); auto.
        2:{ tag T_INTP8 t. reflexivity. }
        eapply f_payload; eauto.
        * apply set_cinv; auto. cbn. lia.
        * intro s0. erewrite body_num with (k := fun d =>
            scalar (set_state S_INTP8 (idle f e)) b (EInt (get_int64 d)));
            [|exact Lp|lia|reflexivity].
          cbv beta. rewrite GI. reflexivity.
  Qed.

  Lemma f_string : forall f e b x s f' e' b', small (blen x) -> 0 <= f <= 3 ->
    (forall st, emit (set_state st (idle f e)) b (EString x) = (set_state st (idle f' e'), b', None)) ->
    lbig (idle f e) 1 b (pack_string ver x ++ s) = lbig (idle f' e') 1 b' s.
  Proof.
    intros f e b x s f' e' b' Sm Hf HE. unfold pack_string.
    assert (BL : 0 <= blen x < 2 ^ 32) by (unfold small in Sm; lia).
    destruct (pack_len ver HM T_STRING (blen x) BL) as (t & p & EP & Ht & Lp & GI).
    rewrite EP. cbn [app]. rewrite <- app_assoc. pose proof (maj2 ver HM) as M2.
    rewrite (f_tag f e b _ _ S_STRING_LEN (t + 1)); auto.
    2:{ tag T_STRING t. cbn [idle c_ver]. apply len_arm; auto. lia. }
    assert (C1 : cinv (set_state S_STRING_LEN (idle f e)) (t + 1)).
    { apply set_cinv; auto. cbn. lia. }
    rewrite lbig_eq by auto. rewrite zlen_app. pose proof (zlen_nonneg _ (x ++ s)).
    destruct (t + 1 <=? zlen p + zlen (x ++ s)) eqn:E; [|lia].
    assert (B1 : body false (set_state S_STRING_LEN (idle f e)) b (t + 1) (p ++ x ++ s) =
                 Next B (set_state S_STRING (idle f e)) b (blen x) false).
    { rewrite (body_num B bstep req (idle f e) S_STRING_LEN (t + 1) b p (x ++ s)
        (length_arm B S_STRING "String entity too large"%string (set_state S_STRING_LEN (idle f e)) b)); auto; try lia.
      unfold length_arm. cbv zeta. rewrite GI. rewrite u64_id by (unfold in_u64; lia).
      unfold small, element_size_limit in *. destruct (1073741824 <=? blen x) eqn:X; [lia|]. reflexivity. }
    rewrite B1. cbn [M_BinUnmarshal.decrement]. rewrite zdrop_app' by auto.
    eapply f_payload; eauto.
    - apply set_cinv; [lia|reflexivity|]. unfold element_size_limit, small in *. cbn. unfold element_size_limit. lia.
    - intro s0. erewrite body_dat with (k := fun d => scalar (set_state S_STRING (idle f e)) b (EString d));
        [reflexivity|reflexivity|reflexivity].
  Qed.

  Theorem fault_decodes : forall code msg b b1 rest, in_s32 code -> small (blen msg) ->
    accepts T_FAULT -> bstep b (EFault code msg) = (b1, None) ->
    snd (bin_run ver [PFault code msg]) = None /\
    lbig core0 4 b (fst (bin_run ver [PFault code msg]) ++ rest) = lbig (idle 3 code) 1 b1 rest.
  Proof.
    intros code msg b b1 rest HC HMsg HA HB. cbn [bin_run bin_pack fst snd].
    split; [reflexivity|]. rewrite app_nil_r. rewrite <- !app_assoc, decode_magic. cbn [app].
    rewrite one_byte by exact after_magic_cinv.
    unfold M_BinUnmarshal.body at 1. cbn [after_magic c_state]. cbv zeta.
    rewrite (dt0 T_FAULT) by (unfold T_FAULT; lia).
    rewrite accepts_check by auto. rewrite Z.eqb_refl. cbv iota. cbn [M_BinUnmarshal.decrement].
    change (set_state S_VALUE_TYPE (set_fault 1 after_magic))
      with (idle 1 0).
    rewrite (f_int 1 0 b code _ 2 code b).
    - rewrite (f_string 2 code b msg rest 3 code b1); [reflexivity|auto|lia|].
      intro st. unfold M_BinUnmarshal.emit. cbn [set_state idle c_fault Z.eqb].
      unfold fault_step. cbn [set_state idle c_fault Z.eqb c_errno]. 
      rewrite s32_id by auto. rewrite HB. reflexivity.
    - unfold in_s32, in_s64 in *. lia.
    - lia.
    - intro st. reflexivity.
  Qed.
End Message.
